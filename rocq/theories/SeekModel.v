(** A history search with its drawing: what each key of a search writes to the terminal, and the session of OutModel.v
    with searches in it.  Without vim mode, listener and input filter. *)
From Verif Require Import Base RunesModel RuneBufModel HistoryModel RenderModel OpModel OpSpec OutModel.
Open Scope Z_scope.

(** a redraw or bell of OutModel.v, or the status written by SearchRefresh (search.go:127-164) *)
Inductive sev := SO (e : oev) | SStatus (x : Z) (s : srch) (b : rbuf).

Definition sstep (cf : ocfg) (st : bool * rdr) (e : sev) : outcome ((bool * rdr) * list Z) :=
  match e with
  | SO e => ostep (oc_u cf) st e
  | SStatus x s b => out <- search_out cf x s b ;; Ok (st, out)
  end.

Fixpoint srun (cf : ocfg) (st : bool * rdr) (es : list sev) : outcome ((bool * rdr) * list Z) :=
  match es with
  | [] => Ok (st, [])
  | e :: es' => a <- sstep cf st e ;; b <- srun cf (fst a) es' ;; Ok (fst b, snd a ++ snd b)
  end.

Definition line_draw (o : op) : sev := SO (ODraw (VLine (rb_buf (o_b o)) (rb_idx (o_b o)))).

(** search.go:67-92 search: the status alone if nothing is sought or nothing is found, otherwise SetWithIdx redraws the
    line first; [o'] is the state it leaves *)
Definition search_draws (cf : ocfg) (isChange : bool) (o : op) : outcome (list sev) :=
  let s := o_s o in
  o' <- search cf isChange o ;;
  match s_data s with
  | [] => Ok [SStatus (-1) (o_s o') (o_b o')]
  | _ =>
      r <- (if s_bck s then FindBck (oc_h cf) isChange (s_data s) (rb_idx (o_b o)) (o_h o)
            else FindFwd (oc_h cf) isChange (s_data s) (rb_idx (o_b o)) (o_h o)) ;;
      match r with
      | None => Ok [SStatus (-2) (o_s o') (o_b o')]
      | Some _ => Ok [line_draw o'; SStatus (Z.of_nat (rb_idx (o_b o'))) (o_s o') (o_b o')]
      end
  end.

(** search.go:99-113 SearchMode; the terminal has a width *)
Definition mode_draws (cf : ocfg) (bck : bool) (o : op) : outcome (list sev) :=
  let s := o_s o in
  let s' := {| s_in := true; s_fail := s_fail s; s_bck := bck; s_src := h_cur (o_h o); s_data := s_data s;
               s_ms := s_ms s; s_me := s_me s |} in
  if s_in s then search_draws cf false (with_s s' o) else Ok [SStatus (-1) s' (o_b o)].

(** operation.go:165-357 while searching.  Ctrl-G and Ctrl-C bring the old line back (search.go:115-119: Set redraws;
    operation.go:167-170 redraws once more), Ctrl-R, Ctrl-S, Backspace and characters change the search, Enter ends it
    before submitting (operation.go:243-245); every other key acts on the line and ends the search with one more
    redraw (operation.go:348-350); Ctrl-D never means the end of the input here (operation.go:282). *)
Definition searching_draws (cf : ocfg) (r : Z) (o : op) : outcome (list sev) :=
  if r =? CharBell then o1 <- ExitSearchMode true o ;; Ok [line_draw o1; line_draw o1]
  else if r =? CharInterrupt then o1 <- ExitSearchMode true o ;; Ok [line_draw o1]
  else if r =? CharBckSearch then mode_draws cf true o
  else if r =? CharFwdSearch then mode_draws cf false o
  else if (r =? CharBackspace) || (r =? CharCtrlH) then
    match s_data (o_s o) with
    | [] => Ok []
    | d => search_draws cf true (with_s (set_data (firstn (length d - 1) d) (o_s o)) o)
    end
  else if (r =? CharEnter) || (r =? CharCtrlJ) then
    a <- switch_draws cf r o ;; Ok (map SO a)
  else if (r =? CharTab) || (r =? CharCtrlU) || (r =? CharKill) || (r =? MetaForward) || (r =? CharTranspose) ||
          (r =? MetaBackward) || (r =? MetaDelete) || (r =? CharLineStart) || (r =? CharLineEnd) ||
          (r =? MetaBackspace) || (r =? CharCtrlW) || (r =? CharCtrlY) || (r =? CharBackward) || (r =? CharForward) ||
          (r =? CharPrev) || (r =? CharNext) || (r =? CharDelete) then
    a <- (if (r =? CharDelete) && (length (rb_buf (o_b o)) =? 0)%nat then
            Ok [ODraw (VLine (rb_buf (o_b o)) (rb_idx (o_b o))); OBell]
          else switch_draws cf r o) ;;
    x <- key_switch cf r o ;;
    let '(o1, _, _, _, _) := x in
    Ok (map SO a ++ [line_draw o1])
  else search_draws cf true (with_s (set_data (s_data (o_s o) ++ [r]) (o_s o)) o).

(** one rune *)
Definition seek_draws (cf : ocfg) (r : Z) (o : op) : outcome (list sev) :=
  if s_in (o_s o) then searching_draws cf r o
  else if r =? CharBckSearch then mode_draws cf true o
  else if r =? CharFwdSearch then mode_draws cf false o
  else a <- key_draws cf r o ;; Ok (map SO a).

(** one event; text printed during a search is followed by the status (operation.go:59-61) *)
Definition seek_step (cf : ocfg) (x : op * (bool * rdr)) (i : inp)
    : outcome ((op * (bool * rdr)) * list Z * list act) :=
  let '(o, st) := x in
  match i with
  | IRead => a <- srun cf st [SO (ODraw VRead)] ;; Ok ((o, fst a), snd a, [])
  | IPrint t =>
      a <- srun cf st (SO (ODraw (VOut t)) ::
        if fst st && s_in (o_s o) then [SStatus (-1) (set_fail (-1) (o_s o)) (o_b o)] else []) ;;
      Ok ((o, fst a), snd a, [])
  | IKey r =>
      es <- seek_draws cf r o ;;
      a <- srun cf st es ;;
      y <- op_step cf r o ;;
      Ok ((fst y, fst a), snd a, snd y)
  end.

Fixpoint seek_run (cf : ocfg) (x : op * (bool * rdr)) (is : list inp)
    : outcome ((op * (bool * rdr)) * list Z * list act) :=
  match is with
  | [] => Ok (x, [], [])
  | i :: is' =>
      a <- seek_step cf x i ;;
      let '(x1, out1, acts1) := a in
      b <- seek_run cf x1 is' ;;
      let '(x2, out2, acts2) := b in
      Ok (x2, out1 ++ out2, acts1 ++ acts2)
  end.
