(** Completion with its drawing: what each key writes to the terminal while candidates are shown, and the session of
    SeekModel.v with a completer.  Without vim mode, listener and input filter. *)
From Verif Require Import Base RunesModel RuneBufModel HistoryModel RenderModel OpModel OpSpec OutModel SeekModel.
Open Scope Z_scope.

(** an event of SeekModel.v, or the menu written by CompleteRefresh (complete.go:188-242) *)
Inductive cev := CS (e : sev) | CMenu (c : comp) (b : rbuf).

Definition cstep (cf : ocfg) (st : bool * rdr) (e : cev) : outcome ((bool * rdr) * list Z) :=
  match e with
  | CS e => sstep cf st e
  | CMenu c b => r <- menu_out cf c b ;; Ok (st, fst r)
  end.

Fixpoint crun (cf : ocfg) (st : bool * rdr) (es : list cev) : outcome ((bool * rdr) * list Z) :=
  match es with
  | [] => Ok (st, [])
  | e :: es' => a <- cstep cf st e ;; b <- crun cf (fst a) es' ;; Ok (fst b, snd a ++ snd b)
  end.

Definition cline (o : op) : cev := CS (line_draw o).
(** CompleteRefresh draws in complete mode only (complete.go:189-191) *)
Definition cmenu (o : op) : list cev := if c_in (o_c o) then [CMenu (o_c o) (o_b o)] else [].

(** complete.go:49-57 doSelect: the only candidate is written and the line redrawn, or the next one is marked *)
Definition pick_draws (cf : ocfg) (o : op) : outcome (list cev) :=
  o' <- doSelect cf o ;; Ok (match c_cand (o_c o) with [_] => [cline o'] | _ => cmenu o' end).

(** complete.go:67-111 OnComplete *)
Definition on_draws (cf : ocfg) (Do : list Z -> nat -> list (list Z) * nat) (o : op) : outcome (list cev) :=
  if oc_w cf =? 0 then Ok []
  else if c_sel (o_c o) then pick_draws cf o
  else
    let rs := rb_buf (o_b o) in
    if c_in (o_c o) && match c_src (o_c o) with Some s => Equal rs s | None => false end then
      (* EnterCompleteSelectMode draws the menu (complete.go:257-261), doSelect once more *)
      let c := o_c o in
      let c' := {| c_in := c_in c; c_sel := true; c_cand := c_cand c; c_src := c_src c;
                   c_off := c_off c; c_choice := -1; c_col := c_col c |} in
      o1 <- CompleteRefresh cf (with_c c' o) ;;
      d <- pick_draws cf o1 ;;
      Ok (cmenu o1 ++ d)
    else
      o' <- OnComplete cf Do o ;;
      Ok (match fst (Do rs (rb_idx (o_b o))) with
          | [] => []                                                (* complete.go:84-87 *)
          | _ => if c_in (o_c o') then cmenu o' else [cline o']     (* EnterCompleteMode, or WriteRunes *)
          end).

(** complete.go:121-174 HandleCompleteSelect; [o'] is the state it leaves *)
Definition chosen_draws (cf : ocfg) (r : Z) (o : op) : outcome (list cev) :=
  x <- HandleCompleteSelect cf r o ;;
  let o' := fst x in
  if (r =? CharEnter) || (r =? CharCtrlJ) then Ok [cline o']
  else if (r =? CharTab) || (r =? CharForward) then d <- pick_draws cf o ;; Ok (d ++ cmenu o')
  else if snd x then Ok (cmenu o')
  else Ok [].

(** operation.go:165-337, the switch in complete mode, and Tab with a completer *)
Definition comp_switch_draws (cf : ocfg) (r : Z) (o : op) : outcome (list cev) :=
  let b := o_b o in
  let on (o1 : op) := match oc_auto cf with Some Do => on_draws cf Do o1 | None => Panic end in
  if r =? CharBell then Ok [cline o]
  else if r =? CharTab then on o
  else if r =? CharBckSearch then a <- mode_draws cf true o ;; Ok (map CS a)
  else if r =? CharFwdSearch then a <- mode_draws cf false o ;; Ok (map CS a)
  else if (r =? CharBackspace) || (r =? CharCtrlH) then
    if (length (rb_buf b) =? 0)%nat then Ok [CS (SO OBell)]
    else b' <- BufBackspace b ;; d <- on (with_b b' o) ;; Ok (cline (with_b b' o) :: d)
  else if r =? CharInterrupt then Ok [cline o]
  else if (r =? CharDelete) && (length (rb_buf b) =? 0)%nat then Ok [cline o; CS (SO OBell)]   (* not IsNormalMode *)
  else if (r =? CharCtrlU) || (r =? CharKill) || (r =? MetaForward) || (r =? CharTranspose) ||
          (r =? MetaBackward) || (r =? MetaDelete) || (r =? CharLineStart) || (r =? CharLineEnd) ||
          (r =? MetaBackspace) || (r =? CharCtrlW) || (r =? CharCtrlY) || (r =? CharEnter) || (r =? CharCtrlJ) ||
          (r =? CharBackward) || (r =? CharForward) || (r =? CharPrev) || (r =? CharNext) || (r =? CharDelete) then
    a <- switch_draws cf r o ;; Ok (map (fun e => CS (SO e)) a)
  else b' <- WriteRunes [r] b ;; d <- on (with_b b' o) ;; Ok (cline (with_b b' o) :: d).

(** operation.go:347-358: leaving the search redraws the line, leaving complete mode too if a line is being read
    (Operation.Refresh, operation.go:503-507; the terminal goroutine has stopped reading by the time the line is
    submitted), otherwise line and menu are drawn again *)
Definition after_draws (x : swres) : list cev :=
  let '(o1, acts, keepS, keepC, _) := x in
  if negb keepS && s_in (o_s o1) then [cline o1]
  else if c_in (o_c o1) then
    if keepC then cline o1 :: cmenu o1
    else match results acts with [] => [cline o1] | _ => [] end
  else [].

Definition switched_draws (cf : ocfg) (r : Z) (o : op) : outcome (list cev) :=
  if c_in (o_c o) || (r =? CharTab) && match oc_auto cf with Some _ => true | None => false end then
    a <- comp_switch_draws cf r o ;; x <- key_switch cf r o ;; Ok (a ++ after_draws x)
  else a <- seek_draws cf r o ;; Ok (map CS a).

(** operation.go:137-165: one rune; after a key that ends the choice the line is redrawn *)
Definition comp_draws (cf : ocfg) (r : Z) (o : op) : outcome (list cev) :=
  if c_sel (o_c o) then
    x <- HandleCompleteSelect cf r o ;;
    a <- chosen_draws cf r o ;;
    let '(o1, keep) := x in
    if keep then Ok a
    else if (r =? CharEnter) || (r =? CharCtrlJ) || (r =? CharInterrupt) || (r =? CharBell) then Ok (a ++ [cline o1])
    else d <- switched_draws cf r o1 ;; Ok (a ++ cline o1 :: d)
  else switched_draws cf r o.

(** one event; text printed during a search or while candidates are shown is followed by them (operation.go:59-64) *)
Definition comp_step (cf : ocfg) (x : op * (bool * rdr)) (i : inp)
    : outcome ((op * (bool * rdr)) * list Z * list act) :=
  let '(o, st) := x in
  match i with
  | IRead => a <- crun cf st [CS (SO (ODraw VRead))] ;; Ok ((o, fst a), snd a, [])
  | IPrint t =>
      a <- crun cf st (CS (SO (ODraw (VOut t))) ::
        if fst st then (if s_in (o_s o) then [CS (SStatus (-1) (set_fail (-1) (o_s o)) (o_b o))] else []) ++ cmenu o else []) ;;
      Ok ((o, fst a), snd a, [])
  | IKey r =>
      es <- comp_draws cf r o ;;
      a <- crun cf st es ;;
      y <- op_step cf r o ;;
      Ok ((fst y, fst a), snd a, snd y)
  end.

Fixpoint comp_run (cf : ocfg) (x : op * (bool * rdr)) (is : list inp)
    : outcome ((op * (bool * rdr)) * list Z * list act) :=
  match is with
  | [] => Ok (x, [], [])
  | i :: is' =>
      a <- comp_step cf x i ;;
      let '(x1, out1, acts1) := a in
      b <- comp_run cf x1 is' ;;
      let '(x2, out2, acts2) := b in
      Ok (x2, out1 ++ out2, acts1 ++ acts2)
  end.
