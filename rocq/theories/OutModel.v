(** The editor goroutine with its drawing: what each key at the prompt writes to the terminal.  OpModel.v gives what a
    key does to line and history, RenderModel.v what a redraw writes; this file says which redraws and bells a key
    causes, so the two run together.  Left out (not covered by [key_draws]): search and completion mode,
    Ctrl-R, Ctrl-S, Ctrl-Z, Ctrl-L, Tab with a completer, the end of the input. *)
From Verif Require Import Base RunesModel RuneBufModel HistoryModel RenderModel OpModel OpSpec.
Open Scope Z_scope.

(** A redraw of RenderModel.v; the bell (terminal.go:216-218 Bell writes the byte 7 to the terminal); the end of input
    by Ctrl-D on an empty line (operation.go:291-294: one redraw with hint and line feed, then Reset); the same with
    UniqueEditLine (operation.go:294-300: Reset, then Clean; that the Clean runs after the result is sent, so possibly
    beside the application, is left out); Reset alone (operation.go:319, Ctrl-C with UniqueEditLine). *)
Inductive oev := ODraw (e : dev) | OBell | OEof (hint : list Z) | OClean | OReset.

(** runebuf.go:542-547 Reset after the redraw of operation.go:292 *)
Definition eof_draw (u : uenv) (d : rdr) (hint : list Z) : outcome (rdr * list Z) :=
  c <- refresh u d (d_buf d ++ hint ++ [10]) (length (d_buf d ++ hint ++ [10])) [] ;;
  Ok (with_line [] 0 (fst c), snd c).

Definition ostep (u : uenv) (st : bool * rdr) (e : oev) : outcome ((bool * rdr) * list Z) :=
  match e with
  | ODraw e => dstep u st e
  | OBell => Ok (st, [7])
  | OEof hint => r <- eof_draw u (snd st) hint ;; Ok ((false, fst r), snd r)
  | OClean => r <- clean u (with_line [] 0 (snd st)) ;; Ok ((false, fst r), snd r)
  | OReset => Ok ((false, with_line [] 0 (snd st)), [])
  end.

Fixpoint orun (u : uenv) (st : bool * rdr) (es : list oev) : outcome ((bool * rdr) * list Z) :=
  match es with
  | [] => Ok (st, [])
  | e :: es' => a <- ostep u st e ;; b <- orun u (fst a) es' ;; Ok (fst b, snd a ++ snd b)
  end.

(** A method of RuneBuffer that calls Refresh once (runebuf.go: all methods used below call it once, early returns
    inside the function passed to it included) *)
Definition once (x : outcome rbuf) : outcome (list oev) :=
  b <- x ;; Ok [ODraw (VLine (rb_buf b) (rb_idx b))].

(** operation.go:165-337, the switch outside search, completion and vim mode: redraws and bells of the key *)
Definition switch_draws (cf : ocfg) (r : Z) (o : op) : outcome (list oev) :=
  let b := o_b o in
  let end_ := ODraw (VLine (rb_buf b) (length (rb_buf b))) in
  if r =? CharBell then Ok []
  else if r =? CharTab then Ok [OBell]                                       (* no completer, operation.go:176-179 *)
  else if r =? CharCtrlU then once (KillFront b)
  else if r =? CharKill then once (Kill b)
  else if r =? MetaForward then once (MoveToNextWord b)
  else if r =? CharTranspose then once (Transpose b)
  else if r =? MetaBackward then once (x <- MoveToPrevWord b ;; Ok (fst x))
  else if r =? MetaDelete then
    if (rb_idx b =? length (rb_buf b))%nat then Ok []                         (* runebuf.go:215-217 *)
    else once (DeleteWord b)
  else if r =? CharLineStart then once (MoveToLineStart b)
  else if r =? CharLineEnd then once (MoveToLineEnd b)
  else if (r =? CharBackspace) || (r =? CharCtrlH) then
    if (length (rb_buf b) =? 0)%nat then Ok [OBell] else once (BufBackspace b)
  else if (r =? MetaBackspace) || (r =? CharCtrlW) then once (BackEscapeWord b)
  else if r =? CharCtrlY then
    match rb_kill b with [] => Ok [] | _ => once (Yank b) end                 (* runebuf.go:349-351 *)
  else if (r =? CharEnter) || (r =? CharCtrlJ) then Ok [ODraw (if oc_unique cf then VUnique else VSubmit [])]
  else if r =? CharBackward then once (MoveBackward b)
  else if r =? CharForward then once (MoveForward b)
  else if r =? CharPrev then
    x <- Prev (o_h o) ;;
    match fst x with Some l => once (Ok (Set_ l b)) | None => Ok [OBell] end
  else if r =? CharNext then
    x <- Next (o_h o) ;;
    match fst x with Some l => once (Ok (Set_ l b)) | None => Ok [OBell] end
  else if r =? CharDelete then
    if (0 <? length (rb_buf b))%nat then
      x <- Delete b ;;
      Ok (ODraw (VLine (rb_buf (fst x)) (rb_idx (fst x))) :: if snd x then [] else [OBell])
    else Ok [if oc_unique cf then OClean else OEof (oc_eofp cf)]
  else if r =? CharInterrupt then                                           (* operation.go:313-319 *)
    if oc_unique cf then Ok [end_; end_; OReset] else Ok [end_; ODraw (VSubmit (oc_intp cf))]
  else once (WriteRunes [r] b).

(** operation.go:339-346: the listener's line is drawn by SetWithIdx (runebuf.go:574-579); [o1] is the state the switch
    leaves *)
Definition listener_draws (cf : ocfg) (r : Z) (o1 : op) : list oev :=
  match oc_listen cf with
  | Some f =>
      match f (rb_buf (o_b o1)) (rb_idx (o_b o1)) r with
      | Some (l, pos) => [ODraw (VLine l pos)]
      | None => []
      end
  | None => []
  end.

(** the switch and the listener *)
Definition after_vim (cf : ocfg) (r : Z) (o : op) : outcome (list oev) :=
  a <- switch_draws cf r o ;;
  x <- key_switch cf r o ;;
  let '(o1, _, _, _, _) := x in
  Ok (a ++ listener_draws cf r o1).

(** runebuf.go:214-233 DeleteWord: no redraw at the end of the line; runebuf.go:348-360 Yank: none without killed text *)
Definition word_draws (b : rbuf) : outcome (list oev) :=
  if (rb_idx b =? length (rb_buf b))%nat then Ok [] else once (DeleteWord b).
Definition yank_draws (b : rbuf) : outcome (list oev) :=
  match rb_kill b with [] => Ok [] | _ => once (Yank b) end.
Definition delete_draws (b : rbuf) : outcome (list oev) := once (x <- Delete b ;; Ok (fst x)).

(** vim.go:65-74, 114-123: the second key of d and c *)
Definition vim_del_draws (next : Z) (b : rbuf) : outcome (list oev) :=
  if next =? 119 then word_draws b
  else if next =? 104 then once (BufBackspace b)
  else if next =? 108 then delete_draws b
  else Ok [].

(** vim.go:61-90, 112-130: the redraws of a command when its second key arrives *)
Definition vim_next_draws (p : vpend) (next : Z) (b : rbuf) : outcome (list oev) :=
  match p with
  | VReplace => once (Replace next b)
  | VDel => if next =? 100 then once (Erase b) else vim_del_draws next b
  | VChange => if next =? 99 then once (Erase b) else vim_del_draws next b
  | VFind prevChar reverse =>
      if next =? CharEsc then Ok [] else once (r <- MoveTo next prevChar reverse b ;; Ok (fst r))
  end.

(** vim.go:40-151: the redraws of a key of command mode that is not passed on to the switch; i, r, d, c, f, F, t, T draw
    nothing yet, an unknown key rings the bell *)
Definition vim_draws (r : Z) (b : rbuf) : outcome (list oev) :=
  if (r =? 48) || (r =? 94) then once (MoveToLineStart b)
  else if r =? 36 then once (MoveToLineEnd b)
  else if r =? 120 then
    x <- Delete b ;;
    let b1 := fst x in
    let d1 := ODraw (VLine (rb_buf b1) (rb_idx b1)) in
    if IsCursorInEnd b1 then t <- once (MoveBackward b1) ;; Ok (d1 :: t) else Ok [d1]
  else if r =? 112 then yank_draws b
  else if (r =? 98) || (r =? 66) then once (x <- MoveToPrevWord b ;; Ok (fst x))
  else if (r =? 119) || (r =? 87) then once (MoveToNextWord b)
  else if (r =? 101) || (r =? 69) then once (MoveToEndWord b)
  else if (r =? 114) || (r =? 100) || (r =? 99) || (r =? 105) then Ok []
  else if (r =? 102) || (r =? 70) || (r =? 116) || (r =? 84) then Ok []
  else if r =? 73 then once (MoveToLineStart b)
  else if r =? 97 then once (MoveForward b)
  else if r =? 65 then once (MoveToLineEnd b)
  else if r =? 115 then delete_draws b
  else if r =? 83 then once (Erase b)
  else Ok [OBell].

(** vim.go:161-176 HandleVim before the switch: Esc in insert mode draws nothing *)
Definition handle_draws (cf : ocfg) (r : Z) (o : op) : outcome (list oev) :=
  if oc_vim cf then
    x <- HandleVim r o ;;
    let '(o1, res, _) := x in
    match res with
    | VKey r' => if r' =? 0 then Ok [] else after_vim cf r' o1
    | _ => if o_vn o then vim_draws r (o_b o) else Ok []
    end
  else after_vim cf r o.

(** operation.go:107-366, one rune at the prompt; a rune the filter drops redraws the line (operation.go:113-121); the
    second key of a vim command goes round the filter *)
Definition key_draws (cf : ocfg) (r : Z) (o : op) : outcome (list oev) :=
  match o_vp o with
  | Some p => vim_next_draws p r (o_b o)
  | None =>
      match (match oc_filter cf with None => Some r | Some f => f r end) with
      | None => Ok [ODraw (VLine (rb_buf (o_b o)) (rb_idx (o_b o)))]
      | Some r' => handle_draws cf r' o
      end
  end.

(** What happens in a session: the application calls Readline (operation.go:381-401), prints through the writer of
    Instance.Stdout (operation.go:47-67), or the user presses a key. *)
Inductive inp := IRead | IPrint (text : list Z) | IKey (r : Z).

(** one event: editor, terminal and drawing state, bytes written, what was reported to Readline *)
Definition ses_step (cf : ocfg) (x : op * (bool * rdr)) (i : inp)
    : outcome ((op * (bool * rdr)) * list Z * list act) :=
  let '(o, st) := x in
  match i with
  | IRead => a <- ostep (oc_u cf) st (ODraw VRead) ;; Ok ((o, fst a), snd a, [])
  | IPrint t => a <- ostep (oc_u cf) st (ODraw (VOut t)) ;; Ok ((o, fst a), snd a, [])
  | IKey r =>
      es <- key_draws cf r o ;;
      a <- orun (oc_u cf) st es ;;
      y <- op_step cf r o ;;
      Ok ((fst y, fst a), snd a, snd y)
  end.

Fixpoint ses_run (cf : ocfg) (x : op * (bool * rdr)) (is : list inp)
    : outcome ((op * (bool * rdr)) * list Z * list act) :=
  match is with
  | [] => Ok (x, [], [])
  | i :: is' =>
      a <- ses_step cf x i ;;
      let '(x1, out1, acts1) := a in
      b <- ses_run cf x1 is' ;;
      let '(x2, out2, acts2) := b in
      Ok (x2, out1 ++ out2, acts1 ++ acts2)
  end.
