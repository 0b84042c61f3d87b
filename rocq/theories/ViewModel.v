(** A terminal of a given number of rows, and Ctrl-L in a session.  ScreenModel.v has rows without end; here only the last
    [H] rows are in view, the cursor cannot be moved out of them, and the view follows the text.  OutModel.v gives what
    each key draws, except for Ctrl-L, which is added here. *)
From Verif Require Import Base RunesModel RuneBufModel HistoryModel TerminalModel ScreenModel RenderModel ClearModel OpModel OutModel.
Open Scope Z_scope.

(** The screen with the row numbers of ScreenModel.v, and the first row in view.  Environment, not code of /repo:
    an xterm-like terminal. *)
Definition view : Type := scr * Z.

Definition at_row (y : Z) (s : scr) : scr :=
  {| s_cell := s_cell s; s_row := y; s_col := s_col s; s_pend := s_pend s; s_par := s_par s |}.

(** One rune.  Control sequences keep the cursor in view: ESC [ H goes to its first cell, up and down stop at its
    first and last row.  Anything else (printing over the right edge, line feed) scrolls when it passes the last row.
    What is scrolled out of the view cannot be reached again; rows after the view have never been written. *)
Definition xexec (H : Z) (u : uenv) (w : Z) (x : view) (r : Z) : view :=
  let s := fst x in
  let top := snd x in
  match s_par s with
  | PCsi params =>
      let s1 := match params with
                | [] => if r =? 72 then move s top 0 else sexec u w s r
                | _ => sexec u w s r
                end in
      (at_row (Z.max top (Z.min (top + H - 1) (s_row s1))) s1, top)
  | _ => let s1 := sexec u w s r in (s1, Z.max top (s_row s1 - H + 1))
  end.
Definition xexecs (H : Z) (u : uenv) (w : Z) (x : view) (l : list Z) : view := fold_left (xexec H u w) l x.

(** What a key draws: as in OutModel.v, or the screen cleared (operation.go:235-237, ClearModel.key_clear) *)
Inductive vev := VE (e : oev) | VC.

Definition vstep (u : uenv) (st : bool * rdr) (e : vev) : outcome ((bool * rdr) * list Z) :=
  match e with
  | VE e => ostep u st e
  | VC => r <- key_clear u (snd st) ;; Ok ((fst st, fst r), snd r)
  end.

Fixpoint vrun (u : uenv) (st : bool * rdr) (es : list vev) : outcome ((bool * rdr) * list Z) :=
  match es with
  | [] => Ok (st, [])
  | e :: es' => a <- vstep u st e ;; b <- vrun u (fst a) es' ;; Ok (fst b, snd a ++ snd b)
  end.

(** the key that reaches the switch: operation.go:109-121 (filter), vim.go:161-176 (Ctrl-L is no command key of vim, in
    its insert mode it is passed on), vim.go:61-90 (second key of a vim command) *)
Definition clears (cf : ocfg) (r : Z) (o : op) : bool :=
  match o_vp o with
  | Some _ => false
  | None =>
      match (match oc_filter cf with None => Some r | Some f => f r end) with
      | Some r' => (r' =? CharCtrlL) && negb (oc_vim cf && o_vn o)
      | None => false
      end
  end.

(** operation.go:107-366, one rune at the prompt, Ctrl-L included; after the switch the listener is called
    (operation.go:339-346) *)
Definition vkey_draws (cf : ocfg) (r : Z) (o : op) : outcome (list vev) :=
  if clears cf r o then Ok (VC :: map VE (listener_draws cf CharCtrlL o))
  else es <- key_draws cf r o ;; Ok (map VE es).

(** one event of a session, as OutModel.ses_step *)
Definition vses_step (cf : ocfg) (x : op * (bool * rdr)) (i : inp)
    : outcome ((op * (bool * rdr)) * list Z * list act) :=
  let '(o, st) := x in
  match i with
  | IRead => a <- ostep (oc_u cf) st (ODraw VRead) ;; Ok ((o, fst a), snd a, [])
  | IPrint t => a <- ostep (oc_u cf) st (ODraw (VOut t)) ;; Ok ((o, fst a), snd a, [])
  | IKey r =>
      es <- vkey_draws cf r o ;;
      a <- vrun (oc_u cf) st es ;;
      y <- op_step cf r o ;;
      Ok ((fst y, fst a), snd a, snd y)
  end.

Fixpoint vses_run (cf : ocfg) (x : op * (bool * rdr)) (is : list inp)
    : outcome ((op * (bool * rdr)) * list Z * list act) :=
  match is with
  | [] => Ok (x, [], [])
  | i :: is' =>
      a <- vses_step cf x i ;;
      let '(x1, out1, acts1) := a in
      b <- vses_run cf x1 is' ;;
      let '(x2, out2, acts2) := b in
      Ok (x2, out1 ++ out2, acts1 ++ acts2)
  end.
