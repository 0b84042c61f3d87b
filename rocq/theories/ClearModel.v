(** Ctrl-L: /repo/operation.go:235-237 and ClearScreen (utils_unix.go:47-50). *)
From Verif Require Import Base RunesModel TerminalModel ScreenModel RenderModel.
Open Scope Z_scope.

(** utils_unix.go:47-50 ClearScreen *)
Definition ClearScreen : list Z := [27; 91; 72].

(** operation.go:235-237: ClearScreen, then Refresh (operation.go:503-507; the terminal is reading, since a key has come) *)
Definition key_clear (u : uenv) (d : rdr) : outcome (rdr * list Z) :=
  x <- refresh u d (d_buf d) (d_idx d) [] ;; Ok (fst x, ClearScreen ++ snd x).

(** The part of an xterm-like screen that is in view, the rows from [top] on: ESC [ H goes to its first cell, and nothing moves the cursor out of it.
    Otherwise ScreenModel.v.  Environment, not code of /repo. *)
Definition in_view (top : Z) (s : scr) : scr :=
  {| s_cell := s_cell s; s_row := Z.max top (s_row s); s_col := s_col s; s_pend := s_pend s; s_par := s_par s |}.
Definition vexec (top : Z) (u : uenv) (w : Z) (s : scr) (r : Z) : scr :=
  match s_par s with
  | PCsi [] => if r =? 72 then move s top 0 else in_view top (sexec u w s r)
  | _ => in_view top (sexec u w s r)
  end.
Definition vexecs (top : Z) (u : uenv) (w : Z) (s : scr) (l : list Z) : scr := fold_left (vexec top u w) l s.
