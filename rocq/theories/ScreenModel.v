(** An xterm-like screen: the environment in which the editor's output is interpreted.  Not code of /repo; part of
    the trusted reading of what a terminal does.  Rows are unbounded in both directions (scrolling only shifts row
    numbers, so this covers every screen tall enough for the prompt and the line).  The deferred wrap of VT100-like
    terminals is modelled ([s_pend]).  Output processing stays on in raw mode (term.go:52 leaves Oflag alone), so a
    line feed also returns the carriage.  The terminal is assumed to agree with runes.Width on rune widths. *)
From Verif Require Import Base RunesModel TerminalModel.
Open Scope Z_scope.

Inductive pstate := PGround | PEsc | PCsi (params : list Z).

Record scr := { s_cell : Z -> Z -> Z; s_row : Z; s_col : Z; s_pend : bool; s_par : pstate }.

Definition blank : Z := 32.

Definition put (cell : Z -> Z -> Z) (y x r : Z) : Z -> Z -> Z :=
  fun y' x' => if (y' =? y) && (x' =? x) then r else cell y' x'.

(** erase from the cursor to the end of the screen *)
Definition erase_below (cell : Z -> Z -> Z) (y x : Z) : Z -> Z -> Z :=
  fun y' x' => if (y <? y') || ((y' =? y) && (x <=? x')) then blank else cell y' x'.
Definition erase_line (cell : Z -> Z -> Z) (y : Z) : Z -> Z -> Z :=
  fun y' x' => if y' =? y then blank else cell y' x'.

Definition move (s : scr) (y x : Z) : scr :=
  {| s_cell := s_cell s; s_row := y; s_col := x; s_pend := false; s_par := PGround |}.
Definition with_cell (s : scr) (c : Z -> Z -> Z) : scr :=
  {| s_cell := c; s_row := s_row s; s_col := s_col s; s_pend := s_pend s; s_par := PGround |}.

(** number in a control sequence, default 1 *)
Definition csi_num (params : list Z) : Z :=
  match Atoi params with Some 0 => 1 | Some n => n | None => 1 end.

Definition csi_exec (w : Z) (s : scr) (params : list Z) (final : Z) : scr :=
  if final =? 65 then move s (s_row s - csi_num params) (s_col s)                                (* cursor up *)
  else if final =? 66 then move s (s_row s + csi_num params) (s_col s)                           (* cursor down *)
  else if final =? 67 then move s (s_row s) (Z.min (w - 1) (s_col s + csi_num params))           (* forward *)
  else if final =? 68 then move s (s_row s) (Z.max 0 (s_col s - csi_num params))                 (* back *)
  else if final =? 74 then                                                                       (* ESC[J *)
    match params with [] => with_cell s (erase_below (s_cell s) (s_row s) (s_col s)) | _ => with_cell s (s_cell s) end
  else if final =? 75 then                                                                       (* ESC[2K *)
    match params with [50] => with_cell s (erase_line (s_cell s) (s_row s)) | _ => with_cell s (s_cell s) end
  else with_cell s (s_cell s).

(** one printable rune *)
Definition print_rune (u : uenv) (w : Z) (s : scr) (r : Z) : scr :=
  let d := Z.of_nat (Width u r) in
  if d =? 0 then s
  else
    let '(y, x) := if s_pend s || (w <? s_col s + d) then (s_row s + 1, 0) else (s_row s, s_col s) in
    let cell := put (s_cell s) y x r in
    let cell := if d =? 2 then put cell y (x + 1) (-1) else cell in
    if x + d <? w then {| s_cell := cell; s_row := y; s_col := x + d; s_pend := false; s_par := PGround |}
    else {| s_cell := cell; s_row := y; s_col := w - 1; s_pend := true; s_par := PGround |}.

Definition sexec (u : uenv) (w : Z) (s : scr) (r : Z) : scr :=
  match s_par s with
  | PEsc =>
      if r =? 91 then {| s_cell := s_cell s; s_row := s_row s; s_col := s_col s; s_pend := s_pend s; s_par := PCsi [] |}
      else with_cell s (s_cell s)
  | PCsi params =>
      if (48 <=? r) && (r <=? 63)
      then {| s_cell := s_cell s; s_row := s_row s; s_col := s_col s; s_pend := s_pend s; s_par := PCsi (params ++ [r]) |}
      else csi_exec w s params r
  | PGround =>
      if r =? 27 then {| s_cell := s_cell s; s_row := s_row s; s_col := s_col s; s_pend := s_pend s; s_par := PEsc |}
      else if r =? 8 then move s (s_row s) (Z.max 0 (s_col s - 1))
      else if r =? 13 then move s (s_row s) 0
      else if r =? 10 then move s (s_row s + 1) 0
      else if r =? 7 then s
      else print_rune u w s r
  end.

Definition sexecs (u : uenv) (w : Z) (s : scr) (l : list Z) : scr := fold_left (sexec u w) l s.
