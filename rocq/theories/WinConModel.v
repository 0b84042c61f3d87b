(** Model of what the escape sequences do to a Windows console: /repo/ansi_windows.go:125-144 (cursor movement),
    213-249 (killLines, eraseLine).  The console functions are the documented ones: SetConsoleCursorPosition fails and
    moves nothing when the position is outside the buffer; FillConsoleOutputCharacterW and
    FillConsoleOutputAttribute go on in the next row and stop at the end of the buffer.  Text other than a carriage
    return is not drawn here ([None]). *)
From Verif Require Import Base TerminalModel AnsiWinModel.
Open Scope Z_scope.

(** CONSOLE_SCREEN_BUFFER_INFO and the buffer, row by row; cell [y * c_w + x] is column x of row y *)
Record wcon := { c_w : Z; c_h : Z; c_x : Z; c_y : Z; c_cell : Z -> Z; c_color : Z -> Z; c_now : Z }.

Definition c_at (s : wcon) : Z := c_y s * c_w s + c_x s.

(** windows_api.go:150-152 SetConsoleCursorPosition *)
Definition set_cursor (x y : Z) (s : wcon) : wcon :=
  if (0 <=? x) && (x <? c_w s) && (0 <=? y) && (y <? c_h s)
  then {| c_w := c_w s; c_h := c_h s; c_x := x; c_y := y; c_cell := c_cell s; c_color := c_color s; c_now := c_now s |}
  else s.

(** [n] cells from [i] on become [v] *)
Definition fill (n i v : Z) (s : wcon) (cell : Z -> Z) : Z -> Z :=
  fun j => if (i <=? j) && (j <? i + n) && (j <? c_w s * c_h s) then v else cell j.

(** uintptr(size) of a short, of which the console function takes 32 bits *)
Definition dword (v : Z) : Z := v mod 4294967296.

(** ansi_windows.go:213-233 killLines, in 16-bit arithmetic *)
Definition killLines (s : wcon) : wcon :=
  let size := short (short (short (c_y s - c_h s) * c_w s) + c_x s) in
  {| c_w := c_w s; c_h := c_h s; c_x := c_x s; c_y := c_y s;
     c_cell := fill (dword size) (c_at s) 32 s (c_cell s); c_color := fill (dword size) (c_at s) 7 s (c_color s); c_now := c_now s |}.

(** ansi_windows.go:235-249 eraseLine *)
Definition eraseLine (s : wcon) : wcon :=
  {| c_w := c_w s; c_h := c_h s; c_x := c_x s; c_y := c_y s;
     c_cell := fill (dword (c_w s)) (c_y s * c_w s + 0) 32 s (c_cell s); c_color := c_color s; c_now := c_now s |}.

(** ansi_windows.go:125-144, 148-177 *)
Definition wcon_do (o : wout) (s : wcon) : option wcon :=
  match o with
  | WMove d n =>
      Some (if d =? 65 then set_cursor (c_x s) (short (c_y s - n)) s
            else if d =? 66 then set_cursor (c_x s) (short (c_y s + n)) s
            else if d =? 67 then set_cursor (short (c_x s + n)) (c_y s) s
            else if d =? 68 then set_cursor (short (c_x s - n)) (c_y s) s
            else s)
  | WKillBelow => Some (killLines s)
  | WEraseLine => Some (eraseLine s)
  | WAttr c => Some {| c_w := c_w s; c_h := c_h s; c_x := c_x s; c_y := c_y s; c_cell := c_cell s; c_color := c_color s; c_now := c |}
  | WText 13 => Some {| c_w := c_w s; c_h := c_h s; c_x := 0; c_y := c_y s; c_cell := c_cell s; c_color := c_color s; c_now := c_now s |}
  | WText _ => None
  end.
Fixpoint wcon_all (os : list wout) (s : wcon) : option wcon :=
  match os with
  | [] => Some s
  | o :: os' => match wcon_do o s with Some s' => wcon_all os' s' | None => None end
  end.

(** A program writes [l] to the console through the translator (ansi_windows.go:196-211). *)
Definition console_write (l : list Z) (s : wcon) : outcome (option wcon) :=
  r <- wwrite wctx0 l ;; Ok (wcon_all (snd r) s).
