(** Specification vocabulary for the console. *)
From Verif Require Import Base WinConModel.
Open Scope Z_scope.

(** A console as Windows allows it, the cursor inside the buffer. *)
Definition con_ok (s : wcon) : Prop :=
  1 <= c_w s <= 32767 /\ 1 <= c_h s <= 32767 /\ 0 <= c_x s < c_w s /\ 0 <= c_y s < c_h s.

(** Where a movement of [n] to direction A, B, C or D leads. *)
Definition target (f n : Z) (s : wcon) : Z * Z :=
  if f =? 65 then (c_x s, c_y s - n) else if f =? 66 then (c_x s, c_y s + n)
  else if f =? 67 then (c_x s + n, c_y s) else (c_x s - n, c_y s).
Definition inside (p : Z * Z) (s : wcon) : Prop := 0 <= fst p < c_w s /\ 0 <= snd p < c_h s.

(** Same buffer contents and same colours, the cursor at [p]. *)
Definition only_cursor (p : Z * Z) (s s' : wcon) : Prop :=
  c_w s' = c_w s /\ c_h s' = c_h s /\ (forall i, c_cell s' i = c_cell s i /\ c_color s' i = c_color s i) /\ c_now s' = c_now s /\
  c_x s' = fst p /\ c_y s' = snd p.

(** The cells of the buffer from the cursor to the end. *)
Definition cells_left (s : wcon) : Z := c_w s * c_h s - (c_y s * c_w s + c_x s).

(** Exactly [n] cells from the cursor on are blank now, with the default colour; nothing else has changed. *)
Definition blanked (n : Z) (s s' : wcon) : Prop :=
  c_w s' = c_w s /\ c_h s' = c_h s /\ c_x s' = c_x s /\ c_y s' = c_y s /\ c_now s' = c_now s /\
  forall i, 0 <= i < c_w s * c_h s ->
    let here := c_y s * c_w s + c_x s in
    c_cell s' i = (if (here <=? i) && (i <? here + n) then 32 else c_cell s i) /\
    c_color s' i = (if (here <=? i) && (i <? here + n) then 7 else c_color s i).
