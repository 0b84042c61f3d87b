(** The candidate menu and the search status below the line. *)
From Verif Require Import Base RunesModel RunesSpec ScreenModel RenderModel RenderSpec.
Open Scope Z_scope.

(** Rows taken by [n] columns. *)
Definition rows (w n : Z) : Z := (n + w - 1) / w.

(** The screen shows [text] from row [y0] on, whatever is below, with the cursor on its [k]-th column. *)
Definition line_shown (w y0 : Z) (text : list Z) (k : Z) (s : scr) : Prop :=
  (forall y x, y0 <= y < y0 + rows w (Z.of_nat (length text)) -> 0 <= x < w ->
     s_cell s y x = nth (Z.to_nat ((y - y0) * w + x)) text blank) /\
  cursor_at w y0 k s.

(** From row [y1] on the screen shows [words] in columns of [cw] cells, [cols] in each row, and blanks. *)
Definition grid_shown (w y1 cols cw : Z) (words : list (list Z)) (s : scr) : Prop :=
  forall y x, y1 <= y -> 0 <= x < w ->
    s_cell s y x = if x <? cols * cw then nth (Z.to_nat (x mod cw)) (nth (Z.to_nat ((y - y1) * cols + x / cw)) words []) blank else blank.

(** What the status row says while searching: "bck" or "fwd", "failing " in front of it if nothing is found. *)
Definition status (failing backward : bool) (sought : list Z) : list Z :=
  (if failing then [102; 97; 105; 108; 105; 110; 103; 32] else []) ++ (if backward then [98; 99; 107] else [102; 119; 100]) ++
  [45; 105; 45; 115; 101; 97; 114; 99; 104; 58; 32] ++ sought.
