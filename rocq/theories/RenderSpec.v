(** What a correct display is, independent of how it is produced. *)
From Verif Require Import Base RunesModel RunesSpec ScreenModel RenderModel.
Open Scope Z_scope.

(** Ordinary single-width runes (no control characters). *)
Definition plain (u : uenv) (r : Z) : Prop := 32 <= r /\ r <> 127 /\ Width u r = 1%nat.

(** Colour sequences carry digits and semicolons only. *)
Definition sgr_digits (p : piece) : Prop :=
  match p with Vis _ => True | Sgr ps => Forall (fun r => 48 <= r <= 59) ps end.

(** Facts about the Unicode tables used below: a blank is one column wide, a line feed takes no column. *)
Definition uenv_ok (u : uenv) : Prop := Width u 32 = 1%nat /\ Width u 10 = 0%nat.

(** Cell of the [k]-th column counted from the start of row [y0], [w] columns per row *)
Definition row_of (w y0 k : Z) : Z := y0 + k / w.
Definition col_of (w k : Z) : Z := k mod w.

(** From row [y0] on, the [w]-column screen shows exactly [text] and blanks. *)
Definition shows_text (w y0 : Z) (text : list Z) (s : scr) : Prop :=
  forall y x, y0 <= y -> 0 <= x < w -> s_cell s y x = nth (Z.to_nat ((y - y0) * w + x)) text blank.
(** Nothing above row [y0] differs from [s0]. *)
Definition same_above (y0 : Z) (s0 s : scr) : Prop := forall y x, y < y0 -> s_cell s y x = s_cell s0 y x.
(** The screen cursor is on the [k]-th column from the start of row [y0], ready for input. *)
Definition cursor_at (w y0 k : Z) (s : scr) : Prop :=
  s_row s = row_of w y0 k /\ s_col s = col_of w k /\ s_pend s = false /\ s_par s = PGround.

(** [a] is [b] with colour sequences inserted. *)
Definition coloured (a b : list Z) : Prop :=
  exists qs, a = prompt_runes qs /\ visible qs = b /\ Forall sgr_digits qs.

(** The situation C49 is about: interactive, no mask, prompt made of single-width runes and colour sequences and
    shorter than the screen, single-width line, a painter that only colours the line. *)
Record drawable (u : uenv) (ps : list piece) (d : rdr) : Prop := {
  dr_width : 0 < d_width d <= 9223372036854775807;
  dr_inter : d_inter d = true;
  dr_mask : d_mask d = None;
  dr_prompt : d_prompt d = prompt_runes ps;
  dr_pieces : Forall sgr_digits ps;
  dr_visible : Forall (plain u) (visible ps);
  dr_short : Z.of_nat (length (visible ps)) < d_width d;
  dr_line : Forall (plain u) (d_buf d);
  dr_idx : (d_idx d <= length (d_buf d))%nat;
  dr_empty : d_buf d = [] -> Z.of_nat (length (visible ps)) + 1 < d_width d;
  dr_paint : coloured (d_paint d (d_buf d) (d_idx d)) (d_buf d)
}.

(** The screen shows prompt and line from row [y0] on, blank after them, with the cursor in place. *)
Definition displayed (ps : list piece) (d : rdr) (y0 : Z) (s : scr) : Prop :=
  shows_text (d_width d) y0 (visible ps ++ d_buf d) s /\
  cursor_at (d_width d) y0 (Z.of_nat (length (visible ps) + d_idx d)) s.

(** Row [y0] and everything below are blank and the cursor is at the start of row [y0]. *)
Definition free_from (w y0 : Z) (s : scr) : Prop := shows_text w y0 [] s /\ cursor_at w y0 0 s.

(** A painter that only adds colours, also on a line ended by a line feed. *)
Definition colouring (u : uenv) (paint : list Z -> nat -> list Z) : Prop :=
  forall b i, Forall (plain u) b -> coloured (paint b i) b /\
    exists qs, paint (b ++ [10]) i = prompt_runes qs ++ [10] /\ visible qs = b /\ Forall sgr_digits qs.

(** Rows taken by a text followed by a line feed. *)
Definition rows_of (w : Z) (text : list Z) : Z := Z.max 1 ((Z.of_nat (length text) + w - 1) / w).
Definition height (w : Z) (ls : list (list Z)) : Z := fold_right (fun l h => rows_of w l + h) 0 ls.

(** From row [y] on the screen shows the texts [ls], each starting on a new row. *)
Fixpoint stacked (w y : Z) (ls : list (list Z)) (s : scr) : Prop :=
  match ls with
  | [] => True
  | l :: rest =>
      (forall y' x, y <= y' < y + rows_of w l -> 0 <= x < w ->
         s_cell s y' x = nth (Z.to_nat ((y' - y) * w + x)) l blank) /\
      stacked w (y + rows_of w l) rest s
  end.

(** What a session should look like: texts printed so far, current line, cursor, whether a line is being read.
    [v]: the visible prompt. *)
Record look := { k_done : list (list Z); k_line : list Z; k_idx : nat; k_reading : bool }.
Inductive looks (u : uenv) (v : list Z) : look -> dev -> look -> Prop :=
| LRead k : looks u v k VRead {| k_done := k_done k; k_line := k_line k; k_idx := k_idx k; k_reading := true |}
| LLine k b i : k_reading k = true -> Forall (plain u) b -> (i <= length b)%nat ->
    looks u v k (VLine b i) {| k_done := k_done k; k_line := b; k_idx := i; k_reading := true |}
| LSubmit k hint : k_reading k = true -> Forall (plain u) hint ->
    looks u v k (VSubmit hint) {| k_done := k_done k ++ [v ++ k_line k ++ hint]; k_line := []; k_idx := 0; k_reading := false |}
| LUnique k : k_reading k = true ->
    looks u v k VUnique {| k_done := k_done k; k_line := []; k_idx := 0; k_reading := false |}
| LOut k ls : Forall (Forall (plain u)) ls ->
    looks u v k (VOut (flat_map (fun l => l ++ [10]) ls))
      {| k_done := k_done k ++ ls; k_line := k_line k; k_idx := k_idx k; k_reading := k_reading k |}.
Inductive looks_all (u : uenv) (v : list Z) : look -> list dev -> look -> Prop :=
| LNil k : looks_all u v k [] k
| LCons k e k1 es k2 : looks u v k e k1 -> looks_all u v k1 es k2 -> looks_all u v k (e :: es) k2.

(** The screen agrees with [k]: texts stacked from row [y0], then prompt and line if a line is being read, nothing
    else below. *)
Definition screen_is (w : Z) (v : list Z) (y0 : Z) (k : look) (s : scr) : Prop :=
  stacked w y0 (k_done k) s /\
  let y1 := y0 + height w (k_done k) in
  if k_reading k then
    shows_text w y1 (v ++ k_line k) s /\ cursor_at w y1 (Z.of_nat (length v + k_idx k)) s
  else free_from w y1 s.

(** Splitting into rows: a row is filled if with its start column it reaches the screen width. *)
Definition filled (u : uenv) (w start : Z) (row : list Z) : Prop := w <= start + Z.of_nat (WidthAll u row).
Fixpoint rows_ok (u : uenv) (w start : Z) (rows : list (list Z)) : Prop :=
  match rows with
  | [] => False
  | [row] => row = [] \/ ~ filled u w start row
  | row :: rest =>
      filled u w start row /\ (forall a b, row = a ++ b -> a <> [] -> b <> [] -> ~ filled u w start a) /\ row <> [] /\
      rows_ok u w 0 rest
  end.

(** Text inserted by a command. *)
Definition inserts (e : RuneBufModel.edit) : list Z :=
  match e with
  | RuneBufModel.EWrite t => t | RuneBufModel.EReplace c => [c] | RuneBufModel.ESet b => b | _ => []
  end.
