(** Lines with tabs and double-width runes on one row: what should be seen. *)
From Verif Require Import Base RunesModel RunesSpec ScreenModel RenderModel RenderSpec.
Open Scope Z_scope.

(** A printable rune of one or two columns. *)
Definition glyph (u : uenv) (r : Z) : Prop :=
  32 <= r /\ r <> 127 /\ (Width u r = 1%nat \/ Width u r = 2%nat).

(** What may stand in the line: such runes and tabs. *)
Definition typed (u : uenv) (r : Z) : Prop := r = 9 \/ glyph u r.

(** The cells a rune takes: a tab as many blanks as Config says a tab is wide, a
    double-width rune its own cell and the one behind it. *)
Definition cells_of (u : uenv) (r : Z) : list Z :=
  if r =? 9 then repeat blank (u_tab u)
  else if (Width u r =? 2)%nat then [r; -1] else [r].
Definition cells_all (u : uenv) (l : list Z) : list Z := flat_map (cells_of u) l.

(** Columns a text takes. *)
Definition columns (u : uenv) (l : list Z) : Z := Z.of_nat (length (cells_all u l)).

(** Interactive, no mask, a prompt of printable runes and colours, a line of printable
    runes and tabs that a painter may have coloured; all of it on one row with a
    column to spare. *)
Record one_row (u : uenv) (ps : list piece) (d : rdr) : Prop := {
  or_width : 0 < d_width d;
  or_inter : d_inter d = true;
  or_mask : d_mask d = None;
  or_prompt : d_prompt d = prompt_runes ps;
  or_pieces : Forall sgr_digits ps;
  or_visible : Forall (glyph u) (visible ps);
  or_line : Forall (typed u) (d_buf d);
  or_idx : (d_idx d <= length (d_buf d))%nat;
  or_fits : columns u (visible ps) + columns u (d_buf d) < d_width d;
  or_empty : d_buf d = [] -> columns u (visible ps) + 1 < d_width d;
  or_paint : coloured (d_paint d (d_buf d) (d_idx d)) (d_buf d)
}.

(** Row [y0] shows prompt and line and nothing else is below. *)
Definition row_shown (u : uenv) (ps : list piece) (d : rdr) (y0 : Z) (s : scr) : Prop :=
  shows_text (d_width d) y0 (cells_all u (visible ps ++ d_buf d)) s /\
  s_row s = y0 /\ s_pend s = false /\ s_par s = PGround.

(** The column the cursor belongs to: behind the runes before it. *)
Definition cursor_col (u : uenv) (ps : list piece) (d : rdr) : Z :=
  columns u (visible ps) + columns u (firstn (d_idx d) (d_buf d)).

(** Successive contents of the line, each drawn over the one before. *)
Fixpoint draws (u : uenv) (d : rdr) (ls : list (list Z * nat)) : outcome (rdr * list Z) :=
  match ls with
  | [] => Ok (d, [])
  | (b, i) :: ls' =>
      r <- refresh u d b i [] ;;
      q <- draws u (fst r) ls' ;;
      Ok (fst q, snd r ++ snd q)
  end.
