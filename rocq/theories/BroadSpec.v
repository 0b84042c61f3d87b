(** What the user should see when lines have double-width characters, as long as every text fits one row. *)
From Verif Require Import Base RunesModel RunesSpec RuneBufModel RuneBufSpec HistoryModel ScreenModel RenderModel RenderSpec OpModel OpSpec OutModel OutSpec WideSpec.
Open Scope Z_scope.

(** A printable character of one or two columns, or one of the keys of C123. *)
Definition broad_key (cf : ocfg) (r : Z) : Prop :=
  glyph (oc_u cf) r \/ In r command_keys \/ r = CharTranspose \/ (r = CharTab /\ oc_auto cf = None).

(** A painter that only adds colours, also on a line ended by a line feed. *)
Definition broad_colouring (u : uenv) (paint : list Z -> nat -> list Z) : Prop :=
  forall b i, Forall (glyph u) b -> coloured (paint b i) b /\
    exists qs, paint (b ++ [10]) i = prompt_runes qs ++ [10] /\ visible qs = b /\ Forall sgr_digits qs.

(** Neither vim mode, nor listener, nor filter; hints of printable characters. *)
Record broad_session (cf : ocfg) : Prop := {
  bs_vim : oc_vim cf = false; bs_listen : oc_listen cf = None; bs_filter : oc_filter cf = None;
  bs_eofp : Forall (glyph (oc_u cf)) (oc_eofp cf); bs_intp : Forall (glyph (oc_u cf)) (oc_intp cf)
}.

(** At the prompt; every text in memory consists of printable characters. *)
Record broad_prompt (cf : ocfg) (o : op) : Prop := {
  bp_end : o_end o = false; bp_in : c_in (o_c o) = false; bp_sel : c_sel (o_c o) = false; bp_s : s_in (o_s o) = false;
  bp_vp : o_vp o = None; bp_inside : inside (o_b o);
  bp_buf : Forall (glyph (oc_u cf)) (rb_buf (o_b o)); bp_kill : Forall (glyph (oc_u cf)) (rb_kill (o_b o));
  bp_hist : hist_of (glyph (oc_u cf)) (o_h o)
}.

(** The text with the cell for the cursor fits one row. *)
Definition one_line (cf : ocfg) (text : list Z) : Prop := columns (oc_u cf) text < oc_w cf.

(** As in C123, and every line with its prompt, what is left of it and every printed line fits one row. *)
Fixpoint broad_turn (cf : ocfg) (v : list Z) (is : list inp) (o : op) (reading : bool) : Prop :=
  match is with
  | [] => True
  | IRead :: is' => reading = false /\ broad_turn cf v is' o true
  | IPrint t :: is' =>
      (exists ls, Forall (fun l => Forall (glyph (oc_u cf)) l /\ one_line cf l) ls /\ t = flat_map (fun l => l ++ [10]) ls) /\
      broad_turn cf v is' o reading
  | IKey r :: is' =>
      reading = true /\ broad_key cf r /\ ~ trips cf o r /\ (oc_unique cf = true -> r <> CharInterrupt) /\
      forall o' acts, op_step cf r o = Ok (o', acts) ->
        one_line cf (v ++ rb_buf (o_b o')) /\ Forall (one_line cf) (flat_map (text_of cf v) acts) /\
        broad_turn cf v is' o' (match results acts with [] => true | _ => false end)
  end.

Inductive broad_leaves (cf : ocfg) (v : list Z) : list inp -> op -> list (list Z) -> op -> list act -> Prop :=
| BlNil o : broad_leaves cf v [] o [] o []
| BlRead is o t o' acts : broad_leaves cf v is o t o' acts -> broad_leaves cf v (IRead :: is) o t o' acts
| BlPrint ls is o t o' acts : Forall (fun l => Forall (glyph (oc_u cf)) l /\ one_line cf l) ls -> broad_leaves cf v is o t o' acts ->
    broad_leaves cf v (IPrint (flat_map (fun l => l ++ [10]) ls) :: is) o (ls ++ t) o' acts
| BlKey r is o o1 a1 t o' acts : op_step cf r o = Ok (o1, a1) -> broad_leaves cf v is o1 t o' acts ->
    broad_leaves cf v (IKey r :: is) o (flat_map (text_of cf v) a1 ++ t) o' (a1 ++ acts).

(** How many of the characters take two columns. *)
Definition doubles (u : uenv) (l : list Z) : Z := Z.of_nat (length (filter (fun r => Nat.eqb (Width u r) 2) l)).

(** The texts left, one row each, then prompt and line; the cursor behind the characters before it, but one column further
    right for each character of two columns behind it. *)
Definition broad_screen (u : uenv) (w : Z) (v : list Z) (y0 : Z) (k : look) (s : scr) : Prop :=
  stacked w y0 (map (cells_all u) (k_done k)) s /\
  let y1 := y0 + Z.of_nat (length (k_done k)) in
  if k_reading k then
    shows_text w y1 (cells_all u (v ++ k_line k)) s /\ s_row s = y1 /\ s_pend s = false /\ s_par s = PGround /\
    s_col s = columns u (v ++ firstn (k_idx k) (k_line k)) + doubles u (skipn (k_idx k) (k_line k))
  else free_from w y1 s.
