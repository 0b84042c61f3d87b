(** C117: tabs and double-width runes in a line that fits one row. *)
From Verif Require Import Base ListAux RunesModel RunesSpec RunesProofs ScreenModel RenderModel RenderSpec RenderProofs RenderDraw RenderProps WideSpec.
Require Import ZArith Lia ZifyBool.
Open Scope Z_scope.

Section Cells.
Variable u : uenv.
Hypothesis U : Width u 32 = 1%nat.
Hypothesis T : (1 <= u_tab u)%nat.

Lemma blank_glyph : glyph u 32.
Proof using U T. split; [lia|]. split; [lia|]. now left. Qed.
Lemma blank_cells : cells_of u 32 = [blank].
Proof using U T. unfold cells_of. change (32 =? 9) with false. cbv iota. rewrite U. reflexivity. Qed.

Lemma no_tabs_sgr sg : Forall (fun r => 48 <= r <= 59) sg ->
  expand_tabs u (27 :: 91 :: sg ++ [109]) = 27 :: 91 :: sg ++ [109].
Proof using U T.
  intros F. unfold expand_tabs. cbn [flat_map]. change (27 =? 9) with false. change (91 =? 9) with false. cbv iota. cbn [app].
  do 2 f_equal. induction F as [|r sg R F IH]; cbn [flat_map app]; [reflexivity|].
  destruct (Z.eqb_spec r 9); [lia|]. cbn [app]. now rewrite IH.
Qed.

Lemma cells_app a b : cells_all u (a ++ b) = cells_all u a ++ cells_all u b.
Proof using U T. apply flat_map_app. Qed.

(** The prompt is not expanded: it has no tabs. *)
Lemma no_tabs_prompt ps : Forall sgr_digits ps -> Forall (glyph u) (visible ps) -> expand_tabs u (prompt_runes ps) = prompt_runes ps.
Proof using U T.
  induction ps as [|q ps IH]; intros G F; [reflexivity|]. inversion G as [|? ? G1 G']; subst.
  unfold prompt_runes, visible in *. cbn [flat_map] in *. unfold expand_tabs. rewrite flat_map_app.
  fold (expand_tabs u (piece_runes q)). fold (expand_tabs u (flat_map piece_runes ps)). destruct q as [r|sg]; cbn [piece_runes app] in *.
  - inversion F as [|? ? F1 F']; subst. rewrite IH by assumption. unfold expand_tabs. cbn [flat_map].
    destruct (Z.eqb_spec r 9) as [->|N]; [destruct F1; lia|]. reflexivity.
  - rewrite IH by assumption. now rewrite no_tabs_sgr.
Qed.

Lemma glyph_typed l : Forall (glyph u) l -> Forall (typed u) l.
Proof using U T. apply Forall_impl. now right. Qed.

Lemma cells_len r : typed u r -> length (cells_of u r) = Width u r.
Proof using U T.
  intros [->|(A & B & C)]; unfold cells_of, Width.
  - cbn. apply repeat_length.
  - unfold Width in *. destruct (Z.eqb_spec r 9); [lia|]. destruct (u_zero u r); [destruct C; discriminate|].
    destruct (u_dbl u r); reflexivity.
Qed.
Lemma cells_pos r : typed u r -> (1 <= length (cells_of u r))%nat.
Proof using U T.
  intros H. rewrite cells_len by exact H. destruct H as [->|(_ & _ & [->| ->])]; [cbn; exact T|lia|lia].
Qed.

Lemma columns_width l : Forall (typed u) l -> columns u l = Z.of_nat (WidthAll u l).
Proof using U T.
  intros F. unfold columns. f_equal. rewrite WidthAll_sum. induction F as [|r l R F IH]; [reflexivity|].
  cbn [cells_all flat_map map list_sum fold_right]. rewrite app_length, cells_len by exact R.
  change (flat_map (cells_of u) l) with (cells_all u l). rewrite IH. reflexivity.
Qed.
Lemma columns_len l : Forall (typed u) l -> Z.of_nat (length l) <= columns u l.
Proof using U T.
  unfold columns. induction 1 as [|r l R F IH]; [cbn; lia|]. cbn [cells_all flat_map length]. rewrite app_length.
  pose proof (cells_pos r R). unfold cells_all in *. lia.
Qed.
Lemma columns_app a b : columns u (a ++ b) = columns u a + columns u b.
Proof using U T. unfold columns. rewrite cells_app, app_length. lia. Qed.

End Cells.

Section Wide.
Variable u : uenv.
Hypothesis U : Width u 32 = 1%nat.
Hypothesis T : (1 <= u_tab u)%nat.
Variable w : Z.
Hypothesis W : 0 < w.

(** Row [y0] holds [text] from its first column, the cursor right behind it. *)
Definition at_end (y0 : Z) (text : list Z) (s : scr) : Prop :=
  s_par s = PGround /\ s_row s = y0 /\ s_col s = Z.of_nat (length text) /\ s_pend s = false /\
  (forall x, 0 <= x < w -> s_cell s y0 x = nth (Z.to_nat x) text blank) /\ blank_below w y0 s.

Lemma row_text y0 text s : Z.of_nat (length text) <= w ->
  (shows_text w y0 text s <->
   (forall x, 0 <= x < w -> s_cell s y0 x = nth (Z.to_nat x) text blank) /\ blank_below w y0 s).
Proof using U T W.
  intros L. split.
  - intros H. split.
    + intros x Hx. rewrite H by lia. f_equal. f_equal. lia.
    + intros y x Hy Hx. rewrite H by lia. apply nth_overflow. nia.
  - intros (A & B) y x Hy Hx. destruct (Z.eq_dec y y0) as [->|N].
    + rewrite A by lia. f_equal. f_equal. lia.
    + rewrite B by lia. symmetry. apply nth_overflow. nia.
Qed.

Lemma put_text y0 text s r x : Z.of_nat (length text) = x ->
  (forall x', 0 <= x' < w -> s_cell s y0 x' = nth (Z.to_nat x') text blank) ->
  forall x', 0 <= x' < w -> put (s_cell s) y0 x r y0 x' = nth (Z.to_nat x') (text ++ [r]) blank.
Proof using U T W.
  intros L H x' Hx'. unfold put. rewrite Z.eqb_refl. cbn [andb]. destruct (Z.eqb_spec x' x) as [->|N].
  - rewrite app_nth2 by lia. replace (Z.to_nat x - length text)%nat with 0%nat by lia. reflexivity.
  - rewrite H by exact Hx'. destruct (Z.lt_ge_cases x' x).
    + now rewrite app_nth1 by lia.
    + rewrite nth_overflow by lia. rewrite nth_overflow; [reflexivity|]. rewrite app_length. cbn. lia.
Qed.

Lemma print_glyph y0 text s r : at_end y0 text s -> glyph u r ->
  Z.of_nat (length text) + Z.of_nat (length (cells_of u r)) < w ->
  at_end y0 (text ++ cells_of u r) (sexec u w s r) /\ same_above y0 s (sexec u w s r).
Proof using U T W.
  intros (P & R & C & Pn & Ce & Bl) (G1 & G2 & G3) L. unfold sexec. rewrite P.
  destruct (Z.eqb_spec r 27); [lia|]. destruct (Z.eqb_spec r 8); [lia|]. destruct (Z.eqb_spec r 13); [lia|].
  destruct (Z.eqb_spec r 10); [lia|]. destruct (Z.eqb_spec r 7); [lia|].
  unfold cells_of in *. destruct (Z.eqb_spec r 9) as [E|_]; [lia|]. unfold print_rune.
  destruct G3 as [G3|G3]; rewrite G3 in *; cbn [Nat.eqb Z.of_nat Pos.of_succ_nat Pos.succ length] in *.
  - change (1 =? 0) with false. change (1 =? 2) with false. cbv iota. rewrite Pn, R, C. cbn [orb].
    replace (w <? Z.of_nat (length text) + 1) with false by lia.
    replace (Z.of_nat (length text) + 1 <? w) with true by lia. split.
    + split; [reflexivity|]. split; [reflexivity|]. cbn [s_col s_pend s_cell s_row]. rewrite app_length. cbn [length].
      split; [lia|]. split; [reflexivity|]. split.
      * apply put_text; [reflexivity|exact Ce].
      * intros y x Hy Hx. cbn [s_cell]. unfold put. replace (y =? y0) with false by lia. now apply Bl.
    + intros y x Hy. cbn [s_cell]. unfold put. replace (y =? y0) with false by lia. reflexivity.
  - change (2 =? 0) with false. change (2 =? 2) with true. cbv iota. rewrite Pn, R, C. cbn [orb].
    replace (w <? Z.of_nat (length text) + 2) with false by lia.
    replace (Z.of_nat (length text) + 2 <? w) with true by lia. split.
    + split; [reflexivity|]. split; [reflexivity|]. cbn [s_col s_pend s_cell s_row]. rewrite app_length. cbn [length].
      split; [lia|]. split; [reflexivity|]. split.
      * replace (text ++ [r; -1]) with ((text ++ [r]) ++ [-1]) by (rewrite <- app_assoc; reflexivity).
        change (put (put (s_cell s) y0 (Z.of_nat (length text)) r) y0 (Z.of_nat (length text) + 1) (-1)) with
          (put (s_cell (with_cell s (put (s_cell s) y0 (Z.of_nat (length text)) r))) y0 (Z.of_nat (length text) + 1) (-1)).
        apply put_text; [rewrite app_length; cbn [length]; lia|].
        intros x Hx. cbn [s_cell with_cell]. apply put_text; [reflexivity|exact Ce|exact Hx].
      * intros y x Hy Hx. cbn [s_cell]. unfold put. replace (y =? y0) with false by lia. now apply Bl.
    + intros y x Hy. cbn [s_cell]. unfold put. replace (y =? y0) with false by lia. reflexivity.
Qed.

Lemma print_blanks n : forall y0 text s, at_end y0 text s -> Z.of_nat (length text) + Z.of_nat n < w ->
  at_end y0 (text ++ repeat blank n) (sexecs u w s (repeat 32 n)) /\ same_above y0 s (sexecs u w s (repeat 32 n)).
Proof using U T W.
  induction n as [|n IH]; intros y0 text s A L.
  - cbn [repeat]. rewrite app_nil_r. split; [exact A|apply same_above_refl].
  - cbn [repeat]. rewrite sexecs_cons.
    destruct (print_glyph y0 text s 32 A (blank_glyph u U T)) as (B & C); [rewrite (blank_cells u U T); cbn [length]; lia|].
    rewrite (blank_cells u U T) in B.
    destruct (IH y0 (text ++ [blank]) _ B) as (E & F); [rewrite app_length; cbn [length]; lia|].
    rewrite <- app_assoc in E. split; [exact E|]. eapply same_above_trans; eassumption.
Qed.

(** One rune as [output] sends it. *)
Lemma print_typed y0 text s r : at_end y0 text s -> typed u r ->
  Z.of_nat (length text) + Z.of_nat (length (cells_of u r)) < w ->
  let s' := sexecs u w s (expand_tabs u [r]) in
  at_end y0 (text ++ cells_of u r) s' /\ same_above y0 s s'.
Proof using U T W.
  intros A [->|G] L; cbn zeta; unfold expand_tabs; cbn [flat_map].
  - change (9 =? 9) with true. cbv iota. rewrite app_nil_r. unfold cells_of in *. change (9 =? 9) with true in *. cbv iota in *.
    rewrite repeat_length in L. now apply print_blanks.
  - destruct (Z.eqb_spec r 9) as [->|N]; [destruct G; lia|]. cbn [app]. rewrite sexecs_cons. change (sexecs u w ?x []) with x.
    now apply print_glyph.
Qed.

(** Text with colours. *)
Lemma print_row qs : forall y0 text s, at_end y0 text s -> Forall (typed u) (visible qs) -> Forall sgr_digits qs ->
  Z.of_nat (length text) + columns u (visible qs) < w ->
  let s' := sexecs u w s (expand_tabs u (prompt_runes qs)) in
  at_end y0 (text ++ cells_all u (visible qs)) s' /\ same_above y0 s s'.
Proof using U T W.
  induction qs as [|q qs IH]; intros y0 text s A F G L; cbn zeta.
  - cbn. rewrite app_nil_r. split; [exact A|apply same_above_refl].
  - inversion G as [|? ? G1 G']; subst. unfold prompt_runes, visible in *. cbn [flat_map] in *.
    unfold expand_tabs at 1 2. rewrite flat_map_app. fold (expand_tabs u (piece_runes q)). fold (expand_tabs u (flat_map piece_runes qs)).
    rewrite sexecs_app. destruct q as [r|sg]; cbn [piece_runes app] in *.
    + inversion F as [|? ? F1 F']; subst. unfold columns in *. cbn [cells_all flat_map] in *. rewrite app_length in L.
      destruct (print_typed y0 text s r A F1 ltac:(unfold cells_all in *; lia)) as (B & C).
      destruct (IH y0 _ _ B F' G') as (E & H).
      { rewrite app_length. unfold cells_all in *. lia. }
      rewrite <- app_assoc in E. split; [exact E|]. eapply same_above_trans; eassumption.
    + rewrite (no_tabs_sgr u U T) by exact G1. rewrite sgr_seq; [|apply A|exact G1]. now apply IH.
Qed.

Lemma split_fits rs : forall cur c, c + Z.of_nat (WidthAll u rs) < w -> split_loop u w rs cur c = [cur ++ rs].
Proof using U T W.
  induction rs as [|r rs IH]; intros cur c L; cbn [split_loop].
  - now rewrite app_nil_r.
  - assert (E : WidthAll u (r :: rs) = (Width u r + WidthAll u rs)%nat) by (rewrite !WidthAll_sum; reflexivity).
    destruct (Z.geb_spec (c + Z.of_nat (Width u r)) w); [lia|].
    rewrite IH; [now rewrite <- app_assoc|]. lia.
Qed.

(** Moving back over a row. *)
Lemma back_row sep n : forall i s, s_par s = PGround -> (forall j, i - Z.of_nat n < j <= i -> existsb (Z.eqb j) sep = false) ->
  (0 < n)%nat ->
  sexecs u w s (back_loop sep w n i) = move s (s_row s) (Z.max 0 (s_col s - Z.of_nat n)) \/ s_col s < 0.
Proof using U T W.
  induction n as [|n IH]; intros i s P H N; [lia|]. cbn [back_loop]. rewrite (H i) by lia. cbn [app].
  rewrite sexecs_cons. unfold sexec. rewrite P. change (8 =? 27) with false. change (8 =? 8) with true. cbv iota.
  destruct (Z.lt_ge_cases (s_col s) 0) as [L|L]; [now right|]. left.
  destruct n as [|n]; [cbn; f_equal; lia|].
  destruct (IH (i - 1) (move s (s_row s) (Z.max 0 (s_col s - 1))) eq_refl) as [E|E].
  - intros j Hj. apply H. lia.
  - lia.
  - rewrite E. unfold move. cbn [s_cell s_row s_col]. f_equal. lia.
  - cbn [s_col move] in E. lia.
Qed.


End Wide.

Section Draw.
Variable u : uenv.
Hypothesis U : Width u 32 = 1%nat.
Hypothesis T : (1 <= u_tab u)%nat.
Variable ps : list piece.

Lemma glyph_not_esc l : Forall (glyph u) l -> forall r, In r l -> r <> 27.
Proof. intros F r I. rewrite Forall_forall in F. destruct (F r I). lia. Qed.

Lemma row_prompt d : one_row u ps d -> promptLen u d = Ok (columns u (visible ps)).
Proof.
  intros D. unfold promptLen. rewrite (or_prompt _ _ _ D), ColorFilter_prompt.
  - cbn [obind]. rewrite (columns_width u U T) by (apply (glyph_typed u U T), D). reflexivity.
  - apply sgr_digits_ok; [apply D|]. apply glyph_not_esc, D.
Qed.

Lemma typed_firstn d : one_row u ps d -> Forall (typed u) (firstn (d_idx d) (d_buf d)).
Proof. intros D. pose proof (or_line _ _ _ D) as L. rewrite <- (firstn_skipn (d_idx d)) in L. apply Forall_app in L. apply L. Qed.

Lemma row_line d : one_row u ps d -> idxLine u d (d_width d) = Ok 0.
Proof.
  intros D. unfold idxLine. pose proof (or_width _ _ _ D). destruct (Z.eqb_spec (d_width d) 0); [lia|].
  rewrite slice_to by apply D. cbn [obind]. unfold getSplitByLine. rewrite (row_prompt d D). cbn [obind]. unfold SplitByLine.
  rewrite (split_fits u U T _ (or_width _ _ _ D)); [reflexivity|]. rewrite <- (columns_width u U T) by (now apply typed_firstn).
  pose proof (or_fits _ _ _ D) as F. rewrite <- (firstn_skipn (d_idx d) (d_buf d)), (columns_app u U T) in F.
  unfold columns in *. lia.
Qed.

Lemma row_edge d : one_row u ps d -> isInLineEdge u d = Ok (length (d_buf d) =? 0)%nat.
Proof.
  intros D. unfold isInLineEdge, getSplitByLine. rewrite (row_prompt d D). cbn [obind]. unfold SplitByLine.
  rewrite (split_fits u U T _ (or_width _ _ _ D)); [reflexivity|]. rewrite <- (columns_width u U T) by apply D. apply (or_fits _ _ _ D).
Qed.

Lemma row_back d : one_row u ps d -> (d_idx d < length (d_buf d))%nat ->
  exists sep, getBackspaceSequence u d = Ok (back_loop sep (d_width d) (length (d_buf d) - d_idx d) (Z.of_nat (length (d_buf d)))) /\
    (forall j, 0 < j <= Z.of_nat (length (d_buf d)) -> existsb (Z.eqb j) sep = false).
Proof.
  intros D L. unfold getBackspaceSequence. rewrite (row_prompt d D). cbn [obind].
  rewrite <- (columns_width u U T) by apply D. pose proof (or_fits _ _ _ D) as F. pose proof (columns_len u U T _ (or_line _ _ _ D)) as C.
  set (a := columns u (d_buf d)) in *. set (p := columns u (visible ps)) in *.
  assert (0 <= p) by (unfold p, columns; lia).
  exists [0 - p + d_width d]. split.
  - unfold sep_fuel. replace (Z.to_nat (a + p + 2)) with (S (S (Z.to_nat (a + p)))) by lia. cbn [sep_loop].
    destruct (Z.leb_spec a 0); [lia|]. change (0 =? 0) with true. cbv iota.
    destruct (Z.leb_spec a (0 - p + d_width d)); [reflexivity|lia].
  - intros j Hj. cbn [existsb]. destruct (Z.eqb_spec j (0 - p + d_width d)); [lia|reflexivity].
Qed.

Definition end_col (d : rdr) : Z :=
  Z.max 0 (columns u (visible ps) + columns u (d_buf d) - Z.of_nat (length (d_buf d) - d_idx d)).

Lemma row_output d y0 s : one_row u ps d -> at_end (d_width d) y0 [] s ->
  exists o, output u d = Ok o /\ let s' := sexecs u (d_width d) s o in
    row_shown u ps d y0 s' /\ s_col s' = end_col d /\ same_above y0 s s'.
Proof.
  intros D A. pose proof (or_width _ _ _ D) as W. pose proof (or_fits _ _ _ D) as F. set (w := d_width d) in *.
  destruct (or_paint _ _ _ D) as (qs & Q1 & Q2 & Q3).
  assert (N0 : 0 <= columns u (d_buf d)) by (unfold columns; lia).
  destruct (print_row u U T w W ps y0 [] s A (glyph_typed u U T _ (or_visible _ _ _ D)) (or_pieces _ _ _ D)) as (B1 & B2).
  { cbn [length]. lia. }
  rewrite (no_tabs_prompt u U T) in B1, B2 by apply D. cbn [app] in B1.
  assert (Vq : Forall (typed u) (visible qs)) by (rewrite Q2; apply D).
  destruct (print_row u U T w W qs y0 _ _ B1 Vq Q3) as (C1 & C2).
  { rewrite Q2. unfold columns in *. lia. }
  rewrite Q2, <- (cells_app u U T) in C1.
  set (s2 := sexecs u w (sexecs u w s (prompt_runes ps)) (expand_tabs u (prompt_runes qs))) in *.
  assert (Len : Z.of_nat (length (cells_all u (visible ps ++ d_buf d))) = columns u (visible ps) + columns u (d_buf d)).
  { unfold columns. rewrite (cells_app u U T), app_length. lia. }
  assert (SA2 : same_above y0 s s2) by (eapply same_above_trans; eassumption).
  assert (Sh : forall s', s_cell s' = s_cell s2 -> shows_text w y0 (cells_all u (visible ps ++ d_buf d)) s').
  { intros s' E. apply (row_text u U T w W); [lia|]. destruct C1 as (_ & _ & _ & _ & X & Y). split.
    - intros x Hx. rewrite E. now apply X.
    - intros y x Hy Hx. rewrite E. now apply Y. }
  unfold output. rewrite (or_mask _ _ _ D), (row_edge d D), Q1.
  destruct (Nat.ltb_spec (d_idx d) (length (d_buf d))) as [L|L].
  - destruct (row_back d D L) as (sep & G & Hs). rewrite G. cbn [obind].
    replace (length (d_buf d) =? 0)%nat with false by lia. rewrite app_nil_r.
    assert (Ob : forall (x : outcome (list Z)), match d_buf d with [] => x | _ :: _ => x end = x) by (intros x; destruct (d_buf d); reflexivity).
    eexists. split; [reflexivity|]. cbn zeta. rewrite (or_prompt _ _ _ D), !sexecs_app. fold w. fold s2.
    destruct C1 as (P1 & P2 & P3 & P4 & P5 & P6).
    destruct (back_row u U T w W sep (length (d_buf d) - d_idx d) (Z.of_nat (length (d_buf d))) s2 P1) as [E|E].
    + intros j Hj. apply Hs. lia.
    + lia.
    + rewrite E. split; [|split].
      * split; [apply Sh; reflexivity|]. split; [exact P2|]. split; reflexivity.
      * cbn [s_col move]. rewrite P3, Len. unfold end_col. reflexivity.
      * intros y x Hy. cbn [s_cell move]. now apply SA2.
    + lia.
  - pose proof (or_idx _ _ _ D). cbn [obind].
    destruct (Nat.eqb_spec (length (d_buf d)) 0) as [Z0|Z0].
    + assert (E0 : d_buf d = []) by (destruct (d_buf d); [reflexivity|discriminate]).
      eexists. split; [reflexivity|]. cbn zeta. rewrite (or_prompt _ _ _ D), !sexecs_app. fold w. fold s2.
      change [32; 8] with ([32] ++ [8]). rewrite sexecs_app.
      pose proof (or_empty _ _ _ D E0) as Em. rewrite E0, app_nil_r in Len. cbn in Len.
      rewrite E0, app_nil_r in C1.
      destruct (print_glyph u U T w W y0 _ s2 32 C1 (blank_glyph u U T)) as (G1 & G2).
      { rewrite (blank_cells u U T). cbn [length]. unfold columns in *. lia. }
      rewrite (blank_cells u U T) in G1. change (sexecs u w s2 [32]) with (sexec u w s2 32).
      set (s3 := sexec u w s2 32) in *. destruct G1 as (P1 & P2 & P3 & P4 & P5 & P6).
      change (sexecs u w s3 [8]) with (sexec u w s3 8). unfold sexec. rewrite P1. change (8 =? 27) with false. change (8 =? 8) with true. cbv iota.
      change (sexecs u w ?x []) with x. split; [|split].
      * split; [|split; [exact P2|split; reflexivity]]. rewrite E0, app_nil_r. fold w.
        apply (shows_cells w y0 _ s3); [reflexivity|]. apply shows_blank_tail. apply (row_text u U T w W); [rewrite app_length; cbn [length]; unfold columns in *; lia|].
        split; [exact P5|exact P6].
      * cbn [s_col move]. rewrite P3, app_length. cbn [length]. unfold end_col. rewrite E0. cbn [length].
        unfold columns. cbn [cells_all flat_map length]. lia.
      * intros y x Hy. cbn [s_cell move]. rewrite (G2 y x Hy). now apply SA2.
    + eexists. split; [reflexivity|]. cbn zeta. rewrite (or_prompt _ _ _ D), !sexecs_app. fold w. fold s2.
      change (sexecs u w (sexecs u w s2 []) []) with s2. destruct C1 as (P1 & P2 & P3 & P4 & P5 & P6). split; [|split].
      * split; [apply Sh; reflexivity|]. split; [exact P2|]. split; assumption.
      * rewrite P3, Len. unfold end_col. replace (length (d_buf d) - d_idx d)%nat with 0%nat by lia. unfold columns in *. lia.
      * exact SA2.
Qed.

(** A row with a prompt and line, or the start of a free row. *)
Definition row_ready (d : rdr) (y0 : Z) (s : scr) : Prop :=
  s_par s = PGround /\ s_row s = y0 /\ (d_had d = true -> at_end (d_width d) y0 [] s).

Lemma row_clean d y0 s : one_row u ps d -> row_ready d y0 s ->
  exists o, clean u d = Ok (with_had true d, o) /\ at_end (d_width d) y0 [] (sexecs u (d_width d) s o) /\
    same_above y0 s (sexecs u (d_width d) s o).
Proof.
  intros D (P & R & H). pose proof (or_width _ _ _ D). unfold clean. rewrite (row_line d D). cbn [obind].
  destruct (d_had d) eqn:E.
  - cbn [orb]. exists []. replace (with_had true d) with d by (destruct d; cbn in *; subst; reflexivity).
    split; [reflexivity|]. split; [now apply H|apply same_above_refl].
  - rewrite (or_inter _ _ _ D). cbn [orb negb]. unfold cleanOutput. destruct (Z.eqb_spec (d_width d) 0); [lia|]. cbn [obind].
    eexists. split; [reflexivity|]. destruct (clean_all u (d_width d) s y0 0 P ltac:(lia) ltac:(lia)) as (A & B).
    split; [|exact B]. destruct A as (A1 & A2 & A3 & A4 & A5). split; [exact A4|]. split; [exact A1|]. split; [exact A2|].
    split; [exact A3|]. apply (row_text u U T (d_width d) (or_width _ _ _ D)); [cbn; lia|exact A5].
Qed.

Lemma row_refresh d b i y0 s : one_row u ps d -> one_row u ps (with_line b i d) -> row_ready d y0 s ->
  exists o, refresh u d b i [] = Ok (with_had false (with_line b i d), o) /\
    let s' := sexecs u (d_width d) s o in
    row_shown u ps (with_line b i d) y0 s' /\ s_col s' = end_col (with_line b i d) /\ same_above y0 s s'.
Proof.
  intros D D' R. destruct (row_clean d y0 s D R) as (o1 & C1 & C2 & C3).
  unfold refresh. rewrite (or_inter _ _ _ D). cbn [negb]. rewrite C1. cbn [obind fst snd app].
  change (with_line b i (with_had true d)) with (with_had true (with_line b i d)).
  assert (D2 : one_row u ps (with_had true (with_line b i d))) by (destruct D'; constructor; assumption).
  destruct (row_output _ y0 _ D2 C2) as (o2 & P1 & P2 & P3 & P4).
  unfold print. rewrite P1. cbn [obind fst snd]. exists (o1 ++ o2). split; [reflexivity|]. cbn zeta.
  change (d_width (with_had true (with_line b i d))) with (d_width d) in *.
  rewrite sexecs_app. split; [exact P2|]. split; [exact P3|]. eapply same_above_trans; eassumption.
Qed.

End Draw.

(** * C117 *)

(** Any sequence of lines, each of which fits the row: prompt and last line are shown, the tabs as blanks, with
    nothing left of the earlier ones and nothing changed above; the cursor stands as many columns left of the end
    as there are runes behind it. *)
Theorem C117_row : forall u ps ls b i d y0 s, Width u 32 = 1%nat -> (1 <= u_tab u)%nat ->
  one_row u ps d -> Forall (fun l => one_row u ps (with_line (fst l) (snd l) d)) (ls ++ [(b, i)]) ->
  d_had d = false -> s_par s = PGround -> s_row s = y0 ->
  exists d' o, draws u d (ls ++ [(b, i)]) = Ok (d', o) /\ d_buf d' = b /\ d_idx d' = i /\
    let s' := sexecs u (d_width d) s o in
    row_shown u ps d' y0 s' /\ same_above y0 s s' /\
    s_col s' = Z.max 0 (columns u (visible ps) + columns u b - Z.of_nat (length b - i)).
Proof.
  intros u ps ls b i d y0 s U T. revert d s. induction ls as [|(b1, i1) ls IH]; intros d s D F H P R.
  - cbn [app] in *. inversion F as [|? ? F1 _]; subst. cbn [fst snd] in F1.
    destruct (row_refresh u U T ps d b i (s_row s) s D F1) as (o & A & B1 & B2 & B3).
    { split; [exact P|]. split; [reflexivity|]. congruence. }
    exists (with_had false (with_line b i d)), (o ++ []). cbn [draws]. rewrite A. cbn [obind fst snd].
    split; [reflexivity|]. split; [reflexivity|]. split; [reflexivity|]. rewrite app_nil_r. cbn zeta.
    split; [exact B1|]. split; [exact B3|]. exact B2.
  - cbn [app] in *. inversion F as [|? ? F1 F']; subst. cbn [fst snd] in F1.
    destruct (row_refresh u U T ps d b1 i1 (s_row s) s D F1) as (o & A & B1 & B2 & B3).
    { split; [exact P|]. split; [reflexivity|]. congruence. }
    destruct B1 as (S1 & S2 & S3 & S4).
    set (d1 := with_had false (with_line b1 i1 d)) in *.
    destruct (IH d1 (sexecs u (d_width d) s o)) as (d' & o' & E & E1 & E2 & E3 & E4 & E5).
    + destruct F1; constructor; assumption.
    + eapply Forall_impl; [|exact F']. intros (b2, i2) K. cbn [fst snd] in *. destruct K; constructor; assumption.
    + reflexivity.
    + exact S4.
    + exact S2.
    + exists d', (o ++ o'). cbn [draws]. rewrite A. cbn [obind fst snd]. rewrite E. cbn [obind fst snd].
      split; [reflexivity|]. split; [exact E1|]. split; [exact E2|]. cbn zeta. rewrite sexecs_app.
      change (d_width d1) with (d_width d) in *. split; [exact E3|]. split; [|exact E5].
      eapply same_above_trans; eassumption.
Qed.
Print Assumptions C117_row.

(** So the cursor is where it belongs if and only if every rune behind it is one column wide. *)
Theorem C117_cursor_partial : forall u ps ls b i d y0 s d' o, Width u 32 = 1%nat -> (1 <= u_tab u)%nat ->
  one_row u ps d -> Forall (fun l => one_row u ps (with_line (fst l) (snd l) d)) (ls ++ [(b, i)]) ->
  d_had d = false -> s_par s = PGround -> s_row s = y0 -> draws u d (ls ++ [(b, i)]) = Ok (d', o) ->
  (s_col (sexecs u (d_width d) s o) = cursor_col u ps d' <-> Forall (fun r => Width u r = 1%nat) (skipn i b)).
Proof.
  intros u ps ls b i d y0 s d' o U T D F H P R E.
  destruct (C117_row u ps ls b i d y0 s U T D F H P R) as (d2 & o2 & E2 & B & I & _ & _ & C).
  rewrite E in E2. injection E2 as <- <-. cbn zeta in C. rewrite C. unfold cursor_col. rewrite B, I.
  apply Forall_app in F. destruct F as [_ F]. inversion F as [|? ? F1 _]; subst. cbn [fst snd] in F1.
  pose proof (or_line _ _ _ F1) as L. cbn [with_line d_buf] in L. pose proof (or_idx _ _ _ F1) as J. cbn [with_line d_buf d_idx] in J.
  rewrite <- (firstn_skipn (d_idx d') (d_buf d')) at 1. rewrite (columns_app u U T).
  assert (K : (length (d_buf d') - d_idx d')%nat = length (skipn (d_idx d') (d_buf d'))) by (now rewrite skipn_length).
  rewrite K. rewrite <- (firstn_skipn (d_idx d') (d_buf d')) in L. apply Forall_app in L. destruct L as [_ L].
  set (t := skipn (d_idx d') (d_buf d')) in *. pose proof (columns_len u U T t L) as C1.
  assert (0 <= columns u (visible ps)) by (unfold columns; lia). assert (0 <= columns u (firstn (d_idx d') (d_buf d'))) by (unfold columns; lia).
  replace (Z.max 0 _) with (columns u (visible ps) + (columns u (firstn (d_idx d') (d_buf d')) + columns u t) - Z.of_nat (length t)) by lia.
  assert (Q : columns u t = Z.of_nat (length t) <-> Forall (fun r => Width u r = 1%nat) t).
  { clear - L U T. induction L as [|r t R L IH]; [cbn; split; [constructor|reflexivity]|].
    pose proof (columns_len u U T t L) as C1. unfold columns in *. cbn [cells_all flat_map length]. rewrite app_length.
    pose proof (cells_pos u U T r R). pose proof (cells_len u U T r R) as W. change (flat_map (cells_of u) t) with (cells_all u t). split.
    - intros E. constructor; [lia|]. apply IH. lia.
    - intros F. inversion F; subst. apply IH in H3. lia. }
  rewrite <- Q. lia.
Qed.
Print Assumptions C117_cursor_partial.

(** "a", tab, a wide rune, "b" after a prompt with a wide rune; cursor before the "b". *)
Definition w_ps : list piece := [Vis 19968; Sgr [51; 49]; Vis 62; Vis 32].
Definition w_d : rdr := d0 (prompt_runes w_ps) 20 None.
Example C117_ex : one_row u0 w_ps w_d /\ d_had w_d = false /\ s_par scr0 = PGround /\
  Forall (fun l => one_row u0 w_ps (with_line (fst l) (snd l) w_d)) [([97], 1%nat); ([97; 9; 19968; 98], 3%nat)] /\
  exists d' o, draws u0 w_d [([97], 1%nat); ([97; 9; 19968; 98], 3%nat)] = Ok (d', o) /\
    cells (sexecs u0 20 scr0 o) 1 14 = [[19968; -1; 62; 32; 97; 32; 32; 32; 32; 19968; -1; 98; 32; 32]] /\
    s_col (sexecs u0 20 scr0 o) = 11 /\ cursor_col u0 w_ps d' = 11.
Proof.
  assert (G : forall r, In r [19968; 62; 32; 97; 98] -> glyph u0 r).
  { intros r [<-|[<-|[<-|[<-|[<-|[]]]]]]; (split; [lia|]); (split; [lia|]); vm_compute; auto. }
  assert (V : Forall (glyph u0) (visible w_ps)) by (repeat constructor; apply G; cbn; tauto).
  assert (P : Forall sgr_digits w_ps) by (repeat constructor; cbn; lia).
  split; [|split; [reflexivity|split; [reflexivity|split]]].
  - constructor; cbn; try lia; try reflexivity; try exact V; try exact P; [constructor|].
    exists []. split; [reflexivity|]. split; [reflexivity|constructor].
  - constructor; [|constructor; [|constructor]]; cbn [fst snd]; constructor; cbn;
      try lia; try reflexivity; try discriminate; try exact V; try exact P.
    + constructor; [right; apply G; cbn; tauto|constructor].
    + exists [Vis 97]. split; [reflexivity|]. split; [reflexivity|]. repeat constructor.
    + constructor; [right; apply G; cbn; tauto|]. constructor; [now left|].
      constructor; [right; apply G; cbn; tauto|]. constructor; [right; apply G; cbn; tauto|constructor].
    + exists [Vis 97; Vis 9; Vis 19968; Vis 98]. split; [reflexivity|]. split; [reflexivity|]. repeat constructor.
  - eexists _, _. split; [vm_compute; reflexivity|]. split; [vm_compute; reflexivity|]. split; vm_compute; reflexivity.
Qed.

(** The cursor before a tab is shown three columns too far right. *)
Theorem C117_tab_cursor_refuted : exists d' o, draws u0 w_d [([97; 9], 1%nat)] = Ok (d', o) /\
  cursor_col u0 w_ps d' = 5 /\ s_col (sexecs u0 20 scr0 o) = 8.
Proof. eexists _, _. split; [vm_compute; reflexivity|]. split; vm_compute; reflexivity. Qed.
Print Assumptions C117_tab_cursor_refuted.

(** Runes.Backspace is the sequence that goes back over a text: sent after the text, within a row, it brings the cursor to where the text began. *)
Theorem C117_backspace : forall u w y0 before l s, Width u 32 = 1%nat -> (1 <= u_tab u)%nat -> 0 < w ->
  at_end w y0 before s -> Forall (glyph u) l -> Z.of_nat (length before) + columns u l < w ->
  let s' := sexecs u w (sexecs u w s l) (Backspace u l) in
  s_row s' = y0 /\ s_col s' = Z.of_nat (length before) /\
  forall x, 0 <= x < w -> s_cell s' y0 x = nth (Z.to_nat x) (before ++ cells_all u l) blank.
Proof.
  intros u w y0 before l s U T W A F L. cbn zeta.
  destruct (print_row u U T w W (map Vis l) y0 before s A) as (B & _).
  - replace (visible (map Vis l)) with l by (clear; induction l; cbn; f_equal; assumption). now apply (glyph_typed u U T).
  - clear. induction l; constructor; [exact I|assumption].
  - replace (visible (map Vis l)) with l by (clear; induction l; cbn; f_equal; assumption). exact L.
  - replace (visible (map Vis l)) with l in B by (clear; induction l; cbn; f_equal; assumption).
    replace (prompt_runes (map Vis l)) with l in B by (clear; induction l; cbn; f_equal; assumption).
    replace (expand_tabs u l) with l in B.
    2:{ clear - F. induction F as [|r l G F IH]; [reflexivity|]. unfold expand_tabs in *. cbn [flat_map]. destruct (Z.eqb_spec r 9) as [->|_]; [destruct G; lia|]. cbn [app]. now f_equal. }
    set (s1 := sexecs u w s l) in *. destruct B as (P1 & P2 & P3 & P4 & P5 & P6). unfold Backspace.
    assert (Wn : WidthAll u l = length (cells_all u l)).
    { apply Nat2Z.inj. rewrite <- (columns_width u U T) by (now apply (glyph_typed u U T)). reflexivity. }
    rewrite Wn. rewrite app_length in P3. destruct (length (cells_all u l)) as [|n] eqn:N.
    + cbn [repeat]. change (sexecs u w s1 []) with s1. split; [exact P2|]. split; [lia|exact P5].
    + assert (E : forall k i, back_loop [] w k i = repeat 8 k).
      { clear. induction k as [|k IH]; intros i; [reflexivity|]. cbn [back_loop existsb app repeat]. now rewrite IH. }
      destruct (back_row u U T w W [] (S n) 0 s1 P1) as [X|X]; [reflexivity|lia| |lia].
      rewrite <- (E (S n) 0), X. cbn [s_row s_col s_cell move]. split; [exact P2|]. split; [lia|exact P5].
Qed.
Print Assumptions C117_backspace.
Example C117_backspace_ex : let s := sexecs u0 20 scr0 [62; 32] in
  at_end 20 0 [62; 32] s /\ Backspace u0 [97; 19968] = [8; 8; 8] /\ s_col (sexecs u0 20 (sexecs u0 20 s [97; 19968]) [8; 8; 8]) = 2.
Proof.
  cbn zeta. split; [|split; vm_compute; reflexivity].
  destruct (print_row u0 eq_refl ltac:(cbn; lia) 20 ltac:(lia) [Vis 62; Vis 32] 0 [] scr0) as (B & _).
  - repeat split; try reflexivity. intros x Hx. cbn. destruct (Z.to_nat x); reflexivity.
  - constructor; [right|constructor; [right|constructor]]; (split; [lia|]); (split; [lia|]); left; reflexivity.
  - repeat constructor.
  - cbn. lia.
  - exact B.
Qed.
