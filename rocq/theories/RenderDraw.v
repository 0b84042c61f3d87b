From Verif Require Import Base ListAux RunesModel RunesSpec RunesProofs TerminalModel ScreenModel RenderModel RenderSpec RenderProofs.
From Coq Require Import ZifyBool.
Open Scope Z_scope.

Lemma sgr_digits_ok ps : Forall sgr_digits ps -> (forall r, In r (visible ps) -> r <> 27) -> forallb piece_ok ps = true.
Proof.
  intros F. induction F as [|p ps H F IH]; intros V; [reflexivity|]. cbn [forallb]. apply andb_true_iff. split.
  - destruct p as [r|sg]; cbn [piece_ok].
    + assert (r <> 27) by (apply V; now left). lia.
    + cbn in H. apply forallb_forall. intros x Hx. rewrite Forall_forall in H. specialize (H x Hx). lia.
  - apply IH. intros r Hr. apply V. unfold visible in *. cbn [flat_map]. apply in_or_app. now right.
Qed.

Lemma plain_not_esc u l : Forall (plain u) l -> forall r, In r l -> r <> 27.
Proof. intros F r H. rewrite Forall_forall in F. destruct (F r H). lia. Qed.

Lemma no_tabs u ps : Forall sgr_digits ps -> Forall (plain u) (visible ps) -> expand_tabs u (prompt_runes ps) = prompt_runes ps.
Proof.
  intros F V. assert (N : forall r, In r (prompt_runes ps) -> r <> 9).
  { intros r Hr. unfold prompt_runes in Hr. apply in_flat_map in Hr. destruct Hr as (p & Hp & Hr). destruct p as [x|sg].
    - cbn in Hr. destruct Hr as [<-|[]]. rewrite Forall_forall in V.
      assert (I : In x (visible ps)) by (apply in_flat_map; exists (Vis x); split; [exact Hp|now left]).
      destruct (V x I). lia.
    - rewrite Forall_forall in F. specialize (F _ Hp). cbn in F, Hr. destruct Hr as [<-|[<-|Hr]]; [lia|lia|].
      apply in_app_or in Hr. destruct Hr as [Hr|[<-|[]]]; [|lia]. rewrite Forall_forall in F. specialize (F r Hr). lia. }
  revert N. generalize (prompt_runes ps). intros l N. induction l as [|x l IH]; [reflexivity|].
  cbn. destruct (Z.eqb_spec x 9) as [E|E]; [exfalso; apply (N x); [now left|exact E]|].
  cbn. f_equal. apply IH. intros r Hr. apply N. now right.
Qed.

Section Draw.
Variable u : uenv.
Variable ps : list piece.
Hypothesis U : uenv_ok u.
Let vis := visible ps.
Let p := Z.of_nat (length vis).

Lemma promptLen_ok d : drawable u ps d -> promptLen u d = Ok p.
Proof.
  intros D. unfold promptLen. rewrite (dr_prompt _ _ _ D).
  rewrite ColorFilter_prompt.
  - cbn [obind]. now rewrite Width_sum1 by (apply plain_w; apply D).
  - apply sgr_digits_ok; [apply D|]. apply plain_not_esc with u. apply D.
Qed.

Lemma idxLine_ok d : drawable u ps d -> idxLine u d (d_width d) = Ok ((p + Z.of_nat (d_idx d)) / d_width d).
Proof.
  intros D. pose proof (dr_width _ _ _ D). pose proof (dr_short _ _ _ D). pose proof (dr_idx _ _ _ D). unfold idxLine.
  destruct (Z.eqb_spec (d_width d) 0); [lia|]. rewrite slice_to by apply D. cbn [obind].
  unfold getSplitByLine. rewrite (promptLen_ok d D). cbn [obind]. unfold SplitByLine.
  rewrite split_count; [|lia|unfold p, vis; lia|].
  - rewrite firstn_length, Nat.min_l by assumption. f_equal. lia.
  - apply plain_w. pose proof (dr_line _ _ _ D) as L. rewrite <- (firstn_skipn (d_idx d)) in L. apply Forall_app in L. apply L.
Qed.

Lemma isInLineEdge_ok d : drawable u ps d ->
  exists e, isInLineEdge u d = Ok e /\
   (e = true <-> d_buf d = [] \/ (p + Z.of_nat (length (d_buf d))) mod d_width d = 0 /\ 0 < p + Z.of_nat (length (d_buf d))).
Proof.
  intros D. pose proof (dr_width _ _ _ D). pose proof (dr_short _ _ _ D). unfold isInLineEdge, getSplitByLine.
  rewrite (promptLen_ok d D). cbn [obind]. unfold SplitByLine.
  destruct (split_last u (d_width d) (d_buf d) [] p ltac:(lia) ltac:(unfold p, vis; lia)) as (l & A & B).
  { apply plain_w. apply D. }
  destruct (rev (split_loop u (d_width d) (d_buf d) [] p)) as [|x q]; [discriminate|].
  cbn in A. injection A as ->. exists (length l =? 0)%nat. split; [reflexivity|].
  rewrite Nat.eqb_eq.
  assert (E : length l = 0%nat <-> Z.of_nat (length l) = 0) by lia. rewrite E, B. clear E B.
  destruct (Z.ltb_spec (p + Z.of_nat (length (d_buf d))) (d_width d)) as [L|L].
  - cbn [length Nat.add]. split.
    + intros Z0. left. destruct (d_buf d); [reflexivity|cbn in Z0; lia].
    + intros [-> | (M & P)]; [reflexivity|]. rewrite Z.mod_small in M; [lia|]. unfold p in *. lia.
  - split; [intros M; right; split; [exact M|lia]|].
    intros [E | (M & P)]; [|exact M]. rewrite E in L. cbn in L. unfold p, vis in *. lia.
Qed.

Lemma back_ok d : drawable u ps d -> (d_idx d < length (d_buf d))%nat ->
  exists sep, getBackspaceSequence u d = Ok (back_loop sep (d_width d) (length (d_buf d) - d_idx d) (Z.of_nat (length (d_buf d)))) /\
    (forall j, 0 < j <= Z.of_nat (length (d_buf d)) -> existsb (Z.eqb j) sep = ((p + j) mod d_width d =? 0)).
Proof.
  intros D L. pose proof (dr_width _ _ _ D) as W. pose proof (dr_short _ _ _ D) as S. unfold getBackspaceSequence.
  rewrite (promptLen_ok d D). cbn [obind]. rewrite (Width_sum1 u (d_buf d)) by (apply plain_w; apply D).
  set (all := Z.of_nat (length (d_buf d))). set (w := d_width d) in *.
  destruct (sep_loop_fuel all p w) as (sep & A & B).
  - unfold all. lia.
  - unfold p. lia.
  - right. split; [lia|]. destruct (Z.eq_dec p 0); [now left|right]. rewrite Z.mod_small; unfold p, vis in *; lia.
  - rewrite A. exists sep. split; [reflexivity|]. intros j Hj.
    destruct (Z.eqb_spec ((p + j) mod w) 0) as [M|M].
    + apply existsb_exists. exists j. split; [|apply Z.eqb_refl]. apply B; [lia|].
      apply Z.mod_divide in M; [|lia]. destruct M as (k & M). exists k. unfold p in *. split; [nia|]. lia.
    + destruct (existsb (Z.eqb j) sep) eqn:E; [|reflexivity]. exfalso. apply existsb_exists in E. destruct E as (x & X1 & X2).
      apply Z.eqb_eq in X2. subst x. apply B in X1; [|lia]. destruct X1 as (k & K1 & K2 & K3). apply M.
      apply Z.mod_divide; [lia|]. exists k. lia.
Qed.

Lemma shows_cells w y0 text s s' : s_cell s' = s_cell s -> shows_text w y0 text s -> shows_text w y0 text s'.
Proof. intros E H y x Hy Hx. rewrite E. now apply H. Qed.

(** Printing on free rows displays prompt and line. *)
Lemma output_shows d y0 s : drawable u ps d -> free_from (d_width d) y0 s ->
  exists o, output u d = Ok o /\ displayed ps d y0 (sexecs u (d_width d) s o) /\ same_above y0 s (sexecs u (d_width d) s o).
Proof.
  intros D (T0 & C0). pose proof (dr_width _ _ _ D) as W. pose proof (dr_short _ _ _ D) as S. set (w := d_width d) in *.
  assert (Wr0 : wrote w y0 (Z.of_nat (length (@nil Z))) s) by (apply at_wrote; [exact C0|cbn; lia|now right]).
  destruct (print_pieces u w W ps s y0 [] Wr0 (dr_visible _ _ _ D) (dr_pieces _ _ _ D) T0) as (A1 & A2 & A3).
  cbn [app] in A1, A2. set (s1 := sexecs u w s (prompt_runes ps)) in *.
  destruct (dr_paint _ _ _ D) as (qs & Q1 & Q2 & Q3).
  assert (Vq : Forall (plain u) (visible qs)) by (rewrite Q2; apply D).
  destruct (print_pieces u w W qs s1 y0 (visible ps) A1 Vq Q3 A2) as (B1 & B2 & B3).
  rewrite Q2 in B1, B2. set (s2 := sexecs u w s1 (prompt_runes qs)) in *.
  destruct (isInLineEdge_ok d D) as (e & E1 & E2).
  set (n := Z.of_nat (length (visible ps ++ d_buf d))) in *.
  assert (Hn : n = p + Z.of_nat (length (d_buf d))) by (unfold n, p, vis; rewrite app_length; lia).
  (* after the optional blank the cursor is right after the text *)
  assert (X : exists s3, s3 = sexecs u w s2 (if e then [32; 8] else []) /\ cursor_at w y0 n s3 /\
     shows_text w y0 (visible ps ++ d_buf d) s3 /\ same_above y0 s2 s3).
  { eexists. split; [reflexivity|]. destruct e.
    - destruct (edge_trick u w W U s2 y0 (visible ps ++ d_buf d)) as (X1 & X2 & X3).
      + exact B1.
      + exact B2.
      + destruct (proj1 E2 eq_refl) as [E|(M & P)].
        * right. rewrite E, app_nil_r. apply (dr_empty _ _ _ D E).
        * left. fold n. rewrite Hn. auto.
      + auto.
    - cbn. split; [|split; [exact B2|apply same_above_refl]]. apply wrote_at; [exact W|exact B1| |unfold n; lia].
      destruct (Z.eq_dec n 0) as [Z0|Z0]; [now right|left]. intros M. assert (false = true); [|discriminate].
      apply E2. right. rewrite <- Hn. split; [exact M|]. unfold n in *. lia. }
  destruct X as (s3 & S3 & X1 & X2 & X3).
  (* moving back *)
  unfold output. rewrite (dr_mask _ _ _ D). rewrite Q1, (no_tabs u qs Q3 Vq).
  destruct (Nat.ltb_spec (d_idx d) (length (d_buf d))) as [L|L].
  - destruct (back_ok d D L) as (sep & G & Hs). rewrite G, E1. cbn [obind].
    eexists. split; [reflexivity|].
    rewrite (dr_prompt _ _ _ D). rewrite sexecs_app. fold s1. rewrite !sexecs_app. fold s2. rewrite <- S3.
    destruct (back_all u w W sep (length (d_buf d) - d_idx d) s3 y0 p (Z.of_nat (length (d_buf d)))) as (Y1 & Y2).
    + unfold p. lia.
    + lia.
    + rewrite <- Hn. exact X1.
    + exact Hs.
    + fold w. split; [split|].
      * eapply shows_cells; [exact Y2|exact X2].
      * fold w. replace (Z.of_nat (length (visible ps) + d_idx d)) with
          (p + (Z.of_nat (length (d_buf d)) - Z.of_nat (length (d_buf d) - d_idx d))) by (unfold p, vis; lia). exact Y1.
      * eapply same_above_trans; [exact A3|]. eapply same_above_trans; [exact B3|]. eapply same_above_trans; [exact X3|].
        intros y x Hy. now rewrite Y2.
  - rewrite E1. cbn [obind]. eexists. split; [reflexivity|].
    rewrite (dr_prompt _ _ _ D). rewrite sexecs_app. fold s1. rewrite !sexecs_app. fold s2. rewrite <- S3.
    change (sexecs u w s3 []) with s3. pose proof (dr_idx _ _ _ D).
    split; [split|].
    + exact X2.
    + replace (Z.of_nat (length (visible ps) + d_idx d)) with n by (rewrite Hn; unfold p, vis; lia). exact X1.
    + eapply same_above_trans; [exact A3|]. eapply same_above_trans; [exact B3|]. exact X3.
Qed.

Lemma cleaned_free w y0 s : 0 < w -> cleaned w y0 s -> free_from w y0 s.
Proof.
  intros W (A & B & C & E & T). split; [exact T|]. unfold cursor_at, row_of, col_of.
  rewrite Z.div_0_l, Z.mod_0_l by lia. repeat split; try assumption. lia.
Qed.

(** Cleaning a displayed line frees its rows. *)
Lemma clean_frees d y0 s : drawable u ps d -> d_had d = false -> displayed ps d y0 s ->
  exists o, clean u d = Ok (with_had true d, o) /\ free_from (d_width d) y0 (sexecs u (d_width d) s o) /\
    same_above y0 s (sexecs u (d_width d) s o).
Proof.
  intros D H (T & (C1 & C2 & C3 & C4)). pose proof (dr_width _ _ _ D) as W. unfold clean.
  rewrite (idxLine_ok d D). cbn [obind]. rewrite H, (dr_inter _ _ _ D). cbn [orb negb].
  unfold cleanOutput. destruct (Z.eqb_spec (d_width d) 0); [lia|]. cbn [obind].
  set (line := (p + Z.of_nat (d_idx d)) / d_width d).
  assert (L : 0 <= line) by (apply Z.div_pos; unfold p; lia).
  eexists. split; [reflexivity|].
  destruct (clean_all u (d_width d) s y0 line C4 L) as (A & B).
  - rewrite C1. unfold row_of, line, p, vis. f_equal. f_equal. lia.
  - split; [apply cleaned_free; [lia|exact A]|exact B].
Qed.

(** The first draw: an empty line not yet shown, cursor anywhere on row [y0] with free rows below. *)
Lemma clean_fresh d y0 s : drawable u ps d -> d_had d = false -> d_idx d = 0%nat -> 
  free_from (d_width d) y0 s ->
  exists o, clean u d = Ok (with_had true d, o) /\ free_from (d_width d) y0 (sexecs u (d_width d) s o) /\
    same_above y0 s (sexecs u (d_width d) s o).
Proof.
  intros D H I (T & (C1 & C2 & C3 & C4)). pose proof (dr_width _ _ _ D) as W. pose proof (dr_short _ _ _ D). unfold clean.
  rewrite (idxLine_ok d D). cbn [obind]. rewrite H, (dr_inter _ _ _ D). cbn [orb negb].
  unfold cleanOutput. destruct (Z.eqb_spec (d_width d) 0); [lia|]. cbn [obind].
  rewrite I. rewrite (Z.div_small (p + Z.of_nat 0)) by (unfold p, vis; lia).
  eexists. split; [reflexivity|].
  destruct (clean_all u (d_width d) s y0 0 C4 ltac:(lia)) as (A & B).
  - rewrite C1. unfold row_of. rewrite Z.div_0_l by lia. lia.
  - split; [apply cleaned_free; [lia|exact A]|exact B].
Qed.

Definition ready (d : rdr) (y0 : Z) (s : scr) : Prop :=
  if d_had d then free_from (d_width d) y0 s
  else displayed ps d y0 s \/ (d_idx d = 0%nat /\ free_from (d_width d) y0 s).

Lemma clean_ready d y0 s : drawable u ps d -> ready d y0 s ->
  exists o, clean u d = Ok (with_had true d, o) /\ free_from (d_width d) y0 (sexecs u (d_width d) s o) /\
    same_above y0 s (sexecs u (d_width d) s o).
Proof.
  intros D R. unfold ready in R. destruct (d_had d) eqn:H.
  - unfold clean. rewrite (idxLine_ok d D). cbn [obind]. rewrite H. cbn [orb]. exists [].
    replace (with_had true d) with d by (destruct d; cbn in *; subst; reflexivity).
    split; [reflexivity|]. split; [exact R|apply same_above_refl].
  - destruct R as [R|(I & R)]; [now apply clean_frees|now apply clean_fresh].
Qed.

Lemma drawable_had d h : drawable u ps d -> drawable u ps (with_had h d).
Proof. intros D. destruct D. constructor; assumption. Qed.

(** One Refresh: from a correct display (or a free screen) to the correct display of the new line. *)
Lemma refresh_displays d b i y0 s : drawable u ps d -> drawable u ps (with_line b i d) -> ready d y0 s ->
  exists d' o, refresh u d b i [] = Ok (d', o) /\ d' = with_had false (with_line b i d) /\
    displayed ps d' y0 (sexecs u (d_width d) s o) /\ same_above y0 s (sexecs u (d_width d) s o).
Proof.
  intros D D' R. destruct (clean_ready d y0 s D R) as (o1 & C1 & C2 & C3).
  unfold refresh. rewrite (dr_inter _ _ _ D). cbn [negb]. rewrite C1. cbn [obind fst snd app].
  change (with_line b i (with_had true d)) with (with_had true (with_line b i d)).
  destruct (output_shows (with_had true (with_line b i d)) y0 _ (drawable_had _ true D') C2) as (o2 & P1 & P2 & P3).
  unfold print. rewrite P1. cbn [obind fst snd].
  exists (with_had false (with_line b i d)), (o1 ++ o2). split; [reflexivity|]. split; [reflexivity|].
  rewrite sexecs_app. split; [exact P2|]. eapply same_above_trans; [exact C3|exact P3].
Qed.

End Draw.
