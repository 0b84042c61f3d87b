(** Whole sessions on the screen. *)
From Verif Require Import Base ListAux RunesModel RunesSpec RunesProofs TerminalModel ScreenModel RenderModel RenderSpec RenderProofs RenderDraw.
From Coq Require Import ZifyBool.
Open Scope Z_scope.

Lemma split_snoc0 u w r : Width u r = 0%nat -> 0 < w -> forall rs cur c, c < w ->
  exists l, hd_error (rev (split_loop u w (rs ++ [r]) cur c)) = Some (l ++ [r]).
Proof.
  intros H W rs. induction rs as [|x rs IH]; intros cur c C; cbn [app split_loop].
  - rewrite H. replace (c + Z.of_nat 0 >=? w) with false by lia. exists cur. reflexivity.
  - destruct (c + Z.of_nat (Width u x) >=? w) eqn:E.
    + destruct (IH [] 0 ltac:(lia)) as (l & A). exists l. cbn [rev].
      destruct (rev (split_loop u w (rs ++ [r]) [] 0)); [discriminate|exact A].
    + apply IH. lia.
Qed.

Lemma rows_pos w l : 1 <= rows_of w l.
Proof. unfold rows_of. lia. Qed.
Lemma height_nonneg w ls : 0 <= height w ls.
Proof. induction ls as [|l ls IH]; cbn [height fold_right]; [lia|]. pose proof (rows_pos w l). fold (height w ls). lia. Qed.
Lemma height_app w a b : height w (a ++ b) = height w a + height w b.
Proof.
  induction a as [|l a IH]; [reflexivity|]. cbn [app height fold_right]. fold (height w (a ++ b)) (height w a). lia.
Qed.

Lemma stacked_above w ls : forall y s s', same_above (y + height w ls) s s' -> stacked w y ls s -> stacked w y ls s'.
Proof.
  induction ls as [|l ls IH]; intros y s s' H K; [exact I|]. cbn [stacked height fold_right] in *. fold (height w ls) in H.
  pose proof (height_nonneg w ls). destruct K as (K1 & K2). split.
  - intros y' x Y X. rewrite H by lia. now apply K1.
  - apply (IH _ s); [|exact K2]. replace (y + rows_of w l + height w ls) with (y + (rows_of w l + height w ls)) by lia. exact H.
Qed.

Lemma stacked_app w a : forall b y s, stacked w y (a ++ b) s <-> stacked w y a s /\ stacked w (y + height w a) b s.
Proof.
  induction a as [|l a IH]; intros b y s; cbn [app stacked height fold_right].
  - rewrite Z.add_0_r. tauto.
  - fold (height w a). rewrite IH. replace (y + (rows_of w l + height w a)) with (y + rows_of w l + height w a) by lia. tauto.
Qed.

Section Session.
Variable u : uenv.
Variable w : Z.
Hypothesis W : 0 < w <= 9223372036854775807.
Hypothesis U : uenv_ok u.

Lemma rows_cover n : 0 <= n -> n <= Z.max 1 ((n + w - 1) / w) * w.
Proof.
  intros H. pose proof (Z.div_mod (n + w - 1) w ltac:(lia)). pose proof (Z.mod_pos_bound (n + w - 1) w ltac:(lia)). nia.
Qed.

(** A line feed after a text leaves the text in place and goes to the first free row. *)
Lemma newline_frees text y s : wrote w y (Z.of_nat (length text)) s -> shows_text w y text s ->
  let s' := sexecs u w s [10] in
  free_from w (y + rows_of w text) s' /\ s_cell s' = s_cell s.
Proof.
  intros (P & Wr) T. cbn zeta. unfold sexecs. cbn [fold_left]. unfold sexec. rewrite P. cbn [Z.eqb Pos.eqb].
  unfold move, free_from. cbn [s_cell]. split; [|reflexivity].
  set (n := Z.of_nat (length text)) in *.
  assert (R : s_row s + 1 = y + rows_of w text).
  { unfold rows_of. fold n. pose proof (Z.div_mod n w ltac:(lia)) as D. pose proof (Z.mod_pos_bound n w ltac:(lia)) as B.
    destruct ((n mod w =? 0) && (0 <? n)) eqn:E; destruct Wr as (Wr & _); rewrite Wr.
    - assert (Q : (n + w - 1) / w = n / w). { symmetry. apply Z.div_unique with (w - 1); [lia|]. lia. }
      rewrite Q. assert (0 < n / w) by nia. lia.
    - destruct (Z.eq_dec n 0) as [Z0|Z0].
      + rewrite Z0. rewrite Z.div_0_l by lia. rewrite Z.div_small by lia. lia.
      + assert (Q : (n + w - 1) / w = n / w + 1). { symmetry. apply Z.div_unique with (n mod w - 1); lia. }
        rewrite Q. assert (0 <= n / w) by (apply Z.div_pos; lia). lia. }
  split.
  - intros y' x Y X. cbn [s_cell]. rewrite T by (pose proof (rows_pos w text); lia).
    rewrite nth_overflow, nth_overflow; [reflexivity|cbn; lia|].
    pose proof (rows_cover n ltac:(lia)) as C. change (n <= rows_of w text * w) in C.
    assert ((y' - y) * w + x >= rows_of w text * w) by nia.
    unfold n in *. lia.
  - unfold cursor_at, row_of, col_of. cbn [s_row s_col s_pend s_par]. rewrite Z.div_0_l, Z.mod_0_l by lia.
    repeat split; lia.
Qed.

Lemma shows_block text y s : shows_text w y text s -> stacked w y [text] s.
Proof. intros T. split; [|exact I]. intros y' x Y X. apply T; [lia|exact X]. Qed.

Lemma free_wrote y s : free_from w y s -> wrote w y (Z.of_nat (length (@nil Z))) s.
Proof. intros (T & C). apply at_wrote; [exact C|cbn; lia|now right]. Qed.

Lemma print_lines ls : forall y s, Forall (Forall (plain u)) ls -> free_from w y s ->
  let s' := sexecs u w s (flat_map (fun l => l ++ [10]) ls) in
  stacked w y ls s' /\ free_from w (y + height w ls) s' /\ same_above y s s'.
Proof.
  induction ls as [|l ls IH]; intros y s F Fr; cbn zeta; cbn [flat_map stacked height fold_right].
  - rewrite Z.add_0_r. split; [exact I|]. split; [exact Fr|apply same_above_refl].
  - inversion F as [|? ? F1 F2]; subst. fold (height w ls).
    rewrite !sexecs_app. destruct (print_text u w W l s y [] (free_wrote y s Fr) F1 (proj1 Fr)) as (A & B & C).
    cbn [app] in A, B. set (s1 := sexecs u w s l) in *.
    destruct (newline_frees l y s1 A B) as (N1 & N2). set (s2 := sexecs u w s1 [10]) in *.
    destruct (IH (y + rows_of w l) s2 F2 N1) as (I1 & I2 & I3). set (s3 := sexecs u w s2 _) in *.
    pose proof (rows_pos w l). split; [split|split].
    + intros y' x Y X. rewrite I3 by lia. rewrite N2. apply B; [lia|exact X].
    + exact I1.
    + replace (y + (rows_of w l + height w ls)) with (y + rows_of w l + height w ls) by lia. exact I2.
    + intros y' x Y. rewrite I3 by lia. rewrite N2. now apply C.
Qed.

Variable ps : list piece.
Let v := visible ps.
Hypothesis PD : Forall sgr_digits ps.
Hypothesis PV : Forall (plain u) v.
Hypothesis PS : Z.of_nat (length v) + 1 < w.

(** the fields a session does not change *)
Record static (d : rdr) : Prop := {
  st_width : d_width d = w; st_inter : d_inter d = true; st_mask : d_mask d = None;
  st_prompt : d_prompt d = prompt_runes ps; st_paint : colouring u (d_paint d)
}.

Lemma static_drawable d b i h : static d -> Forall (plain u) b -> (i <= length b)%nat ->
  drawable u ps (with_had h (with_line b i d)).
Proof.
  intros S B I. destruct S. constructor; cbn; try assumption; try (rewrite st_width0; assumption).
  - rewrite st_width0. fold v. lia.
  - intros _. rewrite st_width0. exact PS.
  - apply st_paint0. exact B.
Qed.
Lemma static_drawable0 d : static d -> Forall (plain u) (d_buf d) -> (d_idx d <= length (d_buf d))%nat -> drawable u ps d.
Proof.
  intros S B I. pose proof (static_drawable d (d_buf d) (d_idx d) (d_had d) S B I) as D. destruct d; exact D.
Qed.
Lemma static_line d b i h : static d -> static (with_had h (with_line b i d)).
Proof. intros S. destruct S. constructor; assumption. Qed.

(** Printing the line with [hint] and a line feed at the end, on free rows. *)
Lemma output_submits d b y s : static d -> d_buf d = b ++ [10] -> d_idx d = length (b ++ [10]) -> Forall (plain u) b ->
  free_from w y s ->
  exists o, output u d = Ok o /\ let s' := sexecs u w s o in
    stacked w y [v ++ b] s' /\ free_from w (y + rows_of w (v ++ b)) s' /\ same_above y s s'.
Proof.
  intros S B I F Fr. unfold output. rewrite (st_mask _ S), B, I. rewrite Nat.ltb_irrefl. cbn [obind].
  destruct U as (U1 & U2).
  assert (E : isInLineEdge u d = Ok false).
  { unfold isInLineEdge, getSplitByLine, promptLen. rewrite (st_prompt _ S). rewrite ColorFilter_prompt
      by (apply sgr_digits_ok; [exact PD|apply plain_not_esc with u; exact PV]).
    cbn [obind]. rewrite B, (st_width _ S). unfold SplitByLine.
    fold v. rewrite Width_sum1 by (apply plain_w; exact PV).
    destruct (split_snoc0 u w 10 U2 ltac:(lia) b [] (Z.of_nat (length v)) ltac:(lia)) as (l & L).
    destruct (rev (split_loop _ _ _ _ _)) as [|x q]; [discriminate|]. cbn in L. injection L as ->.
    rewrite app_length, Nat.add_1_r. reflexivity. }
  rewrite E. destruct (proj2 (st_paint _ S b (length (b ++ [10])) F)) as (qs & Q1 & Q2 & Q3).
  replace (match b ++ [10] with | [] | _ => _ end) with
    (Ok (expand_tabs u (d_paint d (b ++ [10]) (length (b ++ [10]))) ++ [])) by now destruct (b ++ [10]).
  cbn [obind]. eexists. split; [reflexivity|]. rewrite Q1.
  assert (X : expand_tabs u (prompt_runes qs ++ [10]) = prompt_runes qs ++ [10]).
  { unfold expand_tabs. rewrite flat_map_app. f_equal. apply no_tabs; [exact Q3|]. now rewrite Q2. }
  rewrite X, !app_nil_r, (st_prompt _ S), !sexecs_app.
  destruct (print_pieces u w W ps s y [] (free_wrote y s Fr) PV PD (proj1 Fr)) as (A1 & A2 & A3).
  cbn [app] in A1, A2. set (s1 := sexecs u w s (prompt_runes ps)) in *.
  destruct (print_pieces u w W qs s1 y v A1 ltac:(now rewrite Q2) Q3 A2) as (B1 & B2 & B3).
  rewrite Q2 in B1, B2. set (s2 := sexecs u w s1 (prompt_runes qs)) in *.
  destruct (newline_frees (v ++ b) y s2 B1 B2) as (N1 & N2). set (s3 := sexecs u w s2 [10]) in *. cbn zeta.
  split; [|split; [exact N1|]].
  - apply shows_block in B2. destruct B2 as (B2 & _). split; [|constructor]. intros y' x Y X'. rewrite N2. now apply B2.
  - intros y' x Y. rewrite N2, B3, A3 by exact Y. reflexivity.
Qed.

(** the invariant linking drawing state, screen and what the user should see *)
Definition agrees (y0 : Z) (k : look) (st : bool * rdr) (s0 s : scr) : Prop :=
  static (snd st) /\ d_buf (snd st) = k_line k /\ d_idx (snd st) = k_idx k /\ fst st = k_reading k /\
  Forall (plain u) (k_line k) /\ (k_idx k <= length (k_line k))%nat /\
  (k_reading k = true -> d_had (snd st) = false) /\ (k_reading k = false -> k_line k = []) /\
  screen_is w v y0 k s /\ same_above y0 s0 s.

Lemma agrees_ready y0 k st s0 s : agrees y0 k st s0 s -> ready ps (snd st) (y0 + height w (k_done k)) s.
Proof.
  intros (S & B & I & R & F & L & H & N & Sc & _). unfold ready. destruct Sc as (_ & Sc). cbn zeta in Sc.
  destruct (k_reading k) eqn:E.
  - rewrite H by reflexivity. left. unfold displayed. rewrite (st_width _ S), B, I. exact Sc.
  - rewrite (st_width _ S). destruct (d_had (snd st)); [exact Sc|]. right. split; [|exact Sc].
    rewrite N in L by reflexivity. cbn in L. lia.
Qed.

Lemma same_above_le y y' s s' : y <= y' -> same_above y' s s' -> same_above y s s'.
Proof. intros L H a b C. apply H. lia. Qed.

(** the same with the old line already erased, or about to be *)
Lemma dstep_ready y0 k st s0 s e k' : static (snd st) -> d_buf (snd st) = k_line k -> d_idx (snd st) = k_idx k ->
  fst st = k_reading k -> Forall (plain u) (k_line k) -> (k_idx k <= length (k_line k))%nat ->
  (k_reading k = false -> k_line k = []) -> stacked w y0 (k_done k) s -> ready ps (snd st) (y0 + height w (k_done k)) s ->
  (k_reading k = false -> free_from w (y0 + height w (k_done k)) s) -> same_above y0 s0 s -> looks u v k e k' ->
  exists st' o, dstep u st e = Ok (st', o) /\ agrees y0 k' st' s0 (sexecs u w s o).
Proof.
  intros S B I Rd F L N St R Sc Ab K. destruct st as [reading d]. cbn [fst snd] in *.
  assert (D : drawable u ps d) by (apply static_drawable0; [exact S|now rewrite B|now rewrite B, I]).
  set (y1 := y0 + height w (k_done k)) in *. pose proof (height_nonneg w (k_done k)) as Hh.
  assert (Hy : y0 <= y1) by (unfold y1; lia).
  (* one redraw of the line *)
  assert (Dr : forall b i, Forall (plain u) b -> (i <= length b)%nat ->
    exists o, refresh u d b i [] = Ok (with_had false (with_line b i d), o) /\
      displayed ps (with_had false (with_line b i d)) y1 (sexecs u w s o) /\
      same_above y1 s (sexecs u w s o)).
  { intros b i Fb Ib. destruct (refresh_displays u ps U d b i y1 s D) as (d' & o & X1 & X2 & X3 & X4).
    - apply (static_drawable d b i (d_had d) S Fb Ib).
    - exact R.
    - subst d'. exists o. rewrite (st_width _ S) in X3, X4. auto. }
  inversion K; subst; clear K; cbn [dstep].
  - (* VRead *)
    destruct (Dr (d_buf d) (d_idx d) ltac:(now rewrite B) ltac:(now rewrite B, I)) as (o & X1 & X2 & X3).
    rewrite X1. cbn [obind fst snd]. eexists _, o. split; [reflexivity|].
    unfold agrees. cbn [fst snd k_line k_idx k_reading k_done].
    split; [now apply static_line|]. cbn. repeat (split; [first [assumption|congruence|reflexivity]|]).
    split.
    + split; [apply (stacked_above w _ _ s); assumption|]. cbn. fold y1. destruct X2 as (X2 & X4). cbn in X2, X4.
      rewrite (st_width _ S), B in *. rewrite I in X4. auto.
    + eapply same_above_trans; [exact Ab|]. now apply (same_above_le y0 y1).
  - (* VLine *)
    destruct (Dr b i ltac:(assumption) ltac:(assumption)) as (o & X1 & X2 & X3).
    rewrite X1. cbn [obind fst snd]. eexists _, o. split; [reflexivity|].
    unfold agrees. cbn [fst snd k_line k_idx k_reading k_done].
    split; [now apply static_line|]. cbn. repeat (split; [first [assumption|reflexivity|congruence]|]).
    split.
    + split; [apply (stacked_above w _ _ s); assumption|]. cbn. fold y1. destruct X2 as (X2 & X4). cbn in X2, X4.
      rewrite (st_width _ S) in *. auto.
    + eapply same_above_trans; [exact Ab|]. now apply (same_above_le y0 y1).
  - (* VSubmit *)
    destruct (Dr (d_buf d) (length (d_buf d)) ltac:(now rewrite B) ltac:(lia)) as (o1 & X1 & X2 & X3).
    unfold submit. rewrite X1. cbn [obind fst snd].
    set (d1 := with_had false (with_line (d_buf d) (length (d_buf d)) d)) in *.
    assert (S1 : static d1) by now apply static_line.
    assert (D1 : drawable u ps d1) by (apply static_drawable; [exact S|now rewrite B|lia]).
    destruct (clean_frees u ps d1 y1 (sexecs u w s o1) D1 eq_refl X2) as (o2 & C1 & C2 & C3).
    rewrite (st_width _ S1) in C2, C3.
    unfold refresh. rewrite (st_inter _ S1). cbn [negb]. rewrite C1. cbn [obind fst snd].
    set (bb := d_buf d ++ hint ++ [10]).
    assert (Eb : bb = (d_buf d ++ hint) ++ [10]) by (unfold bb; now rewrite app_assoc).
    set (d2 := with_line bb (length bb) (with_had true d1)).
    assert (S2 : static d2) by apply (static_line d1 bb (length bb) true S1).
    destruct (output_submits d2 (d_buf d ++ hint) y1 (sexecs u w (sexecs u w s o1) o2) S2) as (o3 & P1 & P2 & P3 & P4).
    { exact Eb. }
    { cbn. now rewrite Eb. }
    { apply Forall_app. split; [now rewrite B|assumption]. }
    { exact C2. }
    unfold print. rewrite P1. cbn [obind fst snd app]. eexists _, _. split; [reflexivity|].
    rewrite !sexecs_app. set (s3 := sexecs u w (sexecs u w (sexecs u w s o1) o2) o3) in *.
    assert (Ab3 : same_above y1 s s3).
    { eapply same_above_trans; [exact X3|]. eapply same_above_trans; [exact C3|exact P4]. }
    unfold agrees. cbn [fst snd k_line k_idx k_reading k_done].
    split; [apply (static_line (with_had false d2) [] 0 false); now apply (static_line d2 (d_buf d2) (d_idx d2) false)|].
    cbn. repeat (split; [first [reflexivity|apply Forall_nil|apply le_n|congruence]|]).
    split; [split|].
    + cbn [k_done]. apply stacked_app. split; [apply (stacked_above w _ _ s); assumption|].
      rewrite <- B, app_assoc. rewrite <- app_assoc. fold y1. exact P2.
    + cbn [k_done k_reading]. rewrite height_app. cbn [height fold_right]. rewrite Z.add_0_r, Z.add_assoc. fold y1.
      rewrite <- B. exact P3.
    + eapply same_above_trans; [exact Ab|]. now apply (same_above_le y0 y1).
  - (* VUnique *)
    destruct (Dr (d_buf d) (length (d_buf d)) ltac:(now rewrite B) ltac:(lia)) as (o1 & X1 & X2 & X3).
    unfold submit_unique. rewrite X1. cbn [obind fst snd].
    set (d1 := with_had false (with_line (d_buf d) (length (d_buf d)) d)) in *.
    assert (S1 : static d1) by now apply static_line.
    assert (D1 : drawable u ps d1) by (apply static_drawable; [exact S|now rewrite B|lia]).
    destruct (clean_frees u ps d1 y1 (sexecs u w s o1) D1 eq_refl X2) as (o2 & C1 & C2 & C3).
    rewrite (st_width _ S1) in C2, C3. rewrite C1. cbn [obind fst snd]. eexists _, _. split; [reflexivity|].
    rewrite !sexecs_app. set (s3 := sexecs u w (sexecs u w s o1) o2) in *.
    assert (Ab3 : same_above y1 s s3) by (eapply same_above_trans; [exact X3|exact C3]).
    unfold agrees. cbn [fst snd k_line k_idx k_reading k_done].
    split; [apply (static_line (with_had true d1) [] 0 true); now apply (static_line d1 (d_buf d1) (d_idx d1) true)|].
    cbn. repeat (split; [first [reflexivity|apply Forall_nil|apply le_n|congruence]|]).
    split; [split|].
    + apply (stacked_above w _ _ s); assumption.
    + exact C2.
    + eapply same_above_trans; [exact Ab|]. now apply (same_above_le y0 y1).
  - (* VOut *)
    destruct (k_reading k) eqn:Ek.
    + destruct (clean_ready u ps d y1 s D R) as (o1 & C1 & C2 & C3). rewrite (st_width _ S) in C2, C3.
      unfold refresh. rewrite (st_inter _ S). cbn [negb]. rewrite C1. cbn [obind fst snd].
      destruct (print_lines ls y1 (sexecs u w s o1) ltac:(assumption) C2) as (P1 & P2 & P3).
      set (s2 := sexecs u w (sexecs u w s o1) _) in *.
      set (d2 := with_line (d_buf d) (d_idx d) (with_had true d)).
      assert (D2 : drawable u ps d2) by (apply (static_drawable d (d_buf d) (d_idx d) true S); [now rewrite B|now rewrite B, I]).
      destruct (output_shows u ps U d2 (y1 + height w ls) s2 D2) as (o2 & Q1 & Q2 & Q3).
      { cbn. rewrite (st_width _ S). exact P2. }
      unfold print. rewrite Q1. cbn [obind fst snd]. eexists _, _. split; [reflexivity|].
      replace (d_width d2) with w in Q2, Q3 by (symmetry; apply S).
      rewrite !sexecs_app. fold s2. set (s3 := sexecs u w s2 o2) in *.
      pose proof (height_nonneg w ls).
      assert (Ab3 : same_above y1 s s3).
      { eapply same_above_trans; [exact C3|]. eapply same_above_trans; [exact P3|].
        apply (same_above_le y1 (y1 + height w ls)); [lia|exact Q3]. }
      unfold agrees. cbn [fst snd k_line k_idx k_reading k_done].
      split; [apply (static_line d (d_buf d) (d_idx d) false S)|]. cbn.
      repeat (split; [first [assumption|congruence|reflexivity]|]).
      split; [split|].
      * cbn [k_done]. apply stacked_app. split; [apply (stacked_above w _ _ s); assumption|]. fold y1.
        apply (stacked_above w _ _ s2); assumption.
      * cbn [k_done k_reading k_line k_idx]. rewrite height_app, Z.add_assoc. fold y1. destruct Q2 as (Q2 & Q4). cbn in Q2, Q4.
        rewrite (st_width _ S) in Q2, Q4. rewrite B in Q2. rewrite I in Q4. auto.
      * eapply same_above_trans; [exact Ab|]. now apply (same_above_le y0 y1).
    + eexists _, _. split; [reflexivity|].
      destruct (print_lines ls y1 s ltac:(assumption) (Sc eq_refl)) as (P1 & P2 & P3). set (s2 := sexecs u w s _) in *.
      unfold agrees. cbn [fst snd k_line k_idx k_reading k_done].
      repeat (split; [first [assumption|congruence|reflexivity]|]).
      split; [split|].
      * cbn [k_done]. apply stacked_app. split; [apply (stacked_above w _ _ s); assumption|]. fold y1. exact P1.
      * cbn [k_done k_reading k_line k_idx]. rewrite height_app, Z.add_assoc. fold y1. exact P2.
      * eapply same_above_trans; [exact Ab|]. now apply (same_above_le y0 y1).
Qed.

Lemma dstep_agrees y0 k st s0 s e k' : agrees y0 k st s0 s -> looks u v k e k' ->
  exists st' o, dstep u st e = Ok (st', o) /\ agrees y0 k' st' s0 (sexecs u w s o).
Proof.
  intros A K. pose proof (agrees_ready _ _ _ _ _ A) as R.
  destruct A as (S & B & I & Rd & F & L & H & N & (St & Sc) & Ab).
  apply (dstep_ready y0 k); try assumption. intros E. cbn zeta in Sc. now rewrite E in Sc.
Qed.

Lemma drun_agrees es : forall y0 k st s0 s k', agrees y0 k st s0 s -> looks_all u v k es k' ->
  exists st' o, drun u st es = Ok (st', o) /\ agrees y0 k' st' s0 (sexecs u w s o).
Proof.
  induction es as [|e es IH]; intros y0 k st s0 s k' A K; inversion K; subst; cbn [drun].
  - eexists _, _. split; [reflexivity|exact A].
  - destruct (dstep_agrees _ _ _ _ _ _ _ A H2) as (st1 & o1 & E1 & A1). rewrite E1. cbn [obind fst snd].
    destruct (IH _ _ _ _ _ _ A1 H4) as (st2 & o2 & E2 & A2). rewrite E2. cbn [obind fst snd].
    eexists _, _. split; [reflexivity|]. now rewrite sexecs_app.
Qed.

End Session.
