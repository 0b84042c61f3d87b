(** Proofs for C131. *)
From Verif Require Import Base ListAux RunesModel RunesSpec RunesProofs RuneBufModel RuneBufSpec HistoryModel HistoryProofs ScreenModel RenderModel RenderSpec RenderProofs RenderDraw RenderSession RenderProps OpModel OpSpec OpProofs OpStep OutModel OutSpec OutProofs PipeSpec PipeProofs ViewSpec ViewProofs WideSpec WideProps BroadSpec.
Require Import ZArith Lia ZifyBool.
Open Scope Z_scope.

(** ** Characters of two columns counted as one: what the editor does is the same *)
Definition narrow_u (u : uenv) : uenv := {| u_zero := u_zero u; u_dbl := fun _ => false; u_tab := u_tab u; u_number := u_number u |}.
Definition set_u (u : uenv) (cf : ocfg) : ocfg :=
  {| oc_u := u; oc_h := oc_h cf; oc_w := oc_w cf; oc_prompt := oc_prompt cf; oc_auto := oc_auto cf; oc_vim := oc_vim cf;
     oc_unique := oc_unique cf; oc_nosave := oc_nosave cf; oc_listen := oc_listen cf; oc_filter := oc_filter cf;
     oc_eofp := oc_eofp cf; oc_intp := oc_intp cf |}.

Lemma narrow_plain u r : RenderSpec.plain (narrow_u u) r <-> glyph u r.
Proof.
  unfold RenderSpec.plain, glyph, Width. cbn [narrow_u u_zero u_dbl u_tab]. split; intros (A & B & C); (split; [exact A|split; [exact B|]]);
  (destruct (Z.eqb_spec r 9); [lia|]); destruct (u_zero u r).
  - discriminate C.
  - destruct (u_dbl u r); [now right|now left].
  - destruct C; discriminate.
  - reflexivity.
Qed.
Lemma narrow_all u l : Forall (RenderSpec.plain (narrow_u u)) l <-> Forall (glyph u) l.
Proof. split; apply Forall_impl; intros r; apply narrow_plain. Qed.
Lemma narrow_hist u h : hist_of (RenderSpec.plain (narrow_u u)) h <-> hist_of (glyph u) h.
Proof.
  unfold hist_of, item_of. split; intros (A & B); (split; [revert A|revert B]); apply Forall_impl; intros x (X & Y); split; now apply narrow_all.
Qed.

Section Same.
Variable cf : ocfg.
Hypothesis Vi : oc_vim cf = false.
Variable u' : uenv.
Notation cf' := (set_u u' cf).

Lemma switch_u r o : idle o -> plain_key cf r -> key_switch cf' r o = key_switch cf r o.
Proof.
  intros [D1 D2 D3 D4] (K1 & K2). unfold key_switch.
  assert (Y : (r =? CharBckSearch) = false /\ (r =? CharFwdSearch) = false).
  { cbn [In] in K1. split; apply Z.eqb_neq; intros ->; tauto. }
  destruct Y as (-> & ->). rewrite D1. cbn [oc_auto oc_w set_u].
  destruct (r =? CharTab) eqn:T; [apply Z.eqb_eq in T; rewrite (K2 T); reflexivity|].
  repeat (match goal with |- (if ?b then _ else _) = (if ?b then _ else _) => destruct b end; [solve [reflexivity | destruct (length (rb_buf (o_b o)) =? 0)%nat; [reflexivity|];
    destruct (BufBackspace (o_b o)); [|reflexivity|reflexivity]; cbn [obind with_b o_c]; rewrite D2; reflexivity]|]).
  destruct (WriteRunes [r] (o_b o)); [|reflexivity|reflexivity]. cbn [obind with_b o_c]. rewrite D2. reflexivity.
Qed.
Lemma after_u r x : idle (fst (fst (fst (fst x)))) -> after_switch cf' r x = after_switch cf r x.
Proof.
  destruct x as [[[[o1 a] kS] kC] upd]. intros [D1 D2 D3 D4]. cbn [fst] in *. unfold after_switch. cbn [oc_listen set_u].
  set (o2 := match oc_listen cf with Some _ => _ | None => _ end).
  assert (X : idle o2). { unfold o2. destruct (oc_listen cf) as [f|]; [destruct (f _ _ _) as [[l p]|]|]; constructor; assumption. }
  destruct X as [X1 X2 X3 X4]. rewrite X1, X2, andb_false_r. reflexivity.
Qed.
Lemma vim_u r o : idle o -> plain_key cf r -> vim_and_switch cf' r o = vim_and_switch cf r o.
Proof.
  intros D K. unfold vim_and_switch. cbn [oc_vim set_u]. rewrite Vi, (switch_u r o D K).
  destruct (key_switch cf r o) as [[[[[o1 a] kS] kC] upd]| |] eqn:E; try reflexivity. cbn [obind]. apply after_u. apply (switch_rings cf r o _ _ _ _ _ D K E).
Qed.
Lemma step_u r o : idle o -> pipe_key cf r -> op_step cf' r o = op_step cf r o.
Proof.
  intros D K. unfold op_step. cbn [oc_filter set_u]. destruct (o_end o); [reflexivity|]. rewrite (id_vp _ D).
  assert (H : forall r', plain_key cf r' -> handle_key cf' r' o = handle_key cf r' o).
  { intros r' K'. unfold handle_key. rewrite (id_sel _ D). destruct (r' =? 0); [|now apply vim_u].
    destruct (_ && _); [reflexivity|]. apply vim_u; [exact D|apply enter_plain]. }
  unfold pipe_key in K. destruct (oc_filter cf) as [f|]; [destruct (f r) as [r'|]|]; [now apply H, K|reflexivity|now apply H, K].
Qed.
Lemma draws_u r o : idle o -> oc_filter cf = None -> plain_key cf r -> key_draws cf' r o = key_draws cf r o.
Proof.
  intros D F K. unfold key_draws, handle_draws, after_vim. cbn [oc_filter oc_vim set_u]. rewrite (id_vp _ D), F, Vi.
  rewrite (switch_u r o D K). reflexivity.
Qed.
End Same.

(** ** Drawing *)
Section Draw.
Variable u : uenv.
Hypothesis U : uenv_ok u.
Hypothesis T : (1 <= u_tab u)%nat.
Variable w : Z.
Hypothesis W : 0 < w <= 9223372036854775807.
Variable ps : list piece.
Let v := visible ps.
Hypothesis PD : Forall sgr_digits ps.
Hypothesis PV : Forall (glyph u) v.
Hypothesis PS : columns u v + 1 < w.
Let U1 : Width u 32 = 1%nat := proj1 U.
Let W0 : 0 < w := proj1 W.

Definition fit (b : list Z) : Prop := columns u b < w.

Record bstatic (d : rdr) : Prop := {
  bt_width : d_width d = w; bt_inter : d_inter d = true; bt_mask : d_mask d = None;
  bt_prompt : d_prompt d = prompt_runes ps; bt_paint : broad_colouring u (d_paint d)
}.
Lemma bstatic_line d b i h : bstatic d -> bstatic (with_had h (with_line b i d)).
Proof. intros []. constructor; assumption. Qed.

Lemma static_row d b i h : bstatic d -> Forall (glyph u) b -> (i <= length b)%nat -> fit (v ++ b) -> one_row u ps (with_had h (with_line b i d)).
Proof.
  intros [] B I F. unfold fit in F. rewrite (columns_app u U1 T) in F. constructor; cbn; try assumption; try (rewrite bt_width0; assumption).
  - now apply (glyph_typed u U1 T).
  - intros _. rewrite bt_width0. exact PS.
  - now apply bt_paint0.
Qed.
Lemma static_row0 d : bstatic d -> Forall (glyph u) (d_buf d) -> (d_idx d <= length (d_buf d))%nat -> fit (v ++ d_buf d) -> one_row u ps d.
Proof. intros S B I F. pose proof (static_row d (d_buf d) (d_idx d) (d_had d) S B I F) as D. destruct d; exact D. Qed.

Lemma free_end y s : free_from w y s <-> at_end w y [] s.
Proof.
  unfold free_from, cursor_at, row_of, col_of, at_end. rewrite (row_text u U1 T w W0) by (cbn; lia). rewrite Z.div_0_l, Z.mod_0_l, Z.add_0_r by lia. cbn [length Z.of_nat]. tauto.
Qed.
Lemma rows_one l : fit l -> rows_of w (cells_all u l) = 1.
Proof.
  unfold fit, columns, rows_of. intros F. set (n := Z.of_nat _) in *. assert (0 <= n) by (unfold n; lia).
  destruct (Z.eq_dec n 0) as [->|N]; [rewrite Z.div_small by lia; reflexivity|].
  replace ((n + w - 1) / w) with 1; [reflexivity|]. apply Z.div_unique with (n - 1); lia.
Qed.
Lemma height_count ls : Forall fit ls -> height w (map (cells_all u) ls) = Z.of_nat (length ls).
Proof.
  induction 1 as [|l ls F _ IH]; [reflexivity|]. cbn [map height fold_right length]. fold (height w (map (cells_all u) ls)). rewrite (rows_one l F), IH. lia.
Qed.

(** A line feed behind a text on one row. *)
Lemma end_frees y l s : fit l -> at_end w y (cells_all u l) s ->
  let s' := sexecs u w s [10] in
  stacked w y [cells_all u l] s' /\ free_from w (y + 1) s' /\ s_cell s' = s_cell s.
Proof.
  intros F (P1 & P2 & P3 & P4 & P5). cbn zeta. pose proof F as F'. unfold fit, columns in F'. set (n := Z.of_nat (length (cells_all u l))) in *.
  assert (0 <= n) by (unfold n; lia).
  assert (Sh : shows_text w y (cells_all u l) s) by (apply (row_text u U1 T w W0); [fold n; lia|exact P5]).
  destruct (newline_frees u w W (cells_all u l) y s) as (A & B).
  - fold n. apply at_wrote; [|lia|].
    + unfold cursor_at, row_of, col_of. rewrite Z.div_small, Z.mod_small by lia. rewrite Z.add_0_r. auto.
    + rewrite Z.mod_small by lia. lia.
  - exact Sh.
  - rewrite (rows_one l F) in A. split; [|split; [exact A|exact B]]. apply shows_block. intros y' x Y X. rewrite B. now apply Sh.
Qed.

Lemma vis_map l : visible (map Vis l) = l.
Proof. clear. induction l; cbn; f_equal; assumption. Qed.
Lemma runes_map l : prompt_runes (map Vis l) = l.
Proof. clear. induction l; cbn; f_equal; assumption. Qed.
Lemma digits_map l : Forall sgr_digits (map Vis l).
Proof. clear. induction l; constructor; [exact I|assumption]. Qed.

(** Printing a text from the start of free rows. *)
Lemma pieces_end qs y text s : at_end w y text s -> Forall (glyph u) (visible qs) -> Forall sgr_digits qs ->
  Z.of_nat (length text) + columns u (visible qs) < w ->
  let s' := sexecs u w s (prompt_runes qs) in
  at_end w y (text ++ cells_all u (visible qs)) s' /\ same_above y s s'.
Proof.
  intros A F G L. pose proof (print_row u U1 T w W0 qs y text s A (glyph_typed u U1 T _ F) G L) as X. cbn zeta in *.
  now rewrite (no_tabs_prompt u U1 T) in X by assumption.
Qed.

Lemma bprint_lines ls : forall y s, Forall (fun l => Forall (glyph u) l /\ fit l) ls -> free_from w y s ->
  let s' := sexecs u w s (flat_map (fun l => l ++ [10]) ls) in
  stacked w y (map (cells_all u) ls) s' /\ free_from w (y + Z.of_nat (length ls)) s' /\ same_above y s s'.
Proof.
  induction ls as [|l ls IH]; intros y s F Fr; cbn zeta; cbn [flat_map map length].
  - rewrite Z.add_0_r. split; [exact I|]. split; [exact Fr|apply same_above_refl].
  - inversion F as [|? ? (F1 & F2) F3]; subst. rewrite !sexecs_app.
    destruct (pieces_end (map Vis l) y [] s) as (A & B).
    { now apply free_end. } { now rewrite vis_map. } { apply digits_map. } { rewrite vis_map. cbn [length]. exact F2. }
    rewrite vis_map, runes_map in *. cbn [app] in A. set (s1 := sexecs u w s l) in *.
    destruct (end_frees y l s1 F2 A) as (N1 & N2 & N3). set (s2 := sexecs u w s1 [10]) in *.
    destruct (IH (y + 1) s2 F3 N2) as (I1 & I2 & I3). set (s3 := sexecs u w s2 _) in *. split; [|split].
    + change (map (cells_all u) ls) with (map (cells_all u) ls). change (stacked w y ([cells_all u l] ++ map (cells_all u) ls) s3).
      apply stacked_app. cbn [height fold_right]. rewrite (rows_one l F2), Z.add_0_r. split; [|exact I1].
      apply (stacked_above w _ _ s2); [|exact N1]. cbn [height fold_right]. rewrite (rows_one l F2), Z.add_0_r. exact I3.
    + replace (y + Z.of_nat (S (length ls))) with (y + 1 + Z.of_nat (length ls)) by lia. exact I2.
    + intros y' x Y. rewrite I3 by lia. rewrite N3. now apply B.
Qed.

(** Printing the line with a line feed at the end, on free rows. *)
Lemma broad_submits d b y s : bstatic d -> d_buf d = b ++ [10] -> d_idx d = length (b ++ [10]) -> Forall (glyph u) b -> fit (v ++ b) ->
  free_from w y s ->
  exists o, output u d = Ok o /\ let s' := sexecs u w s o in
    stacked w y [cells_all u (v ++ b)] s' /\ free_from w (y + 1) s' /\ same_above y s s'.
Proof.
  intros S B I F Ft Fr. unfold output. rewrite (bt_mask _ S), B, I. rewrite Nat.ltb_irrefl. cbn [obind].
  assert (E : isInLineEdge u d = Ok false).
  { unfold isInLineEdge, getSplitByLine, promptLen. rewrite (bt_prompt _ S). rewrite ColorFilter_prompt
      by (apply sgr_digits_ok; [exact PD|exact (glyph_not_esc u U1 T _ PV)]).
    cbn [obind]. rewrite B, (bt_width _ S). unfold SplitByLine.
    fold v. rewrite <- (columns_width u U1 T) by (now apply (glyph_typed u U1 T)).
    destruct (split_snoc0 u w 10 (proj2 U) ltac:(lia) b [] (columns u v) ltac:(lia)) as (l & L).
    destruct (rev (split_loop _ _ _ _ _)) as [|x q]; [discriminate|]. cbn in L. injection L as ->.
    rewrite app_length, Nat.add_1_r. reflexivity. }
  rewrite E. destruct (proj2 (bt_paint _ S b (length (b ++ [10])) F)) as (qs & Q1 & Q2 & Q3).
  replace (match b ++ [10] with | [] | _ => _ end) with
    (Ok (expand_tabs u (d_paint d (b ++ [10]) (length (b ++ [10]))) ++ [])) by now destruct (b ++ [10]).
  cbn [obind]. eexists. split; [reflexivity|]. rewrite Q1.
  assert (X : expand_tabs u (prompt_runes qs ++ [10]) = prompt_runes qs ++ [10]).
  { unfold expand_tabs. rewrite flat_map_app. f_equal. apply (no_tabs_prompt u U1 T); [exact Q3|]. now rewrite Q2. }
  rewrite X, !app_nil_r, (bt_prompt _ S), !sexecs_app. pose proof Ft as Ft'. unfold fit in Ft'. rewrite (columns_app u U1 T) in Ft'.
  assert (0 <= columns u b) by (unfold columns; lia).
  destruct (pieces_end ps y [] s) as (A1 & A2); [now apply free_end|exact PV|exact PD|fold v; cbn [length]; lia|].
  cbn [app] in A1. fold v in A1. set (s1 := sexecs u w s (prompt_runes ps)) in *.
  destruct (pieces_end qs y (cells_all u v) s1 A1) as (B1 & B2); [now rewrite Q2|exact Q3|rewrite Q2; exact Ft'|].
  rewrite Q2, <- (cells_app u U1 T) in B1. set (s2 := sexecs u w s1 (prompt_runes qs)) in *.
  destruct (end_frees y (v ++ b) s2 Ft B1) as (N1 & N2 & N3). set (s3 := sexecs u w s2 [10]) in *. cbn zeta.
  split; [exact N1|]. split; [exact N2|]. intros y' x Y. rewrite N3, B2, A2 by exact Y. reflexivity.
Qed.

Definition bagrees (y0 : Z) (k : look) (st : bool * rdr) (s0 s : scr) : Prop :=
  bstatic (snd st) /\ d_buf (snd st) = k_line k /\ d_idx (snd st) = k_idx k /\ fst st = k_reading k /\
  Forall (glyph u) (k_line k) /\ (k_idx k <= length (k_line k))%nat /\ fit (v ++ k_line k) /\ Forall fit (k_done k) /\
  (k_reading k = true -> d_had (snd st) = false) /\ (k_reading k = false -> k_line k = []) /\
  broad_screen u w v y0 k s /\ same_above y0 s0 s.

Lemma col_right b i : Forall (glyph u) b -> (i <= length b)%nat ->
  Z.max 0 (columns u v + columns u b - Z.of_nat (length b - i)) = columns u (v ++ firstn i b) + doubles u (skipn i b).
Proof.
  intros F I. rewrite (columns_app u U1 T). rewrite <- (firstn_skipn i b) at 1. rewrite (columns_app u U1 T).
  assert (F2 : Forall (glyph u) (skipn i b)) by (rewrite <- (firstn_skipn i b) in F; apply Forall_app in F; apply F).
  assert (E : columns u (skipn i b) = Z.of_nat (length b - i) + doubles u (skipn i b)).
  { rewrite <- (skipn_length i b). clear - F2 U1 T. induction (skipn i b) as [|r l IH]; [reflexivity|]. inversion F2 as [|? ? G F3]; subst.
    specialize (IH F3). unfold columns, doubles, cells_all in *. cbn [flat_map length filter]. rewrite app_length, (cells_len u U1 T) by now right.
    destruct G as (_ & _ & G). destruct G as [G|G]; rewrite G; cbn [Nat.eqb length]; lia. }
  rewrite E. assert (0 <= columns u v) by (unfold columns; lia). assert (0 <= columns u (firstn i b)) by (unfold columns; lia).
  assert (0 <= doubles u (skipn i b)) by (unfold doubles; lia). lia.
Qed.

Lemma bagrees_ready y0 k st s0 s : bagrees y0 k st s0 s -> row_ready (snd st) (y0 + Z.of_nat (length (k_done k))) s.
Proof.
  intros (S & B & I & R & F & L & Ft & Fd & H & N & (_ & Sc) & _). cbn zeta in Sc. unfold row_ready. rewrite (bt_width _ S). destruct (k_reading k) eqn:E.
  - rewrite (H eq_refl). destruct Sc as (_ & A1 & A2 & A3 & _). split; [exact A3|]. split; [exact A1|discriminate].
  - apply free_end in Sc. pose proof Sc as (A1 & A2 & _). auto.
Qed.

Lemma bstep y0 k st s0 s e k' : bagrees y0 k st s0 s -> olooks (narrow_u u) v k e k' -> Forall fit (k_done k') ->
  (forall b i, e = ODraw (VLine b i) -> fit (v ++ b)) ->
  exists st' o, ostep u st e = Ok (st', o) /\ bagrees y0 k' st' s0 (sexecs u w s o).
Proof.
  intros A K Fd' Fl. pose proof (bagrees_ready _ _ _ _ _ A) as R.
  destruct A as (S & B & I & Rd & F & L & Ft & Fd & H & N & (St & Sc) & Ab). destruct st as [reading d]. cbn [fst snd] in *. cbn zeta in Sc.
  set (y1 := y0 + Z.of_nat (length (k_done k))) in *.
  assert (Hy : y0 <= y1) by (unfold y1; lia).
  assert (Hh : y0 + height w (map (cells_all u) (k_done k)) = y1) by (unfold y1; now rewrite (height_count _ Fd)).
  assert (D : one_row u ps d) by (apply static_row0; [exact S|now rewrite B|now rewrite B, I|now rewrite B]).
  (* one redraw of the line *)
  assert (Dr : forall b i, Forall (glyph u) b -> (i <= length b)%nat -> fit (v ++ b) ->
    exists o, refresh u d b i [] = Ok (with_had false (with_line b i d), o) /\
      row_shown u ps (with_line b i d) y1 (sexecs u w s o) /\
      s_col (sexecs u w s o) = Z.max 0 (columns u v + columns u b - Z.of_nat (length b - i)) /\
      same_above y1 s (sexecs u w s o)).
  { intros b i Fb Ib Fi. destruct (row_refresh u U1 T ps d b i y1 s D) as (o & X1 & X2 & X3 & X4).
    - pose proof (static_row d b i (d_had d) S Fb Ib Fi) as X. destruct d; exact X.
    - exact R.
    - rewrite (bt_width _ S) in *. exists o. auto. }
  assert (Keep : forall s', same_above y1 s s' -> stacked w y0 (map (cells_all u) (k_done k)) s').
  { intros s' X. apply (stacked_above w _ _ s); [now rewrite Hh|exact St]. }
  assert (Abv : forall s', same_above y1 s s' -> same_above y0 s0 s').
  { intros s' X. eapply same_above_trans; [exact Ab|]. intros a c Q. apply X. lia. }
  (* the line redrawn *)
  assert (Line : forall b i rd, Forall (glyph u) b -> (i <= length b)%nat -> fit (v ++ b) -> rd = true ->
    exists o, refresh u d b i [] = Ok (with_had false (with_line b i d), o) /\
      bagrees y0 {| k_done := k_done k; k_line := b; k_idx := i; k_reading := true |} (rd, with_had false (with_line b i d)) s0 (sexecs u w s o)).
  { intros b i rd Fb Ib Fi ->. destruct (Dr b i Fb Ib Fi) as (o & X1 & (X2 & X3 & X4 & X5) & X6 & X7). exists o. split; [exact X1|].
    unfold bagrees. cbn [fst snd k_line k_idx k_reading k_done]. split; [now apply bstatic_line|].
    cbn. repeat (split; [first [assumption|reflexivity|discriminate]|]). split; [|now apply Abv].
    split; [now apply Keep|]. cbn [k_reading k_done k_line k_idx]. cbn zeta. fold y1. cbn in X2. rewrite (bt_width _ S) in X2. fold v in X2.
    repeat (split; [assumption|]). rewrite X6. now apply col_right. }
  (* the line written with a line feed at its end *)
  assert (Feed : forall d1 s1 hint, bstatic d1 -> row_ready d1 y1 s1 -> same_above y1 s s1 -> d_buf d1 = k_line k -> (d_idx d1 <= length (d_buf d1))%nat ->
      Forall (glyph u) hint -> fit (v ++ k_line k ++ hint) ->
    exists d2 o, refresh u d1 (d_buf d1 ++ hint ++ [10]) (length (d_buf d1 ++ hint ++ [10])) [] = Ok (d2, o) /\
      bagrees y0 {| k_done := k_done k ++ [v ++ k_line k ++ hint]; k_line := []; k_idx := 0; k_reading := false |} (false, with_line [] 0 d2) s0 (sexecs u w s1 o)).
  { intros d1 s1 hint S1 R1 Ab1 B1 I1 Fh Fth.
    assert (D1 : one_row u ps d1) by (apply static_row0; [exact S1|now rewrite B1|exact I1|now rewrite B1]).
    unfold refresh. rewrite (bt_inter _ S1). cbn [negb].
    destruct (row_clean u U1 T ps d1 y1 s1 D1 R1) as (o2 & C1 & C2 & C3). rewrite (bt_width _ S1) in C2, C3. apply free_end in C2.
    rewrite C1. cbn [obind fst snd]. set (bb := d_buf d1 ++ hint ++ [10]).
    assert (Eb : bb = (k_line k ++ hint) ++ [10]) by (unfold bb; now rewrite B1, app_assoc).
    set (d2 := with_line bb (length bb) (with_had true d1)).
    assert (S2 : bstatic d2) by apply (bstatic_line d1 bb (length bb) true S1).
    destruct (broad_submits d2 (k_line k ++ hint) y1 (sexecs u w s1 o2) S2) as (o3 & P1 & P2 & P3 & P4).
    { exact Eb. }
    { cbn. now rewrite Eb. }
    { apply Forall_app. now split. }
    { exact Fth. }
    { exact C2. }
    unfold print. rewrite P1. cbn [obind fst snd app]. eexists _, _. split; [reflexivity|].
    rewrite !sexecs_app. set (s3 := sexecs u w (sexecs u w s1 o2) o3) in *.
    assert (Ab3 : same_above y1 s s3) by (eapply same_above_trans; [exact Ab1|]; eapply same_above_trans; [exact C3|exact P4]).
    unfold bagrees. cbn [fst snd k_line k_idx k_reading k_done].
    split; [apply (bstatic_line (with_had false d2) [] 0 false); now apply (bstatic_line d2 (d_buf d2) (d_idx d2) false)|].
    cbn. repeat (split; [first [reflexivity|apply Forall_nil|apply le_n|discriminate]|]).
    split; [rewrite app_nil_r; unfold fit; lia|]. split; [apply Forall_app; split; [exact Fd|constructor; [exact Fth|constructor]]|].
    repeat (split; [first [reflexivity|discriminate]|]). split; [|now apply Abv]. split.
    - cbn [k_done]. rewrite map_app. apply stacked_app. rewrite Hh. split; [now apply Keep|exact P2].
    - cbn [k_done k_reading]. rewrite app_length. cbn [length]. replace (y0 + Z.of_nat (length (k_done k) + 1)) with (y1 + 1) by (unfold y1; lia). exact P3. }
  inversion K as [? e0 ? Lk|?|? hint Rd' Fh|? Rd' Ln]; subst; clear K.
  - inversion Lk; subst; clear Lk; cbn [ostep dstep].
    + (* VRead *)
      destruct (Line (d_buf d) (d_idx d) true ltac:(now rewrite B) ltac:(now rewrite B, I) ltac:(now rewrite B) eq_refl) as (o & X1 & X2).
      rewrite X1. cbn [obind fst snd]. eexists _, o. split; [reflexivity|]. rewrite B, I in *. exact X2.
    + (* VLine *)
      match goal with X : Forall _ b |- _ => apply narrow_all in X end.
      destruct (Line b i (k_reading k)) as (o & X1 & X2); [assumption|assumption|now apply (Fl b i)|assumption|].
      rewrite X1. cbn [obind fst snd]. eexists _, o. split; [reflexivity|exact X2].
    + (* VSubmit *)
      match goal with X : Forall _ hint |- _ => apply narrow_all in X; rename X into Fh end.
      cbn [k_done] in Fd'. apply Forall_app in Fd'. destruct Fd' as (_ & Fd'). inversion Fd' as [|? ? Fth _]; subst.
      destruct (Dr (d_buf d) (length (d_buf d)) ltac:(now rewrite B) ltac:(lia) ltac:(now rewrite B)) as (o1 & X1 & (X2 & X3 & X4 & X5) & X6 & X7).
      unfold submit. rewrite X1. cbn [obind fst snd].
      set (d1 := with_had false (with_line (d_buf d) (length (d_buf d)) d)) in *.
      destruct (Feed d1 (sexecs u w s o1) hint) as (d2 & o2 & Y1 & Y2); [now apply bstatic_line|split; [exact X5|split; [exact X3|discriminate]]|exact X7|exact B|apply le_n|exact Fh|exact Fth|].
      change (d_buf d) with (d_buf d1). rewrite Y1. cbn [obind fst snd]. eexists _, _. split; [reflexivity|]. rewrite sexecs_app. exact Y2.
    + (* VUnique *)
      destruct (Dr (d_buf d) (length (d_buf d)) ltac:(now rewrite B) ltac:(lia) ltac:(now rewrite B)) as (o1 & X1 & (X2 & X3 & X4 & X5) & X6 & X7).
      unfold submit_unique. rewrite X1. cbn [obind fst snd].
      set (d1 := with_had false (with_line (d_buf d) (length (d_buf d)) d)) in *.
      assert (S1 : bstatic d1) by now apply bstatic_line.
      assert (D1 : one_row u ps d1) by (apply static_row; [exact S|now rewrite B|lia|now rewrite B]).
      destruct (row_clean u U1 T ps d1 y1 (sexecs u w s o1) D1) as (o2 & C1 & C2 & C3); [split; [exact X5|split; [exact X3|discriminate]]|].
      rewrite (bt_width _ S1) in C2, C3. apply free_end in C2. rewrite C1. cbn [obind fst snd]. eexists _, _. split; [reflexivity|].
      rewrite !sexecs_app. set (s3 := sexecs u w (sexecs u w s o1) o2) in *.
      assert (Ab3 : same_above y1 s s3) by (eapply same_above_trans; [exact X7|exact C3]).
      unfold bagrees. cbn [fst snd k_line k_idx k_reading k_done].
      split; [apply (bstatic_line (with_had true d1) [] 0 true); now apply (bstatic_line d1 (d_buf d1) (d_idx d1) true)|].
      cbn. repeat (split; [first [reflexivity|apply Forall_nil|apply le_n|discriminate]|]).
      split; [rewrite app_nil_r; unfold fit; lia|]. split; [exact Fd|].
      repeat (split; [first [reflexivity|discriminate]|]). split; [|now apply Abv]. split; [now apply Keep|exact C2].
    + (* VOut *)
      match goal with X : Forall _ ls |- _ => rename X into Fls end.
      cbn [k_done] in Fd'. pose proof Fd' as Fd2. apply Forall_app in Fd2. destruct Fd2 as (_ & Fd2).
      assert (Fg : Forall (fun l => Forall (glyph u) l /\ fit l) ls).
      { apply Forall_forall. intros l Il. rewrite Forall_forall in Fls, Fd2. split; [apply narrow_all, Fls, Il|apply Fd2, Il]. }
      destruct (k_reading k) eqn:Ek.
      * destruct (row_clean u U1 T ps d y1 s D R) as (o1 & C1 & C2 & C3). rewrite (bt_width _ S) in C2, C3. apply free_end in C2.
        unfold refresh. rewrite (bt_inter _ S). cbn [negb]. rewrite C1. cbn [obind fst snd].
        destruct (bprint_lines ls y1 (sexecs u w s o1) Fg C2) as (P1 & P2 & P3).
        set (s2 := sexecs u w (sexecs u w s o1) _) in *.
        set (d2 := with_line (d_buf d) (d_idx d) (with_had true d)).
        assert (D2 : one_row u ps d2) by (apply (static_row d (d_buf d) (d_idx d) true S); [now rewrite B|now rewrite B, I|now rewrite B]).
        destruct (row_output u U1 T ps d2 (y1 + Z.of_nat (length ls)) s2 D2) as (o2 & Q1 & (Q2 & Q3 & Q4 & Q5) & Q6 & Q7).
        { cbn. rewrite (bt_width _ S). now apply free_end. }
        unfold print. rewrite Q1. cbn [obind fst snd]. eexists _, _. split; [reflexivity|].
        replace (d_width d2) with w in * by (symmetry; apply S).
        rewrite !sexecs_app. fold s2. set (s3 := sexecs u w s2 o2) in *.
        assert (Ab3 : same_above y1 s s3).
        { eapply same_above_trans; [exact C3|]. eapply same_above_trans; [exact P3|].
          intros a c Q. apply Q7. lia. }
        unfold bagrees. cbn [fst snd k_line k_idx k_reading k_done].
        split; [apply (bstatic_line d (d_buf d) (d_idx d) false S)|]. cbn.
        repeat (split; [first [assumption|congruence|reflexivity]|]). split; [|now apply Abv]. split.
        -- cbn [k_done]. rewrite map_app. apply stacked_app. rewrite Hh. split; [now apply Keep|].
           apply (stacked_above w _ _ s2); [|exact P1]. rewrite height_count; [exact Q7|exact Fd2].
        -- cbn [k_done k_reading k_line k_idx]. cbn zeta. rewrite app_length, Nat2Z.inj_add, Z.add_assoc. fold y1. cbn in Q2. fold v in Q2. rewrite B in Q2.
           repeat (split; [assumption|]). rewrite Q6. unfold end_col. cbn. fold v. rewrite B, I. now apply col_right.
      * apply (fun x => x) in Sc. eexists _, _. split; [reflexivity|].
        destruct (bprint_lines ls y1 s Fg Sc) as (P1 & P2 & P3). set (s2 := sexecs u w s _) in *.
        unfold bagrees. cbn [fst snd k_line k_idx k_reading k_done].
        repeat (split; [first [assumption|congruence|reflexivity]|]). split; [|now apply Abv]. split.
        -- cbn [k_done]. rewrite map_app. apply stacked_app. rewrite Hh. split; [now apply Keep|exact P1].
        -- cbn [k_done k_reading k_line k_idx]. cbn zeta. rewrite app_length, Nat2Z.inj_add, Z.add_assoc. fold y1. exact P2.
  - (* OBell *)
    eexists _, [7]. split; [reflexivity|].
    assert (E : sexecs u w s [7] = s). { unfold sexecs. cbn [fold_left]. unfold sexec. rewrite (proj1 R). reflexivity. }
    rewrite E. unfold bagrees. cbn [fst snd]. repeat (split; [first [assumption|reflexivity]|]). split; [split; [exact St|exact Sc]|exact Ab].
  - (* OEof *)
    apply narrow_all in Fh. cbn [k_done] in Fd'. apply Forall_app in Fd'. destruct Fd' as (_ & Fd'). inversion Fd' as [|? ? Fth _]; subst.
    destruct (Feed d s hint S R (same_above_refl _ _) B ltac:(now rewrite B, I) Fh Fth) as (d2 & o2 & Y1 & Y2).
    cbn [ostep snd]. unfold eof_draw. rewrite Y1. cbn [obind fst snd]. eexists _, _. split; [reflexivity|exact Y2].
  - (* OClean *)
    destruct (row_clean u U1 T ps d y1 s D R) as (o2 & C1 & C2 & C3). rewrite (bt_width _ S) in C2, C3. apply free_end in C2.
    assert (Ed : with_line [] 0 d = d).
    { rewrite Ln in L, B. cbn in L. assert (I0 : d_idx d = 0%nat) by lia. clear - B I0. unfold with_line. destruct d; cbn in *. congruence. }
    cbn [ostep snd]. rewrite Ed, C1. cbn [obind fst snd]. eexists _, _. split; [reflexivity|].
    unfold bagrees. cbn [fst snd k_line k_idx k_reading k_done].
    split; [pose proof (bstatic_line d (d_buf d) (d_idx d) true S) as X; destruct d; exact X|].
    split; [cbn; congruence|]. split; [cbn; rewrite I; rewrite Ln in L; cbn in L; lia|].
    repeat (split; [first [reflexivity|apply Forall_nil|apply le_n|discriminate|now rewrite Ln in Ft|assumption]|]). split; [|now apply Abv].
    split; [now apply Keep|exact C2].
Qed.

Lemma olooks_grow k e k' : olooks (narrow_u u) v k e k' -> exists t, k_done k' = k_done k ++ t.
Proof.
  intros K. inversion K as [? ? ? L| | |]; subst; clear K; [inversion L; subst; clear L| | |]; cbn [k_done]; eauto; exists []; now rewrite app_nil_r.
Qed.
Lemma olooks_grows es : forall k k', olooks_all (narrow_u u) v k es k' -> exists t, k_done k' = k_done k ++ t.
Proof.
  induction es as [|e es IH]; intros k k' K; inversion K; subst; [exists []; now rewrite app_nil_r|].
  destruct (olooks_grow _ _ _ H2) as (t1 & E1). destruct (IH _ _ H4) as (t2 & E2). exists (t1 ++ t2). now rewrite E2, E1, app_assoc.
Qed.

Lemma brun es : forall y0 k st s0 s k', bagrees y0 k st s0 s -> olooks_all (narrow_u u) v k es k' -> Forall fit (k_done k') ->
  (forall b i, In (ODraw (VLine b i)) es -> fit (v ++ b)) ->
  exists st' o, orun u st es = Ok (st', o) /\ bagrees y0 k' st' s0 (sexecs u w s o).
Proof.
  induction es as [|e es IH]; intros y0 k st s0 s k' A K Fd Fl; inversion K; subst; cbn [orun].
  - eexists _, _. split; [reflexivity|exact A].
  - destruct (olooks_grows _ _ _ H4) as (t & Et). rewrite Et in Fd. pose proof Fd as Fd1. apply Forall_app in Fd1. destruct Fd1 as (Fd1 & _).
    destruct (bstep _ _ _ _ _ _ _ A H2 Fd1) as (st1 & o1 & E1 & A1); [intros b i ->; apply (Fl b i); now left|]. rewrite E1. cbn [obind fst snd].
    rewrite <- Et in Fd. destruct (IH _ _ _ _ _ _ A1 H4 Fd) as (st2 & o2 & E2 & A2); [intros b i Ii; apply (Fl b i); now right|]. rewrite E2. cbn [obind fst snd].
    eexists _, _. split; [reflexivity|]. now rewrite sexecs_app.
Qed.
End Draw.

(** ** Sessions *)
Section Sess.
Variable cf : ocfg.
Notation u := (oc_u cf).
Notation w := (oc_w cf).
Notation cf' := (set_u (narrow_u u) cf).
Hypothesis C : broad_session cf.
Hypothesis U : uenv_ok u.
Hypothesis T : (1 <= u_tab u)%nat.
Hypothesis W : 0 < w <= 9223372036854775807.
Variable ps : list piece.
Let v := visible ps.
Hypothesis PD : Forall sgr_digits ps.
Hypothesis PV : Forall (glyph u) v.
Hypothesis PS : columns u v + 1 < w.
Notation bagrees := (bagrees u w ps).

Lemma broad_plain : plain_session cf'.
Proof.
  destruct C. constructor; cbn; [now apply narrow_all|now apply narrow_all|]. intros f l i r l' p E. congruence.
Qed.
Lemma broad_at o : broad_prompt cf o -> at_prompt cf' o.
Proof. intros []. constructor; cbn; try assumption; [now apply narrow_all|now apply narrow_all|now apply narrow_hist]. Qed.
Lemma at_broad o : at_prompt cf' o -> o_vp o = None -> broad_prompt cf o.
Proof. intros [] V. constructor; cbn in *; try assumption; [now apply narrow_all|now apply narrow_all|now apply narrow_hist]. Qed.
Lemma broad_idle o : broad_prompt cf o -> idle o.
Proof. intros []. constructor; assumption. Qed.
Lemma broad_plain_key r : broad_key cf r -> plain_key cf r.
Proof.
  intros K. split.
  - destruct K as [(K & K2 & _)|[K|[K|[K _]]]]; intros X; vm_compute in X; repeat destruct X as [X|X]; subst; try lia; try discriminate; try tauto;
    vm_compute in K; repeat destruct K as [K|K]; try discriminate; tauto.
  - intros ->. destruct K as [(K & _)|[K|[K|[_ K]]]]; [unfold CharTab in K; lia|vm_compute in K; repeat destruct K as [K|K]; try discriminate; tauto|discriminate K|exact K].
Qed.
Lemma broad_pipe_key r : broad_key cf r -> pipe_key cf r.
Proof. intros K r' E. rewrite (bs_filter _ C) in E. injection E as <-. now apply broad_plain_key. Qed.
Lemma broad_may o r : broad_prompt cf o -> broad_key cf r -> ~ trips cf o r -> (oc_unique cf = true -> r <> CharInterrupt) -> may_press cf' o r.
Proof.
  intros A K N Q. unfold may_press. rewrite (bp_vp _ _ A). cbn [oc_filter oc_vim oc_unique set_u]. rewrite (bs_filter _ C). intros r' E. injection E as <-.
  split; [exact N|]. split; [exact Q|]. rewrite (bs_vim _ C). cbn [andb]. left. unfold prompt_key. cbn [oc_u oc_auto set_u].
  destruct K as [K|K]; [left; now apply narrow_plain|now right].
Qed.

Lemma broad_case o r o' acts done : broad_prompt cf o -> broad_key cf r -> ~ trips cf o r -> (oc_unique cf = true -> r <> CharInterrupt) ->
  op_step cf r o = Ok (o', acts) ->
  broad_prompt cf o' /\ exists es, key_draws cf r o = Ok es /\ olooks_all (narrow_u u) v (look_of done o []) es (look_of (done ++ flat_map (text_of cf v) acts) o' acts) /\
    forall b i, In (ODraw (VLine b i)) es -> b = rb_buf (o_b o) \/ b = rb_buf (o_b o').
Proof.
  intros A K N Q E. pose proof (broad_idle o A) as D. pose proof (broad_may o r A K N Q) as M.
  assert (E' : op_step cf' r o = Ok (o', acts)) by (rewrite (step_u cf (bs_vim _ C) (narrow_u u) r o D (broad_pipe_key r K)); exact E).
  destruct (key_case cf' broad_plain v o r o' acts done (broad_at o A) M E') as (A1 & es & D1 & L1).
  pose proof D1 as D2. rewrite (draws_u cf (bs_vim _ C) (narrow_u u) r o D (bs_filter _ C) (broad_plain_key r K)) in D2.
  assert (D' : idle o').
  { apply (key_rings cf (bs_vim _ C) r o o' acts D (broad_pipe_key r K) E). }
  split; [apply at_broad; [exact A1|apply D']|]. exists es. split; [exact D2|]. split; [exact L1|].
  intros b i I. apply (key_lines cf' v o r o' acts es b i broad_plain (bs_listen _ C) (broad_at o A) M E' D1 I).
Qed.

Lemma broad_agrees is : forall o reading done st y0 s0 s t o' acts, broad_prompt cf o -> one_line cf (v ++ rb_buf (o_b o)) -> broad_turn cf v is o reading ->
  broad_leaves cf v is o t o' acts ->
  bagrees y0 {| k_done := done; k_line := rb_buf (o_b o); k_idx := rb_idx (o_b o); k_reading := reading |} st s0 s ->
  exists st' out, ses_run cf (o, st) is = Ok ((o', st'), out, acts) /\ broad_prompt cf o' /\
    bagrees y0 {| k_done := done ++ t; k_line := rb_buf (o_b o'); k_idx := rb_idx (o_b o'); k_reading := fst st' |} st' s0 (sexecs u w s out).
Proof.
  induction is as [|i is IH]; intros o reading done st y0 s0 s t o' acts A F Tn L G; inversion L; subst; clear L.
  - exists st, []. cbn [ses_run]. split; [reflexivity|]. split; [exact A|]. rewrite app_nil_r.
    assert (R : fst st = reading) by apply G. rewrite R. exact G.
  - match goal with H : broad_leaves _ _ is _ _ _ _ |- _ => rename H into HL end. destruct Tn as (-> & Tn).
    assert (Fd : Forall (fit u w) done) by apply G.
    destruct (bstep u U T w W ps PD PV PS y0 _ st s0 s (ODraw VRead) _ G (OLDraw _ _ _ _ _ (LRead _ _ _)) Fd ltac:(discriminate))
      as (st1 & o1 & E1 & G1). cbn [ses_run ses_step]. rewrite E1. cbn [obind fst snd].
    destruct (IH o true done st1 y0 s0 _ t o' acts A F Tn HL G1) as (st' & out & E2 & A2 & G2). rewrite E2. cbn [obind].
    eexists _, _. split; [reflexivity|]. split; [exact A2|]. now rewrite sexecs_app.
  - match goal with H : broad_leaves _ _ is _ _ _ _ |- _ => rename H into HL end.
    match goal with H : Forall _ ls |- _ => rename H into HF end. destruct Tn as (_ & Tn).
    assert (Fd : Forall (fit u w) done) by apply G.
    assert (HF1 : Forall (Forall (RenderSpec.plain (narrow_u u))) ls) by (eapply Forall_impl; [|exact HF]; intros l (X & _); now apply narrow_all).
    assert (HF2 : Forall (fit u w) ls) by (eapply Forall_impl; [|exact HF]; intros l (_ & X); exact X).
    destruct (bstep u U T w W ps PD PV PS y0 _ st s0 s (ODraw (VOut (flat_map (fun l => l ++ [10]) ls))) _ G
      (OLDraw _ _ _ _ _ (LOut _ _ _ ls HF1))) as (st1 & o1 & E1 & G1); [cbn [k_done]; apply Forall_app; now split|discriminate|]. cbn [ses_run ses_step]. rewrite E1. cbn [obind fst snd].
    destruct (IH o reading (done ++ ls) st1 y0 s0 _ t0 o' acts A F Tn HL G1) as (st' & out & E2 & A2 & G2). rewrite E2. cbn [obind].
    eexists _, _. split; [reflexivity|]. split; [exact A2|]. rewrite sexecs_app, app_assoc. exact G2.
  - match goal with H : broad_leaves _ _ is _ _ _ _ |- _ => rename H into HL end.
    match goal with H : op_step _ _ _ = _ |- _ => rename H into HS end. destruct Tn as (-> & K & N & Q & Tn). destruct (Tn o1 a1 HS) as (F1 & Ft & T1).
    destruct (broad_case o r o1 a1 done A K N Q HS) as (A1 & es & D & Lk & Ln).
    assert (Fd : Forall (fit u w) done) by apply G.
    destruct (brun u U T w W ps PD PV PS es y0 _ st s0 s _ G Lk) as (st1 & out1 & E1 & G1).
    { cbn [look_of k_done]. apply Forall_app. split; [exact Fd|exact Ft]. }
    { intros b i I. destruct (Ln b i I) as [->| ->]; assumption. }
    cbn [ses_run ses_step]. rewrite D. cbn [obind]. rewrite E1. cbn [obind]. rewrite HS. cbn [obind fst snd].
    destruct (IH o1 _ _ st1 y0 s0 _ t0 o' acts0 A1 F1 T1 HL G1) as (st' & out & E2 & A2 & G2). rewrite E2. cbn [obind].
    eexists _, _. split; [reflexivity|]. split; [exact A2|]. rewrite sexecs_app, app_assoc. exact G2.
Qed.
End Sess.
