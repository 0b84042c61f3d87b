From Verif Require Import Base ListAux RunesModel RunesSpec RunesProofs Utf8Model Utf8Spec Utf8Proofs
  HistoryModel HistorySpec HistoryProofs.
From Coq Require Import ZifyBool Permutation.
Open Scope nat_scope.

Lemma nth_error_split_rev {A} (l : list A) p x : nth_error l p = Some x ->
  exists a b, l = rev a ++ x :: b /\ length a = p.
Proof.
  intros H. apply nth_error_split in H. destruct H as (l1 & l2 & -> & L).
  exists (rev l1), l2. rewrite rev_involutive, rev_length. auto.
Qed.

Lemma zip_split h l x r : hwf h -> h_items h = rev l ++ x :: r ->
  split_at_id (it_id x) [] (h_items h) = Some (l, x, r).
Proof.
  intros W I. pose proof (nodup_items h W) as ND. rewrite I in *. now apply split_at_id_app.
Qed.

Lemma Prev_spec h p : hwf h -> cur_at h p ->
  match p with
  | 0 => Prev h = Ok (None, h)
  | S q => exists y, nth_error (h_items h) q = Some y /\
      Prev h = Ok (Some (showItem h y), set_cur (Some (it_id y)) h)
  end.
Proof.
  intros W (x & N & C). destruct (nth_error_split_rev _ _ _ N) as (a & b & I & L).
  unfold Prev. rewrite C. unfold older. rewrite (zip_split h a x b W I).
  destruct a as [|y a]; destruct p as [|q]; cbn in L; try discriminate; [reflexivity|].
  exists y. split; [|reflexivity]. rewrite I. cbn. rewrite <- app_assoc.
  rewrite nth_error_app2 by (rewrite rev_length; lia). rewrite rev_length.
  replace (q - length a) with 0 by lia. reflexivity.
Qed.

Lemma Next_spec h p : hwf h -> cur_at h p ->
  match nth_error (h_items h) (S p) with
  | None => Next h = Ok (None, h)
  | Some y => Next h = Ok (Some (showItem h y), set_cur (Some (it_id y)) h)
  end.
Proof.
  intros W (x & N & C). destruct (nth_error_split_rev _ _ _ N) as (a & b & I & L).
  unfold Next. rewrite C. unfold newer. rewrite (zip_split h a x b W I).
  rewrite I. rewrite nth_error_app2 by (rewrite rev_length; lia). rewrite rev_length.
  replace (S p - length a) with 1 by lia. cbn.
  destruct b as [|y b]; reflexivity.
Qed.

Lemma cur_at_in h p : cur_at h p -> p < length (h_items h).
Proof. intros (x & N & _). apply nth_error_Some. congruence. Qed.

Lemma cur_at_set h q y : nth_error (h_items h) q = Some y -> cur_at (set_cur (Some (it_id y)) h) q.
Proof. intros N. exists y. auto. Qed.

Lemma hwf_set_nth h q y : hwf h -> nth_error (h_items h) q = Some y -> hwf (set_cur (Some (it_id y)) h).
Proof.
  intros W N. apply hwf_set_cur; [exact W|]. unfold elems. rewrite map_app, in_app_iff. left.
  apply in_map. now apply nth_error_In in N.
Qed.

(** k times Prev, k times Next, without the updates of the loop *)
Lemma ups_downs c k h p : hwf h -> cur_at h p -> k <= p ->
  exists h1, run_hcalls c (repeat HPrev k) h = Ok h1 /\ run_hcalls c (repeat HNext k) h1 = Ok h.
Proof.
  revert h p. induction k as [|k IH]; intros h p W A L.
  - exists h. auto.
  - destruct p as [|q]; [lia|]. pose proof (Prev_spec h (S q) W A) as (y & N & E).
    set (h' := set_cur (Some (it_id y)) h) in *.
    assert (W' : hwf h') by (eapply hwf_set_nth; eauto).
    assert (A' : cur_at h' q) by now apply cur_at_set.
    destruct (IH h' q W' A' ltac:(lia)) as (h1 & E1 & E2).
    exists h1. split.
    + cbn [repeat run_hcalls run_hcall]. rewrite E. cbn. exact E1.
    + replace (S k) with (k + 1) by lia. rewrite repeat_app.
      assert (R : forall a b g, run_hcalls c (a ++ b) g = (g' <- run_hcalls c a g ;; run_hcalls c b g')).
      { induction a as [|z a IHa]; intros b g; cbn; [reflexivity|].
        destruct (run_hcall c z g); cbn; auto. }
      rewrite R, E2. cbn [obind repeat run_hcalls run_hcall].
      pose proof (Next_spec h' q W' A') as X. destruct A as (x & NX & CX).
      change (h_items h') with (h_items h) in X. rewrite NX in X. rewrite X. cbn [obind snd]. f_equal.
      destruct h. cbn in *. unfold set_cur. cbn. f_equal. congruence.
Qed.

Lemma showItem_ext h h' x : h_ver h' = h_ver h -> showItem h' x = showItem h x.
Proof. intros E. unfold showItem. now rewrite E. Qed.

Lemma Update_false_exact c s h id : hwf h -> h_cur h = Some id -> length (h_items h) <= keep c ->
  exists h', Update c s false h = Ok h' /\ hwf h' /\ h_cur h' = Some id /\ h_ver h' = h_ver h /\
   h_items h' = map_item id (fun x => {| it_id := it_id x; it_src := it_src x; it_ver := h_ver h; it_tmp := s |}) (h_items h).
Proof.
  intros W C L. destruct (Update_ok c s false h W) as (h' & E & W' & _). exists h'.
  split; [exact E|]. split; [exact W'|]. unfold Update in E. rewrite C in E.
  destruct (hwf_cur h id W C) as (x & D & _). rewrite D in E. cbn [obind] in E. injection E as <-.
  match goal with |- context[Compact c ?g] => destruct (Compact_rest c g) as (R1 & R2 & _) end.
  rewrite R1, R2, Compact_items. split; [exact C|]. split; [reflexivity|]. cbn [modify set_lists h_items].
  apply lastn_all. unfold map_item. rewrite map_length. exact L.
Qed.

Lemma Update_false_view c h p t : hwf h -> cur_at h p -> length (h_items h) <= keep c -> shown_at h p = Some t ->
  exists h', Update c t false h = Ok h' /\ hwf h' /\ h_cur h' = h_cur h /\ view h' = view h.
Proof.
  intros W (x & N & C) L ST. destruct (Update_false_exact c t h _ W C L) as (h' & E & W' & C' & V' & I').
  exists h'. split; [exact E|]. split; [exact W'|]. split; [congruence|].
  unfold view. rewrite I'. unfold map_item. rewrite map_map. apply map_ext_in. intros y IY.
  destruct (Nat.eqb_spec (it_id y) (it_id x)) as [Q|Q].
  - assert (y = x).
    { pose proof (nodup_items h W) as ND. apply nth_error_In in N.
      pose proof (find_item_unique _ _ ND IY) as F1. pose proof (find_item_unique _ _ ND N) as F2. congruence. }
    subst y. unfold shown_at in ST. rewrite N in ST. cbn in ST. injection ST as <-.
    cbn [it_id it_src]. f_equal. unfold showItem at 1. cbn [it_ver it_tmp]. now rewrite V', Nat.eqb_refl.
  - f_equal. now apply showItem_ext.
Qed.

Lemma view_items h h' : view h' = view h -> map it_id (h_items h') = map it_id (h_items h) /\
  (forall p, shown_at h' p = shown_at h p) /\ (forall p, h_cur h' = h_cur h -> cur_at h p -> cur_at h' p) /\
  length (h_items h') = length (h_items h).
Proof.
  intros V.
  assert (A : map it_id (h_items h') = map it_id (h_items h)).
  { apply (f_equal (map (fun x => fst (fst x)))) in V. unfold view in V. rewrite !map_map in V. exact V. }
  split; [exact A|]. split; [|split].
  - intros p. apply (f_equal (fun l => nth_error l p)) in V. unfold view in V. rewrite !nth_error_map in V.
    unfold shown_at. destruct (nth_error (h_items h') p), (nth_error (h_items h) p); cbn in *; congruence.
  - intros p C (x & N & CX). apply (f_equal (fun l => nth_error l p)) in A. rewrite !nth_error_map, N in A.
    destruct (nth_error (h_items h') p) as [y|] eqn:Y; [|discriminate]. cbn in A. exists y. split; [exact Y|]. congruence.
  - apply (f_equal (@length _)) in A. now rewrite !map_length in A.
Qed.

(** State of the loop while browsing: entry [p] is current and the buffer shows it. *)
Definition browse_at (h : hist) (buf : list Z) (p : nat) : Prop :=
  hwf h /\ cur_at h p /\ shown_at h p = Some buf.

Lemma press_up_spec c h buf q : browse_at h buf (S q) -> length (h_items h) <= keep c ->
  exists h' buf', press Prev c (h, buf) = Ok (h', buf') /\ browse_at h' buf' q /\ view h' = view h.
Proof.
  intros (W & A & ST) L. destruct (Prev_spec h (S q) W A) as (y & N & E).
  unfold press. cbn [fst snd]. rewrite E. cbn [obind fst snd].
  set (h1 := set_cur (Some (it_id y)) h).
  assert (W1 : hwf h1) by (eapply hwf_set_nth; eauto).
  assert (A1 : cur_at h1 q) by now apply cur_at_set.
  assert (S1 : shown_at h1 q = Some (showItem h y)) by (unfold shown_at; cbn; rewrite N; reflexivity).
  destruct (Update_false_view c h1 q _ W1 A1 L S1) as (h2 & E2 & W2 & C2 & V2). rewrite E2. cbn [obind].
  destruct (view_items _ _ V2) as (_ & VS & VC & _).
  do 2 eexists. split; [reflexivity|]. split; [|exact V2]. split; [exact W2|]. split; [now apply VC|].
  now rewrite VS.
Qed.

Lemma press_down_spec c h buf p : browse_at h buf p -> S p < length (h_items h) -> length (h_items h) <= keep c ->
  exists h' buf', press Next c (h, buf) = Ok (h', buf') /\ browse_at h' buf' (S p) /\ view h' = view h.
Proof.
  intros (W & A & ST) LP L. pose proof (Next_spec h p W A) as E.
  destruct (nth_error (h_items h) (S p)) as [y|] eqn:N; [|apply nth_error_None in N; lia].
  unfold press. cbn [fst snd]. rewrite E. cbn [obind fst snd].
  set (h1 := set_cur (Some (it_id y)) h).
  assert (W1 : hwf h1) by (eapply hwf_set_nth; eauto).
  assert (A1 : cur_at h1 (S p)) by now apply cur_at_set.
  assert (S1 : shown_at h1 (S p) = Some (showItem h y)) by (unfold shown_at; cbn [set_cur h_items h1]; rewrite N; reflexivity).
  destruct (Update_false_view c h1 (S p) _ W1 A1 L S1) as (h2 & E2 & W2 & C2 & V2). rewrite E2. cbn [obind].
  destruct (view_items _ _ V2) as (_ & VS & VC & _).
  do 2 eexists. split; [reflexivity|]. split; [|exact V2]. split; [exact W2|]. split; [now apply VC|].
  now rewrite VS.
Qed.

Lemma presses_up c k h buf p : browse_at h buf p -> k <= p -> length (h_items h) <= keep c ->
  exists h' buf', presses Prev c k (h, buf) = Ok (h', buf') /\ browse_at h' buf' (p - k) /\ view h' = view h.
Proof.
  revert h buf p. induction k as [|k IH]; intros h buf p B L LK.
  - exists h, buf. rewrite Nat.sub_0_r. auto.
  - destruct p as [|q]; [lia|]. destruct (press_up_spec c h buf q B LK) as (h1 & b1 & E1 & B1 & V1).
    destruct (view_items _ _ V1) as (_ & _ & _ & LL).
    destruct (IH h1 b1 q B1 ltac:(lia) ltac:(lia)) as (h2 & b2 & E2 & B2 & V2).
    exists h2, b2. cbn [presses]. rewrite E1. cbn [obind]. split; [exact E2|]. split; [exact B2|]. congruence.
Qed.

Lemma presses_down c k h buf p : browse_at h buf p -> p + k < length (h_items h) -> length (h_items h) <= keep c ->
  exists h' buf', presses Next c k (h, buf) = Ok (h', buf') /\ browse_at h' buf' (p + k) /\ view h' = view h.
Proof.
  revert h buf p. induction k as [|k IH]; intros h buf p B L LK.
  - exists h, buf. rewrite Nat.add_0_r. auto.
  - destruct (press_down_spec c h buf p B ltac:(lia) LK) as (h1 & b1 & E1 & B1 & V1).
    destruct (view_items _ _ V1) as (_ & _ & _ & LL).
    destruct (IH h1 b1 (S p) B1 ltac:(lia) ltac:(lia)) as (h2 & b2 & E2 & B2 & V2).
    exists h2, b2. cbn [presses]. rewrite E1. cbn [obind]. split; [exact E2|].
    replace (p + S k) with (S p + k) by lia. split; [exact B2|]. congruence.
Qed.

Lemma presses_round c k h buf p : browse_at h buf p -> k <= p -> length (h_items h) <= keep c ->
  exists h1 b1 h2, presses Prev c k (h, buf) = Ok (h1, b1) /\ shown_at h (p - k) = Some b1 /\
    presses Next c k (h1, b1) = Ok (h2, buf) /\ view h2 = view h /\ h_cur h2 = h_cur h.
Proof.
  intros B L LK. destruct (presses_up c k h buf p B L LK) as (h1 & b1 & E1 & B1 & V1).
  destruct (view_items _ _ V1) as (_ & VS & _ & LL).
  pose proof (cur_at_in h p (proj1 (proj2 B))) as LP.
  destruct (presses_down c k h1 b1 (p - k) B1 ltac:(lia) ltac:(lia)) as (h2 & b2 & E2 & B2 & V2).
  exists h1, b1, h2. split; [exact E1|]. split; [rewrite <- VS; apply B1|].
  assert (V : view h2 = view h) by congruence.
  destruct (view_items _ _ V) as (VI & VS2 & _ & _).
  replace (p - k + k) with p in B2 by lia.
  assert (b2 = buf).
  { destruct B2 as (_ & _ & X). destruct B as (_ & _ & Y). rewrite VS2 in X. congruence. }
  subst b2. split; [exact E2|]. split; [exact V|].
  destruct B2 as (_ & (x2 & N2 & C2) & _). destruct B as (_ & (x & N & C) & _).
  apply (f_equal (fun l => nth_error l p)) in VI. rewrite !nth_error_map, N, N2 in VI. cbn in VI. congruence.
Qed.

(** Browsing does not change what is recorded *)
Lemma sources_map_item id f l : (forall x, it_id (f x) = it_id x /\ it_src (f x) = it_src x) ->
  map (fun x => (it_id x, it_src x)) (map_item id f l) = map (fun x => (it_id x, it_src x)) l.
Proof.
  intros H. unfold map_item. rewrite map_map. apply map_ext. intros x. destruct (_ =? _); [|reflexivity].
  destruct (H x) as (-> & ->). reflexivity.
Qed.

Lemma browsing_sources c k h h' : (1 <= hc_limit c)%Z -> hwf h -> h_items h <> [] -> browsing k = true -> run_hcall c k h = Ok h' ->
  h_items h' <> [] /\ (sources h' = sources h \/ sources h' = lastn (keep c) (sources h)).
Proof.
  intros Hl W NE B R. destruct k; try discriminate; cbn [run_hcall] in R.
  - destruct commit; [discriminate|]. unfold Update in R. destruct (h_cur h) as [id|] eqn:C.
    + destruct (hwf_cur h id W C) as (x & D & _). rewrite D in R. cbn [obind] in R. injection R as <-.
      unfold sources. rewrite Compact_items. cbn [modify set_lists h_items]. split.
      * intros E. apply (f_equal (@length _)) in E. rewrite lastn_length in E. unfold map_item in E.
        rewrite map_length in E. cbn in E. unfold keep in E. destruct (h_items h); [congruence|]. cbn in E. lia.
      * right. rewrite <- lastn_map. f_equal. apply sources_map_item. auto.
    + pose proof (w_cur h W) as X. rewrite C in X. contradiction.
  - unfold Prev in R. destruct (h_cur h) as [id|]; [|injection R as <-; auto].
    destruct (older id h); injection R as <-; auto.
  - unfold Next in R. destruct (h_cur h) as [id|]; [|injection R as <-; auto].
    destruct (newer id h); injection R as <-; auto.
  - injection R as <-. auto.
  - destruct (find_item id (h_items h)); injection R as <-; auto.
Qed.

Lemma browsing_all_sources c ks h h' : (1 <= hc_limit c)%Z -> hwf h -> h_items h <> [] ->
  forallb browsing ks = true -> run_hcalls c ks h = Ok h' ->
  sources h' = sources h \/ sources h' = lastn (keep c) (sources h).
Proof.
  intros Hl. revert h. induction ks as [|k ks IH]; intros h W NE B R; cbn in *.
  - left. congruence.
  - apply andb_prop in B. destruct B as (B1 & B2).
    destruct (run_hcall c k h) as [h1| |] eqn:R1; try discriminate. cbn in R.
    destruct (run_hcall_ok c k h W) as (h1' & X & W1). rewrite R1 in X. injection X as <-.
    destruct (browsing_sources c k h h1 Hl W NE B1 R1) as (NE1 & S1).
    destruct (IH h1 W1 NE1 B2 R) as [S2|S2]; rewrite S2; destruct S1 as [S1|S1]; rewrite S1; auto.
    right. rewrite lastn_lastn. f_equal. lia.
Qed.

(** Visibility of uncommitted text *)
Lemma shown_unchanged_by_moves h h' r : (Prev h = Ok (r, h') \/ Next h = Ok (r, h')) -> forall id, shown h' id = shown h id.
Proof.
  intros [E|E] id; unfold Prev, Next in E; destruct (h_cur h) as [i|]; try congruence.
  - destruct (older i h); injection E as _ <-; reflexivity.
  - destruct (newer i h); injection E as _ <-; reflexivity.
Qed.

Lemma find_map_item id f l i : (forall x, it_id (f x) = it_id x) ->
  find_item i (map_item id f l) = option_map (fun x => if it_id x =? id then f x else x) (find_item i l).
Proof.
  intros H. induction l as [|x l IH]; cbn; [reflexivity|].
  assert (E : it_id (if it_id x =? id then f x else x) = it_id x) by (destruct (_ =? _); auto).
  rewrite E. destruct (it_id x =? i); [reflexivity|]. exact IH.
Qed.

Lemma shown_after_update c s h p : hwf h -> cur_at h p -> length (h_items h) <= keep c ->
  exists h', Update c s false h = Ok h' /\
    (forall id, shown h' id = if opt_eqb (Some id) (h_cur h) then Some s else shown h id) /\
    sources h' = sources h.
Proof.
  intros W (x & N & C) L. destruct (Update_false_exact c s h _ W C L) as (h' & E & W' & C' & V' & I').
  exists h'. split; [exact E|]. split.
  - intros id. unfold shown. rewrite I'. rewrite find_map_item by reflexivity. rewrite C. cbn [opt_eqb].
    pose proof (nodup_items h W) as ND. apply nth_error_In in N.
    destruct (Nat.eqb_spec id (it_id x)) as [->|Q].
    + rewrite (find_item_unique _ _ ND N). cbn. rewrite Nat.eqb_refl. unfold showItem. cbn.
      now rewrite V', Nat.eqb_refl.
    + destruct (find_item id (h_items h)) as [y|] eqn:F; [|reflexivity]. cbn.
      apply find_item_in in F. destruct F as (_ & <-). destruct (Nat.eqb_spec (it_id y) (it_id x)); [congruence|].
      f_equal. now apply showItem_ext.
  - unfold sources. rewrite I'. now apply sources_map_item.
Qed.

(** After a submission or an abort all entries show their recorded text. *)
Lemma all_recorded h : Forall (fun x => it_ver x < h_ver h) (h_items h) ->
  forall x, In x (h_items h) -> showItem h x = it_src x.
Proof.
  intros F x I. rewrite Forall_forall in F. apply F in I. unfold showItem.
  destruct (Nat.eqb_spec (it_ver x) (h_ver h)); [lia|reflexivity].
Qed.

Lemma fresh_items h : hwf h -> Forall (fun x => it_ver x < S (h_ver h)) (h_items h).
Proof.
  intros W. pose proof (w_ver h W) as V. unfold elems in V. apply Forall_app in V. destruct V as (V & _).
  eapply Forall_impl; [|exact V]. cbn. lia.
Qed.

Lemma shown_after_revert h : hwf h -> forall x, In x (h_items (Revert h)) -> showItem (Revert h) x = it_src x.
Proof. intros W. apply all_recorded. cbn. now apply fresh_items. Qed.

Lemma shown_after_new c s h h' : hwf h -> h_enable h = true -> New c s h = Ok h' ->
  forall x, In x (h_items h') -> showItem h' x = it_src x.
Proof.
  intros W En N. apply all_recorded.
  assert (CB : forall id, Forall (fun x => it_ver x < h_ver (clean_back id h)) (h_items (clean_back id h))).
  { intros id. unfold clean_back. cbn. unfold map_item. apply Forall_map.
    eapply Forall_impl; [|apply (fresh_items h W)]. cbn. intros x H. destruct (_ =? _); exact H. }
  assert (NC : forall g, hwf g -> new_commit c s g = Ok h' -> Forall (fun x => it_ver x < h_ver h') (h_items h')).
  { intros g Wg. unfold new_commit.
    match goal with |- obind ?X _ = _ -> _ => destruct X as [[s' h1]| |] eqn:Q end; cbn [obind]; try discriminate.
    assert (W1 : hwf h1).
    { destruct (opt_eqb _ _); [injection Q as _ <-; exact Wg|].
      destruct (h_cur g) as [id|] eqn:C; [|discriminate].
      destruct (hwf_cur g id Wg C) as (x & D & _). rewrite D in Q. cbn in Q. injection Q as _ <-.
      unfold back_id. destruct (back g) as [b|] eqn:B; cbn [option_map].
      - apply hwf_set_cur; [exact Wg|now apply back_in].
      - apply back_none in B. constructor; cbn; try apply Wg. exact B. }
    destruct (Update_ok c s' true h1 W1) as (h2 & E2 & W2 & _). rewrite E2. cbn [obind]. intros [= <-].
    cbn. apply Forall_app. split; [now apply fresh_items|]. constructor; [cbn; lia|constructor]. }
  unfold New in N. rewrite En in N. cbn [negb] in N.
  match type of N with match ?X with _ => _ end = _ => destruct X as [id|] end; [injection N as <-; auto|].
  destruct (length s =? 0); [|now apply (NC h)].
  destruct (back_id h) eqn:B; [injection N as <-; auto|].
  apply (NC (set_cur None h)); [|exact N]. unfold back_id in B. destruct (back h) eqn:BB; [discriminate|].
  apply back_none in BB. constructor; cbn; try apply W. exact BB.
Qed.

(** Searching *)
Definition occurs (fold : bool) (rs : list Z) (t : list Z) (k : nat) : Prop := occurs_at (same_rune fold) t rs k.

Lemma find_bck_older_spec fold rs h walk :
  nearest (fun t k => forall m, occurs fold rs t m -> m <= k) (occurs fold rs)
    (map (fun x => (it_id x, showItem h x)) walk) (find_bck_older fold rs h walk).
Proof.
  induction walk as [|x walk IH]; cbn [find_bck_older map].
  - cbn. intros. tauto.
  - pose proof (IndexAllBckEx_spec (showItem h x) rs fold) as S. cbn zeta.
    destruct (IndexAllBckEx (showItem h x) rs fold <? 0)%Z eqn:E.
    + destruct S as [(k & S & _)|(S & NO)]; [lia|].
      destruct (find_bck_older fold rs h walk) as [[k id]|]; cbn in *.
      * destruct IH as (b & t & a & m & E1 & E2 & O & B & N).
        exists ((it_id x, showItem h x) :: b), t, a, m. cbn. rewrite E1. split; [reflexivity|].
        split; [exact E2|]. split; [exact O|]. split; [exact B|]. intros id' t' m' [[= <- <-]|I]; [apply NO|eauto].
      * intros id t k [[= <- <-]|I]; [apply NO|eauto].
    + destruct S as [(k & S & O & B)|(S & _)]; [|lia]. cbn.
      exists [], (showItem h x), (map (fun x => (it_id x, showItem h x)) walk), k. cbn.
      split; [reflexivity|]. split; [exact S|]. split; [exact O|]. split; [|tauto]. intros m Hm. now apply B.
Qed.

Lemma Forall2_length' {A B} (R : A -> B -> Prop) a b : Forall2 R a b -> length a = length b.
Proof. induction 1; cbn; auto. Qed.

Lemma occurs_lt fold rs t k : rs <> [] -> occurs fold rs t k -> k < length t.
Proof.
  intros NE (pre & mid & post & -> & <- & F). apply Forall2_length' in F. rewrite !app_length, F.
  destruct rs; [congruence|]. cbn. lia.
Qed.

Lemma find_fwd_newer_spec fold rs h walk : rs <> [] ->
  nearest (fun t k => forall m, occurs fold rs t m -> k <= m) (occurs fold rs)
    (map (fun x => (it_id x, showItem h x)) walk) (find_fwd_newer fold rs h walk).
Proof.
  intros NE. induction walk as [|x walk IH]; cbn [find_fwd_newer map].
  - cbn. intros. tauto.
  - pose proof (IndexAllEx_spec (showItem h x) rs fold) as S. cbn zeta.
    destruct (IndexAllEx (showItem h x) rs fold <? 0)%Z eqn:E.
    + destruct S as [(k & S & _)|(S & NO)]; [lia|].
      assert (NO' : forall m, ~ occurs fold rs (showItem h x) m).
      { intros m O. apply (NO m); [|exact O]. eapply occurs_lt; eauto. }
      destruct (find_fwd_newer fold rs h walk) as [[k id]|]; cbn in *.
      * destruct IH as (b & t & a & m & E1 & E2 & O & B & N).
        exists ((it_id x, showItem h x) :: b), t, a, m. cbn. rewrite E1. split; [reflexivity|].
        split; [exact E2|]. split; [exact O|]. split; [exact B|]. intros id' t' m' [[= <- <-]|I]; [apply NO'|eauto].
      * intros id t k [[= <- <-]|I]; [apply NO'|eauto].
    + destruct S as [(k & S & _ & O & B)|(S & _)]; [|lia]. cbn.
      exists [], (showItem h x), (map (fun x => (it_id x, showItem h x)) walk), k. cbn.
      split; [reflexivity|]. split; [exact S|]. split; [exact O|]. split; [|tauto]. intros m Hm. now apply B.
Qed.

Lemma nearest_skip best occ id t cs r : (forall k, ~ occ t k) -> nearest best occ cs r -> nearest best occ ((id, t) :: cs) r.
Proof.
  intros NO N. destruct r as [[k i]|]; cbn in *.
  - destruct N as (b & t' & a & m & E1 & E2 & O & B & N).
    exists ((id, t) :: b), t', a, m. cbn. rewrite E1. split; [reflexivity|].
    split; [exact E2|]. split; [exact O|]. split; [exact B|]. intros id' t1 m' [[= <- <-]|I]; [apply NO|eauto].
  - intros i t' k [[= <- <-]|I]; [apply NO|eauto].
Qed.

(** Entries from the current one to the oldest / to the newest, nearest first. *)
Lemma older_spec h p x : hwf h -> nth_error (h_items h) p = Some x -> older (it_id x) h = rev (firstn p (h_items h)).
Proof.
  intros W N. destruct (nth_error_split_rev _ _ _ N) as (a & b & I & L).
  unfold older. rewrite (zip_split h a x b W I). rewrite I.
  rewrite firstn_app, rev_length, L, Nat.sub_diag. cbn. rewrite app_nil_r.
  rewrite firstn_all2 by (rewrite rev_length; lia). now rewrite rev_involutive.
Qed.

Lemma newer_spec h p x : hwf h -> nth_error (h_items h) p = Some x -> newer (it_id x) h = skipn (S p) (h_items h).
Proof.
  intros W N. destruct (nth_error_split_rev _ _ _ N) as (a & b & I & L).
  unfold newer. rewrite (zip_split h a x b W I). rewrite I.
  rewrite skipn_app, rev_length, L. rewrite skipn_all2 by (rewrite rev_length; lia).
  replace (S p - p) with 1 by lia. reflexivity.
Qed.

Lemma deref_nth h p x : hwf h -> nth_error (h_items h) p = Some x -> deref h (it_id x) = Ok x.
Proof.
  intros W N. unfold deref. rewrite (find_item_unique (h_items h ++ h_dead h) x); [reflexivity|apply W|].
  apply in_app_iff. left. now apply nth_error_In in N.
Qed.

Lemma FindBck_spec c (new : bool) (rs : list Z) (start : nat) h p x : hwf h -> nth_error (h_items h) p = Some x -> h_cur h = Some (it_id x) ->
  exists r, FindBck c new rs start h = Ok r /\
    nearest (fun t k => forall m, occurs (hc_fold c) rs t m -> m <= k) (occurs (hc_fold c) rs)
      ((it_id x, firstn (if new then start + length rs else start) (showItem h x)) ::
       map (fun y => (it_id y, showItem h y)) (rev (firstn p (h_items h)))) r.
Proof.
  intros W N C. unfold FindBck. rewrite C, (deref_nth h p x W N). cbn [obind]. cbn zeta.
  set (st := if new then start + length rs else start).
  assert (F : (if st <=? length (showItem h x) then firstn st (showItem h x) else showItem h x) = firstn st (showItem h x)).
  { destruct (Nat.leb_spec st (length (showItem h x))); [reflexivity|]. now rewrite firstn_all2 by lia. }
  rewrite F. pose proof (IndexAllBckEx_spec (firstn st (showItem h x)) rs (hc_fold c)) as S.
  destruct (IndexAllBckEx _ _ _ <? 0)%Z eqn:E.
  - destruct S as [(k & S & _)|(S & NO)]; [lia|]. eexists. split; [reflexivity|].
    apply nearest_skip; [exact NO|]. rewrite (older_spec h p x W N). apply find_bck_older_spec.
  - destruct S as [(k & S & O & B)|(S & _)]; [|lia]. eexists. split; [reflexivity|]. cbn.
    exists []. do 2 eexists. exists k. split; [reflexivity|]. split; [exact S|]. split; [exact O|].
    split; [exact B|]. cbn. tauto.
Qed.

Lemma occurs_skip fold rs t n m : n <= length t -> occurs fold rs (skipn n t) m <-> occurs fold rs t (n + m) .
Proof.
  intros L. split.
  - intros (pre & mid & post & E & <- & F). exists (firstn n t ++ pre), mid, post.
    split; [|split; [rewrite app_length, firstn_length; lia|exact F]].
    rewrite <- (firstn_skipn n t) at 1. rewrite E, <- app_assoc. reflexivity.
  - intros (pre & mid & post & E & LP & F). exists (skipn n pre), mid, post.
    split; [|split; [rewrite skipn_length; lia|exact F]].
    rewrite E, skipn_app. replace (n - length pre) with 0 by lia. reflexivity.
Qed.

Lemma FindFwd_spec c (new : bool) (rs : list Z) (start : nat) h p x : rs <> [] ->
  hwf h -> nth_error (h_items h) p = Some x -> h_cur h = Some (it_id x) ->
  let st := if new then start - length rs else start in
  exists r, FindFwd c new rs start h = Ok r /\
    ((exists k, r = Some (Z.of_nat k, it_id x) /\ st <= k /\ occurs (hc_fold c) rs (showItem h x) k /\
       forall m, st <= m -> occurs (hc_fold c) rs (showItem h x) m -> k <= m)
     \/ ((forall m, st <= m -> ~ occurs (hc_fold c) rs (showItem h x) m) /\
       nearest (fun t k => forall m, occurs (hc_fold c) rs t m -> k <= m) (occurs (hc_fold c) rs)
        (map (fun y => (it_id y, showItem h y)) (skipn (S p) (h_items h))) r)).
Proof.
  intros NE W N C st. unfold FindFwd. rewrite C, (deref_nth h p x W N). cbn [obind]. cbn zeta. fold st.
  assert (REST : (forall m, st <= m -> ~ occurs (hc_fold c) rs (showItem h x) m) ->
     exists r, Ok (find_fwd_newer (hc_fold c) rs h (newer (it_id x) h)) = Ok r /\
      ((exists k, r = Some (Z.of_nat k, it_id x) /\ st <= k /\ occurs (hc_fold c) rs (showItem h x) k /\
       forall m, st <= m -> occurs (hc_fold c) rs (showItem h x) m -> k <= m)
     \/ ((forall m, st <= m -> ~ occurs (hc_fold c) rs (showItem h x) m) /\
       nearest (fun t k => forall m, occurs (hc_fold c) rs t m -> k <= m) (occurs (hc_fold c) rs)
        (map (fun y => (it_id y, showItem h y)) (skipn (S p) (h_items h))) r))).
  { intros NO. eexists. split; [reflexivity|]. right. split; [exact NO|].
    rewrite (newer_spec h p x W N). now apply find_fwd_newer_spec. }
  destruct (Nat.ltb_spec st (length (showItem h x))) as [L|L].
  - pose proof (IndexAllEx_spec (skipn st (showItem h x)) rs (hc_fold c)) as S.
    destruct (IndexAllEx _ _ _ <? 0)%Z eqn:E.
    + destruct S as [(k & S & _)|(S & NO)]; [lia|]. apply REST. intros m Hm O.
      apply (NO (m - st)).
      * apply occurs_lt in O; [|exact NE]. rewrite skipn_length. lia.
      * apply occurs_skip; [lia|]. now replace (st + (m - st)) with m by lia.
    + destruct S as [(k & S & LK & O & B)|(S & _)]; [|lia]. eexists. split; [reflexivity|]. left.
      exists (st + k). split; [f_equal; f_equal; lia|]. split; [lia|].
      split; [apply occurs_skip in O; [exact O|lia]|].
      intros m Hm Om. assert (k <= m - st); [|lia]. apply B. apply occurs_skip; [lia|].
      now replace (st + (m - st)) with m by lia.
  - apply REST. intros m Hm O. apply occurs_lt in O; [|exact NE]. lia.
Qed.
