From Verif Require Import Base ListAux RunesModel RunesSpec.
From Coq Require Import ZifyBool.
Open Scope Z_scope.

(** ** EqualRune *)
Lemma EqualRune_spec a b fold : EqualRune a b fold = true <-> same_rune fold a b.
Proof.
  unfold EqualRune, same_rune, lower.
  destruct (Z.eqb_spec a b) as [->|Hne].
  { destruct fold; split; auto. }
  destruct fold; cbn [negb]; [|split; [discriminate|congruence]].
  destruct (Z.gtb_spec a b) as [Hgt|Hle].
  - destruct ((a <? 128) && (65 <=? b) && (b <=? 90)) eqn:E1;
    [destruct (Z.eqb_spec a (b + 97 - 65)) as [Hn|Hn]|];
    destruct ((65 <=? a) && (a <=? 90)) eqn:Ea; destruct ((65 <=? b) && (b <=? 90)) eqn:Eb;
      split; intros H; try discriminate; try reflexivity; lia.
  - destruct ((b <? 128) && (65 <=? a) && (a <=? 90)) eqn:E1;
    [destruct (Z.eqb_spec b (a + 97 - 65)) as [Hn|Hn]|];
    destruct ((65 <=? a) && (a <=? 90)) eqn:Ea; destruct ((65 <=? b) && (b <=? 90)) eqn:Eb;
      split; intros H; try discriminate; try reflexivity; lia.
Qed.

Lemma EqualRune_fold_spec a b : EqualRuneFold a b = true <-> lower a = lower b.
Proof. apply (EqualRune_spec a b true). Qed.

(** ** match_prefix *)
Lemma match_prefix_spec (f : Z -> Z -> bool) (P : Z -> Z -> Prop) a b :
  (forall x y, f x y = true <-> P x y) ->
  match_prefix f a b = true <-> exists mid post, a = mid ++ post /\ Forall2 P mid b.
Proof.
  intros Hf. revert a. induction b as [|y b IH]; intros a; cbn [match_prefix].
  - split; [intros _|auto]. exists [], a. split; [reflexivity|constructor].
  - destruct a as [|x a].
    + split; [discriminate|]. intros (mid & post & Heq & HF).
      symmetry in Heq. apply app_eq_nil in Heq. destruct Heq as [-> ->]. inversion HF.
    + destruct (f x y) eqn:E.
      * rewrite IH. split.
        -- intros (mid & post & -> & HF). exists (x :: mid), post.
           split; [reflexivity|]. constructor; [apply Hf; exact E|exact HF].
        -- intros (mid & post & Heq & HF). inversion HF as [|x' y' mid' b' Hp HF' E1 E2]; subst.
           cbn in Heq. injection Heq as -> ->. exists mid', post. auto.
      * split; [discriminate|]. intros (mid & post & Heq & HF).
        inversion HF as [|x' y' mid' b' Hp HF' E1 E2]; subst.
        cbn in Heq. injection Heq as -> ->. apply Hf in Hp. congruence.
Qed.

Lemma match_prefix_full (f : Z -> Z -> bool) (P : Z -> Z -> Prop) a b :
  (forall x y, f x y = true <-> P x y) -> length a = length b ->
  match_prefix f a b = true <-> Forall2 P a b.
Proof.
  intros Hf Hlen. rewrite (match_prefix_spec f P a b Hf). split.
  - intros (mid & post & -> & HF). apply Forall2_length in HF as Hl.
    rewrite app_length in Hlen. destruct post; [rewrite app_nil_r; exact HF|cbn in Hlen; lia].
  - intros HF. exists a, []. rewrite app_nil_r. auto.
Qed.

Lemma Forall2_eq (a b : list Z) : Forall2 (fun x y => x = y) a b <-> a = b.
Proof.
  split.
  - induction 1; congruence.
  - intros ->. induction b; constructor; auto.
Qed.

Lemma Forall2_map_lower a b : Forall2 (fun x y => lower x = lower y) a b <-> map lower a = map lower b.
Proof.
  split.
  - induction 1; cbn; congruence.
  - revert b. induction a as [|x a IH]; intros [|y b] H; cbn in H; try discriminate; constructor.
    + congruence.
    + apply IH. congruence.
Qed.

Lemma Equal_spec a b : Equal a b = true <-> a = b.
Proof.
  unfold Equal. destruct (Nat.eqb_spec (length a) (length b)) as [Hl|Hl]; cbn [negb].
  - rewrite (match_prefix_full _ (fun x y => x = y)); [apply Forall2_eq| |exact Hl].
    intros; apply Z.eqb_eq.
  - split; [discriminate|congruence].
Qed.

Lemma EqualFold_spec a b : EqualFold a b = true <-> map lower a = map lower b.
Proof.
  unfold EqualFold. destruct (Nat.eqb_spec (length a) (length b)) as [Hl|Hl]; cbn [negb].
  - rewrite (match_prefix_full _ (fun x y => lower x = lower y)); [apply Forall2_map_lower| |exact Hl].
    intros; apply EqualRune_fold_spec.
  - split; [discriminate|]. intros H. apply (f_equal (@length Z)) in H.
    rewrite !map_length in H. congruence.
Qed.

Lemma HasPrefix_spec r p : HasPrefix r p = true <-> is_prefix p r.
Proof.
  unfold HasPrefix, is_prefix. destruct (Nat.ltb_spec (length r) (length p)) as [Hl|Hl].
  - split; [discriminate|]. intros [t ->]. rewrite app_length in Hl. lia.
  - rewrite Equal_spec. split.
    + intros H. exists (skipn (length p) r). rewrite <- H at 1. symmetry. apply firstn_skipn.
    + intros [t ->]. rewrite firstn_app, Nat.sub_diag, firstn_all. cbn. apply app_nil_r.
Qed.

Lemma HasPrefixFold_spec r p :
  HasPrefixFold r p = true <-> exists p' t, r = p' ++ t /\ map lower p' = map lower p.
Proof.
  unfold HasPrefixFold. destruct (Nat.ltb_spec (length r) (length p)) as [Hl|Hl].
  - split; [discriminate|]. intros (p' & t & -> & Hm).
    apply (f_equal (@length Z)) in Hm. rewrite !map_length in Hm. rewrite app_length in Hl. lia.
  - rewrite EqualFold_spec. split.
    + intros H. exists (firstn (length p) r), (skipn (length p) r).
      split; [symmetry; apply firstn_skipn|exact H].
    + intros (p' & t & -> & Hm). apply (f_equal (@length Z)) in Hm as Hm'. rewrite !map_length in Hm'.
      rewrite <- Hm', firstn_app, Nat.sub_diag, firstn_all. cbn. rewrite app_nil_r. exact Hm.
Qed.

(** ** searching *)
Definition feq (fold : bool) (x y : Z) := EqualRune x y fold.

Lemma occurs_skipn fold r sub i : (i <= length r)%nat ->
  match_prefix (feq fold) (skipn i r) sub = true <-> occurs_at (same_rune fold) r sub i.
Proof.
  intros Hi. unfold occurs_at.
  rewrite (match_prefix_spec _ (same_rune fold)) by (intros; apply EqualRune_spec).
  split.
  - intros (mid & post & Heq & HF). exists (firstn i r), mid, post. split; [|split].
    + rewrite <- Heq. symmetry. apply firstn_skipn.
    + rewrite firstn_length. lia.
    + exact HF.
  - intros (pre & mid & post & -> & Hl & HF). exists mid, post. split; [|exact HF].
    subst i. rewrite skipn_app, Nat.sub_diag, skipn_all. reflexivity.
Qed.

Lemma occurs_bound eq r sub i : occurs_at eq r sub i -> (i + length sub <= length r)%nat.
Proof.
  intros (pre & mid & post & -> & Hl & HF). apply Forall2_length in HF.
  rewrite !app_length. lia.
Qed.

Lemma bck_from_spec r sub fold i : (i <= length r)%nat ->
  (exists k, bck_from r sub fold i = Z.of_nat k /\ (k <= i)%nat /\
     occurs_at (same_rune fold) r sub k /\
     forall m, (k < m <= i)%nat -> ~ occurs_at (same_rune fold) r sub m)
  \/ (bck_from r sub fold i = -1 /\ forall m, (m <= i)%nat -> ~ occurs_at (same_rune fold) r sub m).
Proof.
  induction i as [|i IH]; intros Hi; cbn [bck_from].
  - destruct (match_prefix _ (skipn 0 r) sub) eqn:E.
    + left. exists 0%nat. apply (occurs_skipn fold) in E; [|lia].
      repeat split; auto. intros; lia.
    + right. split; [reflexivity|]. intros m Hm Ho. assert (m = 0)%nat by lia. subst m.
      apply (occurs_skipn fold) in Ho; [|lia]. unfold feq in Ho. congruence.
  - destruct (match_prefix _ (skipn (S i) r) sub) eqn:E.
    + left. exists (S i). apply (occurs_skipn fold) in E; [|lia].
      repeat split; auto. intros; lia.
    + assert (Hno : ~ occurs_at (same_rune fold) r sub (S i)).
      { intros Ho. apply (occurs_skipn fold) in Ho; [|lia]. unfold feq in Ho. congruence. }
      destruct IH as [(k & Hk & Hle & Ho & Hmax)|[Hk Hnone]]; [lia| |].
      * left. exists k. split; [exact Hk|]. split; [lia|]. split; [exact Ho|]. intros m Hm Hom.
        destruct (Nat.eq_dec m (S i)) as [->|Hne]; [contradiction|]. apply (Hmax m); [lia|auto].
      * right. split; [exact Hk|]. intros m Hm Hom.
        destruct (Nat.eq_dec m (S i)) as [->|Hne]; [contradiction|]. apply (Hnone m); [lia|auto].
Qed.

Lemma IndexAllBckEx_spec r sub fold :
  (exists k, IndexAllBckEx r sub fold = Z.of_nat k /\
     occurs_at (same_rune fold) r sub k /\
     forall m, occurs_at (same_rune fold) r sub m -> (m <= k)%nat)
  \/ (IndexAllBckEx r sub fold = -1 /\ forall m, ~ occurs_at (same_rune fold) r sub m).
Proof.
  unfold IndexAllBckEx. destruct (Nat.leb_spec (length sub) (length r)) as [Hl|Hl].
  - destruct (bck_from_spec r sub fold (length r - length sub)) as [(k & Hk & Hle & Ho & Hmax)|[Hk Hn]]; [lia| |].
    + left. exists k. repeat split; auto. intros m Hm. apply occurs_bound in Hm as Hb.
      destruct (Nat.le_gt_cases m k) as [H|H]; [exact H|]. exfalso. apply (Hmax m); [lia|exact Hm].
    + right. split; [exact Hk|]. intros m Hm. apply occurs_bound in Hm as Hb.
      apply (Hn m); [lia|exact Hm].
  - right. split; [reflexivity|]. intros m Hm. apply occurs_bound in Hm. lia.
Qed.

Lemma fwd_from_spec rest sub fold : forall i,
  (exists k, fwd_from rest sub fold i = i + Z.of_nat k /\ (k < length rest)%nat /\
     occurs_at (same_rune fold) rest sub k /\
     forall m, occurs_at (same_rune fold) rest sub m -> (k <= m)%nat)
  \/ (fwd_from rest sub fold i = -1 /\
      forall m, (m < length rest)%nat -> ~ occurs_at (same_rune fold) rest sub m).
Proof.
  induction rest as [|x rest IH]; intros i; cbn [fwd_from].
  - right. split; [reflexivity|]. cbn. intros; lia.
  - destruct (Nat.ltb_spec (length (x :: rest)) (length sub)) as [Hl|Hl].
    + right. split; [reflexivity|]. intros m _ Hm. apply occurs_bound in Hm. lia.
    + destruct (match_prefix _ (x :: rest) sub) eqn:E.
      * left. exists 0%nat. apply (occurs_skipn fold (x :: rest) sub 0) in E; [|cbn; lia].
        repeat split; auto; cbn; lia.
      * assert (Hno : ~ occurs_at (same_rune fold) (x :: rest) sub 0).
        { intros Ho. apply (occurs_skipn fold) in Ho; [|cbn; lia]. unfold feq in Ho. cbn [skipn] in Ho. congruence. }
        assert (Hshift : forall m, occurs_at (same_rune fold) (x :: rest) sub (S m)
                                   <-> occurs_at (same_rune fold) rest sub m).
        { intros m. unfold occurs_at. split.
          - intros (pre & mid & post & Heq & Hlen & HF). destruct pre as [|y pre]; [discriminate|].
            cbn in Heq, Hlen. injection Heq as -> ->. exists pre, mid, post. auto.
          - intros (pre & mid & post & -> & Hlen & HF). exists (x :: pre), mid, post.
            repeat split; auto. cbn. lia. }
        destruct (IH (i + 1)) as [(k & Hk & Hlt & Ho & Hmin)|[Hk Hn]].
        -- left. exists (S k). repeat split.
           ++ rewrite Hk. lia.
           ++ cbn. lia.
           ++ apply Hshift. exact Ho.
           ++ intros [|m] Hm; [contradiction|]. apply Hshift in Hm. apply Hmin in Hm. lia.
        -- right. split; [exact Hk|]. intros [|m] Hlt Hm; [contradiction|].
           apply Hshift in Hm. apply (Hn m); [cbn in Hlt; lia|exact Hm].
Qed.

Lemma IndexAllEx_spec r sub fold :
  (exists k, IndexAllEx r sub fold = Z.of_nat k /\ (k < length r)%nat /\
     occurs_at (same_rune fold) r sub k /\
     forall m, occurs_at (same_rune fold) r sub m -> (k <= m)%nat)
  \/ (IndexAllEx r sub fold = -1 /\
      forall m, (m < length r)%nat -> ~ occurs_at (same_rune fold) r sub m).
Proof.
  unfold IndexAllEx. destruct (fwd_from_spec r sub fold 0) as [(k & Hk & H)|H].
  - left. exists k. rewrite Hk. split; [lia|exact H].
  - right. exact H.
Qed.

(** ** Aggregate *)
Lemma agg_column_spec cands i : (2 <= length cands)%nat ->
  agg_column cands i = true <->
  exists x, forall c, In c cands -> nth_error c i = Some x.
Proof.
  induction cands as [|cj rest IH]; intros Hlen; [cbn in Hlen; lia|].
  destruct rest as [|ck rest]; [cbn in Hlen; lia|].
  destruct rest as [|cl rest].
  - cbn [agg_column]. destruct (nth_error cj i) as [x|] eqn:Ej; destruct (nth_error ck i) as [y|] eqn:Ek.
    + destruct (Z.eqb_spec x y) as [->|Hne].
      * split; [intros _|auto]. exists y. intros c [<-|[<-|[]]]; auto.
      * split; [discriminate|]. intros [z Hz].
        pose proof (Hz cj (or_introl eq_refl)). pose proof (Hz ck (or_intror (or_introl eq_refl))). congruence.
    + split; [discriminate|]. intros [z Hz]. pose proof (Hz ck (or_intror (or_introl eq_refl))). congruence.
    + split; [discriminate|]. intros [z Hz]. pose proof (Hz cj (or_introl eq_refl)). congruence.
    + split; [discriminate|]. intros [z Hz]. pose proof (Hz cj (or_introl eq_refl)). congruence.
  - assert (Hr : (2 <= length (ck :: cl :: rest))%nat) by (cbn; lia). specialize (IH Hr).
    cbn [agg_column]. cbn [agg_column] in IH.
    destruct (nth_error cj i) as [x|] eqn:Ej; destruct (nth_error ck i) as [y|] eqn:Ek.
    + destruct (Z.eqb_spec x y) as [->|Hne].
      * rewrite IH. split.
        -- intros [z Hz]. exists y. assert (z = y) by (pose proof (Hz ck (or_introl eq_refl)); congruence). subst z.
           intros c [<-|Hc]; auto.
        -- intros [z Hz]. exists z. intros c Hc. apply Hz. right. exact Hc.
      * split; [discriminate|]. intros [z Hz].
        pose proof (Hz cj (or_introl eq_refl)). pose proof (Hz ck (or_intror (or_introl eq_refl))). congruence.
    + split; [discriminate|]. intros [z Hz]. pose proof (Hz ck (or_intror (or_introl eq_refl))). congruence.
    + split; [discriminate|]. intros [z Hz]. pose proof (Hz cj (or_introl eq_refl)). congruence.
    + split; [discriminate|]. intros [z Hz]. pose proof (Hz cj (or_introl eq_refl)). congruence.
Qed.

Lemma is_prefix_firstn p l : is_prefix p l <-> p = firstn (length p) l.
Proof.
  split.
  - intros [t ->]. rewrite firstn_app, Nat.sub_diag, firstn_all. cbn. now rewrite app_nil_r.
  - intros H. exists (skipn (length p) l). rewrite H at 1. symmetry. apply firstn_skipn.
Qed.

Lemma agg_loop_spec cands c0 rest n i :
  cands = c0 :: rest -> (1 <= length rest)%nat -> (n + i = length c0)%nat ->
  (forall c, In c cands -> is_prefix (firstn i c0) c) ->
  let s := agg_loop cands n i in
  (s <= length c0)%nat /\ (forall c, In c cands -> is_prefix (firstn s c0) c) /\
  (s = length c0 \/ ~ exists x, forall c, In c cands -> nth_error c s = Some x).
Proof.
  intros Hc Hr. revert i. induction n as [|n IH]; intros i Hn Hpre; cbn [agg_loop].
  - cbn. split; [lia|]. split; [exact Hpre|]. left. lia.
  - destruct (agg_column cands i) eqn:E.
    + apply IH; [lia|].
      apply agg_column_spec in E; [|subst; cbn; lia]. destruct E as [x Hx].
      intros c Hin. apply is_prefix_firstn.
      rewrite (firstn_S_nth c0 i x) by (apply Hx; subst; left; reflexivity).
      rewrite app_length, firstn_length, Nat.min_l by lia. cbn [length].
      rewrite Nat.add_1_r, (firstn_S_nth c i x) by (apply Hx; exact Hin).
      f_equal. specialize (Hpre c Hin). apply is_prefix_firstn in Hpre.
      rewrite firstn_length, Nat.min_l in Hpre by lia. exact Hpre.
    + cbn. split; [lia|]. split; [exact Hpre|]. right. intros Hx.
      apply (agg_column_spec cands i) in Hx; [congruence|subst; cbn; lia].
Qed.

Lemma Aggregate_correct cands : cands <> [] ->
  exists same size outc, Aggregate cands = Ok (same, size, outc) /\
    size = length same /\
    longest_common_prefix same cands /\
    cands = map (fun c => same ++ c) outc.
Proof.
  intros Hne. destruct cands as [|c0 rest]; [congruence|]. unfold Aggregate.
  set (cands := c0 :: rest) in *.
  assert (Hlcp : let s := agg_loop cands (length c0) 0 in (s <= length c0)%nat /\
                 longest_common_prefix (firstn s c0) cands).
  { destruct rest as [|c1 rest'].
    - assert (Hs : forall n i, agg_loop cands n i = (n + i)%nat).
      { induction n as [|n IH]; intros i; cbn; [reflexivity|]. rewrite IH. lia. }
      cbn zeta. rewrite Hs, Nat.add_0_r. split; [lia|].
      rewrite firstn_all. split.
      + intros l [<-|[]]. exists []. now rewrite app_nil_r.
      + intros q Hq. destruct (Hq c0 (or_introl eq_refl)) as [t ->]. rewrite app_length. lia.
    - destruct (agg_loop_spec cands c0 (c1 :: rest') (length c0) 0) as (Hle & Hp & Hmax);
        [reflexivity|cbn; lia|lia| |].
      + intros c _. exists c. reflexivity.
      + cbn zeta. set (s := agg_loop cands (length c0) 0) in *.
        split; [exact Hle|]. split; [exact Hp|].
        intros q Hq. rewrite firstn_length, Nat.min_l by exact Hle.
        destruct (Nat.le_gt_cases (length q) s) as [H|H]; [exact H|exfalso].
        destruct Hmax as [Hs|Hno].
        * destruct (Hq c0 (or_introl eq_refl)) as [t Ht]. apply (f_equal (@length Z)) in Ht.
          rewrite app_length in Ht. lia.
        * apply Hno. destruct (nth_error q s) as [x|] eqn:Eq.
          -- exists x. intros c Hc. destruct (Hq c Hc) as [t ->].
             rewrite nth_error_app1 by lia. exact Eq.
          -- apply nth_error_None in Eq. lia. }
  cbn zeta in Hlcp. set (s := agg_loop cands (length c0) 0) in *. destruct Hlcp as [Hle Hlcp].
  destruct (Nat.ltb_spec 0 s) as [Hpos|Hz].
  - exists (firstn s c0), s, (map (skipn s) cands). split; [reflexivity|].
    split; [rewrite firstn_length; lia|]. split; [exact Hlcp|].
    rewrite map_map. transitivity (map (fun c => c) cands); [symmetry; apply map_id|].
    apply map_ext_in. intros c Hc. destruct Hlcp as [Hp _].
    pose proof (Hp c Hc) as Hp'. apply is_prefix_firstn in Hp'.
    rewrite firstn_length, Nat.min_l in Hp' by exact Hle. rewrite Hp'. symmetry. apply firstn_skipn.
  - assert (s = 0)%nat by lia. replace (firstn s c0) with (@nil Z) in Hlcp by (replace s with 0%nat by lia; reflexivity).
    exists [], s, cands. split; [reflexivity|]. split; [cbn; lia|]. split; [exact Hlcp|].
    symmetry. apply (map_id cands).
Qed.

(** ** ColorFilter *)
Lemma color_filter_skip k r : (k <= length r)%nat -> color_filter r k = color_filter (skipn k r) 0.
Proof.
  revert r. induction k as [|k IH]; intros r Hk; [reflexivity|].
  destruct r as [|x r]; [cbn in Hk; lia|]. cbn [color_filter skipn]. apply IH. cbn in Hk. lia.
Qed.

Lemma Index_app x ps t : forallb (fun y => negb (y =? x)) ps = true ->
  Index x (ps ++ x :: t) = Some (length ps).
Proof.
  induction ps as [|y ps IH]; intros H; cbn.
  - now rewrite Z.eqb_refl.
  - cbn in H. apply andb_true_iff in H as [H1 H2]. apply negb_true_iff in H1. rewrite H1.
    now rewrite (IH H2).
Qed.

Lemma ColorFilter_prompt ps : forallb piece_ok ps = true ->
  ColorFilter (prompt_runes ps) = Ok (visible ps).
Proof.
  unfold ColorFilter. induction ps as [|p ps IH]; intros H; [reflexivity|].
  cbn in H. apply andb_true_iff in H as [Hp Hps]. specialize (IH Hps).
  destruct p as [r|params]; cbn [prompt_runes visible flat_map piece_runes app].
  - cbn in Hp. apply negb_true_iff in Hp. cbn [color_filter]. rewrite Hp.
    unfold prompt_runes in IH. rewrite IH. reflexivity.
  - cbn in Hp. cbn [color_filter]. rewrite !Z.eqb_refl.
    rewrite <- app_assoc. cbn [app]. rewrite (Index_app 109 params _ Hp).
    change (flat_map piece_runes ps) with (prompt_runes ps).
    change (flat_map (fun p => match p with Vis r => [r] | Sgr _ => [] end) ps) with (visible ps).
    rewrite Nat.add_comm. cbn [Nat.add color_filter]. rewrite color_filter_skip.
    +
      change (params ++ 109 :: prompt_runes ps) with (params ++ [109] ++ prompt_runes ps).
      replace (S (length params)) with (length (params ++ [109])) by (rewrite app_length; cbn; lia).
      rewrite app_assoc, skipn_app_exact. exact IH.
    + rewrite app_length. cbn [length]. lia.
Qed.

Lemma WidthAll_acc u l n : fold_left (fun len x => (len + Width u x)%nat) l n = (n + sum (map (Width u) l))%nat.
Proof.
  revert n. induction l as [|x l IH]; intros n; cbn; [lia|]. rewrite IH. unfold sum. lia.
Qed.

Lemma WidthAll_sum u l : WidthAll u l = sum (map (Width u) l).
Proof. unfold WidthAll. rewrite WidthAll_acc. reflexivity. Qed.

Lemma sum_app a b : sum (a ++ b) = (sum a + sum b)%nat.
Proof. unfold sum. induction a as [|x a IH]; cbn; [reflexivity|]. lia. Qed.

Lemma WidthAll_app u a b : WidthAll u (a ++ b) = (WidthAll u a + WidthAll u b)%nat.
Proof. rewrite !WidthAll_sum, map_app, sum_app. reflexivity. Qed.

Lemma WidthAll_cons u x b : WidthAll u (x :: b) = (Width u x + WidthAll u b)%nat.
Proof. rewrite !WidthAll_sum. reflexivity. Qed.

(** A prompt without any other ESC, ending in ESC, panics. *)
Lemma ColorFilter_trailing_esc_panics ps : forallb piece_ok ps = true ->
  ColorFilter (prompt_runes ps ++ [27]) = Panic.
Proof.
  unfold ColorFilter. induction ps as [|p ps IH]; intros H; [reflexivity|].
  cbn in H. apply andb_true_iff in H as [Hp Hps]. specialize (IH Hps).
  destruct p as [r|params]; cbn [prompt_runes visible flat_map piece_runes app].
  - cbn in Hp. apply negb_true_iff in Hp. cbn [color_filter]. rewrite Hp.
    unfold prompt_runes in IH. rewrite IH. reflexivity.
  - cbn in Hp. cbn [color_filter]. rewrite !Z.eqb_refl.
    change (flat_map piece_runes ps) with (prompt_runes ps).
    rewrite <- !app_assoc. cbn [app]. rewrite (Index_app 109 params _ Hp).
    rewrite Nat.add_comm. cbn [Nat.add color_filter]. rewrite color_filter_skip.
    +
      change (params ++ 109 :: prompt_runes ps ++ [27]) with (params ++ [109] ++ prompt_runes ps ++ [27]).
      replace (S (length params)) with (length (params ++ [109])) by (rewrite app_length; cbn; lia).
      rewrite app_assoc, skipn_app_exact. exact IH.
    + rewrite app_length. cbn [length]. lia.
Qed.

(** *** white space *)
Lemma IsSpace_spec r : IsSpace r = true <-> In r white_space.
Proof. unfold IsSpace, white_space. cbn [In]. lia. Qed.

Lemma TrimSpaceLeft_spec l : exists g t, l = g ++ t /\ TrimSpaceLeft l = t /\ Forall (fun r => In r white_space) g /\
  match t with [] => True | r :: _ => ~ In r white_space end.
Proof.
  induction l as [|x l (g & t & -> & E & F & N)]; [exists [], []; repeat split; constructor|]. cbn [TrimSpaceLeft].
  destruct (IsSpace x) eqn:S.
  - exists (x :: g), t. apply IsSpace_spec in S. repeat split; auto.
  - exists [], (x :: g ++ t). repeat split; [constructor|]. rewrite <- IsSpace_spec. congruence.
Qed.

(** *** a colour sequence without its end *)
Lemma color_filter_plain t : ~ In 27 t -> color_filter t 0 = Ok t.
Proof.
  induction t as [|x t IH]; intros N; [reflexivity|]. cbn [color_filter]. cbn in N. replace (x =? 27) with false by lia. rewrite IH by tauto. reflexivity.
Qed.
Lemma Index_none r t : ~ In r t -> Index r t = None.
Proof.
  intros N. induction t as [|x t IH]; [reflexivity|]. cbn in N. cbn. replace (x =? r) with false by lia. rewrite IH by tauto. reflexivity.
Qed.
Lemma ColorFilter_unfinished t : ~ In 27 t -> ~ In 109 t -> ColorFilter (27 :: 91 :: t) = Ok (91 :: t).
Proof.
  intros N M. unfold ColorFilter. cbn [color_filter]. rewrite !Z.eqb_refl, Index_none by assumption. cbn [color_filter]. change (91 =? 27) with false. cbn iota.
  now rewrite color_filter_plain by assumption.
Qed.
