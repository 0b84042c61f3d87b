(** Editing on slices computes what editing on lists computes. *)
From Verif Require Import Base RunesModel RuneBufModel RuneBufSpec RuneBufProofs HeapModel HeapSpec.
Open Scope nat_scope.

Lemma put_at_length : forall i t x, i + length t <= length x -> length (put_at i t x) = length x.
Proof. intros. unfold put_at. rewrite !app_length, firstn_length, skipn_length. lia. Qed.

Lemma skipn_app_le : forall (A : Type) n (x y : list A), n <= length x -> skipn n (x ++ y) = skipn n x ++ y.
Proof. intros. rewrite skipn_app. replace (n - length x) with 0 by lia. reflexivity. Qed.

Lemma firstn_app_le : forall (A : Type) n (x y : list A), n <= length x -> firstn n (x ++ y) = firstn n x.
Proof. intros. rewrite firstn_app. replace (n - length x) with 0 by lia. cbn. apply app_nil_r. Qed.

Lemma skipn_skipn' : forall (A : Type) a b (x : list A), skipn a (skipn b x) = skipn (b + a) x.
Proof.
  intros A a b; revert a. induction b as [|b IH]; intros a x; [reflexivity|].
  destruct x as [|y x]; [now rewrite !skipn_nil|]. cbn. apply IH.
Qed.

Lemma firstn_skipn_split : forall (A : Type) a b (x : list A),
  firstn (a + b) x = firstn a x ++ firstn b (skipn a x).
Proof.
  intros A a; induction a as [|a IH]; intros b x; [reflexivity|].
  destruct x as [|y x]; [cbn; now rewrite firstn_nil|]. cbn. now rewrite IH.
Qed.

Lemma skipn_put_at : forall o i t x, o <= length x -> skipn o (put_at (o + i) t x) = put_at i t (skipn o x).
Proof.
  intros o i t x H. unfold put_at. rewrite firstn_skipn_split, <- app_assoc.
  rewrite skipn_app, firstn_length. replace (o - Nat.min o (length x)) with 0 by lia.
  rewrite (skipn_all2 (firstn o x)) by (rewrite firstn_length; lia). cbn [app skipn].
  rewrite skipn_skipn'. now rewrite Nat.add_assoc.
Qed.

Lemma put_at_joint : forall o i t x, o + i <= length x ->
  put_at (o + i) t x = put_at o (firstn i (skipn o x) ++ t) x.
Proof.
  intros o i t x H. unfold put_at. rewrite firstn_skipn_split, <- !app_assoc.
  rewrite app_length, firstn_length, skipn_length.
  replace (o + (Nat.min i (length x - o) + length t)) with (o + i + length t) by lia. reflexivity.
Qed.

Lemma put_at_self : forall o n x, o + n <= length x -> put_at o (firstn n (skipn o x)) x = x.
Proof.
  intros o n x H. unfold put_at. rewrite firstn_length, skipn_length.
  replace (Nat.min n (length x - o)) with n by lia.
  rewrite <- (firstn_skipn o x) at 4. f_equal.
  rewrite <- (firstn_skipn n (skipn o x)) at 2. f_equal. now rewrite skipn_skipn'.
Qed.

Lemma firstn_put_at : forall i t x, i <= length x -> firstn (i + length t) (put_at i t x) = firstn i x ++ t.
Proof.
  intros i t x H. unfold put_at. rewrite app_assoc.
  rewrite firstn_app_le by (rewrite app_length, firstn_length; lia).
  apply firstn_all2. rewrite app_length, firstn_length. lia.
Qed.

Lemma view_length : forall m s, valid m s -> length (view m s) = sl_len s.
Proof. intros m s (Ha & Hb & Hc). unfold view. rewrite firstn_length, skipn_length. lia. Qed.

Lemma upd_same : forall f a x, upd f a x a = x.
Proof. intros. unfold upd. now rewrite Nat.eqb_refl. Qed.

Lemma upd_other : forall f a x b, b <> a -> upd f a x b = f b.
Proof. intros. unfold upd. destruct (Nat.eqb_spec b a); [contradiction|reflexivity]. Qed.

Lemma view_ext : forall m m' s, mm m' (sl_a s) = mm m (sl_a s) -> view m' s = view m s.
Proof. intros m m' s H. unfold view. now rewrite H. Qed.

(** Memory that only grows: the old arrays keep their contents. *)
Definition grows (m m' : mem) : Prop :=
  mm_new m <= mm_new m' /\ forall a, a < mm_new m -> mm m' a = mm m a.

Lemma grows_refl : forall m, grows m m.
Proof. intros m. split; [lia|reflexivity]. Qed.

Lemma grows_trans : forall m1 m2 m3, grows m1 m2 -> grows m2 m3 -> grows m1 m3.
Proof.
  intros m1 m2 m3 [A B] [C D]. split; [lia|]. intros a H. rewrite D by lia. now apply B.
Qed.

Lemma grows_valid : forall m m' s, grows m m' -> valid m s -> valid m' s.
Proof. intros m m' s [A B] (C & D & E). unfold valid. rewrite B by exact C. lia. Qed.

Lemma grows_view : forall m m' s, grows m m' -> valid m s -> view m' s = view m s.
Proof. intros m m' s [A B] (C & D & E). apply view_ext. now apply B. Qed.

Lemma alloc_spec : forall x n m m' s, alloc x n m = (m', s) -> n <= length x ->
  grows m m' /\ valid m' s /\ view m' s = firstn n x /\ sl_a s = mm_new m /\ sl_len s = n /\ sl_off s = 0 /\
  sl_cap s = length x /\ mm m' (sl_a s) = x /\ mm_new m' = S (mm_new m).
Proof.
  intros x n m m' s H Hn. unfold alloc in H. injection H as <- <-.
  unfold grows, valid, view; cbn. rewrite upd_same.
  repeat split; try lia. intros a Ha. apply upd_other. lia.
Qed.

Lemma copy_of_spec : forall t m m' s, copy_of t m = (m', s) ->
  grows m m' /\ valid m' s /\ view m' s = t /\ sl_a s = mm_new m /\ sl_len s = length t /\ sl_off s = 0 /\
  sl_cap s = length t /\ mm m' (sl_a s) = t /\ mm_new m' = S (mm_new m).
Proof.
  intros t m m' s H. unfold copy_of in H.
  destruct (alloc_spec _ _ _ _ _ H (Nat.le_refl _)) as (A & B & C & D).
  rewrite firstn_all in C. tauto.
Qed.

Section heap.
Variable g : nat -> nat -> nat.
Variable fr : bool.

(** append, seen as: the elements are those of [s] followed by [t]. *)
Lemma append_spec : forall s t m m' s', append g s t m = (m', s') -> valid m s ->
  valid m' s' /\ view m' s' = view m s ++ t /\ sl_len s' = sl_len s + length t /\ mm_new m <= mm_new m' /\
  (forall a, a < mm_new m -> a <> sl_a s -> mm m' a = mm m a) /\
  ((sl_len s + length t <= sl_cap s /\ sl_a s' = sl_a s /\ sl_off s' = sl_off s /\ sl_cap s' = sl_cap s /\
    mm m' (sl_a s) = put_at (sl_off s) (view m s ++ t) (mm m (sl_a s)) /\
    mm_new m' = mm_new m) \/
   (sl_cap s < sl_len s + length t /\ sl_a s' = mm_new m /\ grows m m')).
Proof.
  intros s t m m' s' H V. pose proof (view_length _ _ V) as L. destruct V as (Va & Vb & Vc).
  unfold append in H. destruct (Nat.leb_spec (sl_len s + length t) (sl_cap s)) as [Hc|Hc].
  - injection H as <- <-. unfold valid, view, write; cbn. rewrite upd_same.
    rewrite put_at_length by lia. rewrite skipn_put_at by lia.
    rewrite firstn_put_at by (rewrite skipn_length; lia).
    repeat split; try lia.
    + intros a Ha Hne. now apply upd_other.
    + left. repeat split; try lia. apply put_at_joint. lia.
  - destruct (alloc_spec _ _ _ _ _ H) as (A & B & C & D & E & F & G & I & J).
    { rewrite !app_length, repeat_length. lia. }
    rewrite C, E, D. split; [exact B|]. split.
    { rewrite firstn_app. rewrite firstn_all2 by lia. f_equal.
      rewrite firstn_app_le by lia. apply firstn_all2. lia. }
    repeat split; try lia; try apply A.
    + intros a Ha _. now apply A.
    + right. auto.
Qed.

Lemma make_spec : forall c m m' s, make 0 c m = (m', s) ->
  grows m m' /\ valid m' s /\ view m' s = [] /\ sl_a s = mm_new m /\ sl_len s = 0 /\ sl_cap s = c /\
  mm_new m' = S (mm_new m).
Proof.
  intros c m m' s H. unfold make in H. destruct (alloc_spec _ _ _ _ _ H) as (A & B & C & D & E & F & G & I & J).
  { lia. }
  rewrite repeat_length in G. cbn in C. auto 10.
Qed.

Lemma lit_spec : forall t m m' s, lit g t m = (m', s) ->
  grows m m' /\ valid m' s /\ view m' s = t /\ sl_a s = mm_new m /\ sl_len s = length t /\
  mm_new m' = S (mm_new m).
Proof.
  intros t m m' s H. unfold lit in H. destruct (alloc_spec _ _ _ _ _ H) as (A & B & C & D & E & F & G & I & J).
  { rewrite app_length. lia. }
  rewrite firstn_app_le in C by lia. rewrite firstn_all in C. auto 10.
Qed.

(** Appending to a slice of an array that is newer than [m0] changes nothing [m0] knew. *)
Lemma append_new : forall m0 s t m m' s', append g s t m = (m', s') -> valid m s ->
  grows m0 m -> mm_new m0 <= sl_a s ->
  grows m0 m' /\ valid m' s' /\ view m' s' = view m s ++ t /\ mm_new m0 <= sl_a s' /\
  sl_len s' = sl_len s + length t.
Proof.
  intros m0 s t m m' s' H V [G1 G2] Hn.
  destruct (append_spec _ _ _ _ _ H V) as (A & B & C & D & E & F).
  split; [split; [lia|intros a Ha; rewrite E by lia; now apply G2]|].
  split; [exact A|]. split; [exact B|]. split; [|exact C].
  destruct F as [(F1 & F2 & F3)|(F1 & F2 & F3)]; lia.
Qed.

Lemma reslice_spec : forall a b s s', reslice a b s = Ok s' ->
  a <= b /\ b <= sl_cap s /\ sl_a s' = sl_a s /\ sl_off s' = sl_off s + a /\ sl_len s' = b - a /\
  sl_cap s' = sl_cap s - a.
Proof.
  intros a b s s' H. unfold reslice in H.
  destruct (Nat.leb_spec a b); cbn in H; [|discriminate].
  destruct (Nat.leb_spec b (sl_cap s)); [|discriminate].
  injection H as <-. cbn. lia.
Qed.

Lemma reslice_valid : forall m a b s s', valid m s -> reslice a b s = Ok s' -> valid m s'.
Proof.
  intros m a b s s' (A & B & C) H. destruct (reslice_spec _ _ _ _ H) as (D & E & F & G & I & J).
  unfold valid. rewrite F, G, I, J. lia.
Qed.

(** Inside the length, slicing a slice is slicing the list. *)
Lemma reslice_view : forall m a b s, valid m s -> a <= b -> b <= sl_len s ->
  exists s', reslice a b s = Ok s' /\ slice a b (view m s) = Ok (view m s') /\ valid m s' /\
    sl_a s' = sl_a s /\ sl_off s' = sl_off s + a /\ sl_len s' = b - a /\ sl_cap s' = sl_cap s - a.
Proof.
  intros m a b s V Ha Hb. pose proof (view_length _ _ V) as L. destruct V as (Va & Vb & Vc).
  unfold reslice, slice.
  replace (a <=? b) with true by (symmetry; apply Nat.leb_le; lia).
  replace (b <=? sl_cap s) with true by (symmetry; apply Nat.leb_le; lia).
  rewrite L. replace (b <=? sl_len s) with true by (symmetry; apply Nat.leb_le; lia).
  cbn [andb]. eexists. split; [reflexivity|]. cbn. split; [|unfold valid; cbn; lia].
  f_equal. unfold view; cbn. rewrite skipn_firstn_comm, skipn_skipn', firstn_firstn.
  f_equal. lia.
Qed.

Lemma slice_bad : forall (x : list Z) a b, ~ (a <= b <= length x) -> slice a b x = Panic.
Proof.
  intros x a b H. unfold slice. destruct (Nat.leb_spec a b); cbn; [|reflexivity].
  destruct (Nat.leb_spec b (length x)); [lia|reflexivity].
Qed.

Lemma slice_not_hang : forall (x : list Z) a b, slice a b x <> Hang.
Proof. intros x a b. unfold slice. now destruct ((a <=? b) && (b <=? length x)). Qed.

Lemma reslice_not_hang : forall a b s, reslice a b s <> Hang.
Proof. intros a b s. unfold reslice. now destruct ((a <=? b) && (b <=? sl_cap s)). Qed.

Lemma reslice_bad : forall a b s, ~ (a <= b) -> reslice a b s = Panic.
Proof. intros a b s H. unfold reslice. destruct (Nat.leb_spec a b); [lia|reflexivity]. Qed.

Lemma pushKill_spec : forall text m b m' b', h_pushKill g text m b = (m', b') -> valid m text ->
  grows m m' /\ valid m' (h_kill b') /\ view m' (h_kill b') = view m text /\ mm_new m <= sl_a (h_kill b') /\
  h_buf b' = h_buf b /\ h_idx b' = h_idx b /\ h_bck b' = h_bck b.
Proof.
  intros text m b m' b' H V. unfold h_pushKill in H.
  destruct (make 0 0 m) as [m1 e] eqn:E1. destruct (append g e (view m1 text) m1) as [m2 k] eqn:E2.
  injection H as <- <-. cbn.
  destruct (make_spec _ _ _ _ E1) as (A & B & C & D & E & F & G).
  destruct (append_new m _ _ _ _ _ E2 B A) as (A2 & B2 & C2 & D2 & F2); [lia|].
  rewrite C2, C. cbn. rewrite (grows_view _ _ _ A V). auto 10.
Qed.

(** A change of the line alone. *)
Definition lstep (m : mem) (b : hbuf) (m' : mem) (b' : hbuf) (x : list Z) (i : nat) : Prop :=
  valid m' (h_buf b') /\ view m' (h_buf b') = x /\ h_idx b' = i /\ h_kill b' = h_kill b /\ h_bck b' = h_bck b /\
  touches_only_line fr m m' b b'.

Definition good (m : mem) (b : hbuf) (m' : mem) (b' : hbuf) (s : rbuf) : Prop :=
  hok m' b' /\ abs m' b' = s /\ touches_only_line fr m m' b b' /\ kill_old_or_new m b b' /\ h_bck b' = h_bck b.

Definition refines (m : mem) (b : hbuf) (x : outcome hst) (y : outcome rbuf) : Prop :=
  match y with
  | Ok s => exists m' b', x = Ok (m', b') /\ good m b m' b' s
  | Panic => x = Panic
  | Hang => x = Hang
  end.

Lemma touches_keep : forall m m' b b' s, touches_only_line fr m m' b b' -> valid m s -> sl_a s <> sl_a (h_buf b) ->
  valid m' s /\ view m' s = view m s.
Proof.
  intros m m' b b' s (A & B & C) (D & E & F) H. unfold valid, view. rewrite B by assumption.
  split; [lia|reflexivity].
Qed.

Lemma touches_apart : forall m m' b b' s, touches_only_line fr m m' b b' -> valid m s -> sl_a s <> sl_a (h_buf b) ->
  sl_a (h_buf b') <> sl_a s.
Proof.
  intros m m' b b' s (A & B & [(C & _)|((C & _) & _)]) (D & E & F) H; [rewrite C; congruence|lia].
Qed.

Lemma lstep_good : forall m b m' b' x i, hok m b -> lstep m b m' b' x i ->
  good m b m' b' {| rb_buf := x; rb_idx := i; rb_kill := view m (h_kill b) |}.
Proof.
  intros m b m' b' x i (K1 & K2 & K3) (A & B & C & D & E & F).
  destruct (touches_keep _ _ _ _ _ F K2) as (G & I); [congruence|].
  pose proof (touches_apart _ _ _ _ _ F K2) as J.
  unfold good, hok, abs, kill_old_or_new. rewrite B, C, D, I.
  split; [split; [exact A|split; [exact G|apply J; congruence]]|].
  split; [reflexivity|]. split; [exact F|]. split; [now left|exact E].
Qed.

Lemma touches_compose : forall m m1 m2 b b1 b2, grows m m1 -> h_buf b1 = h_buf b -> valid m (h_buf b) ->
  touches_only_line fr m1 m2 b1 b2 -> touches_only_line fr m m2 b b2.
Proof.
  intros m m1 m2 b b1 b2 [G1 G2] E V (A & B & C). unfold touches_only_line, in_place, moved in *. rewrite E in *.
  destruct V as (V1 & V2 & V3). rewrite (G2 _ V1) in C.
  split; [lia|]. split.
  - intros a Ha Hne. rewrite B by lia. now apply G2.
  - destruct C as [C|((C & D) & E')]; [now left|right]. split; [|exact E']. split; [lia|exact D].
Qed.

Lemma kill_lstep_good : forall text m b m1 b1 m' b' x i,
  h_pushKill g text m b = (m1, b1) -> hok m b -> valid m text -> lstep m1 b1 m' b' x i ->
  good m b m' b' {| rb_buf := x; rb_idx := i; rb_kill := view m text |}.
Proof.
  intros text m b m1 b1 m' b' x i P (K1 & K2 & K3) V (A & B & C & D & E & F).
  destruct (pushKill_spec _ _ _ _ _ P V) as (P1 & P2 & P3 & P4 & P5 & P6 & P7).
  assert (N : sl_a (h_kill b1) <> sl_a (h_buf b1)).
  { rewrite P5. destruct K1 as (K1 & _). lia. }
  destruct (touches_keep _ _ _ _ _ F P2 N) as (G & I).
  pose proof (touches_apart _ _ _ _ _ F P2 N) as J.
  unfold good, hok, abs, kill_old_or_new. rewrite B, C, D, I, P3.
  split; [split; [exact A|split; [exact G|exact J]]|].
  split; [reflexivity|]. split; [eapply touches_compose; eauto|]. split; [now right|congruence].
Qed.

(** Shortening the line to its first [n] runes. *)
Lemma shrink_lstep : forall m b n i nb, valid m (h_buf b) -> n <= hlen b -> reslice 0 n (h_buf b) = Ok nb ->
  lstep m b m (h_with_buf nb i b) (firstn n (view m (h_buf b))) i.
Proof.
  intros m b n i nb V Hn R. unfold hlen in Hn.
  destruct (reslice_spec _ _ _ _ R) as (A & B & C & D & E & F).
  assert (W : view m nb = firstn n (view m (h_buf b))).
  { unfold view. rewrite C, D, E, firstn_firstn, Nat.add_0_r. f_equal. lia. }
  unfold lstep, touches_only_line, in_place; cbn. repeat split; try reflexivity; auto.
  - apply (reslice_valid m 0 n (h_buf b)); assumption.
  - apply (reslice_valid m 0 n (h_buf b)); assumption.
  - apply (reslice_valid m 0 n (h_buf b)); assumption.
  - left. rewrite C, D, F, W. repeat split; try lia.
    unfold view. rewrite firstn_firstn. destruct V as (V1 & V2 & V3). symmetry. apply put_at_self. lia.
Qed.

(** Appending to the first [i] runes of the line. *)
Lemma append_lstep : forall m b i j front t m' nb, valid m (h_buf b) -> i <= hlen b ->
  reslice 0 i (h_buf b) = Ok front -> append g front t m = (m', nb) ->
  lstep m b m' (h_with_buf nb j b) (firstn i (view m (h_buf b)) ++ t) j.
Proof.
  intros m b i j front t m' nb V Hi R H. unfold hlen in Hi.
  pose proof (reslice_valid _ _ _ _ _ V R) as Vf.
  destruct (reslice_spec _ _ _ _ R) as (A & B & C & D & E & F).
  destruct (append_spec _ _ _ _ _ H Vf) as (A1 & B1 & C1 & D1 & E1 & F1).
  assert (W : view m front = firstn i (view m (h_buf b))).
  { unfold view. rewrite C, D, E, firstn_firstn, Nat.add_0_r. f_equal. lia. }
  unfold lstep, touches_only_line, in_place, moved; cbn.
  split; [exact A1|]. split; [now rewrite B1, W|]. split; [reflexivity|]. split; [reflexivity|]. split; [reflexivity|].
  split; [exact D1|]. split; [intros a Ha Hne; apply E1; [exact Ha|congruence]|].
  destruct F1 as [(F1 & F2 & F3 & F4 & F5 & F6)|(F1 & F2 & F3)].
  - left. rewrite <- C, F2, F3, F4, D, F, F5, B1, D. repeat split; try lia. f_equal. lia.
  - right. pose proof (view_length _ _ V) as LV. destruct V as (V & _). split; [split; [lia|now apply F3]|]. right.
    rewrite B1, W, app_length, firstn_length, LV. lia.
Qed.

Lemma cut_lstep : forall m b i j, valid m (h_buf b) -> i <= j -> j <= hlen b ->
  exists m' nb, h_cut g i j m b = Ok (m', h_with_buf nb i b) /\
    lstep m b m' (h_with_buf nb i b) (firstn i (view m (h_buf b)) ++ skipn j (view m (h_buf b))) i.
Proof.
  intros m b i j V Hi Hj. unfold h_cut.
  destruct (reslice_view m 0 i (h_buf b) V) as (front & R1 & _); [lia|unfold hlen in Hj; lia|].
  destruct (reslice_view m j (hlen b) (h_buf b) V) as (rest & R2 & S2 & _); [exact Hj|unfold hlen; lia|].
  rewrite R1, R2. cbn [obind]. destruct (append g front (view m rest) m) as [m1 nb] eqn:E.
  exists m1, nb. split; [reflexivity|].
  assert (W : view m rest = skipn j (view m (h_buf b))).
  { unfold slice in S2. pose proof (view_length _ _ V) as L. rewrite L in S2. unfold hlen in *.
    destruct (Nat.leb_spec j (sl_len (h_buf b))); [|lia]. rewrite Nat.leb_refl in S2. cbn in S2.
    injection S2 as <-. apply firstn_all2. rewrite skipn_length. lia. }
  rewrite <- W. eapply append_lstep; eauto. unfold hlen in *; lia.
Qed.

Lemma slice_ok : forall (x : list Z) a b, a <= b -> b <= length x -> slice a b x = Ok (firstn (b - a) (skipn a x)).
Proof.
  intros x a b H1 H2. unfold slice. destruct (Nat.leb_spec a b); [|lia].
  destruct (Nat.leb_spec b (length x)); [|lia]. reflexivity.
Qed.

Lemma slice_front : forall (x : list Z) b, b <= length x -> slice 0 b x = Ok (firstn b x).
Proof. intros x b H. rewrite slice_ok by lia. now rewrite Nat.sub_0_r. Qed.

Lemma slice_back : forall (x : list Z) a, a <= length x -> slice a (length x) x = Ok (skipn a x).
Proof. intros x a H. rewrite slice_ok by lia. f_equal. apply firstn_all2. rewrite skipn_length. lia. Qed.

(** Slicing within the length, as a value. *)
Lemma reslice_ok : forall m a b s, valid m s -> a <= b -> b <= sl_len s ->
  exists s', reslice a b s = Ok s' /\ view m s' = firstn (b - a) (skipn a (view m s)) /\ valid m s' /\
    sl_a s' = sl_a s /\ sl_off s' = sl_off s + a /\ sl_len s' = b - a /\ sl_cap s' = sl_cap s - a.
Proof.
  intros m a b s V Ha Hb. destruct (reslice_view m a b s V Ha Hb) as (s' & R & S & W).
  exists s'. split; [exact R|]. split; [|exact W].
  rewrite slice_ok in S by (try rewrite view_length; assumption). now injection S as <-.
Qed.

Lemma reslice_back : forall m a s, valid m s -> a <= sl_len s ->
  exists s', reslice a (sl_len s) s = Ok s' /\ view m s' = skipn a (view m s) /\ valid m s' /\
    sl_a s' = sl_a s /\ sl_off s' = sl_off s + a /\ sl_len s' = sl_len s - a.
Proof.
  intros m a s V Ha. destruct (reslice_ok m a (sl_len s) s V Ha (Nat.le_refl _)) as (s' & R & S & W).
  destruct W as (W1 & W2 & W3 & W4 & _).
  exists s'. split; [exact R|]. split; [|auto].
  rewrite S. apply firstn_all2. rewrite skipn_length, view_length by exact V. lia.
Qed.

(** The loops stay inside the line. *)
Lemma skip_breaks_range : forall x n i j, skip_breaks x n i = Ok j -> i <= j <= i + n.
Proof.
  intros x n; induction n as [|n IH]; intros i j H; cbn in H; [injection H as <-; lia|].
  destruct (get x i) as [c| |]; cbn in H; try discriminate.
  destruct (IsWordBreak c); [apply IH in H; lia|injection H as <-; lia].
Qed.

Lemma next_word_range : forall x n i j, next_word x n i = Ok (Some j) -> i <= j < i + n.
Proof.
  intros x n; induction n as [|n IH]; intros i j H; cbn in H; [discriminate|].
  destruct (get x i) as [c| |]; cbn in H; try discriminate.
  destruct (negb (IsWordBreak c)); [|apply IH in H; lia].
  destruct (get x (i - 1)) as [d| |]; cbn in H; try discriminate.
  destruct (IsWordBreak d); [injection H as <-; lia|apply IH in H; lia].
Qed.

Lemma prev_word_range : forall x i j, prev_word x i = Ok (Some j) -> 0 < j <= i /\ i < length x.
Proof.
  intros x i; induction i as [|i IH]; intros j H; cbn in H; [discriminate|].
  assert (L : S i < length x).
  { unfold get in H. destruct (nth_error x (S i)) eqn:E; [|discriminate].
    apply nth_error_Some. congruence. }
  destruct (get x (S i)) as [c| |]; cbn in H; try discriminate.
  destruct (negb (IsWordBreak c)).
  - destruct (get x i) as [d| |]; cbn in H; try discriminate.
    destruct (IsWordBreak d); [injection H as <-; lia|apply IH in H; lia].
  - apply IH in H; lia.
Qed.

Lemma stay_lstep : forall m b i, valid m (h_buf b) -> lstep m b m (h_with_idx i b) (view m (h_buf b)) i.
Proof.
  intros m b i V. unfold lstep, touches_only_line, in_place; cbn.
  split; [exact V|]. do 4 (split; [reflexivity|]). split; [lia|]. split; [reflexivity|].
  left. do 3 (split; [reflexivity|]). destruct V as (V1 & V2 & V3). symmetry. apply put_at_self. lia.
Qed.

Lemma stay_good : forall m b i, hok m b -> good m b m (h_with_idx i b) (with_idx i (abs m b)).
Proof. intros m b i H. apply lstep_good; [exact H|]. apply stay_lstep. apply H. Qed.

Lemma same_good : forall m b, hok m b -> good m b m b (abs m b).
Proof. intros m b H. pose proof (stay_good m b (h_idx b) H) as G. destruct b; exact G. Qed.

Lemma stay_refines : forall m b i, hok m b -> refines m b (Ok (m, h_with_idx i b)) (Ok (with_idx i (abs m b))).
Proof. intros m b i H. exists m, (h_with_idx i b). split; [reflexivity|]. now apply stay_good. Qed.

Lemma same_refines : forall m b, hok m b -> refines m b (Ok (m, b)) (Ok (abs m b)).
Proof. intros m b H. exists m, b. split; [reflexivity|]. now apply same_good. Qed.

Lemma motion_refines : forall e m b, is_motion e = true -> hok m b -> refines m b (h_motion e m b) (run_edit e (abs m b)).
Proof.
  intros e m b M H. unfold h_motion.
  assert (K : forall s, run_edit e (abs m b) = Ok s -> s = with_idx (rb_idx s) (abs m b)).
  { intros s E. destruct e; try discriminate M; cbn in E;
      unfold MoveToLineStart, MoveToLineEnd, MoveForward, MoveBackward, MoveToPrevWord, MoveToNextWord, MoveToEndWord, MoveTo in E;
      repeat match type of E with
        | context [if ?c then _ else _] => destruct c; cbn in E
        | context [match ?o with Some _ => _ | None => _ end] => destruct o; cbn in E
        | context [obind ?e _] => lazymatch e with obind _ _ => fail | _ => destruct e; cbn in E end
        end; try discriminate E; injection E as <-; reflexivity. }
  destruct (run_edit e (abs m b)) as [s| |] eqn:E; cbn; [|reflexivity|reflexivity].
  change (refines m b (Ok (m, h_with_idx (rb_idx s) b)) (Ok s)).
  pose proof (K s eq_refl) as Es. remember (rb_idx s) as i. rewrite Es. now apply stay_refines.
Qed.

Lemma WriteRunes_refines : forall s m b, hok m b -> valid m s -> sl_a s <> sl_a (h_buf b) -> sl_a s <> sl_a (h_kill b) ->
  match WriteRunes (view m s) (abs m b) with
  | Ok r => exists m' b', h_WriteRunes g s m b = Ok (m', b') /\ hok m' b' /\ abs m' b' = r /\
      mm_new m <= mm_new m' /\ h_kill b' = h_kill b /\ h_bck b' = h_bck b /\
      (forall a, a < mm_new m -> a <> sl_a (h_buf b) -> a <> sl_a s -> mm m' a = mm m a) /\
      (in_place m m' b b' \/ (moved m m' b b' /\ (fr = true \/ sl_cap (h_buf b) < length (view m' (h_buf b'))))) /\
      ((sl_len s + (hlen b - h_idx b) <= sl_cap s /\
        mm m' (sl_a s) = put_at (sl_off s + sl_len s) (skipn (h_idx b) (view m (h_buf b))) (mm m (sl_a s))) \/
       (sl_cap s < sl_len s + (hlen b - h_idx b) /\ mm m' (sl_a s) = mm m (sl_a s)))
  | _ => h_WriteRunes g s m b = Panic
  end.
Proof.
  intros s m b K Vs Hs Hk. pose proof K as (K1 & K2 & K3).
  pose proof (view_length _ _ K1) as L. pose proof (view_length _ _ Vs) as Ls. unfold WriteRunes, h_WriteRunes. cbn [rb_buf rb_idx abs].
  destruct (le_lt_dec (h_idx b) (hlen b)) as [Hi|Hi].
  2: { rewrite slice_bad by (unfold hlen in Hi; lia). cbn [obind]. now rewrite reslice_bad by lia. }
  unfold hlen in *. rewrite slice_back by lia. rewrite slice_front by lia. cbn [obind].
  destruct (reslice_back m (h_idx b) (h_buf b) K1 Hi) as (rest & R1 & W1 & V1 & _).
  rewrite R1. cbn [obind]. destruct (append g s (view m rest) m) as [m1 tail] eqn:E1.
  destruct (append_spec _ _ _ _ _ E1 Vs) as (A1 & B1 & C1 & D1 & F1 & G1).
  assert (Lr : length (view m rest) = sl_len (h_buf b) - h_idx b) by (rewrite W1, skipn_length; lia).
  assert (Vb1 : valid m1 (h_buf b)).
  { destruct K1 as (X & Y & Z). unfold valid. rewrite F1 by auto. lia. }
  assert (Eb1 : view m1 (h_buf b) = view m (h_buf b)).
  { apply view_ext, F1; [apply K1|auto]. }
  destruct (reslice_ok m1 0 (h_idx b) (h_buf b) Vb1) as (front & R2 & _); [lia|exact Hi|].
  rewrite R2. cbn [obind]. destruct (append g front (view m1 tail) m1) as [m2 nb] eqn:E2.
  pose proof (append_lstep m1 b (h_idx b) (h_idx b + sl_len s) front _ m2 nb Vb1 Hi R2 E2) as LS.
  assert (K1' : hok m1 b).
  { split; [exact Vb1|]. split; [|exact K3]. destruct K2 as (X & Y & Z). unfold valid. rewrite F1 by auto. lia. }
  pose proof (lstep_good _ _ _ _ _ _ K1' LS) as (Q1 & Q2 & Q3 & Q4 & Q5).
  exists m2, (h_with_buf nb (h_idx b + sl_len s) b).
  split; [reflexivity|]. split; [exact Q1|].
  split.
  { rewrite Q2, Eb1, B1, W1, Ls. cbn. f_equal. apply view_ext, F1; [apply K2|auto]. }
  destruct Q3 as (T1 & T2 & T3).
  split; [lia|]. split; [reflexivity|]. split; [reflexivity|].
  split.
  { intros a Ha Hne Hne2. rewrite T2 by lia. now apply F1. }
  split.
  { unfold in_place, moved in *. rewrite (F1 _ (proj1 K1)) in T3 by auto. destruct T3 as [T3|((T3 & T4) & T5)]; [now left|right].
    split; [|exact T5]. split; [lia|exact T4]. }
  rewrite T2 by (destruct Vs; lia).
  destruct G1 as [(G1 & G2 & G3 & G4 & G5 & G6)|(G1 & G2 & G3)].
  - left. split; [lia|]. rewrite G5. rewrite <- W1. unfold view at 1. symmetry. apply put_at_joint.
    destruct Vs as (X & Y & Z). lia.
  - right. split; [lia|]. apply G3. apply Vs.
Qed.

Lemma write_refines : forall t m b, hok m b -> refines m b (h_write g t m b) (WriteRunes t (abs m b)).
Proof.
  intros t m b K. unfold h_write. destruct (lit g t m) as [m1 s] eqn:E.
  destruct (lit_spec _ _ _ _ E) as (A & B & C & D & F & G).
  pose proof K as (K1 & K2 & K3).
  assert (K' : hok m1 b). { split; [eapply grows_valid; eauto|]. split; [eapply grows_valid; eauto|exact K3]. }
  assert (Ea : abs m1 b = abs m b). { unfold abs. now rewrite !(grows_view _ _ _ A). }
  pose proof (WriteRunes_refines s m1 b K' B) as W.
  rewrite C, Ea in W. destruct K1 as (X1 & _). destruct K2 as (X2 & _).
  specialize (W ltac:(lia) ltac:(lia)).
  destruct (WriteRunes t (abs m b)) as [r| |] eqn:EW; cbn; [|exact W|].
  - destruct W as (m' & b' & W1 & W2 & W3 & W4 & W5 & W6 & W7 & W8 & W9).
    exists m', b'. split; [exact W1|]. unfold good. split; [exact W2|]. split; [exact W3|].
    split; [|split; [left; exact W5|exact W6]].
    destruct A as (A1 & A2). split; [lia|]. split.
    + intros a Ha Hne. rewrite W7 by lia. now apply A2.
    + unfold in_place, moved in *. rewrite (A2 _ X1) in W8. destruct W8 as [W8|((W8 & W8') & W8'')]; [now left|right].
      split; [|exact W8'']. split; [lia|exact W8'].
  - exfalso. unfold WriteRunes in EW.
    destruct (slice (rb_idx (abs m b)) (length (rb_buf (abs m b))) (rb_buf (abs m b))) as [x| |] eqn:E1; cbn [obind] in EW; try discriminate.
    + destruct (slice 0 (rb_idx (abs m b)) (rb_buf (abs m b))) as [y| |] eqn:E2; cbn [obind] in EW; try discriminate.
      now apply slice_not_hang in E2.
    + now apply slice_not_hang in E1.
Qed.

Lemma Backspace_refines : forall m b, hok m b -> refines m b (h_Backspace g m b) (BufBackspace (abs m b)).
Proof.
  intros m b K. pose proof K as (K1 & K2 & K3). pose proof (view_length _ _ K1) as L.
  unfold h_Backspace, BufBackspace. cbn [rb_buf rb_idx rb_kill abs].
  destruct (Nat.eqb_spec (h_idx b) 0) as [Z|Z]; [now apply same_refines|].
  destruct (le_lt_dec (h_idx b) (hlen b)) as [Hi|Hi]; unfold hlen in Hi.
  - rewrite slice_front by lia. rewrite slice_back by lia. cbn [obind].
    destruct (cut_lstep m b (h_idx b - 1) (h_idx b - 1 + 1) K1) as (m' & nb & E & LS); [lia|unfold hlen; lia|].
    exists m', (h_with_buf nb (h_idx b - 1) b). split; [exact E|]. now apply lstep_good.
  - assert (P : obind (slice 0 (h_idx b - 1) (view m (h_buf b))) (fun front =>
        obind (slice (h_idx b - 1 + 1) (length (view m (h_buf b))) (view m (h_buf b))) (fun rest =>
        Ok {| rb_buf := front ++ rest; rb_idx := h_idx b - 1; rb_kill := view m (h_kill b) |})) = Panic).
    { rewrite (slice_bad _ (h_idx b - 1 + 1)) by lia. unfold slice. now destruct (_ && _). }
    rewrite P. cbn. unfold h_cut. rewrite (reslice_bad (h_idx b - 1 + 1)) by (unfold hlen; lia).
    unfold reslice. now destruct (_ && _).
Qed.

Lemma Kill_refines : forall m b, hok m b -> refines m b (h_Kill g m b) (Kill (abs m b)).
Proof.
  intros m b K. pose proof K as (K1 & K2 & K3). pose proof (view_length _ _ K1) as L.
  unfold h_Kill, Kill. cbn [rb_buf rb_idx rb_kill abs].
  destruct (le_lt_dec (h_idx b) (hlen b)) as [Hi|Hi]; unfold hlen in *.
  - rewrite slice_back by lia. rewrite slice_front by lia. cbn [obind].
    destruct (reslice_back m (h_idx b) (h_buf b) K1 Hi) as (k & R1 & W1 & V1 & _).
    rewrite R1. cbn [obind]. destruct (h_pushKill g k m b) as [m1 b1] eqn:EP.
    destruct (pushKill_spec _ _ _ _ _ EP V1) as (P1 & P2 & P3 & P4 & P5 & P6 & P7).
    rewrite P5. destruct (reslice_ok m 0 (h_idx b) (h_buf b) K1) as (nb & R2 & _); [lia|exact Hi|].
    rewrite R2. cbn [obind]. exists m1, (h_with_buf nb (h_idx b) b1). split; [reflexivity|].
    rewrite <- W1. eapply kill_lstep_good; eauto.
    rewrite <- (grows_view _ _ _ P1 K1), <- P5. apply shrink_lstep.
    + rewrite P5. eapply grows_valid; eauto.
    + unfold hlen. now rewrite P5.
    + now rewrite P5.
  - rewrite slice_bad by lia. cbn. now rewrite reslice_bad by lia.
Qed.

(** Cutting out [i, j) with [i, j') saved in the kill buffer. *)
Lemma kill_cut_good : forall m b k i j, hok m b -> valid m k -> i <= j -> j <= hlen b ->
  exists m' b', (let '(m1, b1) := h_pushKill g k m b in h_cut g i j m1 b1) = Ok (m', b') /\
    good m b m' b' {| rb_buf := firstn i (view m (h_buf b)) ++ skipn j (view m (h_buf b)); rb_idx := i; rb_kill := view m k |}.
Proof.
  intros m b k i j K V Hi Hj. pose proof K as (K1 & K2 & K3).
  destruct (h_pushKill g k m b) as [m1 b1] eqn:EP.
  destruct (pushKill_spec _ _ _ _ _ EP V) as (P1 & P2 & P3 & P4 & P5 & P6 & P7).
  destruct (cut_lstep m1 b1 i j) as (m' & nb & E & LS); [rewrite P5; eapply grows_valid; eauto|exact Hi|unfold hlen in *; now rewrite P5|].
  exists m', (h_with_buf nb i b1). split; [exact E|]. eapply kill_lstep_good; eauto.
  now rewrite P5, (grows_view _ _ _ P1 K1) in LS.
Qed.

Lemma cut_bad : forall i j m b, hlen b < j -> h_cut g i j m b = Panic.
Proof.
  intros i j m b H. unfold h_cut. rewrite (reslice_bad j) by lia. unfold reslice. now destruct (_ && _).
Qed.

Lemma pushKill_buf : forall k m b, h_buf (snd (h_pushKill g k m b)) = h_buf b.
Proof. intros. unfold h_pushKill. destruct (make 0 0 m). destruct (append g s (view m0 k) m0). reflexivity. Qed.

Lemma Delete_refines : forall m b, hok m b ->
  refines m b (h_Delete g m b) (r <- Delete (abs m b) ;; Ok (fst r)).
Proof.
  intros m b K. pose proof K as (K1 & K2 & K3). pose proof (view_length _ _ K1) as L.
  unfold h_Delete, Delete. cbn [rb_buf rb_idx rb_kill abs]. rewrite L. unfold hlen.
  destruct (Nat.eqb_spec (h_idx b) (sl_len (h_buf b))) as [Z|Z]; [now apply same_refines|].
  rewrite <- L.
  destruct (le_lt_dec (h_idx b) (hlen b)) as [Hi|Hi]; unfold hlen in *.
  - rewrite slice_ok by lia. rewrite slice_front by lia. rewrite slice_back by lia. cbn [obind fst].
    destruct (reslice_ok m (h_idx b) (h_idx b + 1) (h_buf b) K1) as (k & R1 & W1 & V1 & _); [lia|lia|].
    rewrite R1. cbn [obind]. rewrite <- W1. apply kill_cut_good; auto; unfold hlen; lia.
  - rewrite slice_bad by lia. cbn [obind refines]. destruct (reslice _ _ _) as [k| |] eqn:ER; cbn [obind].
    + pose proof (pushKill_buf k m b) as PB. destruct (h_pushKill g k m b) as [m1 b1]. cbn in PB.
      apply cut_bad. unfold hlen. rewrite PB. lia.
    + reflexivity.
    + now apply reslice_not_hang in ER.
Qed.

Lemma next_word_total : forall x n i, i + n <= length x -> 0 < i -> exists o, next_word x n i = Ok o.
Proof.
  intros x n; induction n as [|n IH]; intros i H Hi; cbn; [eauto|].
  unfold get. destruct (nth_error x i) eqn:E1; [|apply nth_error_None in E1; lia]. cbn.
  destruct (negb (IsWordBreak z)); [|apply IH; lia].
  destruct (nth_error x (i - 1)) eqn:E2; [|apply nth_error_None in E2; lia]. cbn.
  destruct (IsWordBreak z0); [eauto|apply IH; lia].
Qed.

Lemma DeleteWord_refines : forall m b, hok m b -> refines m b (h_DeleteWord g m b) (DeleteWord (abs m b)).
Proof.
  intros m b K. pose proof K as (K1 & K2 & K3). pose proof (view_length _ _ K1) as L.
  unfold h_DeleteWord, DeleteWord. cbn [rb_buf rb_idx rb_kill abs]. unfold hlen. rewrite L.
  destruct (Nat.eqb_spec (h_idx b) (sl_len (h_buf b))) as [Z|Z]; [now apply same_refines|].
  destruct (skip_breaks _ _ _) as [init| |] eqn:E1; cbn [obind]; try reflexivity.
  apply skip_breaks_range in E1.
  destruct (next_word _ _ _) as [[i|]| |] eqn:E2; cbn [obind]; try reflexivity; [|now apply Kill_refines].
  apply next_word_range in E2. rewrite <- L.
  assert (Hi : h_idx b < sl_len (h_buf b)) by lia.
  rewrite slice_ok by lia. rewrite slice_front by lia. rewrite slice_back by lia. cbn [obind].
  destruct (reslice_ok m (h_idx b) (i - 1) (h_buf b) K1) as (k & R1 & W1 & V1 & _); [lia|lia|].
  rewrite R1. cbn [obind]. rewrite <- W1. apply kill_cut_good; auto; unfold hlen; lia.
Qed.

Lemma BackEscapeWord_refines : forall m b, hok m b -> refines m b (h_BackEscapeWord g m b) (BackEscapeWord (abs m b)).
Proof.
  intros m b K. pose proof K as (K1 & K2 & K3). pose proof (view_length _ _ K1) as L.
  unfold h_BackEscapeWord, BackEscapeWord. cbn [rb_buf rb_idx rb_kill abs].
  destruct (Nat.eqb_spec (h_idx b) 0) as [Z|Z]; [now apply same_refines|].
  destruct (prev_word _ _) as [[i|]| |] eqn:E2; cbn [obind]; try reflexivity.
  - apply prev_word_range in E2. rewrite L in E2.
    rewrite slice_ok by lia. rewrite slice_front by lia. rewrite slice_back by lia. cbn [obind].
    destruct (reslice_ok m i (h_idx b) (h_buf b) K1) as (k & R1 & W1 & V1 & _); [lia|lia|].
    rewrite R1. cbn [obind]. rewrite <- W1.
    destruct (h_pushKill g k m b) as [m1 b1] eqn:EP.
    destruct (pushKill_spec _ _ _ _ _ EP V1) as (P1 & P2 & P3 & P4 & P5 & P6 & P7). rewrite P6.
    pose proof (kill_cut_good m b k i (h_idx b) K V1) as G. rewrite EP in G. apply G; unfold hlen; lia.
  - destruct (reslice_ok m 0 0 (h_buf b) K1) as (nb & R1 & _); [lia|lia|]. rewrite R1. cbn [obind].
    exists m, (h_with_buf nb 0 b). split; [reflexivity|]. apply lstep_good; [exact K|].
    apply (shrink_lstep m b 0 0 nb K1); [lia|exact R1].
Qed.

Lemma Erase_refines : forall m b, hok m b -> refines m b (h_Erase g m b) (Erase (abs m b)).
Proof.
  intros m b K. pose proof K as (K1 & K2 & K3).
  unfold h_Erase, Erase. cbn [rb_buf rb_idx rb_kill abs].
  destruct (h_pushKill g (h_buf b) m b) as [m1 b1] eqn:EP.
  destruct (pushKill_spec _ _ _ _ _ EP K1) as (P1 & P2 & P3 & P4 & P5 & P6 & P7).
  rewrite P5. destruct (reslice_ok m 0 0 (h_buf b) K1) as (nb & R1 & _); [lia|lia|].
  rewrite R1. cbn [obind]. exists m1, (h_with_buf nb 0 b1). split; [reflexivity|].
  eapply kill_lstep_good; eauto.
  apply (shrink_lstep m1 b1 0 0 nb).
  - rewrite P5. eapply grows_valid; eauto.
  - lia.
  - now rewrite P5.
Qed.

Lemma KillFront_refines : forall m b, hok m b -> refines m b (h_KillFront g m b) (KillFront (abs m b)).
Proof.
  intros m b K. pose proof K as (K1 & K2 & K3). pose proof (view_length _ _ K1) as L.
  unfold h_KillFront, KillFront. cbn [rb_buf rb_idx rb_kill abs].
  destruct (Nat.eqb_spec (h_idx b) 0) as [Z|Z]; [now apply same_refines|].
  destruct (le_lt_dec (h_idx b) (hlen b)) as [Hi|Hi]; unfold hlen in *.
  - rewrite slice_front by lia. rewrite slice_back by lia. cbn [obind].
    destruct (reslice_ok m 0 (h_idx b) (h_buf b) K1) as (k & R1 & W1 & V1 & _); [lia|exact Hi|].
    rewrite R1. cbn [obind]. rewrite Nat.sub_0_r in W1. cbn [skipn] in W1.
    destruct (h_pushKill g k m b) as [m1 b1] eqn:EP.
    destruct (pushKill_spec _ _ _ _ _ EP V1) as (P1 & P2 & P3 & P4 & P5 & P6 & P7).
    destruct (Nat.ltb_spec (sl_len (h_buf b)) (h_idx b)) as [Q|Q]; [lia|].
    rewrite P5. pose proof (grows_valid _ _ _ P1 K1) as Vb.
    set (n := sl_len (h_buf b) - h_idx b).
    destruct (reslice_ok m1 0 n (h_buf b) Vb) as (dst & R2 & W2 & V2 & X1 & X2 & X3 & X4); [lia|unfold n; lia|].
    rewrite R2. cbn [obind].
    destruct (reslice_back m1 (h_idx b) (h_buf b) Vb Hi) as (src & R3 & W3 & V3 & Y1 & Y2 & Y3).
    rewrite R3. cbn [obind]. rewrite (grows_view _ _ _ P1 K1) in W3.
    set (m2 := copy_to dst (view m1 src) m1).
    exists m2, (h_with_buf dst 0 b1). split; [reflexivity|].
    rewrite <- W1. eapply kill_lstep_good; eauto.
    assert (F : firstn (sl_len dst) (view m1 src) = skipn (h_idx b) (view m (h_buf b))).
    { rewrite W3. apply firstn_all2. rewrite skipn_length. unfold n in *. lia. }
    assert (Em : mm m2 (sl_a dst) = put_at (sl_off dst) (skipn (h_idx b) (view m (h_buf b))) (mm m1 (sl_a dst))).
    { unfold m2, copy_to, write; cbn. now rewrite upd_same, F. }
    assert (Ln : length (skipn (h_idx b) (view m (h_buf b))) = sl_len dst).
    { rewrite skipn_length. unfold n in *. lia. }
    destruct V2 as (V2a & V2b & V2c).
    assert (Ev : view m2 dst = skipn (h_idx b) (view m (h_buf b))).
    { unfold view at 1. rewrite Em.
      pose proof (skipn_put_at (sl_off dst) 0 (skipn (h_idx b) (view m (h_buf b))) (mm m1 (sl_a dst)) ltac:(lia)) as S.
      rewrite Nat.add_0_r in S. rewrite S, <- Ln.
      apply (firstn_put_at 0). lia. }
    assert (En : mm_new m2 = mm_new m1) by reflexivity.
    assert (Eo : forall a, a <> sl_a dst -> mm m2 a = mm m1 a) by (intros a Ha; apply upd_other; exact Ha).
    clearbody m2. unfold lstep, touches_only_line, in_place. cbn.
    split; [unfold valid; rewrite Em, put_at_length by lia; lia|].
    split; [exact Ev|]. do 3 (split; [reflexivity|]).
    split; [lia|].
    split; [intros a Ha Hne; apply Eo; congruence|].
    left. rewrite P5, Ev. split; [exact X1|]. split; [lia|]. split; [lia|].
    rewrite <- X1, Em. f_equal. lia.
  - rewrite slice_bad by lia. cbn [obind refines]. destruct (reslice _ _ _) as [k| |] eqn:ER; cbn [obind]; [|reflexivity|].
    + destruct (h_pushKill g k m b) as [m1 b1].
      destruct (Nat.ltb_spec (sl_len (h_buf b)) (h_idx b)); [reflexivity|lia].
    + now apply reslice_not_hang in ER.
Qed.

Lemma Yank_refines : fr = true -> forall m b, hok m b -> refines m b (h_Yank g m b) (Yank (abs m b)).
Proof.
  intros Fr m b K. pose proof K as (K1 & K2 & K3). pose proof (view_length _ _ K1) as L. pose proof (view_length _ _ K2) as Lk.
  unfold h_Yank, Yank. cbn [rb_buf rb_idx rb_kill abs]. rewrite Lk.
  destruct (Nat.eqb_spec (sl_len (h_kill b)) 0) as [Z|Z]; [now apply same_refines|].
  destruct (make 0 (hlen b + sl_len (h_kill b)) m) as [m1 s0] eqn:E0.
  destruct (make_spec _ _ _ _ E0) as (A & B & C & D & E & F & G).
  destruct (le_lt_dec (h_idx b) (hlen b)) as [Hi|Hi]; unfold hlen in *.
  - rewrite slice_front by lia. rewrite slice_back by lia. cbn [obind].
    destruct (reslice_ok m 0 (h_idx b) (h_buf b) K1) as (front & R1 & W1 & V1 & _); [lia|exact Hi|].
    rewrite Nat.sub_0_r in W1. cbn [skipn] in W1.
    rewrite R1. cbn [obind]. rewrite (grows_view _ _ _ A V1), W1.
    destruct (append g s0 _ m1) as [m2 s1] eqn:E1.
    destruct (append_new m _ _ _ _ _ E1 B A) as (A1 & B1 & C1 & D1 & F1); [lia|].
    rewrite (grows_view _ _ _ A1 K2).
    destruct (append g s1 _ m2) as [m3 s2] eqn:E2.
    destruct (append_new m _ _ _ _ _ E2 B1 A1) as (A2 & B2 & C2 & D2 & F2); [lia|].
    destruct (reslice_back m (h_idx b) (h_buf b) K1 Hi) as (rest & R2 & W2 & V2 & _).
    rewrite R2. cbn [obind]. rewrite (grows_view _ _ _ A2 V2), W2.
    destruct (append g s2 _ m3) as [m4 s3] eqn:E3.
    destruct (append_new m _ _ _ _ _ E3 B2 A2) as (A3 & B3 & C3 & D3 & F3); [lia|].
    exists m4, (h_with_buf s3 (h_idx b + sl_len (h_kill b)) b). split; [reflexivity|].
    apply lstep_good; [exact K|]. unfold lstep, touches_only_line, moved; cbn.
    split; [exact B3|]. split; [rewrite C3, C2, C1, C; cbn; now rewrite <- app_assoc|].
    do 3 (split; [reflexivity|]). destruct A3 as (A3 & A3').
    split; [exact A3|]. split; [intros a Ha _; now apply A3'|]. right. split; [|now left]. split; [exact D3|]. apply A3', K1.
  - rewrite slice_bad by lia. cbn [obind refines]. destruct (reslice 0 _ _) as [k| |] eqn:ER; cbn [obind]; [|reflexivity|].
    + destruct (append g s0 _ m1) as [m2 s1]. destruct (append g s1 _ m2) as [m3 s2].
      now rewrite reslice_bad by lia.
    + now apply reslice_not_hang in ER.
Qed.

(** Overwriting one rune of the line. *)
Lemma store_lstep : forall m b i x j, valid m (h_buf b) -> i < hlen b ->
  exists m', store (h_buf b) i x m = Ok m' /\ (exists y, set (view m (h_buf b)) i x = Ok y /\ lstep m b m' (h_with_idx j b) y j) /\
    mm_new m' = mm_new m.
Proof.
  intros m b i x j V Hi. unfold hlen in Hi. pose proof (view_length _ _ V) as L. destruct V as (V1 & V2 & V3).
  unfold store, set. rewrite L. destruct (Nat.ltb_spec i (sl_len (h_buf b))) as [_|]; [|lia].
  eexists. split; [reflexivity|]. split; [|reflexivity].
  eexists. split; [reflexivity|].
  set (m' := write (sl_a (h_buf b)) (sl_off (h_buf b) + i) [x] m).
  assert (Em : mm m' (sl_a (h_buf b)) = put_at (sl_off (h_buf b) + i) [x] (mm m (sl_a (h_buf b)))).
  { unfold m', write; cbn. apply upd_same. }
  assert (Ev : view m' (h_buf b) = firstn i (view m (h_buf b)) ++ x :: skipn (S i) (view m (h_buf b))).
  { unfold view at 1. rewrite Em, skipn_put_at by lia. unfold put_at, view.
    rewrite firstn_app, firstn_firstn, firstn_length, skipn_length.
    replace (Nat.min (sl_len (h_buf b)) i) with i by lia.
    replace (sl_len (h_buf b) - Nat.min i (length (mm m (sl_a (h_buf b))) - sl_off (h_buf b))) with (S (sl_len (h_buf b) - S i)) by lia.
    rewrite firstn_firstn. replace (Nat.min i (sl_len (h_buf b))) with i by lia. f_equal.
    cbn [app length firstn]. f_equal. rewrite skipn_firstn_comm. repeat f_equal. lia. }
  assert (En : mm_new m' = mm_new m) by reflexivity.
  assert (Eo : forall a, a <> sl_a (h_buf b) -> mm m' a = mm m a) by (intros a Ha; apply upd_other; exact Ha).
  clearbody m'. unfold lstep, touches_only_line, in_place. cbn.
  split; [unfold valid; rewrite Em, put_at_length by (cbn; lia); lia|].
  split; [exact Ev|]. do 3 (split; [reflexivity|]).
  split; [lia|]. split; [intros a Ha Hne; now apply Eo|].
  left. do 3 (split; [reflexivity|]). rewrite Em.
  rewrite put_at_joint by lia. rewrite Ev. unfold put_at at 1 2. f_equal.
  rewrite <- !app_assoc. unfold view. rewrite !firstn_firstn. replace (Nat.min i (sl_len (h_buf b))) with i by lia. f_equal.
  rewrite !app_length, !firstn_length, !skipn_length. cbn [length].
  rewrite skipn_length, firstn_length, skipn_length.
  replace (sl_off (h_buf b) + (Nat.min i (length (mm m (sl_a (h_buf b))) - sl_off (h_buf b)) + 1)) with (sl_off (h_buf b) + S i) by lia.
  cbn [app]. f_equal.
  replace (sl_off (h_buf b) + (_ + _)) with (sl_off (h_buf b) + sl_len (h_buf b)) by lia.
  rewrite skipn_firstn_comm, skipn_skipn'.
  rewrite <- (firstn_skipn (sl_len (h_buf b) - S i) (skipn (sl_off (h_buf b) + S i) (mm m (sl_a (h_buf b))))) at 1.
  f_equal. rewrite skipn_skipn'. f_equal. lia.
Qed.

Lemma Replace_refines : forall ch m b, hok m b -> refines m b (h_Replace ch m b) (Replace ch (abs m b)).
Proof.
  intros ch m b K. pose proof K as (K1 & K2 & K3). pose proof (view_length _ _ K1) as L.
  unfold h_Replace, Replace. cbn [rb_buf rb_idx rb_kill abs].
  destruct (le_lt_dec (hlen b) (h_idx b)) as [Hi|Hi].
  - unfold set, store, hlen in *. rewrite L. destruct (Nat.ltb_spec (h_idx b) (sl_len (h_buf b))); [lia|]. reflexivity.
  - destruct (store_lstep m b (h_idx b) ch (h_idx b) K1 Hi) as (m' & E & (y & Es & LS) & _).
    rewrite E, Es. cbn [obind]. exists m', b. split; [reflexivity|].
    pose proof (lstep_good _ _ _ _ _ _ K LS) as G. destruct b; exact G.
Qed.

Lemma touches_trans : forall m1 m2 m3 b1 b2 b3,
  valid m1 (h_buf b1) -> in_place m1 m2 b1 b2 -> touches_only_line fr m1 m2 b1 b2 -> mm_new m2 = mm_new m1 ->
  valid m3 (h_buf b3) -> sl_len (h_buf b2) = sl_len (h_buf b3) -> valid m2 (h_buf b2) ->
  in_place m2 m3 b2 b3 -> touches_only_line fr m2 m3 b2 b3 -> touches_only_line fr m1 m3 b1 b3.
Proof.
  intros m1 m2 m3 b1 b2 b3 V (A1 & A2 & A3 & A4) (B1 & B2 & _) N V3 Ll V2 (C1 & C2 & C3 & C4) (D1 & D2 & _).
  split; [lia|]. split.
  - intros a Ha Hne. rewrite D2 by (try lia; congruence). now apply B2.
  - left. unfold in_place. split; [congruence|]. split; [congruence|]. split; [congruence|].
    rewrite A1, A2 in C4. rewrite C4, A4. unfold put_at.
    pose proof (view_length _ _ V2) as L2. pose proof (view_length _ _ V3) as L3.
    destruct V as (Va & Vb & Vc).
    assert (O : sl_off (h_buf b1) + sl_len (h_buf b2) <= length (mm m1 (sl_a (h_buf b1)))).
    { destruct V2 as (X & Y & Z). rewrite A3 in Y. lia. }
    rewrite !firstn_app, !firstn_firstn, firstn_length.
    replace (sl_off (h_buf b1) - Nat.min (sl_off (h_buf b1)) (length (mm m1 (sl_a (h_buf b1))))) with 0 by lia.
    cbn [firstn]. rewrite app_nil_r, Nat.min_id. f_equal. f_equal.
    rewrite L2, L3, <- Ll. rewrite app_assoc, skipn_app, app_length, firstn_length, L2.
    rewrite skipn_all2 by (rewrite app_length, firstn_length; lia). cbn [app].
    replace (sl_off (h_buf b1) + sl_len (h_buf b2) - (Nat.min (sl_off (h_buf b1)) (length (mm m1 (sl_a (h_buf b1)))) + sl_len (h_buf b2))) with 0 by lia.
    reflexivity.
Qed.

Lemma Transpose_refines : forall m b, hok m b -> refines m b (h_Transpose m b) (Transpose (abs m b)).
Proof.
  intros m b K. pose proof K as (K1 & K2 & K3). pose proof (view_length _ _ K1) as L.
  unfold h_Transpose, Transpose. cbn [rb_buf rb_idx rb_kill abs]. rewrite L. unfold hlen.
  destruct (Nat.ltb_spec (sl_len (h_buf b)) 2) as [H2|H2].
  { now apply stay_refines. }
  destruct (Nat.eqb_spec (sl_len (h_buf b)) 1) as [|_]; [lia|].
  set (i := if h_idx b =? 0 then 1 else if sl_len (h_buf b) <=? h_idx b then sl_len (h_buf b) - 1 else h_idx b).
  assert (Hi : 0 < i < sl_len (h_buf b)).
  { unfold i. destruct (Nat.eqb_spec (h_idx b) 0); [lia|]. destruct (Nat.leb_spec (sl_len (h_buf b)) (h_idx b)); lia. }
  clearbody i.
  unfold get. destruct (nth_error (view m (h_buf b)) (i - 1)) as [x|] eqn:E1; [|apply nth_error_None in E1; lia].
  destruct (nth_error (view m (h_buf b)) i) as [y|] eqn:E2; [|apply nth_error_None in E2; lia]. cbn [obind].
  destruct (store_lstep m b i x (h_idx b) K1) as (m1 & S1 & (y1 & T1 & LS1) & N1); [unfold hlen; lia|].
  rewrite S1, T1. cbn [obind].
  pose proof LS1 as (V1 & W1 & _ & _ & _ & X1). cbn in V1, W1.
  destruct (store_lstep m1 b (i - 1) y (i + 1) V1) as (m2 & S2 & (y2 & T2 & LS2) & N2); [unfold hlen; lia|].
  rewrite W1 in T2. rewrite S2, T2. cbn [obind].
  pose proof LS2 as (V2 & W2 & _ & _ & _ & X2). cbn in V2, W2.
  exists m2, (h_with_idx (i + 1) b). split; [reflexivity|]. apply lstep_good; [exact K|].
  unfold lstep. cbn. split; [exact V2|]. split; [exact W2|]. do 3 (split; [reflexivity|]).
  apply (touches_trans m m1 m2 b (h_with_idx (h_idx b) b) (h_with_idx (i + 1) b)); auto.
  - destruct X1 as (_ & _ & [X|((X & _) & _)]); [exact X|]. cbn in X. destruct K1 as (Q & _). lia.
  - destruct X2 as (_ & _ & [X|((X & _) & _)]); [exact X|]. cbn in X. destruct V1 as (Q & _). cbn in Q. lia.
Qed.

Lemma Reset_refines : forall m b, hok m b -> refines m b (h_Reset m b) (Ok (snd (Reset (abs m b)))).
Proof.
  intros m b K. pose proof K as (K1 & K2 & K3). unfold h_Reset, Reset. cbn [rb_buf rb_idx rb_kill abs snd].
  destruct (copy_of (view m (h_buf b)) m) as [m1 r] eqn:EC.
  destruct (copy_of_spec _ _ _ _ EC) as (A & _).
  destruct (reslice_ok m 0 0 (h_buf b) K1) as (nb & R1 & _); [lia|lia|]. rewrite R1. cbn [obind].
  exists m1, (h_with_buf nb 0 b). split; [reflexivity|].
  assert (K' : hok m1 b). { split; [eapply grows_valid; eauto|]. split; [eapply grows_valid; eauto|exact K3]. }
  pose proof (shrink_lstep m1 b 0 0 nb (proj1 K') ltac:(lia) R1) as LS.
  pose proof (lstep_good _ _ _ _ _ _ K' LS) as (Q1 & Q2 & Q3 & Q4 & Q5).
  unfold good. split; [exact Q1|]. split.
  { rewrite Q2. cbn. now rewrite (grows_view _ _ _ A K2). }
  split; [eapply touches_compose; eauto|]. split; [now left|reflexivity].
Qed.

Lemma Set_refines : fr = true -> forall t m b, hok m b ->
  refines m b (let '(m1, s) := copy_of t m in h_SetWithIdx (length t) s m1 b) (Ok (Set_ t (abs m b))).
Proof.
  intros Fr t m b K. pose proof K as (K1 & K2 & K3).
  destruct (copy_of t m) as [m1 s] eqn:EC.
  destruct (copy_of_spec _ _ _ _ EC) as (A & B & C & D & _).
  exists m1, (h_with_buf s (length t) b). split; [reflexivity|].
  change (good m b m1 (h_with_buf s (length t) b) {| rb_buf := t; rb_idx := length t; rb_kill := view m (h_kill b) |}).
  apply lstep_good; [exact K|]. unfold lstep, touches_only_line, moved; cbn. destruct A as (A1 & A2).
  split; [exact B|]. split; [exact C|]. do 3 (split; [reflexivity|]).
  split; [exact A1|]. split; [intros a Ha _; now apply A2|]. right. split; [|now left]. split; [lia|]. apply A2, K1.
Qed.

End heap.

Theorem edit_refines : forall g e m b, hok m b ->
  refines (moves_freely e) m b (h_edit g e m b) (run_edit e (abs m b)).
Proof.
  intros g e m b K. destruct e; cbn [h_edit run_edit moves_freely];
    auto using write_refines, Backspace_refines, Delete_refines, DeleteWord_refines, Kill_refines, KillFront_refines, Erase_refines,
      Yank_refines, BackEscapeWord_refines, Transpose_refines, Replace_refines, Reset_refines, Set_refines;
    match goal with |- refines _ _ _ (h_motion ?e _ _) _ => exact (motion_refines false e m b eq_refl K) end.
Qed.
