(** Sequences of edits, segment completion and history entries on shared memory. *)
From Coq Require Import ListDec.
From Verif Require Import Base RunesModel RunesSpec RunesProofs RuneBufModel RuneBufSpec RuneBufProofs HeapModel HeapSpec HeapProofs CompleterModel.
Open Scope nat_scope.

(** What a sequence of edits may touch. *)
Definition line_only (m m' : mem) (b b' : hbuf) : Prop :=
  mm_new m <= mm_new m' /\
  (forall a, a < mm_new m -> a <> sl_a (h_buf b) -> mm m' a = mm m a) /\
  (sl_a (h_buf b') = sl_a (h_buf b) \/ mm_new m <= sl_a (h_buf b')).

Lemma line_only_refl : forall m b, line_only m m b b.
Proof. intros. split; [lia|]. split; [reflexivity|now left]. Qed.

Lemma touches_line_only : forall fr m m' b b', touches_only_line fr m m' b b' -> line_only m m' b b'.
Proof.
  intros fr m m' b b' (A & B & C). split; [exact A|]. split; [exact B|].
  destruct C as [(C & _)|((C & _) & _)]; [now left|now right].
Qed.

Lemma line_only_trans : forall m1 m2 m3 b1 b2 b3, valid m1 (h_buf b1) ->
  line_only m1 m2 b1 b2 -> line_only m2 m3 b2 b3 -> line_only m1 m3 b1 b3.
Proof.
  intros m1 m2 m3 b1 b2 b3 (V & _) (A1 & A2 & A3) (B1 & B2 & B3).
  split; [lia|]. split.
  - intros a Ha Hne. rewrite B2; [now apply A2|lia|]. destruct A3 as [A3|A3]; [congruence|lia].
  - destruct A3 as [A3|A3]; destruct B3 as [B3|B3]; try (right; lia). left. congruence.
Qed.

Lemma edits_refine : forall g es m b, hok m b ->
  match run_edits es (abs m b) with
  | Ok s => exists m' b', h_edits g es m b = Ok (m', b') /\ hok m' b' /\ abs m' b' = s /\ line_only m m' b b' /\ h_bck b' = h_bck b
  | Panic => h_edits g es m b = Panic
  | Hang => h_edits g es m b = Hang
  end.
Proof.
  intros g es; induction es as [|e es IH]; intros m b K; cbn [run_edits h_edits].
  - exists m, b. split; [reflexivity|]. split; [exact K|]. split; [reflexivity|]. split; [apply line_only_refl|reflexivity].
  - pose proof (edit_refines g e m b K) as R. unfold refines in R.
    destruct (run_edit e (abs m b)) as [s| |]; cbn [obind]; [|rewrite R; reflexivity|rewrite R; reflexivity].
    destruct R as (m1 & b1 & E & K1 & Ea & T & _ & Eb). rewrite E. cbn [obind fst snd].
    specialize (IH m1 b1 K1). rewrite Ea in IH.
    destruct (run_edits es s) as [s'| |]; [|exact IH|exact IH].
    destruct IH as (m2 & b2 & E2 & K2 & Ea2 & L2 & Eb2).
    exists m2, b2. split; [exact E2|]. split; [exact K2|]. split; [exact Ea2|]. split; [|congruence].
    eapply line_only_trans; [apply K| |exact L2]. eapply touches_line_only; eauto.
Qed.

Lemma line_only_view : forall m m' b b' s, line_only m m' b b' -> valid m s -> sl_a s <> sl_a (h_buf b) ->
  view m' s = view m s.
Proof. intros m m' b b' s (A & B & C) (D & _) H. apply view_ext. now apply B. Qed.

(** The library's own storage: a new RuneBuffer is in order. *)
Lemma hok0 : hok mem0 hbuf0.
Proof. unfold hok, valid; cbn. lia. Qed.

(** ** Segment completion *)

Definition own (c d : slc) : Prop := sl_cap c = sl_len c \/ sl_a c <> sl_a d.
Definition both_own (c d : slc) : Prop := own c d /\ own d c.

(** Appending to [r] leaves [p] alone. *)
Definition harmless (r p : slc) : Prop :=
  sl_cap r = sl_len r \/ sl_a r <> sl_a p \/ sl_off p + sl_len p <= sl_off r + sl_len r.

Lemma append_harmless : forall g r x m m' s p, append g r [x] m = (m', s) -> valid m r -> valid m p -> harmless r p ->
  valid m' p /\ view m' p = view m p.
Proof.
  intros g r x m m' s p H Vr Vp Hh. pose proof (append_spec _ _ _ _ _ _ H Vr) as (A & B & C & D & E & F).
  destruct F as [(F1 & F2 & F3 & F4 & F5 & F6)|(F1 & F2 & F3)].
  2: { split; [eapply grows_valid; eauto|eapply grows_view; eauto]. }
  destruct (Nat.eq_dec (sl_a r) (sl_a p)) as [Eq|Ne].
  2: { destruct Vp as (P1 & P2 & P3). unfold valid, view. rewrite (E _ P1) by auto. split; [lia|reflexivity]. }
  destruct Hh as [Hh|[Hh|Hh]]; [cbn in F1; lia|contradiction|].
  pose proof (view_length _ _ Vr) as Lr. destruct Vr as (R1 & R2 & R3). destruct Vp as (P1 & P2 & P3).
  unfold valid, view. rewrite <- Eq in *. rewrite F5.
  assert (Lt : length (view m r ++ [x]) = sl_len r + 1) by (rewrite app_length, Lr; reflexivity).
  rewrite put_at_length by (rewrite Lt; cbn in F1; lia).
  split; [lia|]. cbn in F1.
  assert (J : put_at (sl_off r) (view m r ++ [x]) (mm m (sl_a r)) = put_at (sl_off r + sl_len r) [x] (mm m (sl_a r))).
  { unfold view. symmetry. apply put_at_joint. lia. }
  rewrite J. unfold put_at.
  rewrite skipn_app_le by (rewrite firstn_length; lia).
  rewrite firstn_app_le by (rewrite skipn_length, firstn_length; lia).
  rewrite skipn_firstn_comm, firstn_firstn. f_equal. lia.
Qed.

Lemma blanks_spec : forall g rs m m' ss P, h_blanks g rs m = (m', ss) ->
  Forall (valid m) rs -> ForallOrdPairs both_own rs ->
  Forall (valid m) P -> (forall r p, In r rs -> In p P -> harmless r p) ->
  map (view m') ss = map (fun r => view m r ++ [32%Z]) rs /\
  (forall p, In p P -> view m' p = view m p).
Proof.
  intros g rs; induction rs as [|r rs IH]; intros m m' ss P H Vr Hp Vp Hh; cbn in H.
  { injection H as <- <-. split; reflexivity. }
  destruct (append g r [32%Z] m) as [m1 s] eqn:E1. destruct (h_blanks g rs m1) as [m2 ss'] eqn:E2.
  injection H as <- <-. inversion Vr as [|? ? Vr1 Vr2]; subst. inversion Hp as [|? ? Hp1 Hp2]; subst.
  pose proof (append_spec _ _ _ _ _ _ E1 Vr1) as (A & B & C & D & E & F).
  assert (Keep : forall p, In p (rs ++ P) -> valid m1 p /\ view m1 p = view m p).
  { intros p Hi. apply in_app_or in Hi. eapply append_harmless; eauto.
    - destruct Hi as [Hi|Hi]; [eapply Forall_forall in Vr2; eauto|eapply Forall_forall in Vp; eauto].
    - destruct Hi as [Hi|Hi]; [|apply Hh; [now left|exact Hi]].
      eapply Forall_forall in Hp1; eauto. destruct Hp1 as ([O|O] & _); [now left|right; now left]. }
  destruct (IH m1 m2 ss' (s :: P) E2) as (I1 & I2).
  - apply Forall_forall. intros p Hi. apply Keep. apply in_or_app. now left.
  - exact Hp2.
  - constructor; [exact A|]. apply Forall_forall. intros p Hi. apply Keep. apply in_or_app. now right.
  - intros q p Hq [<-|Hi]; [|apply Hh; [now right|exact Hi]].
    destruct F as [(F1 & F2 & F3 & F4 & F5 & F6)|(F1 & F2 & F3)].
    + eapply Forall_forall in Hp1; eauto. destruct Hp1 as ([O|O] & O2); [cbn in F1; lia|].
      unfold harmless. rewrite F2. auto.
    + right. left. rewrite F2. eapply Forall_forall in Vr2; eauto. destruct Vr2 as (V & _). lia.
  - split.
    + cbn [map]. rewrite I1, (I2 s) by now left. rewrite B. f_equal.
      apply map_ext_in. intros q Hq. f_equal. apply Keep. apply in_or_app. now left.
    + intros p Hi. rewrite I2 by now right. apply Keep. apply in_or_app. now right.
Qed.

Definition matching (last : list Z) (cands : list (list Z)) : list (list Z) :=
  map (skipn (length last)) (filter (fun c => HasPrefix c last) cands).

Lemma HasPrefix_length : forall r p, HasPrefix r p = true -> length p <= length r.
Proof.
  intros r p H. unfold HasPrefix in H. destruct (Nat.ltb_spec (length r) (length p)); [discriminate|lia].
Qed.

Definition piece_of (n : nat) (c r : slc) : Prop :=
  sl_a r = sl_a c /\ sl_off r = sl_off c + n /\ sl_len r + n = sl_len c /\ sl_cap r + n = sl_cap c.

Lemma RetSegment_spec : forall last m cands, Forall (valid m) cands -> ForallOrdPairs both_own cands ->
  exists rs, h_RetSegment last m cands = Ok rs /\ map (view m) rs = matching last (map (view m) cands) /\
    Forall (valid m) rs /\ ForallOrdPairs both_own rs /\
    Forall (fun r => exists c, In c cands /\ piece_of (length last) c r) rs.
Proof.
  intros last m cands V O; induction cands as [|c cands IH]; cbn [h_RetSegment].
  { exists []. repeat split; constructor. }
  inversion V as [|? ? V1 V2]; subst. inversion O as [|? ? O1 O2]; subst.
  destruct (IH V2 O2) as (rs & E & M & Vr & Or & Pr).
  assert (Pr' : Forall (fun r => exists d, In d (c :: cands) /\ piece_of (length last) d r) rs).
  { apply Forall_forall. intros r Hr. eapply Forall_forall in Pr; eauto. destruct Pr as (d & Hd & Pd).
    exists d. split; [now right|exact Pd]. }
  unfold matching in *. cbn [map filter].
  destruct (HasPrefix (view m c) last) eqn:HP.
  2: { exists rs. repeat split; try assumption; apply Pr. }
  pose proof (HasPrefix_length _ _ HP) as HL. rewrite (view_length _ _ V1) in HL.
  destruct (reslice_back m (length last) c V1 HL) as (r & R1 & W1 & Vr1 & X1 & X2 & X3).
  rewrite R1, E. cbn [obind].
  destruct (reslice_spec _ _ _ _ R1) as (Y1 & Y2 & Y3 & Y4 & Y5 & Y6).
  assert (Pc : piece_of (length last) c r) by (unfold piece_of; destruct V1 as (Q1 & Q2 & Q3); lia).
  exists (r :: rs). split; [reflexivity|]. split; [cbn [map]; now rewrite W1, M|].
  split; [constructor; assumption|]. split.
  - constructor; [|exact Or]. apply Forall_forall. intros r2 Hr2. eapply Forall_forall in Pr; eauto.
    destruct Pr as (d & Hd & (D1 & D2 & D3 & D4)). eapply Forall_forall in O1; eauto.
    destruct Pc as (C1 & C2 & C3 & C4). destruct O1 as ([P|P] & [Q|Q]); split; unfold own; rewrite ?C1, ?D1;
      first [right; congruence | left; lia].
  - constructor; [|exact Pr']. exists c. split; [now left|exact Pc].
Qed.

Lemma pairs_nth : forall (A : Type) (R : A -> A -> Prop) l d i j, ForallOrdPairs R l -> i < length l -> j < length l -> i <> j ->
  R (nth i l d) (nth j l d) \/ R (nth j l d) (nth i l d).
Proof.
  intros A R l d i j O; revert i j. induction O as [|x l F O IH]; intros i j Hi Hj Nij; cbn in *; [lia|].
  destruct i as [|i], j as [|j]; try lia; cbn.
  - left. eapply Forall_forall in F; eauto. apply nth_In. lia.
  - right. eapply Forall_forall in F; eauto. apply nth_In. lia.
  - apply IH; lia.
Qed.

Lemma SegmentDo_spec : forall g last m cands, Forall (valid m) cands -> ForallOrdPairs both_own cands ->
  exists m' ss, h_SegmentDo g last cands m = Ok (m', ss) /\
    map (view m') ss = map (fun c => c ++ [32%Z]) (matching last (map (view m) cands)) /\
    map (view m') cands = map (view m) cands.
Proof.
  intros g last m cands V O. destruct (RetSegment_spec last m cands V O) as (rs & E & M & Vr & Or & Pr).
  unfold h_SegmentDo. rewrite E. cbn [obind]. destruct (h_blanks g rs m) as [m' ss] eqn:EB.
  destruct (blanks_spec g rs m m' ss cands EB Vr Or V) as (B1 & B2).
  - intros r p Hr Hp. eapply Forall_forall in Pr; eauto. destruct Pr as (c & Hc & (C1 & C2 & C3 & C4)).
    unfold harmless. rewrite C1.
    destruct (In_nth _ _ c Hc) as (i & Hi & Ei). destruct (In_nth _ _ c Hp) as (j & Hj & Ej).
    destruct (Nat.eq_dec i j) as [<-|Nij].
    { rewrite Ei in Ej. subst p. right. right. lia. }
    assert (Bo : both_own c p \/ both_own p c).
    { pose proof (pairs_nth _ both_own cands c i j O Hi Hj Nij) as PN. now rewrite Ei, Ej in PN. }
    destruct Bo as [(Q & _)|(_ & Q)]; destruct Q as [Q|Q]; [left; lia|right; left; exact Q|left; lia|right; left; exact Q].
  - exists m', ss. split; [reflexivity|]. split.
    + rewrite B1. rewrite <- M, map_map. reflexivity.
    + apply map_ext_in. exact B2.
Qed.

(** The list-level model offers the same. *)
Lemma RetSegment_list : forall segs last cands idx, segs <> [] -> nth_error segs (length segs - 1) = Some last ->
  RetSegment segs cands idx = Ok (matching last cands, idx).
Proof.
  intros segs last cands idx Hne Hl. unfold RetSegment, get. rewrite Hl. cbn. repeat f_equal.
  assert (G : forall acc, fold_left (fun ret cand => if negb (HasPrefix cand last) then ret else ret ++ [skipn (length last) cand]) cands acc
                         = acc ++ matching last cands).
  { induction cands as [|c cs IH]; intros acc; cbn; [now rewrite app_nil_r|].
    unfold matching in *; cbn. destruct (HasPrefix c last); cbn; rewrite IH; [|reflexivity]. now rewrite <- app_assoc. }
  apply (G []).
Qed.
