(** Property C113: instances that share a history file keep each other's lines. *)
From Verif Require Import Base RunesModel Utf8Model Utf8Spec HistoryModel HistorySpec HistoryProofs HistoryFileProofs HistoryProps ShareModel ShareSpec.
Open Scope nat_scope.

Lemma at_back_file fd disk h com e : at_back h com e -> at_back (set_file fd disk h) com e.
Proof. intros (W & I & C). split; [now apply hwf_set_file|split; assumption]. Qed.
Lemma rests_file fd disk c h R : rests c h R -> rests c (set_file fd disk h) R.
Proof. intros (com & e & A & B). exists com, e. split; [now apply at_back_file|exact B]. Qed.

(** The file and everybody who has it open, against the book. *)
Record agrees (w : shared) (b : book) (opened : list nat) : Prop := {
  ag_disk : on_disk w = flat_map file_line (bk_lines b);
  ag_clean : Forall clean_line (bk_lines b);
  ag_user : forall i, In i opened -> exists u R, sh_user w i = Some u /\ (2 <= hc_limit (us_cfg u))%Z /\ us_file u = sh_name w /\
    rests (us_cfg u) (us_hist u) R /\ h_fd (us_hist u) = FdOpen /\ last_line R = bk_last b i
}.

Lemma put_same {A} (f : nat -> A) i x : put f i x i = x.
Proof. unfold put. now rewrite Nat.eqb_refl. Qed.
Lemma put_other {A} (f : nat -> A) i j x : j <> i -> put f i x j = f j.
Proof. intros H. unfold put. now rewrite (proj2 (Nat.eqb_neq j i) H). Qed.

Lemma opens_agrees i c w b o : hc_file c = true -> (2 <= hc_limit c)%Z -> (Z.of_nat (length (bk_lines b)) <= hc_limit c)%Z -> agrees w b o ->
  agrees (opens i c w) (noted b (Opens i c)) (i :: o).
Proof.
  intros HF L2 LE [D C U]. unfold opens. unfold on_disk in D. rewrite D.
  assert (RL : read_lines (flat_map file_line (bk_lines b)) [] = map encode (bk_lines b)).
  { rewrite <- (app_nil_r (flat_map file_line _)). apply read_lines_file; [|intros []]. eapply Forall_impl; [|exact C]. exact clean_plain. }
  rewrite RL, map_length, HF. cbn [andb]. destruct (Z.ltb_spec (hc_limit c) (Z.of_nat (length (bk_lines b)))); [lia|].
  split; cbn [on_disk sh_data sh_name sh_user bk_lines noted bk_last]; [exact D|exact C|].
  intros j J. destruct (Nat.eq_dec j i) as [->|N].
  - rewrite put_same, Nat.eqb_refl. destruct (open_persisted c (bk_lines b) ltac:(lia) HF C) as (F & (R & FD & _)).
    do 2 eexists. split; [reflexivity|]. cbn [us_cfg us_file us_hist]. split; [exact L2|]. split; [reflexivity|]. split; [exact R|].
    split; [exact FD|]. apply last_line_lastn. unfold keep. lia.
  - rewrite put_other by exact N. rewrite (proj2 (Nat.eqb_neq j i) N). destruct J as [->|J]; [congruence|]. exact (U j J).
Qed.

Lemma newest_last c com R : (2 <= hc_limit c)%Z -> keeps c com R -> newest_src com = last_line R.
Proof.
  intros L (K1 & K2 & K3). unfold newest_src. rewrite K1. destruct (length com) eqn:E.
  - destruct R; [reflexivity|]. cbn [length] in K3. unfold keep in K3. lia.
  - apply last_line_lastn. lia.
Qed.

Lemma does_agrees i e w b o : In i o -> (match e with Submit s => s = [] \/ clean_line s | Edit _ => True end) -> agrees w b o ->
  exists w', does i e w = Ok w' /\ agrees w' (noted b (Does i e)) o.
Proof.
  intros I CE [D C U]. destruct (U i I) as (u & R & SU & L2 & FN & RS & FD & LL). unfold does. rewrite SU, FN, FD.
  set (h := set_file FdOpen (sh_data w (sh_name w)) (us_hist u)).
  assert (RS' : rests (us_cfg u) h R) by now apply rests_file.
  assert (exists h1, run_event (us_cfg u) e h = Ok h1) as (h1 & E1).
  { destruct RS' as (com & x & (W & _) & _). destruct e; cbn.
    - destruct (Update_ok (us_cfg u) s false h W) as (? & ? & _); eauto.
    - destruct (New_ok (us_cfg u) s h W) as (? & ? & _); eauto. }
  rewrite E1. cbn [obind]. eexists. split; [reflexivity|].
  pose proof (run_event_rests (us_cfg u) e h R h1 ltac:(lia) RS' E1) as RN.
  assert (K : h_fd h1 = FdOpen /\ h_disk h1 = flat_map file_line (bk_lines (noted b (Does i e))) /\ Forall clean_line (bk_lines (noted b (Does i e))) /\
    last_line (record R e) = bk_last (noted b (Does i e)) i /\ forall j, j <> i -> bk_last (noted b (Does i e)) j = bk_last b j).
  { destruct RS' as (com & x & AB & En & KP). destruct e as [s|s]; cbn [run_event] in E1; cbn [noted record].
    - destruct (Update_at_back (us_cfg u) s false h com x h1 AB E1) as (_ & _ & _ & F' & _ & _ & D').
      split; [exact F'|]. split; [rewrite D'; exact D|]. split; [exact C|]. split; [exact LL|auto].
    - pose proof (New_at_back (us_cfg u) s h com x h1 AB En E1) as N. pose proof (submit_cases s com) as SC. cbn zeta in SC.
      rewrite (newest_last _ _ _ L2 KP) in *. rewrite <- LL.
      destruct (_ || _).
      + destruct N as (_ & _ & D' & F').
        assert (X : noted b (Does i (Submit s)) = b).
        { cbn [noted]. destruct (list_eq_dec Z.eq_dec s []); [reflexivity|]. destruct SC as [|SC]; [contradiction|]. rewrite <- LL, SC.
          now destruct (list_eq_dec Z.eq_dec s s). }
        cbn [noted] in X. rewrite <- LL in X. rewrite X.
        split; [exact F'|]. split; [rewrite D'; exact D|]. split; [exact C|]. split; [|auto].
        destruct (list_eq_dec Z.eq_dec s []); [exact LL|]. destruct SC as [|SC]; [contradiction|]. rewrite SC.
        destruct (list_eq_dec Z.eq_dec s s); [exact LL|contradiction].
      + destruct N as (e2 & _ & _ & _ & _ & D' & F'). destruct SC as (S1 & S2).
        destruct (list_eq_dec Z.eq_dec s []); [contradiction|].
        assert (Y : match last_line R with Some y => if list_eq_dec Z.eq_dec y s then true else false | None => false end = false).
        { destruct (last_line R) as [y|]; [|reflexivity]. destruct (list_eq_dec Z.eq_dec y s) as [->|]; [congruence|reflexivity]. }
        rewrite Y. cbn [bk_lines bk_last]. destruct CE as [|CE]; [contradiction|].
        split; [exact F'|]. split; [rewrite D'; unfold after_write, h; cbn [set_file h_fd h_disk]; unfold on_disk in D; rewrite D, flat_map_app; cbn; now rewrite app_nil_r|].
        split; [apply Forall_app; auto|]. rewrite Nat.eqb_refl. split.
        * destruct (last_line R) as [y|]; [destruct (list_eq_dec Z.eq_dec y s); [discriminate|]|]; apply last_line_app.
        * intros j J. now rewrite (proj2 (Nat.eqb_neq j i) J). }
  destruct K as (K1 & K2 & K3 & K4 & K5).
  split; cbn [on_disk sh_data sh_name sh_user]; [unfold on_disk; cbn; now rewrite put_same|exact K3|].
  intros j J. destruct (Nat.eq_dec j i) as [->|N].
  - rewrite put_same. do 2 eexists. split; [reflexivity|]. cbn [us_cfg us_hist us_file]. split; [exact L2|]. split; [reflexivity|].
    split; [exact RN|]. split; assumption.
  - rewrite put_other by exact N. rewrite (K5 j N). exact (U j J).
Qed.

Lemma happen_agrees ls ds : forall done o w, within ls o done ds -> agrees w (book_of ls done) o ->
  exists w' o', happen ds w = Ok w' /\ agrees w' (book_of ls (done ++ ds)) o'.
Proof.
  induction ds as [|d ds IH]; intros done o w P A.
  - rewrite app_nil_r. exists w, o. auto.
  - assert (S : book_of ls (done ++ [d]) = noted (book_of ls done) d) by (unfold book_of; rewrite fold_left_app; reflexivity).
    replace (done ++ d :: ds) with ((done ++ [d]) ++ ds) by now rewrite <- app_assoc.
    destruct d as [i c|i e]; cbn [within] in P; cbn [happen happens].
    + destruct P as (P1 & P2 & P3 & P4). cbn [obind]. apply (IH _ (i :: o)); [exact P4|]. rewrite S. now apply opens_agrees.
    + destruct P as (P1 & P2 & P3). destruct (does_agrees i e w _ o P1 P2 A) as (w1 & E & A1). rewrite E. cbn [obind].
      apply (IH _ o); [exact P3|]. rewrite S. exact A1.
Qed.

(** Any number of instances, opened at any time, with their edits and submissions in any order: as long as no instance finds more lines in the file than
    its limit, the file holds every line recorded by any of them, whole and in the order of submission, after the lines that were there; whoever opens it
    next sees the newest of them. *)
Theorem C113_kept_partial : forall ls ds, Forall clean_line ls -> within ls [] [] ds ->
  exists w, happen ds (nobody (flat_map file_line ls)) = Ok w /\ on_disk w = flat_map file_line (bk_lines (book_of ls ds)) /\
    forall i c, hc_file c = true -> exists u, sh_user (opens i c w) i = Some u /\
      committed (us_hist u) = lastn (Z.to_nat (hc_limit c)) (bk_lines (book_of ls ds)).
Proof.
  intros ls ds C P. destruct (happen_agrees ls ds [] [] (nobody (flat_map file_line ls)) P) as (w & o & E & A).
  - split; cbn; [reflexivity|exact C|intros ? []].
  - exists w. split; [exact E|]. destruct A as [D CL _]. split; [exact D|]. intros i c HF.
    unfold opens. unfold on_disk in D. cbn [app] in *. rewrite D.
    assert (Q : committed (openf c (flat_map file_line (bk_lines (book_of ls ds)))) = lastn (keep c) (bk_lines (book_of ls ds))).
    { rewrite <- (app_nil_r (flat_map file_line _)). apply open_committed; auto. }
    destruct (_ && _); cbn [sh_user]; rewrite put_same; eexists; (split; [reflexivity|exact Q]).
Qed.
Print Assumptions C113_kept_partial.

(** An instance whose file has lost its name: whatever it does, the file named HistoryFile is as before. *)
Theorem C113_stale : forall i es w u, sh_user w i = Some u -> us_file u <> sh_name w ->
  forall w', happen (map (Does i) es) w = Ok w' -> on_disk w' = on_disk w /\ sh_name w' = sh_name w.
Proof.
  intros i es. induction es as [|e es IH]; intros w u SU NE w' H; cbn [map happen happens] in H.
  - injection H as <-. auto.
  - unfold does in H. rewrite SU in H. destruct (run_event _ _ _) as [h| |]; try discriminate. cbn [obind] in H.
    eapply IH in H; cbn [sh_user sh_name].
    + destruct H as (H1 & H2). split; [rewrite H1|exact H2]. unfold on_disk. cbn. now rewrite put_other by congruence.
    + cbn [sh_user]. rewrite put_same. reflexivity.
    + exact NE.
Qed.
Print Assumptions C113_stale.

Definition numbered (w : shared) : Prop := sh_name w < sh_next w /\ forall j u, sh_user w j = Some u -> us_file u < sh_next w.
Lemma happens_numbered d w w' : numbered w -> happens d w = Ok w' -> numbered w'.
Proof.
  intros (N & U) E. destruct d as [i c|i e]; cbn [happens] in E.
  - injection E as <-. unfold opens. destruct (_ && _); split; cbn [sh_name sh_next sh_user]; try lia; intros j u; unfold put.
    + destruct (j =? i); [intros [= <-]; cbn; lia|]. intros H. specialize (U j u H). lia.
    + destruct (j =? i); [intros [= <-]; cbn; lia|]. intros H. exact (U j u H).
  - unfold does in E. destruct (sh_user w i) as [x|] eqn:SU; [|injection E as <-; split; assumption].
    destruct (run_event _ _ _); try discriminate. injection E as <-. split; [exact N|]. cbn [sh_user sh_next]. intros j u. unfold put.
    destruct (j =? i); [intros [= <-]; exact (U i x SU)|]. exact (U j u).
Qed.
Lemma happen_numbered ds : forall w w', numbered w -> happen ds w = Ok w' -> numbered w'.
Proof.
  induction ds as [|d ds IH]; intros w w' N E; cbn [happen] in E; [injection E as <-; exact N|].
  destruct (happens d w) as [w1| |] eqn:H; try discriminate. cbn [obind] in E. exact (IH w1 w' (happens_numbered _ _ _ N H) E).
Qed.

(** When an instance finds too many lines, every other instance that is open is left with a file that has no name any more: from then on its lines do not
    get into HistoryFile, whatever it does. *)
Theorem C113_rewrite : forall ds disk w i c, happen ds (nobody disk) = Ok w -> hc_file c = true ->
  (hc_limit c < Z.of_nat (length (read_lines (on_disk w) [])))%Z ->
  forall j u es w', j <> i -> sh_user w j = Some u -> happen (map (Does j) es) (opens i c w) = Ok w' -> on_disk w' = on_disk (opens i c w).
Proof.
  intros ds disk w i c E HF LT j u es w' N SU H.
  assert (NB : numbered w). { apply (happen_numbered ds _ _) in E; [exact E|]. split; cbn; [lia|]. intros ? ? [=]. }
  assert (O : sh_user (opens i c w) j = Some u /\ sh_name (opens i c w) = sh_next w).
  { unfold opens. rewrite HF. unfold on_disk in LT. rewrite (proj2 (Z.ltb_lt _ _) LT). cbn [andb sh_user sh_name]. now rewrite put_other by exact N. }
  destruct O as (O1 & O2). refine (proj1 (C113_stale j es _ u O1 _ w' H)). rewrite O2. destruct NB as (_ & NB). specialize (NB j u SU). lia.
Qed.
Print Assumptions C113_rewrite.

Definition l1 : list Z := [97]%Z. Definition l2 : list Z := [98]%Z. Definition l3 : list Z := [99]%Z. Definition l4 : list Z := [100]%Z.

(** Two instances, their lines interleaved. *)
Example C113_ex : Forall clean_line [l1] /\
  within [l1] [] [] [Opens 1 (lim 9 true); Opens 2 (lim 9 true); Does 1 (Submit l2); Does 2 (Edit l3); Does 2 (Submit l3); Does 1 (Submit l4); Does 1 (Submit l4); Does 2 (Submit l4)] /\
  bk_lines (book_of [l1] [Opens 1 (lim 9 true); Opens 2 (lim 9 true); Does 1 (Submit l2); Does 2 (Edit l3); Does 2 (Submit l3); Does 1 (Submit l4); Does 1 (Submit l4); Does 2 (Submit l4)])
    = [l1; l2; l3; l4; l4].
Proof.
  assert (X : clean_line l1 /\ clean_line l2 /\ clean_line l3 /\ clean_line l4) by (repeat split; try (apply clean_ex; [reflexivity|discriminate|reflexivity..])).
  destruct X as (A & B & C & D). split; [auto|]. split; [|reflexivity]. cbn. repeat split; auto; try lia.
Qed.

(** The full property is false: both instances have HistoryLimit 2.  The second opens the file when the first has recorded two more lines; the line the
    first records after that is lost, though nothing failed. *)
Theorem C113_refuted : exists ds w, ds = [Opens 1 (lim 2 true); Does 1 (Submit l2); Does 1 (Submit l3); Opens 2 (lim 2 true); Does 1 (Submit l4)] /\
  happen ds (nobody (flat_map file_line [l1])) = Ok w /\ on_disk w = flat_map file_line [l2; l3].
Proof. do 2 eexists. split; [reflexivity|]. split; [vm_compute; reflexivity|]. vm_compute. reflexivity. Qed.
Print Assumptions C113_refuted.
