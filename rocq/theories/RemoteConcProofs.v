From Verif Require Import Base ListAux RemoteModel RemoteConc RemoteConcSpec.
From Coq Require Import ZifyBool Lia.
Open Scope Z_scope.

Lemma buf_read_app k buf bs r e : buf_read k buf = (bs, r, e) -> bs ++ r = buf.
Proof. unfold buf_read. destruct buf; intros [= <- <- _]; [reflexivity|apply firstn_skipn]. Qed.
Lemma buf_read_len k buf bs r e : buf_read k buf = (bs, r, e) -> (length bs <= k)%nat.
Proof. unfold buf_read. destruct buf; intros [= <- <- _]; cbn; [lia|]. rewrite firstn_length. lia. Qed.
Lemma buf_read_some k buf : (0 < k)%nat -> buf <> [] -> exists bs r, buf_read k buf = (bs, r, false) /\ bs <> [].
Proof. destruct k, buf; try lia; try congruence. intros _ _. do 2 eexists. split; [reflexivity|]. cbn. discriminate. Qed.
Lemma buf_read_total k buf : exists bs r e, buf_read k buf = (bs, r, e).
Proof. destruct (buf_read k buf) as [[bs r] e]. eauto. Qed.

Lemma handle_data m s s' : svr_handle m s = Ok s' -> sv_data s' = sv_data s ++ (if m_type m =? T_DATA then m_data m else []).
Proof.
  unfold svr_handle. destruct (m_type m =? T_EOF) eqn:A.
  { intros [= <-]. cbn. replace (m_type m =? T_DATA) with false by (unfold T_EOF, T_DATA in *; lia). now rewrite app_nil_r. }
  destruct (m_type m =? T_DATA) eqn:B; [now intros [= <-]|]. rewrite app_nil_r.
  destruct (m_type m =? T_WIDTH_REPORT); [|destruct (m_type m =? T_ISTTY_REPORT); [|now intros [= <-]]];
    unfold GotReportWidth, GotIsTerminal; destruct (Uint16 (m_data m)); cbn [obind]; try discriminate; now intros [= <-].
Qed.
Lemma handle_eof m s s' : svr_handle m s = Ok s' -> sv_eof s' = (sv_eof s || (m_type m =? T_EOF)).
Proof.
  unfold svr_handle. destruct (m_type m =? T_EOF) eqn:A; [intros [= <-]; cbn; now rewrite orb_true_r|]. rewrite orb_false_r.
  destruct (m_type m =? T_DATA); [now intros [= <-]|].
  destruct (m_type m =? T_WIDTH_REPORT); [|destruct (m_type m =? T_ISTTY_REPORT); [|now intros [= <-]]];
    unfold GotReportWidth, GotIsTerminal; destruct (Uint16 (m_data m)); cbn [obind]; try discriminate; now intros [= <-].
Qed.

(** ** Order *)
Definition total (s : rsv) : list Z := bytes_of (rv_out s) ++ sv_data (rv_s s) ++ payload (rv_net s).

Lemma bytes_app o x : bytes_of (o ++ x) = bytes_of o ++ bytes_of x.
Proof. apply flat_map_app. Qed.
Lemma total_work fin s s' : rwork fin s s' -> total s' = total s.
Proof.
  intros W. destruct W; unfold total; cbn [rv_out rv_s rv_net]; try reflexivity.
  - rewrite (handle_data _ _ _ H). cbn [payload flat_map]. now rewrite <- app_assoc.
  - rewrite bytes_app. cbn. rewrite app_nil_r, <- (buf_read_app _ _ _ _ _ H). now rewrite !app_assoc.
  - cbn. now rewrite <- (buf_read_app _ _ _ _ _ H).
  - rewrite bytes_app. cbn. now rewrite app_nil_r.
  - rewrite bytes_app. cbn. rewrite app_nil_r, <- (buf_read_app _ _ _ _ _ H). now rewrite !app_assoc.
  - cbn. now rewrite <- (buf_read_app _ _ _ _ _ H).
  - rewrite bytes_app. cbn. now rewrite app_nil_r.
Qed.
Lemma total_call s s' : rcall s s' -> total s' = total s.
Proof. now intros []. Qed.
Lemma total_steps fin s s' : rsteps fin s s' -> total s' = total s.
Proof.
  induction 1 as [|s s1 s2 W _ IH|s s1 s2 C _ IH]; [reflexivity| |].
  - rewrite IH. eapply total_work; eauto.
  - rewrite IH. now apply total_call.
Qed.

(** ** Every run of the server comes to rest *)
Definition rank_l (l : rl_proc) : nat := match l with RRead => 1 | RSend => 2 | RDone => 0 end.
Definition rank_d (d : rd_proc) : nat :=
  match d with DIdle => 0 | DCheck2 _ => 1 | DSecond _ => 2 | DWait _ => 3 | DRecv _ => 4 | DCheck1 _ _ => 5 | DFirst _ => 6 end.
Definition rank (s : rsv) : nat := 3 * length (rv_net s) + rank_l (rv_l s) + rank_d (rv_d s).
Lemma rank_work fin s s' : rwork fin s s' -> (rank s' < rank s)%nat.
Proof. intros W. destruct W; unfold rank; cbn; try lia; destruct (wakes m) || destruct e; cbn; lia. Qed.

Lemma rwork_wf fin : well_founded (fun s' s => rwork fin s s').
Proof.
  apply (well_founded_lt_compat _ rank). intros s' s W. eapply rank_work; eauto.
Qed.

(** ** At rest *)
Lemma still_rest fin s : rstill fin s -> (forall m, In m (rv_net s) -> forall v, svr_handle m v <> Panic /\ svr_handle m v <> Hang) ->
  rv_l s <> RSend /\ (rv_l s = RRead -> rv_net s = [] /\ (fin = false /\ rv_closed s = false)) /\
  (rv_d s = DIdle \/ exists k, rv_d s = DWait k).
Proof.
  destruct s as [ms v l d o c]. intros S OKM. cbn [rv_l rv_d rv_net rv_closed].
  assert (A : rv_l (mkR ms v l d o c) <> RSend).
  { cbn. intros ->. destruct d; try (eapply S; apply rw_wake); eapply S; eapply rw_miss; discriminate. }
  split; [exact A|]. split.
  { intros ->. destruct ms as [|m ms].
    - split; [reflexivity|]. destruct fin; [exfalso; eapply S; apply rw_end; auto|]. destruct c; [exfalso; eapply S; apply rw_end; auto|]. auto.
    - exfalso. destruct (OKM m (or_introl eq_refl) v) as (P & H). destruct (svr_handle m v) as [v'| |] eqn:E; [|congruence|congruence].
      eapply S. eapply rw_msg; eauto. }
  destruct d as [|k|k e|k|k|k|e].
  - auto.
  - exfalso. destruct (buf_read_total k (sv_data v)) as (bs & r & e & E). destruct bs; eapply S; [eapply rw_first0; eauto|eapply rw_first; eauto; discriminate].
  - exfalso. destruct (sv_eof v) eqn:E; eapply S; [eapply rw_eof1; eauto|eapply rw_check1; eauto].
  - exfalso. eapply S. apply rw_queue.
  - eauto.
  - exfalso. destruct (buf_read_total k (sv_data v)) as (bs & r & e & E). destruct bs; eapply S; [eapply rw_second0; eauto|eapply rw_second; eauto; discriminate].
  - exfalso. eapply S. apply rw_return.
Qed.

(** ** A queued Read is woken *)
Definition waiting_for (m : message) (k : nat) (o : list rres) (s : rsv) : Prop :=
  (rv_out s = o /\
    ((rv_d s = DWait k /\ rv_l s = RRead /\ exists ms, rv_net s = m :: ms) \/
     (rv_d s = DWait k /\ rv_l s = RSend /\ sv_data (rv_s s) <> []) \/
     (rv_d s = DSecond k /\ sv_data (rv_s s) <> []))) \/
  exists bs o', bs <> [] /\ rv_out s = o ++ RGot bs false :: o'.

Lemma out_grows fin s s' : rwork fin s s' \/ rcall s s' -> exists o, rv_out s' = rv_out s ++ o.
Proof. intros [W|W]; destruct W; cbn; eauto using app_nil_r; exists []; now rewrite app_nil_r. Qed.

Lemma waiting_work m k o fin s s' : (0 < k)%nat -> m_type m = T_DATA -> m_data m <> [] ->
  rwork fin s s' -> rv_closed s' = false -> waiting_for m k o s -> waiting_for m k o s'.
Proof.
  intros Lk Tm Dm W C [(O & I)|(bs & o' & N & O)].
  2:{ right. destruct (out_grows fin s s' (or_introl W)) as (x & ->). rewrite O. exists bs, (o' ++ x). split; [exact N|]. now rewrite <- app_assoc. }
  destruct I as [(D & L & ms & M)|[(D & L & B)|(D & B)]].
  - destruct W; cbn in *; try discriminate; subst.
    + injection M as -> ->. left. cbn. split; [reflexivity|]. right. left. split; [reflexivity|]. unfold wakes. rewrite Tm. cbn. split; [reflexivity|].
      rewrite (handle_data _ _ _ H), Tm. cbn. intros X. apply app_eq_nil in X. tauto.
  - destruct W; cbn in *; try discriminate; subst.
    + injection D as ->. left. cbn. split; [reflexivity|]. right. right. auto.
    + now destruct (H k).
  - destruct (buf_read_some k (sv_data (rv_s s)) Lk B) as (bs & r & E & N).
    destruct W; cbn in *; try discriminate; subst; try (left; cbn; split; [reflexivity|]; auto; fail).
    + left. cbn. split; [reflexivity|]. right. right. split; [reflexivity|]. rewrite (handle_data _ _ _ H). intros X. apply app_eq_nil in X. tauto.
    + injection D as ->. rewrite E in H. injection H as <- <- <-. right. cbn. exists bs, []. auto.
    + injection D as ->. rewrite E in H. now injection H as -> _ _.
Qed.

Lemma waiting_call m k o s s' : rcall s s' -> waiting_for m k o s -> waiting_for m k o s'.
Proof.
  intros W [(O & I)|(bs & o' & N & O)].
  - left. destruct W; cbn in *; (split; [exact O|]); [|exact I]. destruct I as [(D & _)|[(D & _)|(D & _)]]; discriminate.
  - right. destruct (out_grows true s s' (or_intror W)) as (x & ->). rewrite O. exists bs, (o' ++ x). split; [exact N|]. now rewrite <- app_assoc.
Qed.

Lemma closed_work fin s s' : rwork fin s s' \/ rcall s s' -> rv_closed s' = false -> rv_closed s = false.
Proof. intros [W|W]; destruct W; cbn; congruence. Qed.
Lemma waiting_steps m k o fin s s' : (0 < k)%nat -> m_type m = T_DATA -> m_data m <> [] ->
  rsteps fin s s' -> rv_closed s' = false -> waiting_for m k o s -> waiting_for m k o s' /\ rv_closed s = false.
Proof.
  intros Lk Tm Dm. induction 1 as [|s s1 s2 W R IH|s s1 s2 W R IH]; [auto| |]; intros C Wt.
  - assert (X : rv_closed s1 = false). { clear - R C; induction R; auto; eapply (closed_work fin); eauto. }
    destruct IH; [exact C|eapply waiting_work; eauto|]. split; [assumption|]. eapply (closed_work fin); eauto.
  - destruct IH; [exact C|eapply waiting_call; eauto|]. split; [assumption|]. eapply (closed_work fin); eauto.
Qed.

(** ** After T_EOF *)
Definition ended (s : rsv) : Prop := sv_eof (rv_s s) = true /\ match rv_d s with DRecv _ | DWait _ => False | _ => True end.
Lemma ended_work fin s s' : rwork fin s s' -> ended s -> ended s'.
Proof.
  intros W [E D]. destruct W; cbn in *; unfold ended; cbn; try tauto; try congruence.
  rewrite (handle_eof _ _ _ H), E. auto.
Qed.
Lemma ended_steps fin s s' : rsteps fin s s' -> ended s -> ended s'.
Proof.
  induction 1 as [|s s1 s2 W _ IH|s s1 s2 C _ IH]; auto; intros E; apply IH; [eapply ended_work; eauto|].
  destruct C; unfold ended in *; cbn in *; tauto.
Qed.

(** ** Writing *)
Definition wcan (s : wsv) : Prop :=
  match wv_l s with
  | LSel | LDone => forall i m, wv_w s i <> WWait m
  | LWrite i m | LReply i m _ _ => wv_w s i = WWait m /\ forall j m', wv_w s j = WWait m' -> j = i
  end.
Definition wframes (s : wsv) : Prop :=
  no_error (wv_res s) ->
  match wv_l s with
  | LSel | LDone | LWrite _ _ => wv_out s = flat_map WriteTo (sent (wv_res s))
  | LReply _ m _ false => wv_out s = flat_map WriteTo (sent (wv_res s)) ++ WriteTo m
  | LReply _ _ _ true => True
  end.
Definition wnums (s : wsv) : Prop :=
  Forall (fun x => (snd (fst x) <= 6 + length (m_data (snd (fst (fst x)))))%nat) (wv_res s) /\
  match wv_l s with LReply _ m n _ => (n <= 6 + length (m_data m))%nat | _ => True end.

Lemma frame_len m : length (WriteTo m) = (6 + length (m_data m))%nat.
Proof. reflexivity. Qed.

Lemma updw_same f i x : upd_w f i x i = x.
Proof. unfold upd_w. now rewrite Nat.eqb_refl. Qed.
Lemma updw_other f i x j : j <> i -> upd_w f i x j = f j.
Proof. unfold upd_w. intros N. destruct (Nat.eqb_spec j i); [congruence|reflexivity]. Qed.
Lemma no_error_app r x : no_error (r ++ [x]) <-> no_error r /\ snd x = false.
Proof. unfold no_error. rewrite Forall_app. split; [intros (A & B); inversion B; auto|intros (A & B); auto]. Qed.

Lemma winv_work s s' : wwork s s' -> wcan s /\ wframes s /\ wnums s -> wcan s' /\ wframes s' /\ wnums s'.
Proof.
  intros W (A & B & C & D). destruct W; unfold wcan, wframes, wnums in *; cbn [wv_l wv_w wv_out wv_res] in *.
  - split; [|split; [exact B|auto]]. split; [apply updw_same|]. intros j m' E. destruct (Nat.eq_dec j i) as [|N]; [assumption|].
    rewrite updw_other in E by exact N. now destruct (A j m').
  - split; [exact A|]. split; [|split; [exact C|rewrite frame_len; lia]]. intros N. now rewrite B.
  - split; [exact A|]. split; [auto|split; [exact C|rewrite <- frame_len; assumption]].
  - destruct A as (A1 & A2). split.
    + intros j m'. destruct (Nat.eq_dec j i) as [->|N]; [rewrite updw_same; discriminate|]. rewrite updw_other by exact N. intros E. now apply A2 in E.
    + split.
      * intros N. apply no_error_app in N. cbn [snd] in N. destruct N as (N & ->). rewrite (B N). unfold sent. rewrite map_app, flat_map_app. cbn. now rewrite app_nil_r.
      * split; [|exact I]. apply Forall_app. split; [exact C|]. constructor; [exact D|constructor].
  - auto.
Qed.
Lemma winv_call s s' : wcall s s' -> wcan s /\ wframes s /\ wnums s -> wcan s' /\ wframes s' /\ wnums s'.
Proof.
  intros W (A & B & C & D). destruct W; unfold wcan, wframes, wnums in *; cbn [wv_l wv_w wv_out wv_res] in *; [|auto].
  split; [|auto]. assert (K : forall j m', upd_w w i (WSend m) j = WWait m' -> w j = WWait m').
  { intros j m'. destruct (Nat.eq_dec j i) as [->|N]; [rewrite updw_same; discriminate|]. now rewrite updw_other. }
  destruct l.
  - intros j m' E. now apply (A j m'), K.
  - destruct A as (A1 & A2). split; [|eauto]. rewrite updw_other; [exact A1|congruence].
  - destruct A as (A1 & A2). split; [|eauto]. rewrite updw_other; [exact A1|congruence].
  - intros j m' E. now apply (A j m'), K.
Qed.
Lemma winv_steps s s' : wsteps s s' -> wcan s /\ wframes s /\ wnums s -> wcan s' /\ wframes s' /\ wnums s'.
Proof.
  induction 1 as [|s s1 s2 W _ IH|s s1 s2 C _ IH]; auto; intros E; apply IH; [eapply winv_work; eauto|eapply winv_call; eauto].
Qed.
Lemma winv_new : wcan wsv_new /\ wframes wsv_new /\ wnums wsv_new.
Proof. split; [intros i m; discriminate|]. split; [intros _; reflexivity|]. split; [constructor|exact I]. Qed.

Lemma wstill_rest s : wsteps wsv_new s -> wstill s ->
  (forall i m, wv_w s i <> WWait m) /\
  ((wv_l s = LSel /\ wv_closed s = false /\ forall i, wv_w s i = WIdle) \/ wv_l s = LDone).
Proof.
  intros R S. destruct (winv_steps _ _ R winv_new) as (A & _ & _). destruct s as [w l o r c]. unfold wcan in A. cbn in *.
  destruct l as [|i m|i m n e|].
  - split; [exact A|]. left. split; [reflexivity|]. split; [destruct c; [exfalso; eapply S; apply ww_stop|reflexivity]|].
    intros i. destruct (w i) as [|m|m] eqn:E; [reflexivity|exfalso; eapply S; eapply ww_take; eauto|now destruct (A i m)].
  - exfalso. eapply S. apply (ww_fail w i m o r c 0). lia.
  - exfalso. eapply S. apply ww_reply. tauto.
  - auto.
Qed.

(** Every run of the writers comes to rest. *)
Definition rank_w (x : wr_proc) : nat := match x with WSend _ => 3 | _ => 0 end.
Fixpoint sum_w (n : nat) (w : nat -> wr_proc) : nat := match n with O => 0%nat | S n' => (rank_w (w n') + sum_w n' w)%nat end.
Definition rank_wl (l : wl_proc) : nat := match l with LSel => 1 | LWrite _ _ => 3 | LReply _ _ _ _ => 2 | LDone => 0 end.
Definition few (n : nat) (s : wsv) : Prop := forall i, (n <= i)%nat -> wv_w s i = WIdle.

Lemma sum_out n w i x : (n <= i)%nat -> sum_w n (upd_w w i x) = sum_w n w.
Proof. induction n; cbn; intros L; [reflexivity|]. rewrite IHn by lia. now rewrite updw_other by lia. Qed.
Lemma sum_upd n w i x : (i < n)%nat -> (sum_w n (upd_w w i x) + rank_w (w i) = sum_w n w + rank_w x)%nat.
Proof.
  induction n; cbn; intros L; [lia|]. destruct (Nat.eq_dec n i) as [->|N].
  - rewrite updw_same, sum_out by lia. lia.
  - rewrite updw_other by exact N. specialize (IHn ltac:(lia)). lia.
Qed.
Lemma few_work n s s' : wwork s s' -> few n s -> few n s'.
Proof.
  intros W F j L. destruct W; cbn in *; try exact (F j L);
    (destruct (Nat.eq_dec j i) as [->|N]; [|rewrite updw_other by exact N; exact (F j L)]).
  - specialize (F i L). cbn in F. congruence.
  - apply updw_same.
Qed.
Lemma rank_wwork n s s' : wwork s s' -> few n s -> (sum_w n (wv_w s') + rank_wl (wv_l s') < sum_w n (wv_w s) + rank_wl (wv_l s))%nat.
Proof.
  intros W F. destruct W; cbn; try lia.
  - assert (L : (i < n)%nat). { destruct (Nat.lt_ge_cases i n); [assumption|]. specialize (F i H0). cbn in F. congruence. }
    pose proof (sum_upd n w i (WWait m) L) as E. rewrite H in E. cbn in E. lia.
  - assert (L : (i < n)%nat). { destruct (Nat.lt_ge_cases i n); [assumption|]. specialize (F i H0). cbn in F. congruence. }
    pose proof (sum_upd n w i WIdle L) as E. rewrite H in E. cbn in E. lia.
Qed.
Lemma few_acc n : forall s, few n s -> Acc (fun s' s => wwork s s') s.
Proof.
  intros s. remember (sum_w n (wv_w s) + rank_wl (wv_l s))%nat as r eqn:E. revert s E.
  induction r as [r IH] using lt_wf_ind. intros s -> F. constructor. intros s' W. eapply IH; [|reflexivity|eapply few_work; eauto]. now apply rank_wwork.
Qed.
Lemma few_steps s s' : wsteps s s' -> (exists n, few n s) -> exists n, few n s'.
Proof.
  induction 1 as [|s s1 s2 W _ IH|s s1 s2 C _ IH]; auto; intros (n & F); apply IH.
  - exists n. eapply few_work; eauto.
  - destruct C; [|exists n; exact F]. exists (Nat.max n (S i)). intros j L. cbn. rewrite updw_other by lia. apply (F j). lia.
Qed.
Lemma wacc s : wsteps wsv_new s -> Acc (fun s' s => wwork s s') s.
Proof. intros R. destruct (few_steps _ _ R) as (n & F); [exists 0%nat; intros i _; reflexivity|]. eapply few_acc; eauto. Qed.

(** The result given is that of the caller's own message. *)
Definition wexact (s : wsv) : Prop := match wv_l s with LReply _ m n false => n = length (WriteTo m) | _ => True end.
Lemma wexact_steps s s' : wsteps s s' -> wexact s -> wexact s'.
Proof. induction 1 as [|s s1 s2 W _ IH|s s1 s2 W _ IH]; auto; intros X; apply IH; destruct W; unfold wexact in *; cbn in *; auto. Qed.
