From Verif Require Import Base ListAux StdinConc.
From Coq Require Import Lia.
Open Scope Z_scope.

Definition got (o : list cres) : list Z := flat_map (fun x => match x with CGot _ bs _ => bs end) o.
Definition flight (p : pm_proc) : list Z := match p with PSend bs _ => bs | _ => [] end.
Definition cstill (s : cst) : Prop := forall s', ~ cwork s s'.

Lemma got_app o x : got (o ++ x) = got o ++ got x.
Proof. apply flat_map_app. Qed.

(** Until the pumping goroutine drops something, everything read is returned or in flight; it drops only after
    Close, and from then on nothing is returned. *)
Definition cinv (i0 : list Z) (s : cst) : Prop :=
  (got (cv_out s) ++ flight (cv_p s) ++ cv_in s = i0 \/
   (stopped (cv_x s) = true /\ (cv_p s = PDone) /\ exists r, got (cv_out s) ++ r = i0)) /\
  (match cv_p s with PRead b k => cv_q s = QWait b k \/ stopped (cv_x s) = true | PSend _ _ => (exists b k, cv_q s = QWait b k) \/ stopped (cv_x s) = true | _ => True end) /\
  (match cv_q s with QWait b k => stopped (cv_x s) = true \/ cv_p s = PRead b k \/ exists bs e, cv_p s = PSend bs e | _ => True end).

Lemma cinv_work i0 s s' : cwork s s' -> cinv i0 s -> cinv i0 s'.
Proof.
  intros W (A & B & C). destruct W; unfold cinv in *; cbn in *.
  - rewrite got_app. cbn. rewrite app_nil_r. split; [exact A|]. split; [|exact I]. destruct p; auto; destruct B as [B|B]; auto; [discriminate|destruct B as (?&?&?); discriminate].
  - split; [exact A|]. split; [|exact I]. destruct p; auto; destruct B as [B|B]; auto; [discriminate|destruct B as (?&?&?); discriminate].
  - split; [destruct A as [A|(_ & A & _)]; [left; exact A|discriminate]|]. auto.
  - rewrite got_app. cbn. rewrite app_nil_r. split; [exact A|]. split; [|exact I]. destruct p; auto.
  - rewrite got_app. cbn. rewrite app_nil_r. split; [exact A|]. split; [|exact I]. destruct p; auto.
  - split; [left; destruct A as [A|(_ & A & _)]; [|discriminate]; cbn; rewrite firstn_skipn; exact A|]. split; [destruct B as [->|B]; eauto|]. destruct q; auto. right. right. eauto.
  - split; [left; destruct A as [A|(_ & A & _)]; [|discriminate]; rewrite got_app; cbn; now rewrite app_nil_r, <- app_assoc|]. auto.
  - split; [right|]. { split; [assumption|]. split; [reflexivity|]. destruct A as [A|(_ & _ & A)]; eauto. } split; [exact I|]. destruct q; auto.
  - split; [right|]. { split; [assumption|]. split; [reflexivity|]. destruct A as [A|(_ & _ & A)]; eauto. } split; [exact I|]. destruct q; auto.
  - split; [destruct A as [A|(A & _)]; [left; exact A|discriminate]|]. split.
    + destruct p; auto; destruct B; auto; discriminate.
    + destruct q; auto; destruct C; auto; discriminate.
Qed.
Lemma cinv_call i0 s s' : ccall s s' -> cinv i0 s -> cinv i0 s'.
Proof.
  intros W (A & B & C). destruct W; unfold cinv in *; cbn in *.
  - split; [exact A|]. split; [|exact I]. destruct p; auto; destruct B as [B|B]; auto; [discriminate|destruct B as (?&?&?); discriminate].
  - split; [destruct A as [A|(A & _)]; [left; exact A|discriminate]|]. auto.
Qed.
Lemma cinv_steps i0 s s' : csteps s s' -> cinv i0 s -> cinv i0 s'.
Proof. induction 1; auto; intros X; apply IHcsteps; [eapply cinv_work|eapply cinv_call]; eauto. Qed.
Lemma cinv_new i : cinv i (cst_new i).
Proof. split; [left; reflexivity|]. cbn. auto. Qed.

(** After Close has set the flag, a Read that begins returns an error and no data. *)
Definition shut (n0 : nat) (o : list cres) (s : cst) : Prop :=
  flag_set (cv_x s) = true /\ (n0 <= cv_next s)%nat /\
  (match cv_q s with QNotify b _ | QWait b _ => (b < n0)%nat | _ => True end) /\
  exists o', cv_out s = o ++ o' /\ Forall (fun x => match x with CGot b bs e => (n0 <= b)%nat -> bs = [] /\ e = true end) o'.

Lemma shut_work n0 o s s' : cwork s s' -> shut n0 o s -> shut n0 o s'.
Proof.
  intros W (A & B & C & o' & O & F). destruct W; unfold shut in *; cbn in *; subst.
  - split; [exact A|]. split; [exact B|]. split; [exact I|]. eexists. rewrite <- app_assoc. split; [reflexivity|]. apply Forall_app. auto.
  - congruence.
  - eauto 10.
  - split; [exact A|]. split; [exact B|]. split; [exact I|]. eexists. rewrite <- app_assoc. split; [reflexivity|]. apply Forall_app. auto.
  - split; [exact A|]. split; [exact B|]. split; [exact I|]. eexists. rewrite <- app_assoc. split; [reflexivity|]. apply Forall_app. auto.
  - eauto 10.
  - split; [exact A|]. split; [exact B|]. split; [exact I|]. eexists. rewrite <- app_assoc. split; [reflexivity|]. apply Forall_app. split; [exact F|].
    constructor; [|constructor]. lia.
  - eauto 10.
  - eauto 10.
  - eauto 10.
Qed.
Lemma shut_call n0 o s s' : ccall s s' -> shut n0 o s -> shut n0 o s'.
Proof.
  intros W (A & B & C & o' & O & F). destruct W; unfold shut in *; cbn in *; subst; [|discriminate]. split; [exact A|]. split; [lia|]. eauto.
Qed.
Lemma shut_steps n0 o s s' : csteps s s' -> shut n0 o s -> shut n0 o s'.
Proof. induction 1; auto; intros X; apply IHcsteps; [eapply shut_work|eapply shut_call]; eauto. Qed.

(** Buffer numbers are below the next one. *)
Definition fresh_bufs (s : cst) : Prop :=
  match cv_q s with QCheck b _ | QNotify b _ | QWait b _ => (b < cv_next s)%nat | QIdle => True end.
Lemma fresh_steps s s' : csteps s s' -> fresh_bufs s -> fresh_bufs s'.
Proof. induction 1 as [|s s1 s2 W _ IH|s s1 s2 W _ IH]; auto; intros X; apply IH; destruct W; unfold fresh_bufs in *; cbn in *; auto. Qed.

(** At rest after Close nothing is pending. *)
Lemma cstill_closed s i : csteps (cst_new i) s -> cstill s -> flag_set (cv_x s) = true ->
  cv_q s = QIdle /\ (cv_p s = PDone).
Proof.
  intros R S X. destruct s as [inp p q x o m n]. cbn in *.
  assert (x = X2). { destruct x; [discriminate| |reflexivity]. exfalso. eapply S. apply cw_close. } subst x.
  assert (q = QIdle).
  { destruct q as [|b k|b k|b k]; [reflexivity| | |]; exfalso; eapply S; [apply cw_closed|apply cw_stop1|apply cw_stop2]; reflexivity. } subst q.
  split; [reflexivity|]. destruct p as [|b k|bs e|]; [| | |reflexivity]; exfalso; eapply S.
  - now apply cw_end1.
  - apply (cw_read inp b k QIdle X2 o m n 0 true); lia.
  - now apply cw_end2.
Qed.

(** Runs come to rest. *)
Definition rank_p (p : pm_proc) : nat := match p with PSel => 2 | PRead _ _ => 4 | PSend _ _ => 3 | PDone => 0 end.
Definition rank_q (q : cr_proc) : nat := match q with QIdle => 0 | QWait _ _ => 1 | QNotify _ _ => 4 | QCheck _ _ => 5 end.
Definition rank_x (x : cc_proc) : nat := match x with X0 | X2 => 0 | X1 => 1 end.
Lemma cwork_wf : well_founded (fun s' s => cwork s s').
Proof.
  apply (well_founded_lt_compat _ (fun s => rank_p (cv_p s) + rank_q (cv_q s) + rank_x (cv_x s))%nat).
  intros s' s W. destruct W; cbn; lia.
Qed.
