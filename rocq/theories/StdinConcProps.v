(** Properties C57, C84, C85: CancelableStdin (std.go). *)
From Verif Require Import Base ListAux StdinConc StdinConcProofs.
From Coq Require Import Lia.
Open Scope Z_scope.

Ltac cgo c := eapply cs_work; [eapply c; cbn; try reflexivity; auto|cbn].
Ltac cask c := eapply cs_call; [eapply c|cbn].

(** ** C57 *)
(** In every schedule the bytes returned by Read are the first bytes of the input, in order. *)
Theorem C57_order : forall i s, csteps (cst_new i) s -> exists rest, got (cv_out s) ++ rest = i.
Proof.
  intros i s R. destruct (cinv_steps _ _ _ R (cinv_new i)) as ([A|(_ & _ & A)] & _); eauto.
Qed.
Print Assumptions C57_order.

(** A Read that begins after Close has begun returns an error and no bytes: [s] any state in which Close has set
    its flag; the buffers of later calls are numbered from [cv_next s]. *)
Theorem C57_after_close : forall i s s', csteps (cst_new i) s -> flag_set (cv_x s) = true -> csteps s s' ->
  exists o, cv_out s' = cv_out s ++ o /\ Forall (fun x => match x with CGot b bs e => (cv_next s <= b)%nat -> bs = [] /\ e = true end) o.
Proof.
  intros i s s' R X R'. pose proof (fresh_steps _ _ R I) as F.
  destruct (shut_steps (cv_next s) (cv_out s) s s' R') as (_ & _ & _ & o & O & G); [|eauto].
  split; [exact X|]. split; [lia|]. split; [unfold fresh_bufs in F; destruct (cv_q s); auto|]. exists []. split; [now rewrite app_nil_r|constructor].
Qed.
Print Assumptions C57_after_close.

(** Once Close has returned, a pending Read can return at once, even if the underlying reader never does; when
    nothing can happen any more, no Read is pending and the pumping goroutine has ended. *)
Theorem C57_returns : forall i s, csteps (cst_new i) s ->
  (stopped (cv_x s) = true -> (exists b k, cv_q s = QWait b k \/ cv_q s = QNotify b k \/ cv_q s = QCheck b k) ->
   exists s', cwork s s' /\ cv_q s' = QIdle /\ cv_p s' = cv_p s /\ cv_in s' = cv_in s) /\
  (cstill s -> flag_set (cv_x s) = true -> cv_q s = QIdle /\ cv_p s = PDone).
Proof.
  intros i s R. split; [|now apply cstill_closed with i]. destruct s as [inp p q x o m n]. cbn. intros X (b & k & [->|[->| ->]]).
  - eexists. split; [now apply cw_stop2|auto].
  - eexists. split; [now apply cw_stop1|auto].
  - eexists. split; [apply cw_closed; destruct x; [discriminate|discriminate|reflexivity]|auto].
Qed.
Print Assumptions C57_returns.
(** Without Close, a Read returns when the underlying reader does. *)
Theorem C57_open : forall i s, csteps (cst_new i) s -> cstill s -> flag_set (cv_x s) = false ->
  cv_q s = QIdle /\ got (cv_out s) ++ cv_in s = i.
Proof.
  intros i s R S X. destruct (cinv_steps _ _ _ R (cinv_new i)) as (A & B & C). destruct s as [inp p q x o m n]. cbn in *.
  destruct x; try discriminate. cbn in *.
  assert (P : p = PSel).
  { destruct p as [|b k|bs e|]; [reflexivity| | |].
    - exfalso. eapply S. apply (cw_read inp b k q X0 o m n 0 true); lia.
    - destruct B as [(b & k & ->)|B]; [|discriminate]. exfalso. eapply S. apply cw_reply.
    - exfalso. assert (G : forall a b, csteps a b -> cv_x b = X0 -> cv_p a <> PDone -> cv_p b <> PDone).
      { clear. induction 1 as [|s s1 s2 W R IH|s s1 s2 W R IH]; auto; intros E; specialize (IH E).
        - assert (Y : cv_x s1 = X0). { clear - R E. induction R as [|s s1 s2 W _ IH|s s1 s2 W _ IH]; auto; specialize (IH E); destruct W; cbn in *; congruence. }
          destruct W; cbn in *; subst; auto; try (intros _; apply IH; discriminate); discriminate.
        - destruct W; cbn in *; auto. }
      apply (G _ _ R); reflexivity || discriminate. }
  subst p. destruct q as [|b k|b k|b k].
  - split; [reflexivity|]. destruct A as [A|(A & _)]; [exact A|discriminate].
  - exfalso. eapply S. now apply cw_open.
  - exfalso. eapply S. apply cw_notify.
  - destruct C as [C|[C|(? & ? & C)]]; discriminate.
Qed.
Print Assumptions C57_open.
Theorem C57_ends : well_founded (fun s' s => cwork s s').
Proof. exact cwork_wf. Qed.
Print Assumptions C57_ends.
Example C57_ex : exists s, csteps (cst_new [1; 2; 3]) s /\ cv_out s = [CGot 0 [1; 2] false; CGot 1 [] true].
Proof.
  eexists. split.
  - cask (cc_read [1; 2; 3] PSel 2%nat). cgo cw_open. cgo cw_notify. cgo (cw_read [1; 2; 3] 0%nat 2%nat (QWait 0 2) X0 [] [] 1%nat 2%nat false).
    cgo cw_reply. eapply cs_call; [apply cc_close|]. cask (cc_read [3] PSel 2%nat X1). cgo cw_closed. apply cs_refl.
  - reflexivity.
Qed.

(** ** C84: Read keeps no reference to its buffer *)
(** Before Close, only the buffer of the pending Read is written. *)
Theorem C84_open_partial : forall i s s', csteps (cst_new i) s -> cwork s s' -> stopped (cv_x s) = false -> cv_mem s' <> cv_mem s ->
  exists b k, cv_q s = QWait b k /\ cv_mem s' = cv_mem s ++ [b].
Proof.
  intros i s s' R W X N. destruct (cinv_steps _ _ _ R (cinv_new i)) as (_ & B & _). destruct W; cbn [cv_x cv_mem cv_q cv_p] in *; try congruence.
  destruct B as [->|B]; [|congruence]. destruct (0 <? j)%nat; [eauto|congruence].
Qed.
Print Assumptions C84_open_partial.
(** After Close a Read has returned, and its buffer is written later. *)
Theorem C84_refuted : exists s s', csteps (cst_new [1]) s /\ cv_out s = [CGot 0 [] true] /\ cv_q s = QIdle /\ cv_mem s = [] /\
  cwork s s' /\ cv_mem s' = [0%nat].
Proof.
  exists (mkC [1] (PRead 0 1) QIdle X2 [CGot 0 [] true] [] 1), (mkC [] (PSend [1] false) QIdle X2 [CGot 0 [] true] [0%nat] 1).
  split; [|split; [reflexivity|split; [reflexivity|split; [reflexivity|split; [|reflexivity]]]]].
  - cask (cc_read [1] PSel 1%nat). cgo cw_open. cgo cw_notify. eapply cs_call; [apply cc_close|]. cgo cw_close. cgo cw_stop2. apply cs_refl.
  - apply (cw_read [1] 0%nat 1%nat QIdle X2 [CGot 0 [] true] [] 1%nat 1%nat false); cbn; lia.
Qed.
Print Assumptions C84_refuted.

(** ** C85: Close takes no input away from whoever reads the input next *)
(** Before Close nothing that was read is lost. *)
Theorem C85_open_partial : forall i s, csteps (cst_new i) s -> stopped (cv_x s) = false -> got (cv_out s) ++ flight (cv_p s) ++ cv_in s = i.
Proof. intros i s R X. destruct (cinv_steps _ _ _ R (cinv_new i)) as ([A|(A & _)] & _); [exact A|congruence]. Qed.
Print Assumptions C85_open_partial.
(** After Close one more piece of input is read and dropped. *)
Theorem C85_refuted : exists s s', csteps (cst_new [1; 2]) s /\ cv_x s = X2 /\ cv_q s = QIdle /\ cv_in s = [1; 2] /\
  csteps s s' /\ cstill s' /\ cv_in s' = [2] /\ got (cv_out s') = [].
Proof.
  exists (mkC [1; 2] (PRead 0 1) QIdle X2 [CGot 0 [] true] [] 1), (mkC [2] PDone QIdle X2 [CGot 0 [] true] [0%nat] 1).
  split; [|split; [reflexivity|split; [reflexivity|split; [reflexivity|split; [|split; [|auto]]]]]].
  - cask (cc_read [1; 2] PSel 1%nat). cgo cw_open. cgo cw_notify. eapply cs_call; [apply cc_close|]. cgo cw_close. cgo cw_stop2. apply cs_refl.
  - eapply cs_work; [apply (cw_read [1; 2] 0%nat 1%nat QIdle X2 [CGot 0 [] true] [] 1%nat 1%nat false); cbn; lia|]. cbn. cgo cw_end2. apply cs_refl.
  - intros s' W. inversion W.
Qed.
Print Assumptions C85_refuted.
