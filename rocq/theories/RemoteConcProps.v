(** Properties C54, C55 (blocking), C83: the goroutines of RemoteSvr (remote.go). *)
From Verif Require Import Base ListAux RemoteModel RemoteSpec RemoteProofs RemoteConc RemoteConcSpec RemoteConcProofs.
Open Scope Z_scope.

Definition dat (bs : list Z) : message := {| m_type := T_DATA; m_data := bs |}.
Definition eofm : message := {| m_type := T_EOF; m_data := [] |}.
Ltac rgo c := eapply rs_work; [eapply c; cbn; try reflexivity; try discriminate; auto|cbn].
Ltac rask c := eapply rs_call; [eapply c|cbn].

(** ** C54: what the client sends is what Read returns *)
(** In every schedule the bytes returned by Read are the first bytes the client sent; the rest is buffered or still
    to be received. *)
Theorem C54_order : forall fin ms s, rsteps fin (rsv_new ms svr0) s ->
  payload ms = bytes_of (rv_out s) ++ sv_data (rv_s s) ++ payload (rv_net s).
Proof. intros fin ms s R. apply total_steps in R. symmetry. exact R. Qed.
Print Assumptions C54_order.

(** Read never waits while there is something it has not seen: once nothing can happen, either no Read is
    pending, or all messages have been handled and Read waits. *)
Theorem C54_rest_partial : forall fin ms s, (forall m, In m ms -> forall v, svr_handle m v <> Panic /\ svr_handle m v <> Hang) ->
  rsteps fin (rsv_new ms svr0) s -> rstill fin s ->
  rv_d s = DIdle \/ exists k, rv_d s = DWait k /\ (rv_l s = RDone \/ rv_net s = []).
Proof.
  intros fin ms s OKM R S.
  assert (K : forall m, In m (rv_net s) -> In m ms).
  { assert (G : forall a b, rsteps fin a b -> forall m, In m (rv_net b) -> In m (rv_net a)).
    { induction 1 as [|a b c W _ IH|a b c C _ IH]; auto; intros m I; apply IH in I; [destruct W|destruct C]; cbn in *; auto. }
    intros m I. exact (G _ _ R m I). }
  destruct (still_rest fin s S) as (A & B & [C|(k & C)]); [intros m I v; apply OKM; auto|auto|]. right. exists k. split; [exact C|].
  destruct (rv_l s); [right; now apply B|congruence|auto].
Qed.
Print Assumptions C54_rest_partial.
(** And that point is always reached. *)
Theorem C54_ends : forall fin, well_founded (fun s' s => rwork fin s s').
Proof. exact rwork_wf. Qed.
Print Assumptions C54_ends.

(** A Read that is waiting when data arrives returns some of it: as long as the connection is open, in every
    schedule, it has either returned data or something can still happen. *)
Theorem C54_woken : forall fin m net v k o s s', m_type m = T_DATA -> m_data m <> [] -> (0 < k)%nat ->
  s = mkR (m :: net) v RRead (DWait k) o false ->
  rsteps fin s s' -> rv_closed s' = false ->
  ~ rstill fin s' \/ exists bs o', bs <> [] /\ rv_out s' = o ++ RGot bs false :: o'.
Proof.
  intros fin m net v k o s s' Tm Dm Lk E R C.
  assert (W : waiting_for m k o s). { left. subst s. cbn. split; [reflexivity|]. left. eauto. }
  destruct (waiting_steps m k o fin s s' Lk Tm Dm R C W) as ([(O & I)|I] & _); [left|right; exact I].
  intros S. destruct s' as [ms' v' l' d' o' c']. cbn in *. subst.
  destruct I as [(D & L & x & M)|[(D & L & B)|(D & B)]]; subst.
  - eapply S. apply rw_msg. unfold svr_handle. rewrite Tm. cbn. reflexivity.
  - eapply S. apply rw_wake.
  - destruct (buf_read_some k (sv_data v') Lk B) as (bs & r & X & N). eapply S. eapply rw_second; eauto.
Qed.
Print Assumptions C54_woken.
Example C54_ex : exists s, rsteps false (rsv_new [dat [97; 98]; eofm] svr0) (mkR [dat [97; 98]; eofm] svr0 RRead (DWait 5) [] false) /\
  rsteps false (mkR [dat [97; 98]; eofm] svr0 RRead (DWait 5) [] false) s /\ rv_out s = [RGot [97; 98] false; RGot [] true].
Proof.
  eexists. split; [|split].
  - rask (rc_read [dat [97; 98]; eofm] svr0 RRead 5%nat). rgo rw_first0. rgo rw_check1. rgo rw_queue. apply rs_refl.
  - rgo rw_msg. rgo rw_wake. rgo rw_second. rgo rw_msg. rgo rw_miss. rask (rc_read [] {| sv_eof := true; sv_width := -1; sv_term := false; sv_data := [] |} RRead 5%nat).
    rgo rw_first0. rgo rw_eof1. apply rs_refl.
  - reflexivity.
Qed.

(** A Read that waits goes on waiting when a message other than data or the end of the input arrives. *)
Theorem C54_not_woken : forall fin m ms v k o c s', m_type m <> T_DATA -> m_type m <> T_EOF ->
  rwork fin (mkR (m :: ms) v RRead (DWait k) o c) s' -> rv_d s' = DWait k /\ rv_l s' <> RSend /\ rv_out s' = o /\ sv_data (rv_s s') = sv_data v.
Proof.
  intros fin m ms v k o c s' N1 N2 W. inversion W; subst; cbn; try (repeat split; congruence).
  assert (Wk : wakes m = false) by (unfold wakes; destruct (Z.eqb_spec (m_type m) T_EOF), (Z.eqb_spec (m_type m) T_DATA); try congruence; reflexivity). rewrite Wk.
  split; [reflexivity|]. split; [discriminate|]. split; [reflexivity|].
  match goal with H : svr_handle m v = Ok _ |- _ => revert H end. unfold svr_handle, GotReportWidth, GotIsTerminal.
  destruct (Z.eqb_spec (m_type m) T_EOF); [congruence|]. destruct (Z.eqb_spec (m_type m) T_DATA); [congruence|].
  destruct (_ =? _); [destruct (Uint16 _); cbn; try discriminate; intros H; now injection H as <-|].
  destruct (_ =? _); [destruct (Uint16 _); cbn; try discriminate; intros H; now injection H as <-|]. intros H. now injection H as <-.
Qed.
Print Assumptions C54_not_woken.
Example C54_not_woken_ex : exists s', rwork false (mkR [{| m_type := T_WIDTH_REPORT; m_data := [0; 80] |}] svr0 RRead (DWait 5) [] false) s' /\
  rv_d s' = DWait 5 /\ sv_width (rv_s s') = 80.
Proof. eexists. split; [apply rw_msg; reflexivity|]. split; reflexivity. Qed.

(** After T_EOF was received a Read that begins never waits. *)
Theorem C54_after_eof : forall fin ms s s', rsteps fin (rsv_new ms svr0) s -> sv_eof (rv_s s) = true -> rv_d s = DIdle ->
  rsteps fin s s' -> forall k, rv_d s' <> DRecv k /\ rv_d s' <> DWait k.
Proof.
  intros fin ms s s' _ E D R k. destruct (ended_steps fin s s' R) as (_ & X); [split; [exact E|now rewrite D]|]. split; intros Y; now rewrite Y in X.
Qed.
Print Assumptions C54_after_eof.

(** Lost wake-up: data arrives between Read's look at the buffer and its waiting; Read waits although there is data
    and the connection is open. *)
Theorem C54_wakeup_refuted : exists ms s, rsteps false (rsv_new ms svr0) s /\ rstill false s /\
  rv_closed s = false /\ sv_data (rv_s s) = [97] /\ rv_d s = DWait 1 /\ rv_out s = [].
Proof.
  exists [dat [97]]. eexists. split.
  - rask (rc_read [dat [97]] svr0 RRead 1%nat). rgo rw_first0. rgo rw_check1. rgo rw_msg. rgo rw_miss. rgo rw_queue. apply rs_refl.
  - split; [|cbn; auto]. intros s' W. inversion W; subst. destruct H5 as [X|(X & _)]; discriminate.
Qed.
Print Assumptions C54_wakeup_refuted.

(** Read can report EOF although the connection is open and no T_EOF was sent: it took the data before the read loop
    tried to wake it, and is woken when it waits again. *)
Theorem C54_spurious_eof_refuted : exists ms s, rsteps false (rsv_new ms svr0) s /\
  ms = [dat [97]; dat [98]] /\ rv_net s = [dat [98]] /\ rv_closed s = false /\ rv_out s = [RGot [97] false; RGot [] true].
Proof.
  exists [dat [97]; dat [98]]. eexists. split.
  - rgo rw_msg. rask (rc_read [dat [98]] {| sv_eof := false; sv_width := -1; sv_term := false; sv_data := [97] |} RSend 1%nat).
    rgo rw_first. rask (rc_read [dat [98]] {| sv_eof := false; sv_width := -1; sv_term := false; sv_data := [] |} RSend 1%nat).
    rgo rw_first0. rgo rw_check1. rgo rw_queue. rgo rw_wake. rgo rw_second0. rgo rw_return. apply rs_refl.
  - cbn. auto.
Qed.
Print Assumptions C54_spurious_eof_refuted.
(** So it does for a data message without data, in the simplest schedule. *)
Theorem C54_empty_refuted : exists ms s, rsteps false (rsv_new ms svr0) s /\
  ms = [dat []; dat [98]] /\ rv_net s = [dat [98]] /\ rv_closed s = false /\ rv_out s = [RGot [] true].
Proof.
  exists [dat []; dat [98]]. eexists. split.
  - rask (rc_read [dat []; dat [98]] svr0 RRead 1%nat). rgo rw_first0. rgo rw_check1. rgo rw_queue. rgo rw_msg. rgo rw_wake. rgo rw_second0. rgo rw_return. apply rs_refl.
  - cbn. auto.
Qed.
Print Assumptions C54_empty_refuted.

(** Read can report EOF before the last data: both messages arrive between its look at the buffer and its look at
    the flag. *)
Theorem C54_early_eof_refuted : exists ms s, rsteps false (rsv_new ms svr0) s /\
  rv_out s = [RGot [] true] /\ sv_data (rv_s s) = [97].
Proof.
  exists [dat [97]; eofm]. eexists. split.
  - rask (rc_read [dat [97]; eofm] svr0 RRead 1%nat). rgo rw_first0. rgo rw_msg. rgo rw_miss. rgo rw_msg. rgo rw_miss. rgo rw_eof1. apply rs_refl.
  - cbn. auto.
Qed.
Print Assumptions C54_early_eof_refuted.

(** A client that disconnects without T_EOF, or Close, leaves Read waiting forever. *)
Theorem C54_disconnect_refuted : exists s, rsteps true (rsv_new [] svr0) s /\
  rv_closed s = true /\ rv_d s = DWait 1 /\ forall s', rsteps true s s' -> rv_d s' = DWait 1.
Proof.
  eexists. split.
  - rask (rc_read [] svr0 RRead 1%nat). rgo rw_first0. rgo rw_check1. rgo rw_queue. rgo rw_end. apply rs_refl.
  - cbn. split; [reflexivity|]. split; [reflexivity|].
    assert (G : forall a b, rsteps true a b -> rv_d a = DWait 1 -> rv_l a = RDone -> rv_d b = DWait 1).
    { induction 1 as [|a b c W _ IH|a b c C _ IH]; auto; intros D L; apply IH; (destruct W || destruct C); cbn in *; congruence. }
    intros s' R. apply (G _ _ R); reflexivity.
Qed.
Print Assumptions C54_disconnect_refuted.

(** ** C55: Write returns *)
(** As long as the connection is open, every Write returns: nothing can happen only when no call is pending, and
    that point is always reached. *)
Theorem C55_returns_partial : forall s, wsteps wsv_new s ->
  Acc (fun s' s => wwork s s') s /\ (wstill s -> wv_l s <> LDone -> forall i, wv_w s i = WIdle).
Proof.
  intros s R. split; [now apply wacc|]. intros S N. destruct (wstill_rest s R S) as (_ & [(_ & _ & X)|X]); [exact X|congruence].
Qed.
Print Assumptions C55_returns_partial.
(** A call taken by the write loop returns even if Close is called. *)
Theorem C55_taken : forall s, wsteps wsv_new s -> wstill s -> forall i m, wv_w s i <> WWait m.
Proof. intros s R S. now destruct (wstill_rest s R S). Qed.
Print Assumptions C55_taken.
(** After Close (also by the read loop, when the client disconnects) Write and ExitRawMode wait forever. *)
Theorem C55_closed_refuted : exists s m, wsteps wsv_new s /\ wv_closed s = true /\ wv_w s 0%nat = WSend m /\
  forall s', wsteps s s' -> wv_w s' 0%nat = WSend m.
Proof.
  exists (mkW (upd_w (fun _ => WIdle) 0 (WSend (dat [97]))) LDone [] [] true), (dat [97]). split; [|split; [reflexivity|split; [reflexivity|]]].
  - eapply wt_call; [apply wc_close|]. eapply wt_work; [apply ww_stop|]. eapply wt_call; [apply wc_write; reflexivity|]. apply wt_refl.
  - assert (G : forall a b, wsteps a b -> wv_w a 0%nat = WSend (dat [97]) -> wv_l a = LDone -> wv_w b 0%nat = WSend (dat [97])).
    { induction 1 as [|a b c W _ IH|a b c C _ IH]; auto; intros D L; apply IH; (destruct W || destruct C); cbn in *; try congruence.
      rewrite updw_other; [exact D|]. intros <-. congruence. }
    intros s' R. apply (G _ _ R); reflexivity.
Qed.
Print Assumptions C55_closed_refuted.

(** ** C83: concurrent writes are not mixed up *)
(** In every schedule of any number of writers, when no call is being served and none has failed, the connection has
    received exactly the messages of the calls that returned, one after the other, and the client decodes them. *)
Theorem C83_frames : forall s, wsteps wsv_new s -> no_error (wv_res s) -> wv_l s = LSel \/ wv_l s = LDone ->
  wv_out s = encode_msgs (sent (wv_res s)) /\ (Forall msg_ok (sent (wv_res s)) -> read_all (wv_out s) = (sent (wv_res s), RErr)).
Proof.
  intros s R N L. destruct (winv_steps _ _ R winv_new) as (_ & B & _). specialize (B N).
  assert (E : wv_out s = encode_msgs (sent (wv_res s))) by (destruct L as [L|L]; rewrite L in B; exact B).
  split; [exact E|]. intros F. rewrite E. rewrite <- (app_nil_r (encode_msgs _)). now rewrite read_all_spec by auto.
Qed.
Print Assumptions C83_frames.
(** Each call is told at most the length of its own frame. *)
Theorem C83_counts : forall s, wsteps wsv_new s -> Forall (fun x => (snd (fst x) <= 6 + length (m_data (snd (fst (fst x)))))%nat) (wv_res s).
Proof. intros s R. now destruct (winv_steps _ _ R winv_new) as (_ & _ & C & _). Qed.
Print Assumptions C83_counts.
(** A call returns with the result of its own message: an error, or the length of its frame; and nothing else adds
    to the results. *)
Theorem C83_own : forall s s', wsteps wsv_new s -> wwork s s' ->
  (forall i m, wv_w s i = WWait m -> wv_w s' i <> WWait m ->
     exists n e, wv_w s' i = WIdle /\ wv_res s' = wv_res s ++ [(i, m, n, e)] /\ (e = false -> n = length (WriteTo m))) /\
  ((forall i m, wv_w s i = WWait m -> wv_w s' i = WWait m) -> wv_res s' = wv_res s).
Proof.
  intros s s' R W. pose proof (wexact_steps _ _ R I) as X. destruct (winv_steps _ _ R winv_new) as (A & _).
  destruct W; unfold wcan, wexact in *; cbn [wv_w wv_l wv_res] in *; (split; [intros j m' E N|intros E]); try congruence.
  - exfalso. now apply (A j m').
  - destruct A as (A1 & A2). pose proof (A2 _ _ E) as ->. assert (m' = m) by congruence. subst m'. exists n, e. split; [apply updw_same|]. split; [reflexivity|]. intros ->. exact X.
  - specialize (E i m H). rewrite updw_same in E. discriminate.
Qed.
Print Assumptions C83_own.
Example C83_ex : exists s, wsteps wsv_new s /\ wv_res s = [(2%nat, dat [98], 7%nat, false); (1%nat, dat [97], 7%nat, false)] /\ wv_l s = LSel /\
  wv_out s = [0;0;0;3;0;0;98; 0;0;0;3;0;0;97].
Proof.
  eexists. split; [|split; [|split]].
  - eapply wt_call; [apply (wc_write _ 1%nat (dat [97])); reflexivity|]. eapply wt_call; [apply (wc_write _ 2%nat (dat [98])); reflexivity|].
    eapply wt_work; [apply (ww_take _ 2%nat (dat [98])); reflexivity|]. eapply wt_work; [apply ww_write|]. eapply wt_work; [apply ww_reply; reflexivity|].
    eapply wt_work; [apply (ww_take _ 1%nat (dat [97])); reflexivity|]. eapply wt_work; [apply ww_write|]. eapply wt_work; [apply ww_reply; reflexivity|]. apply wt_refl.
  - reflexivity.
  - reflexivity.
  - reflexivity.
Qed.
