(** Further cases of C54, C57, C83 and C84, found by editing the model. *)
From Verif Require Import Base RemoteModel RemoteConc RemoteConcSpec StdinConc.
From Coq Require Import Lia Bool.
Open Scope Z_scope.

(** ** C54: what Read may return *)
(** Executions in which all calls of Read have room as said. *)
Inductive rcalls (fin : bool) (room : nat -> Prop) : rsv -> rsv -> Prop :=
| rq_refl s : rcalls fin room s s
| rq_work s s1 s2 : rcalls fin room s s1 -> rwork fin s1 s2 -> rcalls fin room s s2
| rq_read s ms v l k o c : rcalls fin room s (mkR ms v l DIdle o c) -> room k -> rcalls fin room s (mkR ms v l (DFirst k) o c)
| rq_close s ms v l d o c : rcalls fin room s (mkR ms v l d o c) -> rcalls fin room s (mkR ms v l d o true).

Definition roomy (d : rd_proc) : Prop :=
  match d with
  | DIdle => True | DFirst k | DRecv k | DWait k | DSecond k => (0 < k)%nat
  | DCheck1 k e => (0 < k)%nat /\ e = true | DCheck2 e => e = true end.
Definition filled (x : rres) : Prop := match x with RGot bs e => bs <> [] \/ e = true end.

Lemma buf_read_room k b bs r e : (0 < k)%nat -> buf_read k b = (bs, r, e) -> bs = [] -> e = true.
Proof.
  intros K. unfold buf_read. destruct b as [|z b].
  - intros [= <- <- <-] _. apply Nat.ltb_lt, K.
  - destruct k as [|k]; [lia|]. cbn. intros [= <- <- <-]. discriminate.
Qed.

(** With room for a byte Read returns bytes or an error, never nothing. *)
Theorem C54_something fin ms s : rcalls fin (fun k => (0 < k)%nat) (rsv_new ms svr0) s -> Forall filled (rv_out s).
Proof.
  intros H. enough (X : Forall filled (rv_out s) /\ roomy (rv_d s)) by apply X.
  remember (rsv_new ms svr0) as s0 eqn:E. induction H as [s|s s1 s2 H IH W|s ms' v l k o c H IH K|s ms' v l d o c H IH].
  - subst. cbn. auto.
  - destruct (IH E) as [F R]. clear IH H E s.
    destruct W; cbn in *; try (split; [exact F|]; try exact R; try exact I; lia).
    + split; [|exact I]. apply Forall_app. split; [exact F|]. constructor; [left; assumption|constructor].
    + split; [exact F|]. split; [exact R|]. eapply buf_read_room; [exact R|eassumption|reflexivity].
    + split; [|exact I]. apply Forall_app. split; [exact F|]. constructor; [right; reflexivity|constructor].
    + destruct R as [R ->]. split; [exact F|exact R].
    + split; [|exact I]. apply Forall_app. split; [exact F|]. constructor; [left; assumption|constructor].
    + split; [exact F|]. eapply buf_read_room; [exact R|eassumption|reflexivity].
    + split; [|exact I]. apply Forall_app. split; [exact F|]. constructor; [right; rewrite R; apply orb_true_r|constructor].
  - destruct (IH E) as [F _]. split; [exact F|exact K].
  - exact (IH E).
Qed.

(** Without room Read returns at once: it never waits, and reports the end only after the client's. *)
Definition empty_ok (s : rsv) (x : rres) : Prop := match x with RGot bs e => bs = [] /\ (e = true -> sv_eof (rv_s s) = true) end.
Definition cramped (d : rd_proc) : Prop :=
  match d with
  | DIdle => True | DFirst k => k = 0%nat | DRecv _ | DWait _ | DSecond _ => False
  | DCheck1 k e => e = false | DCheck2 e => e = false end.
Lemma handle_eof m v v' : svr_handle m v = Ok v' -> sv_eof v = true -> sv_eof v' = true.
Proof.
  unfold svr_handle, GotReportWidth, GotIsTerminal. intros H E. revert H.
  repeat match goal with |- context [if ?b then _ else _] => destruct b end; try (destruct (Uint16 _)); cbn; intros H;
    try discriminate; injection H; intros; subst; cbn; auto.
Qed.
Theorem C54_no_room fin ms s : rcalls fin (fun k => k = 0%nat) (rsv_new ms svr0) s -> Forall (empty_ok s) (rv_out s) /\ forall k, rv_d s <> DWait k.
Proof.
  intros H. enough (X : Forall (empty_ok s) (rv_out s) /\ cramped (rv_d s)).
  { split; [apply X|]. intros k D. destruct X as [_ X]. rewrite D in X. exact X. }
  remember (rsv_new ms svr0) as s0 eqn:E. induction H as [s|s s1 s2 H IH W|s ms' v l k o c H IH K|s ms' v l d o c H IH].
  - subst. cbn. auto.
  - destruct (IH E) as [F R]. clear IH H E s.
    assert (M : forall s', (sv_eof (rv_s s1) = true -> sv_eof (rv_s s') = true) -> Forall (empty_ok s') (rv_out s1)).
    { intros s' G. eapply Forall_impl; [|exact F]. intros [bs e] [A B]. split; auto. }
    destruct W; cbn in *; try contradiction; try (split; [apply M; solve [auto]|exact R]).
    + split; [apply M; cbn; intros Q; eapply handle_eof; eassumption|exact R].
    + subst k. unfold buf_read in H. destruct (sv_data s); injection H as <- <- <-; [contradiction|cbn in H0; contradiction].
    + split; [apply M; auto|]. subst k. unfold buf_read in H. destruct (sv_data s); injection H; intros; subst; reflexivity.
    + split; [|exact I]. apply Forall_app. split; [apply M; auto|]. constructor; [split; [reflexivity|intros _; exact H]|constructor].
    + subst e. split; [apply M; auto|reflexivity].
    + split; [|exact I]. apply Forall_app. split; [apply M; auto|]. constructor; [split; [reflexivity|]|constructor]. subst e. cbn. rewrite orb_false_r. auto.
  - destruct (IH E) as [F _]. split; [exact F|exact K].
  - exact (IH E).
Qed.

(** Before the client has sent anything Read does not return. *)
Theorem C54_waits fin ms s : rcalls fin (fun k => (0 < k)%nat) (rsv_new ms svr0) s -> rv_net s = ms -> rv_out s = [].
Proof.
  intros H N.
  enough (X : (length (rv_net s) <= length ms)%nat /\ (length (rv_net s) = length ms ->
     rv_out s = [] /\ sv_eof (rv_s s) = false /\ sv_data (rv_s s) = [] /\ rv_l s <> RSend /\
     match rv_d s with DIdle => True | DFirst k | DRecv k | DWait k => (0 < k)%nat | DCheck1 k e => (0 < k)%nat /\ e = true | DSecond _ | DCheck2 _ => False end)).
  { apply X. rewrite N. reflexivity. }
  clear N. remember (rsv_new ms svr0) as s0 eqn:E. induction H as [s|s s1 s2 H IH W|s ms' v l k o c H IH K|s ms' v l d o c H IH].
  - subst. cbn. split; [lia|]. repeat split; discriminate.
  - destruct (IH E) as [F R]. clear IH H E s.
    destruct W; cbn in *; try (split; [lia|]; intros L);
      try (destruct (R L) as (R1 & R2 & R3 & R4 & R5); clear R; try contradiction; try (repeat split; assumption || discriminate)).
    + lia.
    + subst. rewrite R3 in H. unfold buf_read in H. injection H; intros; subst. contradiction.
    + rewrite R3 in H. unfold buf_read in H. injection H; intros; subst. repeat split; try assumption. apply Nat.ltb_lt, R5.
    + congruence.
    + destruct R5 as [R5 ->]. repeat split; assumption.
  - destruct (IH E) as [F R]. cbn in *. split; [exact F|]. intros L. destruct (R L) as (R1 & R2 & R3 & R4 & _). repeat split; assumption.
  - exact (IH E).
Qed.
Example C54_something_ex : exists s, rcalls false (fun k => (0 < k)%nat) (rsv_new [{| m_type := T_DATA; m_data := [97; 98] |}] svr0) s /\ rv_out s = [RGot [97] false; RGot [98] false].
Proof.
  eexists. split.
  - eapply rq_work; [eapply rq_read; [eapply rq_work; [eapply rq_read; [eapply rq_work; [apply rq_refl|apply rw_msg; reflexivity]|]|]|]|].
    + instantiate (1 := 1%nat). lia.
    + eapply rw_first; [reflexivity|discriminate].
    + instantiate (1 := 1%nat). lia.
    + eapply rw_first; [reflexivity|discriminate].
  - reflexivity.
Qed.

(** ** C83: the connection, with or without errors *)
Definition part (x : nat * message * nat * bool) : list Z := let '(_, m, n, _) := x in firstn n (WriteTo m).
Definition under_way (l : wl_proc) : list Z := match l with LReply _ m n _ => firstn n (WriteTo m) | _ => [] end.
(** What the connection was given: of each message, in the order of the replies, the first n bytes, n being what its
    caller is told. *)
Theorem C83_parts : forall s, wsteps wsv_new s -> wv_out s = flat_map part (wv_res s) ++ under_way (wv_l s).
Proof.
  assert (G : forall s s', wsteps s s' -> wv_out s = flat_map part (wv_res s) ++ under_way (wv_l s) ->
                           wv_out s' = flat_map part (wv_res s') ++ under_way (wv_l s')).
  { induction 1 as [s|s s1 s2 W H IH|s s1 s2 W H IH]; [auto| |]; intros E; apply IH.
    - destruct W; cbn in *.
      + exact E.
      + rewrite firstn_all, E, app_nil_r. reflexivity.
      + rewrite E, app_nil_r. reflexivity.
      + rewrite E, flat_map_app. cbn. rewrite !app_nil_r. reflexivity.
      + exact E.
    - destruct W; exact E. }
  intros s H. apply (G _ _ H). reflexivity.
Qed.

(** ** C57: no more bytes than there is room for *)
Definition matched (s : cst) : Prop :=
  match cv_p s, cv_q s with
  | PRead b k, QWait b' k' => b = b' /\ k = k'
  | PSend bs e, QWait b' k' => (length bs <= k')%nat
  | PRead _ _, (QIdle | QCheck _ _) | PSend _ _, (QIdle | QCheck _ _) => flag_set (cv_x s) = true
  | PRead _ _, QNotify _ _ | PSend _ _, QNotify _ _ => False
  | PSel, QWait _ _ => False
  | _, _ => True
  end.
Lemma stopped_flag x : stopped x = true -> flag_set x = true.
Proof. destruct x; cbn; congruence. Qed.
Lemma cwork_matched s s' : cwork s s' -> matched s -> matched s'.
Proof.
  intros W. unfold matched. destruct W; cbn; intros M;
    repeat match goal with H : stopped _ = true |- _ => apply stopped_flag in H end;
    try (destruct p; cbn in *; auto; congruence); try (destruct q; cbn in *; auto; congruence); auto.
  - destruct q; cbn in *; auto. destruct M as [_ ->]. rewrite firstn_length. lia.
Qed.
Lemma ccall_matched s s' : ccall s s' -> matched s -> matched s'.
Proof. intros W. unfold matched. destruct W; cbn; intros M; [destruct p; auto|destruct p, q; auto]. Qed.
Lemma csteps_matched s s' : csteps s s' -> matched s -> matched s'.
Proof. induction 1; intros M; eauto using cwork_matched, ccall_matched. Qed.
Definition room_of (q : cr_proc) : nat := match q with QIdle => 0%nat | QCheck _ k | QNotify _ k | QWait _ k => k end.

(** What Read returns fits into the buffer it was given. *)
Theorem C57_fits i s s' b bs e : csteps (cst_new i) s -> cwork s s' -> cv_out s' = cv_out s ++ [CGot b bs e] ->
  (length bs <= room_of (cv_q s))%nat.
Proof.
  intros H W O. pose proof (csteps_matched _ _ H I) as M. revert O.
  destruct W; cbn in *; intros O; try (exfalso; apply (f_equal (@length _)) in O; rewrite app_length in O; cbn in O; lia);
    apply app_inv_head in O; injection O; intros; subst; cbn; try lia.
Qed.

(** ** C84: memory is written only with bytes that came *)
Theorem C84_bytes s s' : cwork s s' -> cv_mem s' <> cv_mem s -> (length (cv_in s') < length (cv_in s))%nat.
Proof.
  intros W. destruct W; cbn [cv_mem cv_in]; try congruence. destruct j as [|j]; cbn [Nat.ltb Nat.leb]; [congruence|]. intros _.
  rewrite skipn_length. lia.
Qed.

Print Assumptions C54_something.
Print Assumptions C54_no_room.
Print Assumptions C54_waits.
Print Assumptions C83_parts.
Print Assumptions C57_fits.
Print Assumptions C84_bytes.
