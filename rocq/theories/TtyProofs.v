From Verif Require Import Base ListAux TtyModel TtySpec.
Open Scope Z_scope.

Definition raw_inv (t0 : termios) (on : bool) (s : rawmode) : Prop :=
  if on then r_saved s = Some t0 /\ r_tty s = raw_of t0
  else r_tty s = t0 /\ (r_saved s = None \/ r_saved s = Some t0).

Fixpoint final (on : bool) (cs : list rawcall) : bool :=
  match cs with [] => on | REnter :: cs' => final true cs' | RExit :: cs' => final false cs' end.

Lemma raw_calls_inv t0 cs : forall on s, unnested on cs -> raw_inv t0 on s -> raw_inv t0 (final on cs) (raw_calls cs s).
Proof.
  unfold raw_calls. induction cs as [|c cs IH]; intros on s U I; cbn; [exact I|].
  destruct c; cbn [unnested final fold_left raw_call] in *.
  - destruct U as (-> & U). apply IH; [exact U|]. cbn in I. destruct I as (E & _). cbn. now rewrite E.
  - apply IH; [exact U|]. unfold raw_exit. destruct on; cbn in I.
    + destruct I as (E & _). rewrite E. cbn. auto.
    + destruct I as (E & [H|H]); rewrite H; cbn; auto.
Qed.

Lemma final_exit on cs : final on (cs ++ [RExit]) = false.
Proof. revert on. induction cs as [|[] cs IH]; intros on; cbn; auto. Qed.
Lemma final_enter on cs : final on (cs ++ [REnter]) = true.
Proof. revert on. induction cs as [|[] cs IH]; intros on; cbn; auto. Qed.

Lemma unnested_exit_restores t0 cs : unnested false (cs ++ [RExit]) ->
  r_tty (raw_calls (cs ++ [RExit]) {| r_tty := t0; r_saved := None |}) = t0.
Proof.
  intros U. pose proof (raw_calls_inv t0 (cs ++ [RExit]) false {| r_tty := t0; r_saved := None |} U) as I.
  rewrite final_exit in I. cbn in I. apply I. auto.
Qed.
Lemma unnested_enter_raw t0 cs : unnested false (cs ++ [REnter]) ->
  r_tty (raw_calls (cs ++ [REnter]) {| r_tty := t0; r_saved := None |}) = raw_of t0.
Proof.
  intros U. pose proof (raw_calls_inv t0 (cs ++ [REnter]) false {| r_tty := t0; r_saved := None |} U) as I.
  rewrite final_enter in I. cbn in I. apply I. auto.
Qed.

(** Bits of a mask *)
Lemma lors_bit l i : 0 <= i -> Z.testbit (lors l) i = existsb (fun f => Z.testbit f i) l.
Proof.
  intros Hi. induction l as [|f l IH]; [apply Z.bits_0|].
  cbn [existsb]. rewrite <- IH. apply Z.lor_spec.
Qed.

Lemma pow2_bits k i : 0 <= k -> 0 <= i -> Z.testbit (2 ^ k) i = (k =? i).
Proof. intros. apply Z.pow2_bits_eqb. lia. Qed.

(** ReadPassword *)
Lemma tty_read_whole rec q : (length rec <= 16)%nat -> tty_read 16 (rec :: q) = Some (rec, q).
Proof. intros L. unfold tty_read. destruct (Nat.leb_spec (length rec) 16); [reflexivity|lia]. Qed.

Lemma pw_loop_line l : forall fuel ret q, ~ In 10 l -> (length l < fuel)%nat ->
  pw_loop fuel ret ((l ++ [10]) :: q) = PwLine (ret ++ l) q.
Proof.
  remember (length l) as n eqn:Hn. revert l Hn.
  induction n as [n IH] using lt_wf_ind. intros l Hn fuel ret q NI F.
  destruct fuel as [|f]; [lia|]. cbn [pw_loop].
  destruct (Nat.leb_spec (length (l ++ [10])) 16) as [L|L].
  - rewrite tty_read_whole by exact L. rewrite rev_app_distr. cbn [rev app]. rewrite Z.eqb_refl, rev_involutive.
    rewrite app_length in L. cbn in L. destruct (Nat.ltb_spec (length l) 16); [reflexivity|lia].
  - rewrite app_length in L. cbn in L. unfold tty_read.
    destruct (Nat.leb_spec (length (l ++ [10])) 16) as [L2|L2]; [rewrite app_length in L2; cbn in L2; lia|].
    rewrite firstn_app, skipn_app. replace (16 - length l)%nat with 0%nat by lia.
    rewrite firstn_O, skipn_O, app_nil_r.
    assert (Lf : length (firstn 16 l) = 16%nat) by (rewrite firstn_length; lia).
    destruct (rev (firstn 16 l)) as [|x fr] eqn:R.
    { apply (f_equal (@length _)) in R. rewrite rev_length, Lf in R. discriminate. }
    assert (X : In x l).
    { assert (In x (firstn 16 l)) as I by (apply in_rev; rewrite R; now left).
      rewrite <- (firstn_skipn 16 l). apply in_or_app. now left. }
    destruct (Z.eqb_spec x 10) as [E|E]; [subst x; contradiction|]. cbn zeta.
    destruct (Nat.ltb_spec (length (firstn 16 l)) 16) as [L3|L3]; [lia|].
    assert (Q : (length (skipn 16 l) < n)%nat) by (rewrite skipn_length; lia).
    rewrite (IH (length (skipn 16 l)) Q (skipn 16 l) eq_refl).
    + rewrite <- app_assoc, firstn_skipn. reflexivity.
    + intros I. apply NI. rewrite <- (firstn_skipn 16 l). apply in_or_app. now right.
    + rewrite skipn_length in *. lia.
Qed.

Lemma ReadPassword_line l fuel t q : ~ In 10 l -> (length l < fuel)%nat ->
  pr_result (ReadPassword_fd fuel t ((l ++ [10]) :: q)) = PwLine l q.
Proof. intros NI F. unfold ReadPassword_fd. cbn [pr_result]. now rewrite (pw_loop_line l) by assumption. Qed.

Lemma ReadPassword_eof fuel t q : pr_result (ReadPassword_fd (S fuel) t ([] :: q)) = PwEOF q.
Proof. reflexivity. Qed.

Lemma ReadPassword_settings fuel t q :
  pr_during (ReadPassword_fd fuel t q) = pw_settings t /\ pr_after (ReadPassword_fd fuel t q) = pw_settings t.
Proof. split; reflexivity. Qed.

Lemma pw_settings_echo t : Z.testbit (t_lflag (pw_settings t)) 3 = false.
Proof.
  unfold pw_settings. cbn [t_lflag]. rewrite !Z.lor_spec, Z.ldiff_spec.
  change (Z.testbit ECHO 3) with true. change (Z.testbit ICANON 3) with false. change (Z.testbit ISIG 3) with false.
  now rewrite andb_false_r.
Qed.
