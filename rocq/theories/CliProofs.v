(** Proofs about the remote client. *)
From Verif Require Import Base RemoteModel RemoteSpec RemoteProofs TtyModel CliModel CliSpec.
Open Scope Z_scope.

Lemma cli_calls xs : forall c, cl_out (cli_handle_all (map svr_msg xs) c) = cl_out c ++ written xs /\
  cl_raw (cli_handle_all (map svr_msg xs) c) = raw_calls (modes xs) (cl_raw c).
Proof.
  induction xs as [|x xs IH]; intros c; cbn [map written modes flat_map].
  - rewrite app_nil_r. auto.
  - unfold cli_handle_all in *. cbn [fold_left]. destruct (IH (cli_handle (svr_msg x) c)) as (-> & ->). destruct x as [b| |]; cbn.
    + rewrite <- app_assoc. auto.
    + auto.
    + auto.
Qed.

Lemma copy_spec rs : forall c n r ret, copy true rs = (c, n, r, ret) ->
  (length r <= length rs)%nat /\ (ret = true -> (length r < length rs)%nat) /\ n = length (concat c) /\
  forall had, input had rs = if ret then if had || negb (n =? 0)%nat then (concat c ++ fst (input false r), snd (input false r)) else ([], true)
                             else (concat c, false).
Proof.
  induction rs as [|[d e] rs IH]; intros c n r ret E; cbn [copy] in E.
  - injection E as <- <- <- <-. cbn. split; [lia|]. split; [discriminate|]. split; [reflexivity|]. reflexivity.
  - destruct d as [|x d].
    + destruct e.
      * injection E as <- <- <- <-. cbn. split; [lia|]. split; [lia|]. split; [reflexivity|]. intros had. rewrite !orb_false_r. destruct had; reflexivity.
      * destruct (IH c n r ret E) as (L1 & L2 & N & H). cbn [length]. split; [lia|]. split; [intros R; specialize (L2 R); lia|]. split; [exact N|].
        intros had. cbn [input length Nat.eqb negb app]. rewrite orb_false_r. rewrite H. destruct ret; [|reflexivity]. destruct (had || _); reflexivity.
    + destruct e; cbn [orb negb] in E.
      * injection E as <- <- <- <-. cbn [length concat app input negb Nat.eqb]. rewrite app_nil_r. split; [lia|]. split; [lia|]. split; [reflexivity|].
        intros had. rewrite orb_true_r. reflexivity.
      * destruct (copy true rs) as [[[c1 n1] r1] ret1]. injection E as <- <- <- <-. destruct (IH c1 n1 r1 ret1 eq_refl) as (L1 & L2 & N & H).
        cbn [length concat app input negb Nat.eqb]. split; [lia|]. split; [intros R; specialize (L2 R); lia|].
        split; [rewrite app_length; lia|]. intros had. rewrite orb_true_r. rewrite H. cbn [orb Nat.add]. destruct ret1; cbn [fst snd].
        -- now rewrite <- app_assoc.
        -- reflexivity.
Qed.

Lemma feed_fuel_spec f : forall rs, (length rs < f)%nat ->
  concat (fst (fst (feed_fuel f true rs))) = fst (input false rs) /\ snd (feed_fuel f true rs) = snd (input false rs).
Proof.
  induction f as [|f IH]; intros rs L; [lia|]. cbn [feed_fuel]. destruct (copy true rs) as [[[c n] r] ret] eqn:E.
  destruct (copy_spec rs c n r ret E) as (L1 & L2 & N & H). rewrite (H false). destruct ret; cbn [negb].
  - destruct (Nat.eqb_spec n 0) as [Z|Z]; cbn [orb negb].
    + cbn [fst snd]. rewrite Z in N. destruct (concat c); [auto|discriminate].
    + specialize (L2 eq_refl). destruct (IH r) as (I1 & I2); [lia|]. destruct (feed_fuel f true r) as [[c' r'] cl]. cbn [fst snd] in *.
      rewrite concat_app, I1, I2. auto.
  - cbn. auto.
Qed.

Lemma copy_pieces ok rs : forall c n r ret, copy ok rs = (c, n, r, ret) -> Forall (fun d => d <> [] /\ exists e, In (d, e) rs) c.
Proof.
  induction rs as [|[d e] rs IH]; intros c n r ret E; cbn [copy] in E.
  - injection E as <- <- <- <-. constructor.
  - assert (Q : forall c, Forall (fun d => d <> [] /\ exists e, In (d, e) rs) c -> Forall (fun d0 => d0 <> [] /\ exists e0, In (d0, e0) ((d, e) :: rs)) c).
    { intros c0. apply Forall_impl. intros z (Z1 & e0 & Z2). split; [exact Z1|]. exists e0. now right. }
    destruct d as [|x d].
    + destruct e; [injection E as <- <- <- <-; constructor|]. apply Q. eapply IH. exact E.
    + destruct (e || negb ok).
      * injection E as <- <- <- <-. constructor; [|constructor]. split; [discriminate|]. exists e. now left.
      * destruct (copy ok rs) as [[[c1 n1] r1] ret1]. injection E as <- <- <- <-. constructor; [split; [discriminate|]; exists e; now left|].
        apply Q. eapply IH. reflexivity.
Qed.
