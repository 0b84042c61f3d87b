From Verif Require Import Base ListAux Utf8Model HistoryModel HistFileModel.
Open Scope nat_scope.

Lemma syss_app a b s : syss (a ++ b) s = syss b (syss a s).
Proof. unfold syss. now rewrite fold_left_app. Qed.

Definition all_written (chunks : list (list Z * nat)) : Prop := Forall (fun c => length (fst c) <= snd c) chunks.

Lemma bufio_main cs s : fs_main (syss (bufio_writes cs) s) = fs_main s.
Proof.
  revert s. induction cs as [|[c n] cs IH]; intros s; cbn; [reflexivity|].
  assert (X : fs_main (sys (OWrite (firstn n c)) s) = fs_main s) by (cbn; destruct (fs_tmp s); reflexivity).
  destruct (length c <=? n).
  - change (fold_left (fun s o => sys o s) (bufio_writes cs) ?x) with (syss (bufio_writes cs) x).
    rewrite IH. exact X.
  - exact X.
Qed.

Lemma bufio_tmp cs s t : all_written cs -> fs_tmp s = Some t ->
  fs_tmp (syss (bufio_writes cs) s) = Some (t ++ concat (map fst cs)).
Proof.
  revert s t. induction cs as [|[c n] cs IH]; intros s t A E; cbn.
  - now rewrite app_nil_r.
  - inversion A as [|? ? A1 A2]; subst. cbn in A1. apply Nat.leb_le in A1 as A1'. rewrite A1'.
    rewrite E. change (fold_left (fun s o => sys o s) (bufio_writes cs) ?x) with (syss (bufio_writes cs) x).
    rewrite (IH _ (t ++ firstn n c)); [|exact A2|reflexivity].
    rewrite firstn_all2 by exact A1. now rewrite <- app_assoc.
Qed.

Lemma prefix_cases {A} (p q l : list A) x : p ++ q = l ++ [x] -> (exists q', l = p ++ q' /\ q = q' ++ [x]) \/ (p = l ++ [x] /\ q = []).
Proof.
  intros E. destruct q as [|y q] using rev_ind.
  - right. rewrite app_nil_r in E. auto.
  - left. rewrite app_assoc in E. apply app_inj_tail in E. destruct E as (E1 & <-). exists q. auto.
Qed.

Lemma bufio_prefix_main cs p q s : bufio_writes cs = p ++ q -> fs_main (syss p s) = fs_main s.
Proof.
  revert p s. induction cs as [|[c n] cs IH]; intros p s E; cbn in E.
  - destruct p; [reflexivity|discriminate].
  - destruct p as [|o p]; [reflexivity|]. injection E as <- E.
    assert (X : fs_main (sys (OWrite (firstn n c)) s) = fs_main s) by (cbn; destruct (fs_tmp s); reflexivity).
    change (syss (OWrite (firstn n c) :: p) s) with (syss p (sys (OWrite (firstn n c)) s)).
    destruct (length c <=? n).
    + rewrite (IH p) by exact E. exact X.
    + destruct p; [exact X|discriminate].
Qed.

(** Stopping after any prefix of the system calls. *)
Lemma rewrite_crash_atomic chunks done rest s : rewrite_ops chunks = done ++ rest -> all_written chunks ->
  fs_main (syss done s) = fs_main s \/ fs_main (syss done s) = concat (map fst chunks).
Proof.
  intros E A. unfold rewrite_ops in E. destruct done as [|o d]; [left; reflexivity|].
  injection E as <- E. symmetry in E. apply prefix_cases in E. destruct E as [(q & E & _)|(E & _)].
  - left. change (syss (OTrunc :: d) s) with (syss d (sys OTrunc s)). rewrite (bufio_prefix_main chunks d q) by exact E.
    reflexivity.
  - right. subst d. change (syss (OTrunc :: bufio_writes chunks ++ [ORename]) s)
      with (syss (bufio_writes chunks ++ [ORename]) (sys OTrunc s)).
    rewrite syss_app. cbn [syss fold_left]. unfold sys at 1. fold (syss (bufio_writes chunks) (sys OTrunc s)).
    rewrite (bufio_tmp chunks _ []) by (auto; reflexivity). reflexivity.
Qed.

(** Stopping in the middle of a write (the kernel has taken [n] bytes of the chunk). *)
Lemma rewrite_crash_mid chunks done c k rest n s : rewrite_ops chunks = done ++ OWrite c :: rest ->
  all_written chunks -> k = firstn n c ->
  fs_main (syss (done ++ [OWrite k]) s) = fs_main s \/ fs_main (syss (done ++ [OWrite k]) s) = concat (map fst chunks).
Proof.
  intros E A _. rewrite syss_app. 
  assert (X : forall g, fs_main (syss [OWrite k] g) = fs_main g) by (intros g; cbn; destruct (fs_tmp g); reflexivity).
  rewrite X. eapply rewrite_crash_atomic; eauto.
Qed.

Lemma rewrite_completes chunks s : all_written chunks ->
  fs_main (syss (rewrite_ops chunks) s) = concat (map fst chunks).
Proof.
  intros A. unfold rewrite_ops. change (syss (OTrunc :: bufio_writes chunks ++ [ORename]) s)
      with (syss (bufio_writes chunks ++ [ORename]) (sys OTrunc s)).
  rewrite syss_app. cbn [syss fold_left]. unfold sys at 1. fold (syss (bufio_writes chunks) (sys OTrunc s)).
  rewrite (bufio_tmp chunks _ []) by (auto; reflexivity). reflexivity.
Qed.
