(** C120 (input and WriteStdin), C121 (the terminal's settings) and C122 (goroutines) of an instance that is given several
    configurations. *)
From Verif Require Import Base TtyModel CfgModel CfgSpec CfgProofs.
From Coq Require Import Lia Bool Permutation.
Open Scope nat_scope.

Section props.
Variables (rm rt : nat -> nat) (own : nat -> bool).
Notation run := (cfg_run rm rt own).
Notation new := (cfg_new rt own).

Lemma new_same c t : c_inst (new c t) = c /\ c_term (new c t) = c /\ c_rdr (new c t) = None /\ c_read (new c t) = [] /\
  (forall r, c_buf (new c t) r = []) /\ c_tty (new c t) = t /\ (forall i, c_saved (new c t) i = None) /\ c_closed (new c t) = false.
Proof. unfold cfg_new. destruct (init_keeps rt own c (mkCfgs t (fun _ => None) c c c None (fun _ => []) [] [] [] [] false)) as (-> & -> & -> & -> & _ & -> & -> & -> & ->). cbn. repeat split. Qed.

(** C120: the terminal goroutine reads one input only, the one the configuration in force had when the goroutine began; of the
    texts given to WriteStdin it reads, in order and completely, those given while a configuration with that input was in
    force, and nothing else. *)
Theorem C120_exact es c0 t r : c_rdr (run es (new c0 t)) = Some r ->
  fills (c_read (run es (new c0 t))) ++ c_buf (run es (new c0 t)) r = written rt r c0 es /\
  forall x, In x (c_read (run es (new c0 t))) -> fst (fst x) = r.
Proof.
  intros R. destruct (new_same c0 t) as (A & B & C & D & E & _). split.
  - rewrite (run_io rm rt own r es (new c0 t) c0 A B (fun _ => D)).
    + rewrite D, E. reflexivity.
    + intros q. rewrite C. discriminate.
    + intros q. rewrite R. congruence.
  - (* split at the moment the goroutine begins *)
    clear - R A B C D. revert A B C D R. generalize (new c0 t). intros s. revert s c0.
    induction es as [|e es IH]; intros s c0 A B C D R; [cbn in *; congruence|]. rewrite run_cons in *.
    destruct (step_cur rm rt own e s c0 A B) as [A' B'].
    destruct (c_rdr (cfg_step rm rt own e s)) as [q|] eqn:Q.
    + assert (q = r) as ->.
      { rewrite (run_rdr rm rt own es _ q Q) in R; [congruence|congruence]. }
      assert (X : c_read (cfg_step rm rt own e s) = []).
      { destruct (step_io rm rt own r s e c0 A B (fun _ => D)) as [I _]; [rewrite C; discriminate|rewrite Q; congruence|].
        destruct e; cbn [cfg_step] in *; try (cbn in *; congruence).
        - rewrite C in *. exact D.
        - destruct (inst_keeps rm rt own c s) as (_ & _ & _ & _ & _ & _ & -> & _); [congruence|exact D].
        - destruct (op_keeps rm rt own c s) as (_ & _ & _ & _ & _ & _ & -> & _). exact D.
        - destruct (exit_keeps rm s) as (_ & _ & _ & _ & _ & -> & _). exact D.
        - cbn. destruct (exit_keeps rm s) as (_ & _ & _ & _ & _ & -> & _). exact D.
        - rewrite C in *. exact D.
        - destruct (close_keeps rm rt s) as (_ & _ & _ & _ & -> & _). exact D. }
      apply run_from; [exact Q|congruence|]. rewrite X. intros x [].
    + apply (IH _ _ A' B' Q); [|exact R].
      destruct (step_io rm rt own r s e c0 A B (fun _ => D)) as [_ N]; [rewrite C; discriminate|rewrite Q; discriminate|]. apply N, Q.
Qed.

(** With clones of the first configuration all text is read, and it is read first come first served. *)
Theorem C120_clones es c0 t : same_input rt (rt c0) es -> c_rdr (run es (new c0 t)) = Some (rt c0) ->
  fills (c_read (run es (new c0 t))) ++ c_buf (run es (new c0 t)) (rt c0) = all_written es.
Proof. intros S R. rewrite (proj1 (C120_exact es c0 t _ R)). apply same_written; [reflexivity|exact S]. Qed.

(** Whose input it is: that of the configuration in force when the goroutine begins, for good. *)
Theorem C120_reader es es' c0 t : c_rdr (run es (new c0 t)) = None ->
  c_rdr (run (es ++ VStart :: es') (new c0 t)) = Some (rt (c_term (run es (new c0 t)))).
Proof.
  intros N. rewrite run_app, run_cons. apply run_rdr.
  - cbn [cfg_step]. rewrite N. reflexivity.
  - cbn [cfg_step]. rewrite N. apply (run_same rm rt own es (new c0 t)). destruct (new_same c0 t) as (-> & -> & _). reflexivity.
Qed.

(** Text given while a configuration with another input was in force is never read: it waits in that input's buffer for
    ever, and nothing is ever read from there. *)
Theorem C120_lost es es' c0 t r q : c_rdr (run es (new c0 t)) = Some r -> q <> r ->
  (exists b, c_buf (run (es ++ es') (new c0 t)) q = c_buf (run es (new c0 t)) q ++ b) /\
  forall x, In x (c_read (run (es ++ es') (new c0 t))) -> fst (fst x) <> q.
Proof.
  intros R NE. destruct (new_same c0 t) as (A & B & _).
  assert (E : c_inst (run es (new c0 t)) = c_term (run es (new c0 t))).
  { apply run_same. congruence. }
  split.
  - rewrite run_app. eapply run_wait; eassumption.
  - intros x H G. assert (R2 : c_rdr (run (es ++ es') (new c0 t)) = Some r) by (rewrite run_app; apply run_rdr; assumption).
    rewrite (proj2 (C120_exact _ _ _ _ R2) x H) in G. congruence.
Qed.

(** C121: whenever no Readline is pending the terminal has the settings it had before NewEx, and while one is pending it is in
    raw mode until Close; for every program that lets calls of Readline return before the next, and changes the
    configuration meanwhile only to one with the same functions. *)
Theorem C121_restored es c0 t : orderly rm false c0 es -> pending false es = false -> c_tty (run es (new c0 t)) = t.
Proof.
  intros O P. destruct (new_same c0 t) as (A & B & _ & _ & _ & T & S & _).
  destruct (run_rest rm rt own t es false c0 (new c0 t)) as [cur (_ & _ & _ & H)]; [|exact O|].
  - split; [exact A|]. split; [exact B|]. split; [intros i; left; apply S|exact T].
  - rewrite P in H. exact H.
Qed.
Theorem C121_raw es c0 t : orderly rm false c0 es -> pending false es = true -> ~ In VClose es -> c_tty (run es (new c0 t)) = raw_of t.
Proof.
  intros O P N. destruct (new_same c0 t) as (A & B & _ & _ & _ & T & S & F).
  destruct (run_rest rm rt own t es false c0 (new c0 t)) as [cur (_ & _ & _ & H)]; [|exact O|].
  - split; [exact A|]. split; [exact B|]. split; [intros i; left; apply S|exact T].
  - rewrite P in H. destruct H as [_ [H|[_ H]]]; [exact H|].
    rewrite (run_open rm rt own es) in H; [congruence|congruence|exact N].
Qed.
(** After Close the settings are back even if Readline has not returned yet. *)
Theorem C121_close es c0 t : orderly rm false c0 es -> ~ In VClose es -> c_tty (run (es ++ [VClose]) (new c0 t)) = t.
Proof.
  intros O N. destruct (new_same c0 t) as (A & B & _ & _ & _ & T & S & F).
  destruct (run_rest rm rt own t es false c0 (new c0 t)) as [cur (A' & B' & M & H)]; [|exact O|].
  - split; [exact A|]. split; [exact B|]. split; [intros i; left; apply S|exact T].
  - rewrite run_app. assert (G : c_closed (run es (new c0 t)) = false) by (rewrite (run_open rm rt own es); [exact F|congruence|exact N]).
    set (s := run es (new c0 t)) in *. cbn. unfold cfg_close. cbn [fill_close c_closed]. rewrite G. unfold exit_raw. cbn. rewrite B'.
    destruct (pending false es).
    + destruct H as [H _]. rewrite H. reflexivity.
    + destruct (M (rm cur)) as [-> | ->]; [exact H|reflexivity].
Qed.

(** C122: goroutines reading ahead, exactly.  One for each input that is os.Stdin, of the configurations ever used, and Close
    ends none of them. *)
Theorem C122_cancelable es c0 t :
  length (c_canc (run es (new c0 t))) = length (filter (fun c => negb (own c)) (used rt c0 es)).
Proof.
  destruct (new_counted rt own c0 t) as (C & K & I). destruct (run_counted rm rt own es _ C K) as ((N & -> & _) & _ & M).
  apply Permutation_length.
  assert (P : Permutation (c_init (run es (new c0 t))) (used rt c0 es)).
  { apply NoDup_Permutation; [exact N|apply NoDup_nodup|]. intros x. rewrite M, I. unfold used. rewrite nodup_In. cbn. tauto. }
  revert P. generalize (c_init (run es (new c0 t))) (used rt c0 es). clear. intros a b P. induction P; cbn.
  - constructor.
  - destruct (own x); cbn; [assumption|constructor; assumption].
  - destruct (own x), (own y); cbn; try apply perm_swap; apply Permutation_refl.
  - eapply Permutation_trans; eassumption.
Qed.
(** One for the buffer of each input of the configurations used, until Close. *)
Theorem C122_fillable es c0 t : ~ In VClose es -> length (c_fill (run es (new c0 t))) = length (used rt c0 es).
Proof.
  intros NC. destruct (new_counted rt own c0 t) as (C & K & I). destruct (run_counted rm rt own es _ C K) as ((N & _ & _) & _ & M).
  rewrite (run_fill rm rt own es) by (exact NC || reflexivity). apply Permutation_length.
  apply NoDup_Permutation; [exact N|apply NoDup_nodup|]. intros x. rewrite M, I. unfold used. rewrite nodup_In. cbn. tauto.
Qed.
(** Close ends the one of the configuration in force, and no other. *)
Theorem C122_close es c0 t x : let s := run es (new c0 t) in
  In x (c_fill (run (es ++ [VClose]) (new c0 t))) <-> In x (c_fill s) /\ x <> rt (c_inst s).
Proof.
  cbn zeta. rewrite run_app. destruct (new_same c0 t) as (A & B & _).
  assert (E : c_inst (run es (new c0 t)) = c_term (run es (new c0 t))).
  { apply run_same. congruence. }
  set (s := run es (new c0 t)) in *. cbn. unfold cfg_close. cbn zeta. cbn [fill_close c_closed].
  destruct (c_closed s).
  - cbn. rewrite filter_In, negb_true_iff, Nat.eqb_neq. tauto.
  - set (s1 := mkCfgs _ _ _ _ _ _ _ _ _ _ _ _). destruct (exit_keeps rm s1) as (_ & _ & _ & _ & _ & _ & _ & -> & _).
    subst s1. cbn. rewrite !filter_In, !negb_true_iff, !Nat.eqb_neq, <- E. tauto.
Qed.

(** ReadPassword leaves two more behind each time. *)
Lemma names_ask k c0 cs : flat_map names_of (flat_map (ask_password k c0) cs) = flat_map (fun c => [c; c0]) cs.
Proof. induction cs as [|c cs IH]; [reflexivity|]. cbn. rewrite IH. reflexivity. Qed.
Lemma no_close_ask k c0 cs : ~ In VClose (flat_map (ask_password k c0) cs).
Proof. rewrite in_flat_map. intros (c & _ & H). cbn in H. decompose [or] H; try discriminate; contradiction. Qed.
Lemma used_ask k c0 cs : NoDup (map rt (c0 :: cs)) -> Permutation (used rt c0 (flat_map (ask_password k c0) cs)) (map rt (c0 :: cs)).
Proof.
  intros N. apply NoDup_Permutation; [apply NoDup_nodup|exact N|]. intros x. unfold used. rewrite nodup_In, names_ask. cbn [map In].
  assert (G : In x (map rt (flat_map (fun c => [c; c0]) cs)) -> rt c0 = x \/ In x (map rt cs)).
  { rewrite !in_map_iff. intros (y & <- & H). apply in_flat_map in H. destruct H as (c & H & [<-|[<-|[]]]).
    - right. exists c. auto.
    - left. reflexivity. }
  assert (G2 : In x (map rt cs) -> In x (map rt (flat_map (fun c => [c; c0]) cs))).
  { rewrite !in_map_iff. intros (y & <- & H). exists y. split; [reflexivity|]. apply in_flat_map. exists y. cbn. auto. }
  tauto.
Qed.
Theorem C122_password k c0 cs t : NoDup (map rt (c0 :: cs)) -> (forall c, In c (c0 :: cs) -> own (rt c) = false) ->
  let s := run (flat_map (ask_password k c0) cs) (new c0 t) in
  length (c_fill s) + length (c_canc s) = 2 + 2 * length cs.
Proof.
  intros N O. cbn zeta. rewrite C122_fillable by apply no_close_ask. rewrite C122_cancelable.
  pose proof (used_ask k c0 cs N) as P.
  rewrite (Permutation_length P).
  assert (F : filter (fun c => negb (own c)) (used rt c0 (flat_map (ask_password k c0) cs)) = used rt c0 (flat_map (ask_password k c0) cs)).
  { assert (Q : forall x, In x (used rt c0 (flat_map (ask_password k c0) cs)) -> own x = false).
    { intros x H. apply (Permutation_in _ P), in_map_iff in H. destruct H as (c & <- & H). apply O, H. }
    revert Q. generalize (used rt c0 (flat_map (ask_password k c0) cs)). clear. induction l as [|x l IH]; intros Q; [reflexivity|].
    cbn. rewrite (Q x (or_introl eq_refl)). cbn. f_equal. apply IH. intros y H. apply Q. right. exact H. }
  rewrite F, (Permutation_length P). cbn [map length]. rewrite map_length. lia.
Qed.
(** With one configuration kept for all password prompts, nothing accumulates. *)
Theorem C122_reuse k c0 c n t :
  let s := run (flat_map (ask_password k c0) (repeat c n)) (new c0 t) in length (c_fill s) + length (c_canc s) <= 4.
Proof.
  cbn zeta. rewrite C122_fillable by apply no_close_ask. rewrite C122_cancelable.
  assert (L : length (used rt c0 (flat_map (ask_password k c0) (repeat c n))) <= 2).
  { change 2 with (length [rt c0; rt c]). apply NoDup_incl_length; [apply NoDup_nodup|]. intros x. unfold used. rewrite nodup_In, names_ask.
    cbn [map In]. intros [H|H]; [auto|]. apply in_map_iff in H. destruct H as (y & <- & H). apply in_flat_map in H.
    destruct H as (z & H & G). apply repeat_spec in H. subst z. cbn in G. destruct G as [<-|[<-|[]]]; auto. }
  assert (M : forall l, length (filter (fun c => negb (own c)) l) <= length l).
  { clear. induction l as [|x l IH]; [cbn; lia|]. cbn. destruct (negb (own x)); cbn; lia. }
  specialize (M (used rt c0 (flat_map (ask_password k c0) (repeat c n)))). lia.
Qed.
End props.

(** Concrete cases: every configuration its own functions and input; 5 is a clone of 0. *)
Definition rt5 (c : nat) := if c =? 5 then 0 else c.
Definition t0 : termios := {| t_iflag := 1280; t_oflag := 5; t_cflag := 191; t_lflag := 35387; t_cc := [1; 0]%Z |}.
Definition noown (_ : nat) := false.
Definition case (es : list cev) := cfg_run rt5 rt5 noown es (cfg_new rt5 noown 0 t0).

Example C120_ex : let s := case [VStart; VWrite [97]%Z; VSet 5; VWrite [98]%Z; VRead []; VRead [99]%Z] in
  c_rdr s = Some 0 /\ c_read s = [(0, true, [97; 98]%Z); (0, false, [99]%Z)].
Proof. vm_compute. split; reflexivity. Qed.
(** After SetConfig the text is not read, nor is the new configuration's input. *)
Theorem C120_after_set_refuted : exists es, let s := case (VStart :: es) in
  all_written es <> [] /\ fills (c_read s) = [] /\ c_buf s (c_term s) = all_written es /\ c_read s = [(0, false, [99]%Z)].
Proof. exists [VSet 1; VWrite [97]%Z; VRead [99]%Z]. vm_compute. repeat split. discriminate. Qed.
(** SetConfig right after NewEx: the schedule decides whose input the instance has. *)
Theorem C120_race_refuted : c_rdr (case [VStart; VSet 1]) <> c_rdr (case [VSet 1; VStart]).
Proof. vm_compute. discriminate. Qed.

Example C121_ex : orderly rt5 false 0 [VEnter; VSet 5; VStop; VExit; VSet 1; VEnter; VClose; VExit] /\
  c_tty (case [VEnter; VSet 5]) <> t0 /\ c_tty (case [VEnter; VSet 5; VStop; VExit; VSet 1; VEnter; VClose; VExit]) = t0.
Proof. vm_compute. repeat split; discriminate || auto. Qed.
(** A configuration changed while Readline is pending: the terminal stays raw, for the following calls and after Close. *)
Theorem C121_changed_refuted : exists es, pending false es = false /\ In VClose es /\ c_tty (case es) = raw_of t0 /\ raw_of t0 <> t0.
Proof. exists [VEnter; VSet 1; VExit; VEnter; VExit; VClose]. vm_compute. repeat split; auto 10; discriminate. Qed.
(** Two pending calls: it stays raw, too. *)
Theorem C121_two_refuted : exists es, (forall c, ~ In (VSet c) es) /\ c_tty (case (es ++ [VClose])) = raw_of t0.
Proof. exists [VEnter; VEnter; VExit; VExit]. split; [|reflexivity]. intros c H. cbn in H. decompose [or] H; try discriminate; contradiction. Qed.

Example C122_ex : let s := case (flat_map (ask_password [13]%Z 0) [1; 2; 3]) in length (c_fill s) + length (c_canc s) = 8.
Proof. reflexivity. Qed.
(** After Close one goroutine is left; after a password prompt, three. *)
Theorem C122_close_refuted : c_canc (case [VClose]) = [0] /\ c_fill (case [VClose]) = [] /\
  let s := case (ask_password [13]%Z 0 1 ++ [VClose]) in c_canc s = [1; 0] /\ c_fill s = [1].
Proof. vm_compute. repeat split. Qed.

Print Assumptions C120_exact.
Print Assumptions C120_clones.
Print Assumptions C120_reader.
Print Assumptions C120_lost.
Print Assumptions C120_after_set_refuted.
Print Assumptions C120_race_refuted.
Print Assumptions C121_restored.
Print Assumptions C121_raw.
Print Assumptions C121_close.
Print Assumptions C121_changed_refuted.
Print Assumptions C121_two_refuted.
Print Assumptions C122_cancelable.
Print Assumptions C122_fillable.
Print Assumptions C122_close.
Print Assumptions C122_password.
Print Assumptions C122_reuse.
Print Assumptions C122_close_refuted.
