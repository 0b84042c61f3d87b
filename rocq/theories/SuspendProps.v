(** Property C108: suspending with Ctrl-Z and resuming. *)
From Verif Require Import Base TtyModel SuspendModel SuspendSpec.
From Coq Require Import Lia.
Open Scope Z_scope.

(** ** C108: a suspended prompt gives the terminal back and goes on when the process is resumed *)
(** Whatever the programs in between do to the settings: each suspension shows them the settings outside of the prompt, and
    the end of the prompt leaves the terminal as the last of them left it. *)
Lemma suspensions_ok shells : forall t, suspensions shells {| r_tty := raw_of t; r_saved := Some t |} =
  ({| r_tty := raw_of (left_by shells t); r_saved := Some (left_by shells t) |}, found_by shells t).
Proof. induction shells as [|f fs IH]; intros t; [reflexivity|]. cbn. unfold SleepToResume, raw_exit, raw_enter. cbn. rewrite IH. reflexivity. Qed.
Theorem C108_settings : forall shells s,
  r_tty (fst (Runes_tty shells s)) = left_by shells (r_tty s) /\ snd (Runes_tty shells s) = found_by shells (r_tty s).
Proof. intros shells s. unfold Runes_tty, raw_enter. rewrite suspensions_ok. split; reflexivity. Qed.
Print Assumptions C108_settings.
(** Between two suspensions the terminal is in raw mode. *)
Theorem C108_raw : forall shells s, r_tty (fst (suspensions shells (raw_enter s))) = raw_of (left_by shells (r_tty s)).
Proof. intros shells s. unfold raw_enter. rewrite suspensions_ok. reflexivity. Qed.
Print Assumptions C108_raw.

(** The editor goes on at the first tick after the process is resumed, not before, when it was stopped for more than 100 ms. *)
Lemma last_any (l : list Z) : forall y d e, last (y :: l) d = last (y :: l) e.
Proof. induction l as [|z l IH]; intros y d e; [reflexivity|]. apply (IH z d e). Qed.
Lemma last_step (l : list Z) x d : last (x :: l) d = last l x.
Proof. destruct l as [|y l]; [reflexivity|]. apply (last_any l y d x). Qed.
Lemma steady_waits before : forall t0 rest, steady t0 before -> WaitForResume t0 (before ++ rest) = WaitForResume (last before t0) rest.
Proof.
  induction before as [|x l IH]; intros t0 rest S; [reflexivity|]. destruct S as (S1 & S2). rewrite last_step. cbn [app WaitForResume].
  replace (100 <? x - t0) with false by lia. now apply IH.
Qed.
Lemma last_in (before : list Z) : forall t0, In (last before t0) (t0 :: before).
Proof. induction before as [|x l IH]; intros t0; [now left|]. rewrite last_step. right. apply IH. Qed.
Theorem C108_resumes_partial : forall a b t0 before x after, stopped a b t0 before (x :: after) -> a + 100 < b ->
  WaitForResume t0 before = None /\ WaitForResume t0 (before ++ x :: after) = Some after.
Proof.
  intros a b t0 before x after [S U F] L. split.
  - rewrite <- (app_nil_r before), steady_waits by exact S. reflexivity.
  - rewrite steady_waits by exact S. cbn. pose proof (U _ (last_in before t0)). replace (100 <? x - last before t0) with true by lia. reflexivity.
Qed.
Print Assumptions C108_resumes_partial.

(** A process that keeps running (the signal was ignored) or is resumed within 90 ms: the editor waits forever. *)
Theorem C108_waits : forall t0 ticks, steady t0 ticks -> WaitForResume t0 ticks = None.
Proof. intros t0 ticks S. rewrite <- (app_nil_r ticks), steady_waits by exact S. reflexivity. Qed.
Print Assumptions C108_waits.
Fixpoint every10 (t : Z) (n : nat) : list Z := match n with O => [] | S n => (t + 10) :: every10 (t + 10) n end.
Lemma every10_steady n : forall t, steady t (every10 t n).
Proof. induction n as [|n IH]; intros t; [exact I|]. cbn. split; [lia|apply IH]. Qed.
Theorem C108_resumes_refuted : exists a b t0 before, a < b /\ forall n, stopped a b t0 before (every10 b (S n)) /\ WaitForResume t0 (before ++ every10 b (S n)) = None.
Proof.
  exists 1020, 1090, 1000, [1010; 1020]. split; [lia|]. intros n. split.
  - constructor; cbn; [lia|intuition lia|lia].
  - rewrite steady_waits by (cbn; lia). apply C108_waits. cbn [last every10 steady]. split; [lia|]. apply every10_steady.
Qed.
Print Assumptions C108_resumes_refuted.

(** Example: stopped from 1025 to 4000, with ticks at 1010, 1020 and, after it, 4001, 4010; the shell turns a flag on. *)
Definition tt0 : termios := {| t_iflag := 256; t_oflag := 5; t_cflag := 191; t_lflag := 35387; t_cc := repeat 0 19 |}.
Definition flag_on (t : termios) : termios :=
  {| t_iflag := Z.lor (t_iflag t) 1024; t_oflag := t_oflag t; t_cflag := t_cflag t; t_lflag := t_lflag t; t_cc := t_cc t |}.
Example C108_ex : stopped 1025 4000 1000 [1010; 1020] [4001; 4010] /\ WaitForResume 1000 [1010; 1020; 4001; 4010] = Some [4010] /\
  t_iflag (r_tty (fst (Runes_tty [flag_on] {| r_tty := tt0; r_saved := None |}))) = 1280 /\ raw_of (flag_on tt0) <> flag_on tt0.
Proof.
  split; [constructor; cbn; [lia|intuition lia|lia]|]. split; [reflexivity|]. split; [vm_compute; reflexivity|]. vm_compute. discriminate.
Qed.
