(** Properties C58 (raw mode undone), C59 (ReadPassword returns the line), C70 (ReadPassword restores settings). *)
From Verif Require Import Base ListAux TtyModel TtySpec TtyProofs.
Open Scope Z_scope.

(** C58: any sequence of Enter and Exit calls in which Enter is never called while raw mode is on: after a final
    Exit the terminal has exactly its initial settings; after a final Enter exactly the raw ones. *)
Theorem C58_exit_restores : forall t0 cs, unnested false (cs ++ [RExit]) ->
  r_tty (raw_calls (cs ++ [RExit]) {| r_tty := t0; r_saved := None |}) = t0.
Proof. exact unnested_exit_restores. Qed.
Print Assumptions C58_exit_restores.
Theorem C58_enter_raw : forall t0 cs, unnested false (cs ++ [REnter]) ->
  r_tty (raw_calls (cs ++ [REnter]) {| r_tty := t0; r_saved := None |}) = raw_of t0.
Proof. exact unnested_enter_raw. Qed.
Print Assumptions C58_enter_raw.

(** C58: what raw mode changes: input translation, echo, canonical input, signals and character size; no other
    bit of the flag words, no other control character. *)
Theorem C58_raw_bits : forall t i, 0 <= i ->
  flag (t_iflag (raw_of t)) i = flag (t_iflag t) i && negb (existsb (Z.eqb i) [0;1;3;5;6;7;8;10]) /\
  flag (t_lflag (raw_of t)) i = flag (t_lflag t) i && negb (existsb (Z.eqb i) [0;1;3;6;15]) /\
  flag (t_cflag (raw_of t)) i = existsb (Z.eqb i) [4;5] || (flag (t_cflag t) i && negb (i =? 8)) /\
  t_oflag (raw_of t) = t_oflag t.
Proof.
  intros t i Hi. unfold flag, raw_of. cbn [t_iflag t_lflag t_cflag t_oflag].
  rewrite Z.lor_spec, !Z.ldiff_spec, !lors_bit by exact Hi. cbn [existsb].
  change IGNBRK with (2^0). change BRKINT with (2^1). change PARMRK with (2^3). change ISTRIP with (2^5).
  change INLCR with (2^6). change IGNCR with (2^7). change ICRNL with (2^8). change IXON with (2^10).
  change ISIG with (2^0). change ICANON with (2^1). change ECHO with (2^3). change ECHONL with (2^6).
  change IEXTEN with (2^15). change PARENB with (2^8).
  replace CSIZE with (Z.lor (2^4) (2^5)) by reflexivity. replace CS8 with (Z.lor (2^4) (2^5)) by reflexivity.
  rewrite !Z.lor_spec. rewrite !pow2_bits by lia. rewrite !(Z.eqb_sym i).
  generalize (Z.testbit (t_iflag t) i), (Z.testbit (t_lflag t) i), (Z.testbit (t_cflag t) i). intros x y z.
  generalize (0 =? i), (1 =? i), (3 =? i), (4 =? i), (5 =? i), (6 =? i), (7 =? i), (8 =? i), (10 =? i), (15 =? i).
  intros b0 b1 b3 b4 b5 b6 b7 b8 b10 b15.
  split; [destruct x, b0, b1, b3, b5, b6, b7, b8, b10; reflexivity|].
  split; [destruct y, b0, b1, b3, b6, b15; reflexivity|].
  split; [destruct z, b4, b5, b8; reflexivity|reflexivity].
Qed.
Print Assumptions C58_raw_bits.
Theorem C58_raw_cc : forall t i, (7 <= length (t_cc t))%nat ->
  nth_error (t_cc (raw_of t)) i = if (i =? 5)%nat then Some 0 else if (i =? 6)%nat then Some 1 else nth_error (t_cc t) i.
Proof.
  intros t i L. unfold raw_of. cbn [t_cc]. unfold set_cc, VTIME, VMIN.
  destruct (t_cc t) as [|a [|b [|c [|d [|e [|f [|g l]]]]]]]; cbn in L; try lia.
  destruct i as [|[|[|[|[|[|[|i]]]]]]]; reflexivity.
Qed.
Print Assumptions C58_raw_cc.
Definition cooked : termios :=
  {| t_iflag := 17664; t_oflag := 5; t_cflag := 191; t_lflag := 35387; t_cc := [3;28;127;21;4;0;1;0;17;19;26;0;18;15;23;22;0;0;0] |}.
Example C58_ex : unnested false [REnter; RExit; RExit; REnter; RExit] /\ raw_of cooked <> cooked /\
  flag (t_lflag cooked) 3 = true /\ flag (t_lflag (raw_of cooked)) 3 = false.
Proof. split; [cbn; tauto|]. split; [discriminate|]. split; reflexivity. Qed.

(** C58 without the side condition fails: nested Enter calls on one RawMode lose the original settings. *)
Theorem C58_nested_refuted : exists t0,
  r_tty (raw_calls [REnter; REnter; RExit; RExit] {| r_tty := t0; r_saved := None |}) <> t0.
Proof. exists cooked. discriminate. Qed.
Print Assumptions C58_nested_refuted.

(** C59: a line of any length ended by Enter is returned whole, without its newline, and nothing after it is read. *)
Theorem C59_line : forall l fuel t q, ~ In 10 l -> (length l < fuel)%nat ->
  pr_result (ReadPassword_fd fuel t ((l ++ [10]) :: q)) = PwLine l q.
Proof. exact ReadPassword_line. Qed.
Print Assumptions C59_line.
Theorem C59_eof : forall fuel t q, pr_result (ReadPassword_fd (S fuel) t ([] :: q)) = PwEOF q.
Proof. exact ReadPassword_eof. Qed.
Print Assumptions C59_eof.
Example C59_ex : ~ In 10 (repeat 97 16) /\
  pr_result (ReadPassword_fd 17 cooked ((repeat 97 16 ++ [10]) :: [[98;10]])) = PwLine (repeat 97 16) [[98;10]] /\
  pr_result (ReadPassword_fd 17 cooked ((repeat 97 15 ++ [10]) :: [[98;10]])) = PwLine (repeat 97 15) [[98;10]].
Proof. split; [cbn; intuition discriminate|]. split; reflexivity. Qed.
(** C59 for a line ended by Ctrl-D: sixteen bytes and Ctrl-D do not end the password. *)
Theorem C59_ctrl_d_multiple_of_16_refuted : exists t l q,
  length l = 16%nat /\ pr_result (ReadPassword_fd 9 t (l :: [98;10] :: q)) = PwLine (l ++ [98]) q.
Proof. exists cooked, (repeat 97 16), []. split; reflexivity. Qed.
Print Assumptions C59_ctrl_d_multiple_of_16_refuted.

(** C70: while reading, echo is off and lines are delivered whole. *)
Theorem C70_no_echo_while_reading : forall fuel t q, flag (t_lflag (pr_during (ReadPassword_fd fuel t q))) 3 = false.
Proof. intros fuel t q. rewrite (proj1 (ReadPassword_settings fuel t q)). apply pw_settings_echo. Qed.
Print Assumptions C70_no_echo_while_reading.

(** C70 fails: the settings are not restored; a terminal that echoed no longer does afterwards, for every
    input and every initial setting. *)
Theorem C70_settings_not_restored_partial : forall fuel t q,
  pr_after (ReadPassword_fd fuel t q) = pr_during (ReadPassword_fd fuel t q) /\
  (flag (t_lflag t) 3 = true -> pr_after (ReadPassword_fd fuel t q) <> t).
Proof.
  intros fuel t q. destruct (ReadPassword_settings fuel t q) as (A & B). split; [congruence|].
  intros E H. rewrite <- H, B in E. unfold flag in E. rewrite pw_settings_echo in E. discriminate.
Qed.
Print Assumptions C70_settings_not_restored_partial.
Theorem C70_refuted : exists t q, pr_result (ReadPassword_fd 9 t q) = PwLine [97] [] /\
  flag (t_lflag t) 3 = true /\ flag (t_lflag (pr_after (ReadPassword_fd 9 t q))) 3 = false.
Proof. exists cooked, [[97;10]]. split; [reflexivity|]. split; reflexivity. Qed.
Print Assumptions C70_refuted.
