(** Properties C58 (raw mode undone, on a Windows console) and C99 (ReadPassword(fd) on Windows). *)
From Verif Require Import Base ListAux TtyModel TtySpec TtyProofs WinTtyModel WinTtyProofs.
Open Scope Z_scope.

(** C58 on Windows: Enter and Exit in any order that never enters raw mode twice. *)
Theorem C58_windows_restores : forall m cs, unnested false (cs ++ [RExit]) ->
  w_mode (wraw_calls (cs ++ [RExit]) {| w_mode := m; w_saved := None |}) = m.
Proof.
  intros m cs U. pose proof (wraw_calls_inv m _ false {| w_mode := m; w_saved := None |} U) as I.
  rewrite final_exit in I. cbn in I. apply I. auto.
Qed.
Print Assumptions C58_windows_restores.
(** ... and in raw mode input is neither processed, collected in lines nor echoed; no other bit changes. *)
Theorem C58_windows_raw : forall m cs i, unnested false (cs ++ [REnter]) -> 0 <= i ->
  flag (w_mode (wraw_calls (cs ++ [REnter]) {| w_mode := m; w_saved := None |})) i = flag m i && (3 <=? i).
Proof.
  intros m cs i U Hi. pose proof (wraw_calls_inv m _ false {| w_mode := m; w_saved := None |} U) as I.
  rewrite final_enter in I. cbn [wraw_inv] in I. destruct I as (_ & ->); [cbn; auto|].
  unfold flag, wraw_of. rewrite Z.ldiff_spec, lors_bit by exact Hi. cbn [existsb].
  change enableEchoInput with (2^2). change enableProcessedInput with (2^0). change enableLineInput with (2^1).
  change enableProcessedOutput with (2^0). rewrite !pow2_bits by lia.
  destruct (Z.testbit m i); cbn [andb]; [|reflexivity].
  destruct (Z.eqb_spec 2 i), (Z.eqb_spec 0 i), (Z.eqb_spec 1 i), (Z.leb_spec 3 i); cbn [andb orb negb]; (reflexivity || (exfalso; lia)).
Qed.
Print Assumptions C58_windows_raw.
Example C58_windows_ex : unnested false [REnter; RExit; REnter] /\
  w_mode (wraw_calls [REnter; RExit; REnter] {| w_mode := 487; w_saved := None |}) = 480.
Proof. split; [cbn; tauto|reflexivity]. Qed.

(** C99: while reading, the console does not echo and delivers lines; no other bit of its mode changes; afterwards the
    mode is the one before, whatever was typed. *)
Theorem C99_mode : forall fuel m q i, 0 <= i ->
  flag (wr_during (WReadPassword fuel m q)) i = negb (i =? 2) && ((i <=? 1) || flag m i) /\
  wr_after (WReadPassword fuel m q) = m.
Proof.
  intros fuel m q i Hi. split; [|reflexivity]. unfold flag, WReadPassword, wpw_mode. cbn [wr_during].
  rewrite Z.lor_spec, Z.ldiff_spec, lors_bit by exact Hi. cbn [existsb].
  change enableEchoInput with (2^2). change enableProcessedInput with (2^0). change enableLineInput with (2^1).
  change enableProcessedOutput with (2^0). rewrite !pow2_bits by lia.
  destruct (Z.testbit m i); cbn [andb orb negb];
  destruct (Z.eqb_spec 2 i), (Z.eqb_spec i 2), (Z.eqb_spec 0 i), (Z.eqb_spec 1 i), (Z.leb_spec i 1); cbn [andb orb negb]; (reflexivity || (exfalso; lia)).
Qed.
Print Assumptions C99_mode.

(** C99: the line typed, of any length, is returned without its end of line; the lines after it stay unread.
    Missing: lengths 15, 31, 47, ..., for which the full statement is false (C99_rest_refuted). *)
Theorem C99_line_partial : forall l fuel m q, ~ In 10 l -> ~ In 13 l -> (length l < fuel)%nat -> (length l mod 16 <> 15)%nat ->
  wr_result (WReadPassword fuel m ((l ++ [13; 10]) :: q)) = PwLine l q.
Proof.
  intros l fuel m q A B F M. unfold WReadPassword. cbn [wr_result]. rewrite wpw_loop_line by assumption. cbn [app]. f_equal.
  unfold cr_cut. destruct (Nat.eqb_spec (length l mod 16) 15); [contradiction|reflexivity].
Qed.
Print Assumptions C99_line_partial.
(** For every other length too the value returned is right, but one byte of the end of line stays unread. *)
Theorem C99_line_returned : forall l fuel m q, ~ In 10 l -> ~ In 13 l -> (length l < fuel)%nat ->
  exists q', wr_result (WReadPassword fuel m ((l ++ [13; 10]) :: q)) = PwLine l q'.
Proof.
  intros l fuel m q A B F. unfold WReadPassword. cbn [wr_result]. rewrite wpw_loop_line by assumption. cbn [app]. eauto.
Qed.
Print Assumptions C99_line_returned.
(** C99 fails for a password of fifteen letters: the next call returns an empty password without waiting, though a
    second one was typed. *)
Theorem C99_rest_refuted : exists l q, wr_result (WReadPassword 99 7 ((l ++ [13; 10]) :: [[98; 13; 10]])) = PwLine l q /\
  wr_result (WReadPassword 99 7 q) = PwLine [] [[98; 13; 10]].
Proof. exists (repeat 97 15), [[10]; [98; 13; 10]]. split; reflexivity. Qed.
Print Assumptions C99_rest_refuted.
Theorem C99_eof : forall fuel m q, wr_result (WReadPassword (S fuel) m ([] :: q)) = PwEOF q.
Proof. reflexivity. Qed.
Print Assumptions C99_eof.
Example C99_ex : (length (repeat 97 16) mod 16 <> 15)%nat /\
  wr_result (WReadPassword 17 487 ((repeat 97 16 ++ [13; 10]) :: [[98; 13; 10]])) = PwLine (repeat 97 16) [[98; 13; 10]] /\
  wr_result (WReadPassword 17 487 ((repeat 97 14 ++ [13; 10]) :: [[98; 13; 10]])) = PwLine (repeat 97 14) [[98; 13; 10]] /\
  wr_during (WReadPassword 17 487 []) = 483.
Proof. split; [cbn; lia|]. split; [reflexivity|]. split; reflexivity. Qed.
