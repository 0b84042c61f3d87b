(** Properties C52, C53, C55 (return value), C68, C69: the remote protocol. *)
From Verif Require Import Base ListAux RemoteModel RemoteSpec RemoteProofs.
Open Scope Z_scope.

(** C52: one message: decoded exactly, consuming exactly its bytes, whatever follows. *)
Theorem C52_one_message : forall m rest, msg_ok m -> ReadMessage (WriteTo m ++ rest) = RMsg m rest.
Proof. exact ReadMessage_WriteTo. Qed.
Print Assumptions C52_one_message.

(** C52: a whole stream. *)
Theorem C52_stream : forall ms, Forall msg_ok ms -> read_all (encode_msgs ms) = (ms, RErr).
Proof. intros ms F. rewrite <- (app_nil_r (encode_msgs ms)). now rewrite read_all_spec by auto. Qed.
Print Assumptions C52_stream.

(** C52: cut anywhere inside a message: the complete messages, then an error. *)
Theorem C52_truncated : forall ms m p q, Forall msg_ok ms -> msg_ok m -> WriteTo m = p ++ q -> q <> [] ->
  read_all (encode_msgs ms ++ p) = (ms, RErr).
Proof. exact read_all_truncated. Qed.
Print Assumptions C52_truncated.
Example C52_ex : let ms := [{| m_type := T_DATA; m_data := [1;2;255] |}; {| m_type := T_EOF; m_data := [] |}] in
  Forall msg_ok ms /\ encode_msgs ms = [0;0;0;5;0;0;1;2;255;0;0;0;2;0;6] /\ read_all (encode_msgs ms) = (ms, RErr).
Proof.
  cbn zeta. split; [|split; reflexivity].
  apply Forall_cons; [|apply Forall_cons; [|apply Forall_nil]]; unfold msg_ok, T_DATA, T_EOF; cbn [m_type m_data length]; lia.
Qed.

(** C53 fails: ReadMessage panics, exactly for six or more bytes declaring a length below 2. *)
Theorem C53_panics_exactly_partial : forall bs, ReadMessage bs = RPanic <->
  exists a b c d t1 t2 rest, bs = a :: b :: c :: d :: t1 :: t2 :: rest /\ rd32 a b c d < 2.
Proof. exact ReadMessage_panic. Qed.
Print Assumptions C53_panics_exactly_partial.

Theorem C53_refuted : exists bs, Forall byte bs /\ ReadMessage bs = RPanic.
Proof. exists [0;0;0;1;0;0]. split; [repeat constructor; unfold byte; lia|reflexivity]. Qed.
Print Assumptions C53_refuted.

(** C55, return value: the server's Write reports six bytes more than it was given; the client's is right. *)
Theorem C55_server_write_count_refuted : exists b, (length b < svr_Write_n b)%nat.
Proof. exists []. vm_compute. lia. Qed.
Print Assumptions C55_server_write_count_refuted.
Theorem C55_server_write_count_exact_partial : forall b, svr_Write_n b = (6 + length b)%nat.
Proof. intros b. unfold svr_Write_n. rewrite WriteTo_length. reflexivity. Qed.
Print Assumptions C55_server_write_count_exact_partial.

(** C68: after the handshake and any input the server has the client's terminal flag, its width (as an
    unsigned 16-bit number), and exactly the input bytes; EOF iff the client closed. *)
Theorem C68_session : forall t w chunks closed, Forall (fun c => Z.of_nat (length c) < 2147483646) chunks ->
  exists s rest ms s', svr_init (cli_bytes t w chunks closed) = IOk s rest /\
    read_all rest = (ms, RErr) /\ svr_handle_all ms s = Ok s' /\
    sv_data s' = concat chunks /\ sv_eof s' = closed /\ sv_term s' = t /\ sv_width s' = w mod 65536.
Proof. exact session. Qed.
Print Assumptions C68_session.

Theorem C68_width : forall t w rest, 0 <= w < 65536 ->
  svr_init (WriteTo (reportIsTerminal t) ++ WriteTo (reportWidth w) ++ rest) =
  IOk {| sv_eof := false; sv_width := w; sv_term := t; sv_data := [] |} rest.
Proof. intros t w rest H. rewrite handshake. now rewrite Z.mod_small by lia. Qed.
Print Assumptions C68_width.

(** The handshake succeeds only on a terminal report followed by a width report, both of at least two bytes; these
    determine what the server believes about the client. *)
Theorem C68_handshake : forall bs s rest, svr_init bs = IOk s rest -> exists m1 m2 r1 a b c d t1 t2,
  ReadMessage bs = RMsg m1 r1 /\ m_type m1 = T_ISTTY_REPORT /\ m_data m1 = a :: b :: t1 /\
  ReadMessage r1 = RMsg m2 rest /\ m_type m2 = T_WIDTH_REPORT /\ m_data m2 = c :: d :: t2 /\
  sv_width s = c * 256 + d /\ (sv_term s = false <-> a * 256 + b = 0) /\ sv_data s = [] /\ sv_eof s = false.
Proof.
  intros bs s rest. unfold svr_init, GotIsTerminal, GotReportWidth. destruct (ReadMessage bs) as [m1 r1| |] eqn:E1; try discriminate.
  destruct (Z.eqb_spec (m_type m1) T_ISTTY_REPORT) as [T1|]; [|discriminate]. cbn [negb].
  destruct (m_data m1) as [|a [|b t1]] eqn:D1; try discriminate. cbn [Uint16 obind].
  destruct (ReadMessage r1) as [m2 r2| |] eqn:E2; try discriminate.
  destruct (Z.eqb_spec (m_type m2) T_WIDTH_REPORT) as [T2|]; [|discriminate]. cbn [negb].
  destruct (m_data m2) as [|c [|d t2]] eqn:D2; try discriminate. cbn [Uint16 obind]. intros E. injection E as <- <-.
  exists m1, m2, r1, a, b, c, d, t1, t2. cbn [sv_width sv_term sv_data sv_eof svr0]. repeat (split; [assumption || reflexivity|]).
  split; [|split; reflexivity]. destruct (Z.eqb_spec (a * 256 + b) 0); cbn; split; congruence.
Qed.
Print Assumptions C68_handshake.
(** data instead of the terminal report *)
Example C68_handshake_ex : svr_init (WriteTo {| m_type := T_DATA; m_data := [0; 1] |} ++ WriteTo (reportWidth 80)) = IErr /\
  (exists s rest, svr_init (WriteTo (reportIsTerminal true) ++ WriteTo (reportWidth 80)) = IOk s rest).
Proof. split; [reflexivity|]. do 2 eexists. reflexivity. Qed.

(** C68 fails for a client that cannot determine its width (-1): the server believes it is 65535. *)
Theorem C68_unknown_width_refuted : exists w s, w = -1 /\
  svr_init (cli_bytes true w [] false) = IOk s [] /\ sv_width s <> w /\ sv_width s = 65535.
Proof. exists (-1). eexists. split; [reflexivity|]. split; [vm_compute; reflexivity|]. split; [discriminate|reflexivity]. Qed.
Print Assumptions C68_unknown_width_refuted.
Example C68_ex : exists s rest ms s', svr_init (cli_bytes true 80 [[104;105];[13]] true) = IOk s rest /\
    read_all rest = (ms, RErr) /\ svr_handle_all ms s = Ok s' /\ sv_data s' = [104;105;13] /\ sv_width s' = 80.
Proof.
  eexists. eexists. eexists. eexists. split; [vm_compute; reflexivity|]. split; [vm_compute; reflexivity|].
  split; [vm_compute; reflexivity|]. split; reflexivity.
Qed.

(** C69 fails: a well-formed frame with a report of fewer than two bytes crashes the server; exactly those do. *)
Theorem C69_handle_panics_exactly_partial : forall m s, svr_handle m s = Panic <->
  (m_type m = T_WIDTH_REPORT \/ m_type m = T_ISTTY_REPORT) /\ (length (m_data m) < 2)%nat.
Proof. exact svr_handle_panic. Qed.
Print Assumptions C69_handle_panics_exactly_partial.

Theorem C69_refuted : exists bs, Forall byte bs /\ svr_init bs = IPanic.
Proof. exists [0;0;0;2;0;3]. split; [repeat constructor; unfold byte; lia|reflexivity]. Qed.
Print Assumptions C69_refuted.
