From Verif Require Import Base ListAux RemoteModel RemoteSpec.
From Coq Require Import ZifyBool.
Ltac Zify.zify_post_hook ::= Z.div_mod_to_equations.
Open Scope Z_scope.

Lemma rd32_be32 v : 0 <= v < 2147483648 -> 
  match be32 v with [a; b; c; d] => rd32 a b c d = v | _ => False end.
Proof.
  intros H. unfold be32. cbn zeta. unfold rd32, signed.
  rewrite Z.mod_small by lia.
  assert (E : v / 16777216 * 16777216 + v / 65536 mod 256 * 65536 + v / 256 mod 256 * 256 + v mod 256 = v) by lia.
  rewrite E. change (2 ^ (32 - 1)) with 2147483648. destruct (v <? 2147483648) eqn:Q; lia.
Qed.

Lemma rd16_be16 v : -32768 <= v <= 32767 -> match be16 v with [a; b] => rd16 a b = v | _ => False end.
Proof.
  intros H. unfold be16. cbn zeta. unfold rd16, signed. change (2 ^ (16 - 1)) with 32768. change (2 ^ 16) with 65536.
  assert (E : v mod 65536 / 256 * 256 + (v mod 65536) mod 256 = v mod 65536) by lia.
  rewrite E. destruct (v mod 65536 <? 32768) eqn:Q; lia.
Qed.

Lemma ReadMessage_WriteTo m rest : msg_ok m -> ReadMessage (WriteTo m ++ rest) = RMsg m rest.
Proof.
  intros (T & L). unfold WriteTo.
  pose proof (rd32_be32 (Z.of_nat (length (m_data m)) + 2) ltac:(lia)) as A.
  pose proof (rd16_be16 (m_type m) T) as B.
  unfold be32 in *. unfold be16 in *. cbn zeta in *. cbn [app].
  unfold ReadMessage. rewrite A, B.
  replace (Z.of_nat (length (m_data m)) + 2 - 2) with (Z.of_nat (length (m_data m))) by lia.
  destruct (Z.ltb_spec (Z.of_nat (length (m_data m))) 0) as [N|N]; [lia|].
  destruct (Z.ltb_spec (Z.of_nat (length (m_data m ++ rest))) (Z.of_nat (length (m_data m)))) as [N2|N2].
  - rewrite app_length in N2. lia.
  - rewrite Nat2Z.id, firstn_app, firstn_all, Nat.sub_diag, skipn_app, skipn_all, Nat.sub_diag. cbn.
    rewrite app_nil_r. destruct m; reflexivity.
Qed.

Lemma WriteTo_length m : length (WriteTo m) = (6 + length (m_data m))%nat.
Proof. unfold WriteTo, be32, be16. cbn zeta. reflexivity. Qed.

Lemma ReadMessage_prefix m p q : msg_ok m -> WriteTo m = p ++ q -> q <> [] -> ReadMessage p = RErr.
Proof.
  intros OK E NE. pose proof (ReadMessage_WriteTo m [] OK) as R. rewrite app_nil_r, E in R.
  destruct p as [|a [|b [|c [|d [|t1 [|t2 r]]]]]]; try reflexivity.
  unfold ReadMessage in *. cbn [app] in R. cbn zeta in *.
  destruct (rd32 a b c d - 2 <? 0); [discriminate|].
  destruct (Z.ltb_spec (Z.of_nat (length (r ++ q))) (rd32 a b c d - 2)) as [L|L]; [discriminate|].
  injection R as R1 R2.
  apply (f_equal (@length _)) in R2. rewrite skipn_length in R2. cbn in R2. rewrite app_length in *.
  destruct q as [|x q]; [congruence|]. cbn [length] in *.
  destruct (Z.ltb_spec (Z.of_nat (length r)) (rd32 a b c d - 2)) as [L2|L2]; [reflexivity|]. lia.
Qed.

Lemma read_all_fuel_spec f ms tail : Forall msg_ok ms -> (length (encode_msgs ms ++ tail) < f)%nat ->
  ReadMessage tail = RErr \/ ReadMessage tail = RPanic ->
  read_all_fuel f (encode_msgs ms ++ tail) = (ms, ReadMessage tail).
Proof.
  intros F. revert f. induction F as [|m ms Hm F IH]; intros f L T.
  - cbn [encode_msgs flat_map app] in *. destruct f as [|f]; [lia|]. cbn [read_all_fuel].
    destruct T as [-> | ->]; reflexivity.
  - destruct f as [|f]; [lia|]. cbn [read_all_fuel]. unfold encode_msgs in *. cbn [flat_map] in *.
    rewrite <- app_assoc. rewrite ReadMessage_WriteTo by exact Hm.
    rewrite IH; [reflexivity| |exact T].
    rewrite <- app_assoc, app_length, WriteTo_length in L. lia.
Qed.

Lemma read_all_spec ms tail : Forall msg_ok ms -> ReadMessage tail = RErr \/ ReadMessage tail = RPanic ->
  read_all (encode_msgs ms ++ tail) = (ms, ReadMessage tail).
Proof. intros F T. unfold read_all. apply read_all_fuel_spec; auto. Qed.

Lemma read_all_nil : ReadMessage [] = RErr.
Proof. reflexivity. Qed.

Lemma read_all_truncated ms m p q : Forall msg_ok ms -> msg_ok m -> WriteTo m = p ++ q -> q <> [] ->
  read_all (encode_msgs ms ++ p) = (ms, RErr).
Proof.
  intros F Hm E NE. pose proof (ReadMessage_prefix m p q Hm E NE) as R. rewrite read_all_spec; auto. now rewrite R.
Qed.

(** Panics, exactly *)
Lemma ReadMessage_panic bs : ReadMessage bs = RPanic <->
  exists a b c d t1 t2 rest, bs = a :: b :: c :: d :: t1 :: t2 :: rest /\ rd32 a b c d < 2.
Proof.
  split.
  - intros R. destruct bs as [|a [|b [|c [|d [|t1 [|t2 rest]]]]]]; try discriminate.
    exists a, b, c, d, t1, t2, rest. split; [reflexivity|]. unfold ReadMessage in R. cbn zeta in R.
    destruct (Z.ltb_spec (rd32 a b c d - 2) 0); [lia|]. destruct (_ <? _); discriminate.
  - intros (a & b & c & d & t1 & t2 & rest & -> & L). unfold ReadMessage. cbn zeta.
    destruct (Z.ltb_spec (rd32 a b c d - 2) 0); [reflexivity|lia].
Qed.

Lemma be16_uint16 v : 0 <= v < 65536 -> Uint16 (be16 v) = Ok v.
Proof.
  intros H. unfold be16, Uint16. cbn zeta. rewrite Z.mod_small by lia.
  assert (E : v / 256 * 256 + v mod 256 = v) by lia. now rewrite E.
Qed.

Lemma be16_uint16_mod v : Uint16 (be16 v) = Ok (v mod 65536).
Proof.
  unfold be16, Uint16. cbn zeta. assert (E : v mod 65536 / 256 * 256 + (v mod 65536) mod 256 = v mod 65536) by lia.
  now rewrite E.
Qed.

Lemma be16_length v : length (be16 v) = 2%nat.
Proof. reflexivity. Qed.

Lemma report_ok_t t : msg_ok (reportIsTerminal t).
Proof. unfold msg_ok, reportIsTerminal, T_ISTTY_REPORT. cbn [m_type m_data]. rewrite be16_length. lia. Qed.
Lemma report_ok_w w : msg_ok (reportWidth w).
Proof. unfold msg_ok, reportWidth, T_WIDTH_REPORT. cbn [m_type m_data]. rewrite be16_length. lia. Qed.

Lemma handshake t w rest :
  svr_init (WriteTo (reportIsTerminal t) ++ WriteTo (reportWidth w) ++ rest) =
  IOk {| sv_eof := false; sv_width := w mod 65536; sv_term := t; sv_data := [] |} rest.
Proof.
  unfold svr_init. rewrite ReadMessage_WriteTo by apply report_ok_t.
  replace (negb (m_type (reportIsTerminal t) =? T_ISTTY_REPORT)) with false by reflexivity.
  unfold GotIsTerminal at 1. cbn [m_data reportIsTerminal].
  rewrite be16_uint16 by (destruct t; lia). cbn [obind].
  rewrite ReadMessage_WriteTo by apply report_ok_w.
  replace (negb (m_type (reportWidth w) =? T_WIDTH_REPORT)) with false by reflexivity.
  unfold GotReportWidth. cbn [m_data reportWidth]. rewrite be16_uint16_mod. cbn [obind].
  f_equal. destruct t; reflexivity.
Qed.

Lemma handle_data s chunks : svr_handle_all (map (fun c => {| m_type := T_DATA; m_data := c |}) chunks) s =
  Ok {| sv_eof := sv_eof s; sv_width := sv_width s; sv_term := sv_term s; sv_data := sv_data s ++ concat chunks |}.
Proof.
  revert s. induction chunks as [|c cs IH]; intros s.
  - cbn. rewrite app_nil_r. destruct s; reflexivity.
  - cbn [map svr_handle_all]. unfold svr_handle at 1.
    change (m_type {| m_type := T_DATA; m_data := c |} =? T_EOF) with false.
    change (m_type {| m_type := T_DATA; m_data := c |} =? T_DATA) with true. cbn [obind].
    rewrite IH. cbn. now rewrite <- app_assoc.
Qed.

Lemma handle_all_app a b s : svr_handle_all (a ++ b) s = (s' <- svr_handle_all a s ;; svr_handle_all b s').
Proof.
  revert s. induction a as [|m a IH]; intros s; cbn; [reflexivity|]. destruct (svr_handle m s); cbn; auto.
Qed.

(** Everything a client sends: the server knows its width and terminal state, and its data buffer holds the
    concatenated input. *)
Lemma session t w chunks closed : Forall (fun c => Z.of_nat (length c) < 2147483646) chunks ->
  exists s rest ms s', svr_init (cli_bytes t w chunks closed) = IOk s rest /\
    read_all rest = (ms, RErr) /\ svr_handle_all ms s = Ok s' /\
    sv_data s' = concat chunks /\ sv_eof s' = closed /\ sv_term s' = t /\ sv_width s' = w mod 65536.
Proof.
  intros F. unfold cli_bytes. rewrite handshake.
  set (ms1 := map (fun c => {| m_type := T_DATA; m_data := c |}) chunks).
  set (ms2 := if closed then [{| m_type := T_EOF; m_data := [] |}] else []).
  assert (E : flat_map (fun c => WriteTo {| m_type := T_DATA; m_data := c |}) chunks ++
     (if closed then WriteTo {| m_type := T_EOF; m_data := [] |} else []) = encode_msgs (ms1 ++ ms2) ++ []).
  { unfold encode_msgs. rewrite app_nil_r, flat_map_app. f_equal.
    - unfold ms1. rewrite flat_map_concat_map, flat_map_concat_map, map_map. reflexivity.
    - unfold ms2. destruct closed; cbn; [|reflexivity]. reflexivity. }
  rewrite E. eexists. eexists. exists (ms1 ++ ms2). eexists. split; [reflexivity|]. split.
  - rewrite read_all_spec; [reflexivity| |now left]. apply Forall_app. split.
    + unfold ms1. apply Forall_map. eapply Forall_impl; [|exact F]. cbn beta. intros c Hc. unfold msg_ok, T_DATA. cbn [m_type m_data]. lia.
    + unfold ms2. destruct closed; [|constructor]. apply Forall_cons; [|constructor].
      unfold msg_ok, T_EOF. cbn [m_type m_data length]. lia.
  - rewrite handle_all_app. unfold ms1 at 1. rewrite handle_data. cbn [obind sv_data app].
    unfold ms2. destruct closed.
    + split; [reflexivity|]. repeat split.
    + split; [reflexivity|]. repeat split.
Qed.

Lemma svr_handle_panic m s : svr_handle m s = Panic <->
  (m_type m = T_WIDTH_REPORT \/ m_type m = T_ISTTY_REPORT) /\ (length (m_data m) < 2)%nat.
Proof.
  unfold svr_handle, GotReportWidth, GotIsTerminal, Uint16, T_EOF, T_DATA, T_WIDTH_REPORT, T_ISTTY_REPORT.
  destruct (Z.eqb_spec (m_type m) 6) as [E6|E6]; [split; [discriminate|lia]|].
  destruct (Z.eqb_spec (m_type m) 0) as [E0|E0]; [split; [discriminate|lia]|].
  destruct (Z.eqb_spec (m_type m) 2) as [E2|E2].
  - destruct (m_data m) as [|a [|b l]]; cbn [obind length]; split; intros H; try discriminate; try reflexivity; lia.
  - destruct (Z.eqb_spec (m_type m) 3) as [E3|E3]; [|split; [discriminate|lia]].
    destruct (m_data m) as [|a [|b l]]; cbn [obind length]; split; intros H; try discriminate; try reflexivity; lia.
Qed.
