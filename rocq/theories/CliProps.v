(** Property C104: the remote client. *)
From Verif Require Import Base RemoteModel RemoteSpec RemoteProofs TtyModel TtySpec TtyProofs TtyProps CliModel CliSpec CliProofs.
Open Scope Z_scope.

(** ** C104: the client shows what the server writes, sends what is typed, and gives the terminal back *)
Definition fresh_cli (t : termios) : cli := {| cl_raw := {| r_tty := t; r_saved := None |}; cl_out := [] |}.

(** Wherever the connection breaks: between two messages or inside one ([p] is the part that arrived). *)
Theorem C104_shown : forall xs m p q c, Forall (fun x => msg_ok (svr_msg x)) xs -> p = [] \/ (msg_ok m /\ WriteTo m = p ++ q /\ q <> []) ->
  cl_out (ServeBy (encode_msgs (map svr_msg xs) ++ p) c) = cl_out c ++ written xs.
Proof.
  intros xs m p q c F H. unfold ServeBy. cbn [cl_out].
  assert (E : fst (read_all (encode_msgs (map svr_msg xs) ++ p)) = map svr_msg xs).
  { assert (F' : Forall msg_ok (map svr_msg xs)) by (apply Forall_map; exact F). destruct H as [->|(O & W & N)].
    - rewrite app_nil_r. rewrite <- (app_nil_r (encode_msgs _)). now rewrite read_all_spec by auto.
    - now rewrite (read_all_truncated (map svr_msg xs) m p q). }
  rewrite E. apply cli_calls.
Qed.
Print Assumptions C104_shown.
(** Messages of every other type are passed over: nothing is written and the terminal is left alone. *)
Theorem C104_other : forall ms c, Forall msg_ok ms -> Forall (fun m => ~ In (m_type m) [T_DATA; T_RAW; T_ERAW]) ms ->
  ServeBy (encode_msgs ms) c = ServeBy [] c.
Proof.
  intros ms c F N. unfold ServeBy. rewrite <- (app_nil_r (encode_msgs ms)). rewrite read_all_spec by auto. cbn [fst].
  assert (E : cli_handle_all ms c = c).
  { clear F. unfold cli_handle_all. induction N as [|m ms N _ IH]; [reflexivity|]. cbn [fold_left]. cbn [In] in N.
    replace (cli_handle m c) with c; [exact IH|]. unfold cli_handle.
    destruct (Z.eqb_spec (m_type m) T_ERAW); [exfalso; intuition congruence|]. destruct (Z.eqb_spec (m_type m) T_RAW); [exfalso; intuition congruence|].
    destruct (Z.eqb_spec (m_type m) T_DATA); [exfalso; intuition congruence|reflexivity]. }
  rewrite E. reflexivity.
Qed.
Print Assumptions C104_other.
Example C104_other_ex : let ms := [{| m_type := -1; m_data := [97] |}; {| m_type := 6; m_data := [] |}] in
  Forall msg_ok ms /\ Forall (fun m => ~ In (m_type m) [T_DATA; T_RAW; T_ERAW]) ms /\
  cl_out (ServeBy (encode_msgs ms) (fresh_cli cooked)) = [].
Proof. split; [repeat constructor; cbn; lia|]. split; [repeat constructor; cbn; intuition discriminate|vm_compute; reflexivity]. Qed.

(** The terminal is as before, unless the server entered raw mode twice without leaving it; whatever follows the server's
    messages, also bytes that make the client panic. *)
Theorem C104_terminal_partial : forall xs tail t, Forall (fun x => msg_ok (svr_msg x)) xs -> unnested false (modes xs) ->
  ReadMessage tail = RErr \/ ReadMessage tail = RPanic ->
  r_tty (cl_raw (ServeBy (encode_msgs (map svr_msg xs) ++ tail) (fresh_cli t))) = t.
Proof.
  intros xs tail t F U H. unfold ServeBy. cbn [cl_raw]. rewrite read_all_spec by (try exact H; apply Forall_map; exact F). cbn [fst].
  rewrite (proj2 (cli_calls xs (fresh_cli t))). cbn [fresh_cli cl_raw].
  pose proof (unnested_exit_restores t (modes xs)) as Q. unfold raw_calls in *. rewrite fold_left_app in Q. apply Q.
  clear - U. assert (G : forall on cs, unnested on cs -> unnested on (cs ++ [RExit])).
  { intros on cs. revert on. induction cs as [|[|] cs IH]; intros on V; cbn [app unnested] in *; [exact I|destruct V; auto|auto]. }
  now apply G.
Qed.
Print Assumptions C104_terminal_partial.
(** A server that enters raw mode twice leaves the client's terminal in raw mode. *)
Theorem C104_terminal_refuted : exists xs t, Forall (fun x => msg_ok (svr_msg x)) xs /\
  r_tty (cl_raw (ServeBy (encode_msgs (map svr_msg xs)) (fresh_cli t))) <> t.
Proof.
  exists [SEnter; SEnter; SExit; SExit], cooked. split; [|vm_compute; discriminate].
  repeat constructor; cbn; discriminate.
Qed.
Print Assumptions C104_terminal_refuted.

(** The input is sent whole and in order, up to an end of file without any data since the one before; then, and only
    then, the server is told. *)
Theorem C104_input : forall rs, concat (fst (fst (feed true rs))) = fst (input false rs) /\ snd (feed true rs) = snd (input false rs).
Proof. intros rs. unfold feed. apply feed_fuel_spec. lia. Qed.
Print Assumptions C104_input.
(** In particular a file or pipe, read in any pieces: all of it, then the end. *)
Theorem C104_file : forall ds, concat (fst (fst (feed true (map (fun d => (d, false)) ds ++ [([], true); ([], true)])))) = concat ds /\
  snd (feed true (map (fun d => (d, false)) ds ++ [([], true); ([], true)])) = true.
Proof.
  intros ds. destruct (C104_input (map (fun d => (d, false)) ds ++ [([], true); ([], true)])) as (-> & ->).
  assert (G : forall had, input had (map (fun d => (d, false)) ds ++ [([], true); ([], true)]) = (concat ds, true)).
  { induction ds as [|d ds IH]; intros had; cbn [map app input concat].
    - destruct had; reflexivity.
    - rewrite IH. reflexivity. }
  now rewrite G.
Qed.
Print Assumptions C104_file.
(** ... and the server receives it (with C68_session): the two ends together. *)
Theorem C104_received : forall t w rs, Forall (fun x => Z.of_nat (length (fst x)) < 2147483646) rs ->
  exists s rest ms s', svr_init (cli_bytes t w (fst (fst (feed true rs))) (snd (feed true rs))) = IOk s rest /\
    read_all rest = (ms, RErr) /\ svr_handle_all ms s = Ok s' /\
    sv_data s' = fst (input false rs) /\ sv_eof s' = snd (input false rs) /\ sv_term s' = t /\ sv_width s' = w mod 65536.
Proof.
  intros t w rs F. destruct (C104_input rs) as (<- & <-). apply session.
  unfold feed. generalize (S (length rs)). intros f. revert rs F. induction f as [|f IH]; intros rs F; cbn [feed_fuel]; [constructor|].
  destruct (copy true rs) as [[[c n] r] ret] eqn:E. pose proof (copy_pieces true rs c n r ret E) as P.
  assert (Fc : Forall (fun c => Z.of_nat (length c) < 2147483646) c).
  { eapply Forall_impl; [|exact P]. intros d (_ & e & I). rewrite Forall_forall in F. exact (F _ I). }
  destruct (negb ret); [exact Fc|]. destruct (n =? 0)%nat; [exact Fc|].
  assert (Fr : Forall (fun x => Z.of_nat (length (fst x)) < 2147483646) r).
  { rewrite Forall_forall in *. intros x I. apply F. clear - E I. revert c n r ret E I. induction rs as [|[d e] rs IH]; intros c n r ret E I; cbn [copy] in E.
    - injection E as <- <- <- <-. destruct I.
    - destruct d as [|y d]; [destruct e; [injection E as <- <- <- <-; now right|right; eapply IH; eauto]|].
      destruct (e || negb true); [injection E as <- <- <- <-; now right|].
      destruct (copy true rs) as [[[c1 n1] r1] ret1]. injection E as <- <- <- <-. right. eapply IH; eauto. }
  specialize (IH r Fr). destruct (feed_fuel f true r) as [[c' r'] cl]. cbn [fst] in *. apply Forall_app. auto.
Qed.
Print Assumptions C104_received.

(** The goroutine goes on reading the input after the connection has broken (when ServeBy has returned or is about to):
    bytes typed then are lost to the program. *)
Theorem C104_after_refuted : exists rs, snd (fst (feed false rs)) = [] /\ concat (map fst rs) = [97; 98; 99] /\ snd (feed false rs) = false.
Proof. exists [([97], false); ([98], false); ([99], false)]. vm_compute. auto. Qed.
Print Assumptions C104_after_refuted.

(** The server enters raw mode, writes "> ", leaves raw mode and writes "hi"; the connection breaks inside the next message.
    The input has an end of file in the middle. *)
Example C104_ex : let xs := [SEnter; SWrite [62; 32]; SExit; SWrite [104; 105]] in
  let c := ServeBy (encode_msgs (map svr_msg xs) ++ [0; 0; 0; 9; 0; 0; 1]) (fresh_cli cooked) in
  cl_out c = [62; 32; 104; 105] /\ r_tty (cl_raw c) = cooked /\ unnested false (modes xs) /\
  feed true [([97], false); ([98; 99], true); ([100], false); ([], true); ([], true); ([101], false)] = ([[97]; [98; 99]; [100]], [([101], false)], true).
Proof. cbn zeta. split; [vm_compute; reflexivity|]. split; [vm_compute; reflexivity|]. split; [vm_compute; auto|]. vm_compute. reflexivity. Qed.
