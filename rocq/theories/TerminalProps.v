(** Properties C35, C36 and C67: the key decoder. *)
From Verif Require Import Base ListAux Utf8Model TerminalModel TerminalSpec TerminalProofs.
Open Scope Z_scope.

(** Concrete tables for the examples. *)
Definition u_ascii : uenv :=
  {| u_zero := fun _ => false; u_dbl := fun _ => false; u_tab := 4%nat;
     u_number := fun r => (48 <=? r) && (r <=? 57) |}.
Lemma u_ascii_ok : ascii_numbers u_ascii.
Proof. intros r _. reflexivity. Qed.

(** C35: input without ESC reaches the editor unchanged (in vim mode even with ESC). *)
Theorem C35_plain_text : forall u vim input, ~ In 27 input \/ vim = true -> keys_of u vim input = input.
Proof. intros u vim input H. exact (proj1 (plain_seg u vim input H)). Qed.
Print Assumptions C35_plain_text.

(** C35: one by one: every rune yields exactly one key, at once, and leaves the decoder ready for the next. *)
Theorem C35_one_by_one : forall u vim r, r <> 27 \/ vim = true -> tstep u vim TGround r = (TGround, TKey r).
Proof.
  intros u vim r H. cbn. unfold emit. destruct (Z.eqb_spec r CharEsc) as [E|E]; [|reflexivity].
  destruct H as [H|H]; [contradiction|]. now rewrite H.
Qed.
Print Assumptions C35_one_by_one.
Example C35_ex : keys_of u_ascii false (decode (encode [104;105;228;13;128512])) = [104;105;228;13;128512].
Proof. vm_compute. reflexivity. Qed.

(** C36: arrows, Home and End as control sequences with any parameters, between any complete inputs. *)
Theorem C36_csi_keys : forall u pre kpre attr k post, ascii_numbers u -> params attr ->
  seg u false TGround pre kpre TGround ->
  keys_of u false (pre ++ csi attr (key_final k) ++ post) = kpre ++ [key_rune k] ++ keys_of u false post.
Proof.
  intros u pre kpre attr k post U P S. apply seg_keys; [exact S|]. rewrite <- (key_rune_ex attr k).
  apply csi_seg; auto using key_final_ok.
Qed.
Print Assumptions C36_csi_keys.

Theorem C36_ss3_keys : forall u pre kpre attr k post, ascii_numbers u -> params attr ->
  seg u false TGround pre kpre TGround ->
  keys_of u false (pre ++ ss3 attr (key_final k) ++ post) = kpre ++ [key_rune k] ++ keys_of u false post.
Proof.
  intros u pre kpre attr k post U P S. apply seg_keys; [exact S|]. rewrite <- (key_rune_ss3 k).
  apply ss3_seg; auto using key_final_ok.
Qed.
Print Assumptions C36_ss3_keys.

(** C36: the Delete key is ESC [ 3 ~. *)
Theorem C36_delete_key : forall u pre kpre post, ascii_numbers u -> seg u false TGround pre kpre TGround ->
  keys_of u false (pre ++ csi [51] 126 ++ post) = kpre ++ [CharDelete] ++ keys_of u false post.
Proof.
  intros u pre kpre post U S. apply seg_keys; [exact S|].
  apply (csi_seg u [51] 126 U); [repeat constructor; lia|]. split; [rewrite U by lia; reflexivity|discriminate].
Qed.
Print Assumptions C36_delete_key.

(** C36: the Meta keys. *)
Theorem C36_meta_keys : forall u pre kpre m post, seg u false TGround pre kpre TGround ->
  keys_of u false (pre ++ [27; meta_rune m] ++ post) = kpre ++ [meta_key m] ++ keys_of u false post.
Proof. intros u pre kpre m post S. apply seg_keys; [exact S|]. apply meta_seg. Qed.
Print Assumptions C36_meta_keys.

(** C36: any other key after ESC is that key. *)
Theorem C36_other_meta : forall u pre kpre r post, (forall m, r <> meta_rune m) -> r <> 27 -> r <> 91 -> r <> 79 ->
  seg u false TGround pre kpre TGround ->
  keys_of u false (pre ++ [27; r] ++ post) = kpre ++ [r] ++ keys_of u false post.
Proof.
  intros u pre kpre r post M N1 N2 N3 S. apply seg_keys; [exact S|]. now apply other_meta_seg.
Qed.
Print Assumptions C36_other_meta.

(** C36: every other sequence with numeric parameters gives no key at all, and decoding goes on right after it. *)
Theorem C36_other_csi_silent : forall u pre kpre attr t post, ascii_numbers u -> params attr -> final u t ->
  (forall k, t <> key_final k) -> (t = 126 -> attr <> [51]) -> seg u false TGround pre kpre TGround ->
  keys_of u false (pre ++ csi attr t ++ post) = kpre ++ keys_of u false post.
Proof.
  intros u pre kpre attr t post U P F H D S. rewrite (seg_keys u false pre kpre (csi attr t) [] post); auto.
  rewrite <- (other_csi attr t H D). now apply csi_seg.
Qed.
Print Assumptions C36_other_csi_silent.

Theorem C36_other_ss3_silent : forall u pre kpre attr t post, ascii_numbers u -> params attr -> final u t ->
  (forall k, t <> key_final k) -> seg u false TGround pre kpre TGround ->
  keys_of u false (pre ++ ss3 attr t ++ post) = kpre ++ keys_of u false post.
Proof.
  intros u pre kpre attr t post U P F H S. rewrite (seg_keys u false pre kpre (ss3 attr t) [] post); auto.
  rewrite <- (other_ss3 t H). now apply ss3_seg.
Qed.
Print Assumptions C36_other_ss3_silent.

(** C36: a cursor position report ESC [ r ; c R goes to the size channel and never to the editor. *)
Theorem C36_cursor_report : forall u attr post, ascii_numbers u -> params attr ->
  trun u false TGround (csi attr 82 ++ post) =
    repeat TNone (S (S (length attr))) ++ (if Get2 attr then TReport attr else TNone) :: trun u false TGround post.
Proof. exact report_output. Qed.
Print Assumptions C36_cursor_report.

(** C36: it is passed on exactly if it has (at least) two numbers. *)
Theorem C36_report_numbers : forall d1 d2 rest, d1 <> [] -> d2 <> [] -> Forall (fun r => 48 <= r <= 57) d1 -> Forall (fun r => 48 <= r <= 57) d2 ->
  decimal d1 <= 9223372036854775807 -> decimal d2 <= 9223372036854775807 -> rest = [] \/ hd 0 rest = 59 ->
  Get2 (d1 ++ 59 :: d2 ++ rest) = true.
Proof. exact report_two. Qed.
Print Assumptions C36_report_numbers.
Theorem C36_report_one : forall attr, ~ In 59 attr -> Get2 attr = false.
Proof. exact report_one. Qed.
Print Assumptions C36_report_one.
Theorem C36_report_empty : forall d1 d2 rest, d1 = [] \/ d2 = [] -> ~ In 59 d1 -> ~ In 59 d2 -> rest = [] \/ hd 0 rest = 59 ->
  Get2 (d1 ++ 59 :: d2 ++ rest) = false.
Proof. exact report_empty. Qed.
Print Assumptions C36_report_empty.

(** C36 fails for sequences with private parameters (ESC [ ? 2 5 h): the rest is typed into the line. *)
Theorem C36_private_parameters_refuted : exists u input, ascii_numbers u /\
  input = [27;91;63;50;53;104] /\ keys_of u false input = [50;53;104].
Proof. exists u_ascii. eexists. split; [exact u_ascii_ok|]. split; reflexivity. Qed.
Print Assumptions C36_private_parameters_refuted.

Example C36_ex : keys_of u_ascii false ([97] ++ csi [49;59;53] 67 ++ ss3 [] 72 ++ [27;98] ++ csi [49;53] 126 ++ csi [51] 126 ++ [98])
   = [97; CharForward; CharLineStart; MetaBackward; CharDelete; 98]
  /\ trun u_ascii false TGround (csi [49;50;59;56] 82) = [TNone;TNone;TNone;TNone;TNone;TNone;TReport [49;50;59;56]]
  /\ seg u_ascii false TGround ([97] ++ csi [49;59;53] 67) [97; CharForward] TGround.
Proof. repeat split. Qed.

(** C67 fails: in vim mode no escape sequence is decoded; the Up arrow arrives as ESC, '[', 'A'. *)
Theorem C67_vim_arrow_refuted : exists u, ascii_numbers u /\ keys_of u true (csi [] (key_final KUp)) <> [key_rune KUp].
Proof. exists u_ascii. split; [exact u_ascii_ok|]. vm_compute. discriminate. Qed.
Print Assumptions C67_vim_arrow_refuted.

(** C67: exactly: in vim mode every rune of the sequence is passed on as it is. *)
Theorem C67_vim_passes_sequences_partial : forall u input, keys_of u true input = input.
Proof. exact vim_plain. Qed.
Print Assumptions C67_vim_passes_sequences_partial.

Example C36_ex2 : keys_of u_ascii false [27; 1; 97; 27; 122; 27; 21] = [1; 97; 122; 21] /\ (forall m, 1 <> meta_rune m) /\
  Get2 ([49;50] ++ 59 :: [56] ++ [59;51]) = true /\ decimal [49;50] = 12 /\ Get2 [49;50] = false /\ Get2 (59 :: [56]) = false.
Proof. split; [vm_compute; reflexivity|]. split; [intros []; discriminate|]. repeat split. Qed.
