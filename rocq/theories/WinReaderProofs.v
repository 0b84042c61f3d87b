(** Proofs about the Windows console reader. *)
From Verif Require Import Base ListAux Utf8Model Utf8Spec Utf8Proofs TerminalModel TerminalSpec TerminalProofs WinReaderModel WinReaderSpec.
From Coq Require Import ZifyBool.
Open Scope Z_scope.

(** ** Several Reads together: all records in order *)
Fixpoint stream (n : nat) (s : rawreader) (evs : list event) : outcome (rawreader * list Z) :=
  match evs with
  | [] => Ok (s, [])
  | ev :: evs' =>
      x <- on_event n s ev ;;
      y <- stream n (fst x) evs' ;;
      Ok (fst y, match snd x with Some b => b | None => [] end ++ snd y)
  end.

Lemma reads_stream n : forall f evs s, (length evs < f)%nat ->
  wr_reads f n s evs = (x <- stream n s evs ;; Ok (snd x)).
Proof.
  intros f evs. revert f. 
  assert (H : forall evs f s, (length evs < f)%nat -> wr_reads f n s evs = (x <- stream n s evs ;; Ok (snd x))).
  { clear. induction evs as [|ev evs IH]; intros f s L; (destruct f as [|f]; [cbn in L; lia|]).
    - reflexivity.
    - cbn [length] in L. cbn [wr_reads wr_read stream]. destruct (on_event n s ev) as [[s1 [b|]]| |]; cbn [obind fst snd]; try reflexivity.
      + rewrite (IH f s1) by lia. destruct (stream n s1 evs) as [[s2 bs]| |]; reflexivity.
      + specialize (IH (S f) s1 ltac:(lia)). cbn [wr_reads] in IH. rewrite IH. destruct (stream n s1 evs) as [[s2 bs]| |]; reflexivity. }
  intros f s L. now apply H.
Qed.
Lemma bytes_stream n evs : console_bytes n evs = (x <- stream n NewRawReader evs ;; Ok (snd x)).
Proof. apply reads_stream. lia. Qed.
Lemma stream_app n a b : forall s, stream n s (a ++ b) =
  (x <- stream n s a ;; y <- stream n (fst x) b ;; Ok (fst y, snd x ++ snd y)).
Proof.
  induction a as [|ev a IH]; intros s; cbn [app stream].
  - cbn [obind fst snd app]. destruct (stream n s b) as [[? ?]| |]; reflexivity.
  - destruct (on_event n s ev) as [[s1 o]| |]; cbn [obind fst snd]; try reflexivity. rewrite IH.
    destruct (stream n s1 a) as [[s2 x]| |]; cbn [obind fst snd]; try reflexivity.
    destruct (stream n s2 b) as [[s3 y]| |]; cbn [obind fst snd]; try reflexivity. now rewrite app_assoc.
Qed.

Lemma encode_short r : (length (encode_rune r) <= 4)%nat.
Proof. unfold encode_rune. repeat destruct (_ <=? _); cbn; lia. Qed.
Lemma write_all n r : (4 <= n)%nat -> wr_write n r = Ok (encode [r]).
Proof. intros N. unfold wr_write, encode. cbn. rewrite app_nil_r, firstn_all2; [reflexivity|]. pose proof (encode_short r). lia. Qed.

Lemma plain_stream n evs : (4 <= n)%nat -> Forall plain_event evs ->
  stream n NewRawReader evs = Ok (NewRawReader, encode (typed_all evs)).
Proof.
  intros N F. induction F as [|ev evs P F IH]; [reflexivity|]. cbn [stream].
  assert (E : on_event n NewRawReader ev = Ok (NewRawReader, match typed ev with [] => None | l => Some (encode l) end)).
  { destruct ev as [|[] rep vk ch]; try reflexivity. cbn in P. destruct P as (P1 & P2 & P3 & _). unfold VK_LCONTROL, VK_RCONTROL, VK_MENU in *.
    cbn [on_event typed NewRawReader rr_ctrl rr_alt]. unfold VK_LCONTROL, VK_RCONTROL, VK_MENU.
    replace ((vk =? 163) || (vk =? 162)) with false by lia. replace (vk =? 18) with false by lia.
    destruct (ch =? 0) eqn:C; [|now rewrite write_all].
    unfold arrow, VK_LEFT, VK_RIGHT, VK_UP, VK_DOWN.
    destruct (vk =? 37) eqn:E1; [replace vk with 37 by lia; cbn [Z.eqb CharBackward arrow_key]; now rewrite write_all|].
    destruct (vk =? 39) eqn:E2; [replace vk with 39 by lia; cbn [Z.eqb CharForward arrow_key]; now rewrite write_all|].
    destruct (vk =? 38) eqn:E3; [replace vk with 38 by lia; cbn [Z.eqb CharPrev arrow_key]; now rewrite write_all|].
    destruct (vk =? 40) eqn:E4; [replace vk with 40 by lia; cbn [Z.eqb CharNext arrow_key]; now rewrite write_all|].
    cbn [Z.eqb]. assert (A : arrow_key vk = None); [|now rewrite A].
    unfold arrow_key. destruct vk as [|p|p]; try reflexivity. clear - E1 E2 E3 E4.
    do 6 (destruct p as [p|p|]; try reflexivity; try lia). }
  rewrite E. cbn [obind fst snd]. rewrite IH. cbn [obind fst snd]. f_equal. f_equal. unfold typed_all. cbn [flat_map]. rewrite encode_app.
  f_equal. destruct (typed ev); reflexivity.
Qed.

Lemma typed_scalar evs : Forall plain_event evs -> Forall scalar (typed_all evs).
Proof.
  intros F. induction F as [|ev evs P F IH]; [constructor|]. unfold typed_all. cbn [flat_map]. apply Forall_app. split; [|exact IH].
  destruct ev as [|[] rep vk ch]; [constructor| |constructor]. destruct P as (_ & _ & _ & P). cbn. destruct (ch =? 0).
  - destruct (arrow_key vk) as [[]|]; [(constructor; [left; vm_compute; split; discriminate|constructor])..|constructor].
  - constructor; [exact P|constructor].
Qed.
Lemma typed_app a b : typed_all (a ++ b) = typed_all a ++ typed_all b.
Proof. apply flat_map_app. Qed.

(** One combination with a modifier *)
Lemma alt_stream n vk ch : (5 <= n)%nat -> ch <> 0 ->
  stream n NewRawReader (with_mod VK_MENU vk ch) = Ok (NewRawReader, encode [27; if ch =? 8 then 127 else ch]).
Proof.
  intros N C. destruct n as [|n]; [lia|]. cbn [with_mod stream on_event obind fst snd rr_ctrl rr_alt NewRawReader orb]. cbn [Z.eqb Pos.eqb VK_MENU VK_RCONTROL VK_LCONTROL orb].
  cbn [obind fst snd rr_ctrl rr_alt]. replace (ch =? 0) with false by lia. unfold VK_BACK, CharBackspace. cbn [wr_writeEsc obind fst snd rr_ctrl rr_alt orb].
  rewrite firstn_all2 by (pose proof (encode_short (if ch =? 8 then 127 else ch)); lia).
  assert (X : forall r : bool, r = false \/ r = true) by (intros []; auto).
  assert (E : on_event (S n) {| rr_ctrl := false; rr_alt := true |} (EKey false 1 vk ch) = Ok ({| rr_ctrl := false; rr_alt := negb (vk =? VK_MENU) |}, None)).
  { cbn [on_event rr_ctrl rr_alt orb]. unfold VK_RCONTROL, VK_LCONTROL, VK_MENU. destruct ((vk =? 163) || (vk =? 162)) eqn:E1; [replace (vk =? 18) with false by lia; reflexivity|].
    destruct (vk =? 18); reflexivity. }
  cbn [on_event rr_ctrl rr_alt orb] in E. rewrite E. cbn [obind fst snd rr_ctrl rr_alt orb].
  destruct (vk =? VK_MENU); cbn; rewrite ?app_nil_r; reflexivity.
Qed.
Lemma ctrl_stream n m vk ch : (4 <= n)%nat -> m = VK_LCONTROL \/ m = VK_RCONTROL -> ch <> 0 ->
  stream n NewRawReader (with_mod m vk ch) =
  Ok (NewRawReader, encode [if ch =? 65 then 1 else if ch =? 69 then 5 else if ch =? 82 then 18 else if ch =? 83 then 19 else ch]).
Proof.
  intros N M C.
  assert (E0 : on_event n NewRawReader (EKey true 1 m 0) = Ok ({| rr_ctrl := true; rr_alt := false |}, None)) by (destruct M as [-> | ->]; reflexivity).
  set (c := if ch =? 65 then 1 else _).
  assert (E1 : on_event n {| rr_ctrl := true; rr_alt := false |} (EKey true 1 vk ch) = Ok ({| rr_ctrl := true; rr_alt := false |}, Some (encode [c]))).
  { cbn [on_event rr_ctrl rr_alt]. replace (ch =? 0) with false by lia. now rewrite write_all. }
  assert (E2 : exists b, on_event n {| rr_ctrl := true; rr_alt := false |} (EKey false 1 vk ch) = Ok ({| rr_ctrl := b; rr_alt := false |}, None)).
  { cbn [on_event rr_ctrl rr_alt orb]. destruct ((vk =? VK_RCONTROL) || (vk =? VK_LCONTROL)); [eexists; reflexivity|]. destruct (vk =? VK_MENU); eexists; reflexivity. }
  destruct E2 as (b & E2).
  assert (E3 : on_event n {| rr_ctrl := b; rr_alt := false |} (EKey false 1 m 0) = Ok (NewRawReader, None)).
  { destruct b, M as [-> | ->]; reflexivity. }
  unfold with_mod. cbn [stream]. rewrite E0. cbn [obind fst snd]. rewrite E1. cbn [obind fst snd]. rewrite E2. cbn [obind fst snd]. rewrite E3. cbn [obind fst snd].
  now rewrite !app_nil_r.
Qed.

(** Decoding what the reader delivers *)
Lemma mixed_bytes n p m t q : (5 <= n)%nat -> Forall plain_event p -> Forall plain_event q ->
  stream n NewRawReader m = Ok (NewRawReader, encode t) ->
  console_bytes n (p ++ m ++ q) = Ok (encode (typed_all p ++ t ++ typed_all q)).
Proof.
  intros N P Q M. rewrite bytes_stream, !stream_app, plain_stream by (try assumption; lia). cbn [obind fst snd]. rewrite stream_app, M. cbn [obind fst snd].
  rewrite plain_stream by (try assumption; lia). cbn [obind fst snd]. now rewrite !encode_app.
Qed.
