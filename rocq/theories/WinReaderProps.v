(** Properties C91, C92: keys pressed in a Windows console (rawreader_windows.go), up to the editor. *)
From Verif Require Import Base ListAux Utf8Model Utf8Spec Utf8Proofs TerminalModel TerminalSpec TerminalProofs WinReaderModel WinReaderSpec WinReaderProofs.
From Coq Require Import ZifyBool.
Open Scope Z_scope.

(** ** C91: text and arrow keys *)
(** Whatever other events come in between, the editor gets the characters and arrow keys typed, in order (without
    vim mode: if Esc is not among them). *)
Theorem C91_typed_partial : forall u vim n evs, (4 <= n)%nat -> Forall plain_event evs -> vim = true \/ ~ In 27 (typed_all evs) ->
  exists bs, console_bytes n evs = Ok bs /\ keys_of u vim (decode bs) = typed_all evs.
Proof.
  intros u vim n evs N F E. exists (encode (typed_all evs)). rewrite bytes_stream, plain_stream by assumption. split; [reflexivity|].
  rewrite decode_encode, map_sanitize_id by now apply typed_scalar. unfold keys_of.
  destruct (plain_seg u vim (typed_all evs)) as (X & _); [tauto|exact X].
Qed.
Print Assumptions C91_typed_partial.

(** "a", the window gets focus, "a" released, Shift and "B", arrow left, "é". *)
Example C91_ex : let evs := [EKey true 1 65 97; EOther; EKey false 1 65 97; EKey true 1 16 0; EKey true 1 66 66; EKey false 1 66 66; EKey false 1 16 0;
    EKey true 1 37 0; EKey false 1 37 0; EKey true 1 222 233] in
  Forall plain_event evs /\ ~ In 27 (typed_all evs) /\ typed_all evs = [97; 66; 2; 233] /\
  console_bytes 100 evs = Ok [97; 66; 2; 195; 169].
Proof.
  cbv zeta. split; [repeat constructor; try discriminate; unfold scalar; lia|]. split; [cbn; intuition discriminate|]. split; reflexivity.
Qed.

(** A character outside the basic plane comes as two records, a surrogate pair: it is lost, the editor gets two
    replacement characters (U+1F600 here). *)
Theorem C91_surrogates_refuted : exists bs, console_bytes 100 [EKey true 1 0 55357; EKey true 1 0 56832] = Ok bs /\
  forall u, keys_of u false (decode bs) = [65533; 65533].
Proof. eexists. split; [vm_compute; reflexivity|]. intros u. reflexivity. Qed.
Print Assumptions C91_surrogates_refuted.
(** A record that stands for several presses counts once; *)
Theorem C91_repeat_refuted : exists rep, 1 < rep /\ console_bytes 100 [EKey true rep 65 97] = Ok [97].
Proof. exists 3. split; [lia|reflexivity]. Qed.
Print Assumptions C91_repeat_refuted.
(** Delete (46), Home (36) and End (35) do nothing; *)
Theorem C91_delete_refuted : forall n, console_bytes n [EKey true 1 46 0; EKey true 1 36 0; EKey true 1 35 0] = Ok [].
Proof. reflexivity. Qed.
Print Assumptions C91_delete_refuted.
(** a character entered by its number with Alt, which comes with the release of Alt, is lost. *)
Theorem C91_numpad_refuted : forall n, console_bytes n [EKey true 1 18 0; EKey false 1 18 233] = Ok [].
Proof. reflexivity. Qed.
Print Assumptions C91_numpad_refuted.

(** ** C92: Alt and Ctrl *)
(** Alt with b, f, d, Ctrl-T or Backspace is the Meta key of that name; with any other character but '[', 'O' and Esc
    it is this character.  What is typed before and after is not affected. *)
Definition alt_key (ch : Z) : Z :=
  match ch with 98 => meta_key MLeft | 102 => meta_key MRight | 100 => meta_key MDel | 20 => meta_key MTrans | 8 | 127 => meta_key MBack | _ => ch end.
Theorem C92_alt_partial : forall u n p q vk ch, (5 <= n)%nat -> Forall plain_event p -> Forall plain_event q ->
  ~ In 27 (typed_all p) -> ~ In 27 (typed_all q) -> scalar ch -> ch <> 0 -> ch <> 27 -> ch <> 91 -> ch <> 79 ->
  exists bs, console_bytes n (p ++ with_mod VK_MENU vk ch ++ q) = Ok bs /\
    keys_of u false (decode bs) = typed_all p ++ [alt_key ch] ++ typed_all q.
Proof.
  intros u n p q vk ch N P Q Ep Eq S C0 C1 C2 C3.
  eexists. split; [apply mixed_bytes; [exact N|exact P|exact Q|apply alt_stream; [exact N|exact C0]]|].
  set (c := if ch =? 8 then 127 else ch).
  rewrite decode_encode, map_sanitize_id.
  2:{ apply Forall_app. split; [now apply typed_scalar|]. apply Forall_app. split; [|now apply typed_scalar].
      constructor; [unfold scalar; lia|]. constructor; [|constructor]. unfold c. destruct (ch =? 8); [unfold scalar; lia|exact S]. }
  assert (M : seg u false TGround [27; c] [alt_key ch] TGround).
  { assert (E : escapeKey c = alt_key ch).
    { unfold escapeKey, c, alt_key, CharTranspose, CharBackspace, meta_key. clear.
      destruct (ch =? 8) eqn:E8; [replace ch with 8 by lia; reflexivity|].
      destruct (ch =? 98) eqn:E1; [replace ch with 98 by lia; reflexivity|].
      destruct (ch =? 102) eqn:E2; [replace ch with 102 by lia; reflexivity|].
      destruct (ch =? 100) eqn:E3; [replace ch with 100 by lia; reflexivity|].
      destruct (ch =? 20) eqn:E4; [replace ch with 20 by lia; reflexivity|].
      destruct (ch =? 127) eqn:E5; [replace ch with 127 by lia; reflexivity|].
      destruct ch as [|k|k]; try reflexivity. do 7 (destruct k as [k|k|]; try reflexivity; try lia). }
    assert (T : tstep u false TEsc c = (TGround, TKey (alt_key ch))).
    { cbn [tstep]. unfold CharEscapeEx, CharO. rewrite E.
      replace (c =? 91) with false by (clear - C2; unfold c; destruct (ch =? 8); lia). replace (c =? 79) with false by (clear - C3; unfold c; destruct (ch =? 8); lia).
      apply emit_key. unfold CharEsc. rewrite <- E. unfold escapeKey, c, CharTranspose, CharBackspace, MetaBackward, MetaForward, MetaDelete, MetaTranspose, MetaBackspace.
      clear - C1. destruct (ch =? 8), (ch =? 98), (ch =? 102), (ch =? 100), (ch =? 20), (ch =? 127); cbn; lia. }
    unfold seg. cbn [trun tend]. change (tstep u false TGround 27) with (TEsc, TNone). cbn [fst trun tend]. rewrite T. split; reflexivity. }
  unfold keys_of. exact (proj1 (seg_app _ _ _ _ _ _ _ _ _ (plain_seg u false (typed_all p) (or_introl Ep))
    (seg_app _ _ _ _ _ _ _ _ _ M (plain_seg u false (typed_all q) (or_introl Eq))))).
Qed.
Print Assumptions C92_alt_partial.
Example C92_alt_ex : exists bs, console_bytes 100 ([EKey true 1 65 97] ++ with_mod VK_MENU 70 102 ++ [EKey true 1 66 98]) = Ok bs /\
  forall u, keys_of u false (decode bs) = [97; MetaForward; 98].
Proof. eexists. split; [vm_compute; reflexivity|]. intros u. reflexivity. Qed.

(** Alt (or AltGr) with '[' or 'O' types nothing, and the next character is lost as well ("x" here). *)
Theorem C92_bracket_refuted : forall u ch, ascii_numbers u -> ch = 91 \/ ch = 79 ->
  exists bs, console_bytes 100 (with_mod VK_MENU 56 ch ++ [EKey true 1 88 120]) = Ok bs /\ keys_of u false (decode bs) = [].
Proof.
  intros u ch A [-> | ->]; eexists; (split; [vm_compute; reflexivity|]); unfold keys_of; cbn; rewrite (A 120) by lia; reflexivity.
Qed.
Print Assumptions C92_bracket_refuted.

(** Ctrl with A, E, R or S is the control character; other characters are what the console delivers. *)
Definition ctrl_key (ch : Z) : Z := match ch with 65 => 1 | 69 => 5 | 82 => 18 | 83 => 19 | _ => ch end.
Theorem C92_ctrl_partial : forall u n p q m vk ch, (5 <= n)%nat -> Forall plain_event p -> Forall plain_event q ->
  ~ In 27 (typed_all p) -> ~ In 27 (typed_all q) -> m = VK_LCONTROL \/ m = VK_RCONTROL -> scalar ch -> ch <> 0 -> ch <> 27 ->
  exists bs, console_bytes n (p ++ with_mod m vk ch ++ q) = Ok bs /\
    keys_of u false (decode bs) = typed_all p ++ [ctrl_key ch] ++ typed_all q.
Proof.
  intros u n p q m vk ch N P Q Ep Eq M S C0 C1.
  assert (E : (if ch =? 65 then 1 else if ch =? 69 then 5 else if ch =? 82 then 18 else if ch =? 83 then 19 else ch) = ctrl_key ch).
  { clear. unfold ctrl_key. destruct (ch =? 65) eqn:E1; [replace ch with 65 by lia; reflexivity|].
    destruct (ch =? 69) eqn:E2; [replace ch with 69 by lia; reflexivity|].
    destruct (ch =? 82) eqn:E3; [replace ch with 82 by lia; reflexivity|].
    destruct (ch =? 83) eqn:E4; [replace ch with 83 by lia; reflexivity|].
    destruct ch as [|k|k]; try reflexivity. do 7 (destruct k as [k|k|]; try reflexivity; try lia). }
  assert (R : scalar (ctrl_key ch) /\ ctrl_key ch <> 27).
  { rewrite <- E. clear - S C1. unfold scalar in *. destruct (ch =? 65), (ch =? 69), (ch =? 82), (ch =? 83); lia. }
  eexists. split; [apply mixed_bytes; [exact N|exact P|exact Q|rewrite ctrl_stream by (try assumption; lia); rewrite E; reflexivity]|].
  rewrite decode_encode, map_sanitize_id.
  2:{ apply Forall_app. split; [now apply typed_scalar|]. apply Forall_app. split; [|now apply typed_scalar]. constructor; [apply R|constructor]. }
  unfold keys_of. apply plain_seg. left. rewrite !in_app_iff. cbn. intros [X|[[X|X]|X]]; [tauto|now apply (proj2 R)|tauto|tauto].
Qed.
Print Assumptions C92_ctrl_partial.
Example C92_ctrl_ex : exists bs, console_bytes 100 (with_mod VK_LCONTROL 69 69 ++ [EKey true 1 69 69]) = Ok bs /\ forall u, keys_of u false (decode bs) = [5; 69].
Proof. eexists. split; [vm_compute; reflexivity|]. intros u. reflexivity. Qed.
(** The virtual key code of Ctrl in console input is VK_CONTROL (17), which the reader does not know: the key counts
    as not pressed. *)
Theorem C92_control_refuted : console_bytes 100 (with_mod 17 65 65) = Ok [65].
Proof. reflexivity. Qed.
Print Assumptions C92_control_refuted.

(** ** C91 and C92 for any records: text, arrow keys, and Ctrl and Alt pressed and released at any time *)
(** The modifiers held, and the keys meant by a record. *)
Definition is_ctrl (vk : Z) : bool := (vk =? 162) || (vk =? 163).
Definition hold (h : bool * bool) (ev : event) : bool * bool :=
  match ev with
  | EKey true _ vk 0 => (fst h || is_ctrl vk, snd h || (vk =? 18))
  | EKey false _ vk _ => (fst h && negb (is_ctrl vk), snd h && negb (vk =? 18))
  | _ => h
  end.
Definition meant1 (h : bool * bool) (ev : event) : list Z :=
  match ev with
  | EKey true _ vk ch =>
      if ch =? 0 then match arrow_key vk with Some k => [key_rune k] | None => [] end
      else if fst h then [ctrl_key ch] else if snd h then [alt_key ch] else [ch]
  | _ => []
  end.
Fixpoint meant (h : bool * bool) (evs : list event) : list Z :=
  match evs with [] => [] | ev :: evs' => meant1 h ev ++ meant (hold h ev) evs' end.
(** No Esc, no half of a surrogate pair, no '[' or 'O' with Alt. *)
Fixpoint clear_keys (h : bool * bool) (evs : list event) : Prop :=
  match evs with
  | [] => True
  | ev :: evs' =>
      match ev with
      | EKey true _ _ ch => scalar ch /\ ch <> 27 /\ (fst h = false -> snd h = true -> ch <> 91 /\ ch <> 79)
      | _ => True
      end /\ clear_keys (hold h ev) evs'
  end.

Lemma ctrl_key_if ch : (if ch =? 65 then 1 else if ch =? 69 then 5 else if ch =? 82 then 18 else if ch =? 83 then 19 else ch) = ctrl_key ch.
Proof.
  unfold ctrl_key. destruct (ch =? 65) eqn:E1; [replace ch with 65 by lia; reflexivity|].
  destruct (ch =? 69) eqn:E2; [replace ch with 69 by lia; reflexivity|].
  destruct (ch =? 82) eqn:E3; [replace ch with 82 by lia; reflexivity|].
  destruct (ch =? 83) eqn:E4; [replace ch with 83 by lia; reflexivity|].
  destruct ch as [|k|k]; try reflexivity. do 7 (destruct k as [k|k|]; try reflexivity; try lia).
Qed.

Lemma alt_seg u ch : scalar ch -> ch <> 27 -> ch <> 91 -> ch <> 79 -> seg u false TGround [27; if ch =? 8 then 127 else ch] [alt_key ch] TGround.
Proof.
  intros S C1 C2 C3. set (c := if ch =? 8 then 127 else ch).
  assert (E : escapeKey c = alt_key ch).
  { unfold escapeKey, c, alt_key, CharTranspose, CharBackspace, meta_key. clear.
    destruct (ch =? 8) eqn:E8; [replace ch with 8 by lia; reflexivity|].
    destruct (ch =? 98) eqn:E1; [replace ch with 98 by lia; reflexivity|].
    destruct (ch =? 102) eqn:E2; [replace ch with 102 by lia; reflexivity|].
    destruct (ch =? 100) eqn:E3; [replace ch with 100 by lia; reflexivity|].
    destruct (ch =? 20) eqn:E4; [replace ch with 20 by lia; reflexivity|].
    destruct (ch =? 127) eqn:E5; [replace ch with 127 by lia; reflexivity|].
    destruct ch as [|k|k]; try reflexivity. do 7 (destruct k as [k|k|]; try reflexivity; try lia). }
  assert (T : tstep u false TEsc c = (TGround, TKey (alt_key ch))).
  { cbn [tstep]. unfold CharEscapeEx, CharO. rewrite E.
    replace (c =? 91) with false by (clear - C2; unfold c; destruct (ch =? 8); lia). replace (c =? 79) with false by (clear - C3; unfold c; destruct (ch =? 8); lia).
    apply emit_key. unfold CharEsc. rewrite <- E. unfold escapeKey, c, CharTranspose, CharBackspace, MetaBackward, MetaForward, MetaDelete, MetaTranspose, MetaBackspace.
    clear - C1. destruct (ch =? 8), (ch =? 98), (ch =? 102), (ch =? 100), (ch =? 20), (ch =? 127); cbn; lia. }
  unfold seg. cbn [trun tend]. change (tstep u false TGround 27) with (TEsc, TNone). cbn [fst trun tend]. rewrite T. split; reflexivity.
Qed.

Lemma arrow_event n s vk rep : is_ctrl vk = false -> (vk =? 18) = false -> (4 <= n)%nat ->
  on_event n s (EKey true rep vk 0) = Ok (s, match arrow_key vk with Some k => Some (encode [key_rune k]) | None => None end).
Proof.
  intros C M N. cbn [on_event Z.eqb]. unfold is_ctrl in C. unfold VK_LCONTROL, VK_RCONTROL, VK_MENU. rewrite orb_comm, C, M.
  unfold arrow, VK_LEFT, VK_RIGHT, VK_UP, VK_DOWN.
  destruct (vk =? 37) eqn:E1; [replace vk with 37 by lia; cbn [Z.eqb CharBackward arrow_key]; now rewrite write_all|].
  destruct (vk =? 39) eqn:E2; [replace vk with 39 by lia; cbn [Z.eqb CharForward arrow_key]; now rewrite write_all|].
  destruct (vk =? 38) eqn:E3; [replace vk with 38 by lia; cbn [Z.eqb CharPrev arrow_key]; now rewrite write_all|].
  destruct (vk =? 40) eqn:E4; [replace vk with 40 by lia; cbn [Z.eqb CharNext arrow_key]; now rewrite write_all|].
  cbn [Z.eqb]. assert (A : arrow_key vk = None); [|now rewrite A].
  unfold arrow_key. destruct vk as [|p|p]; try reflexivity. clear - E1 E2 E3 E4.
  do 6 (destruct p as [p|p|]; try reflexivity; try lia).
Qed.

Lemma arrow_mod vk : is_ctrl vk = true \/ (vk =? 18) = true -> arrow_key vk = None.
Proof.
  unfold is_ctrl. intros H. assert (D : vk = 162 \/ vk = 163 \/ vk = 18) by (destruct H as [H|H]; lia). destruct D as [-> |[-> | ->]]; reflexivity.
Qed.

(** One record: what is delivered, and what the terminal makes of it. *)
Lemma event_meant u n h ev : (5 <= n)%nat ->
  match ev with EKey true _ _ ch => scalar ch /\ ch <> 27 /\ (fst h = false -> snd h = true -> ch <> 91 /\ ch <> 79) | _ => True end ->
  exists o t, on_event n {| rr_ctrl := fst h; rr_alt := snd h |} ev = Ok ({| rr_ctrl := fst (hold h ev); rr_alt := snd (hold h ev) |}, o) /\
    match o with Some b => b | None => [] end = encode t /\ Forall scalar t /\ seg u false TGround t (meant1 h ev) TGround.
Proof.
  intros N P. assert (Nil : seg u false TGround [] [] TGround) by (split; reflexivity).
  assert (One : forall c, scalar c -> c <> 27 -> seg u false TGround [c] [c] TGround).
  { intros c _ C. apply (plain_seg u false [c]). left. cbn. intuition. }
  destruct ev as [|[] rep vk ch].
  - exists None, []. destruct h. repeat split; auto.
  - destruct P as (S & E & B). destruct (Z.eq_dec ch 0) as [->|C].
    + unfold hold, meant1. cbn [fst snd Z.eqb]. destruct (is_ctrl vk) eqn:Ci; [|destruct (vk =? 18) eqn:Cm].
      * rewrite (arrow_mod vk) by auto. exists None, []. split; [|auto]. cbn [on_event Z.eqb rr_ctrl rr_alt]. unfold is_ctrl in Ci.
        unfold VK_RCONTROL, VK_LCONTROL. rewrite orb_comm, Ci. replace (vk =? 18) with false by lia. now rewrite orb_true_r, orb_false_r.
      * rewrite (arrow_mod vk) by auto. exists None, []. split; [|auto]. cbn [on_event Z.eqb rr_ctrl rr_alt]. unfold is_ctrl in Ci.
        unfold VK_RCONTROL, VK_LCONTROL, VK_MENU. rewrite orb_comm, Ci, Cm. now rewrite orb_true_r, orb_false_r.
      * rewrite arrow_event by (auto; lia). rewrite !orb_false_r. eexists. exists (match arrow_key vk with Some k => [key_rune k] | None => [] end). split; [reflexivity|].
        destruct (arrow_key vk) as [k|]; [|auto]. split; [reflexivity|]. assert (Sk : scalar (key_rune k) /\ key_rune k <> 27).
        { destruct k; (split; [left; vm_compute; split; discriminate|vm_compute; discriminate]). }
        split; [constructor; [apply Sk|constructor]|apply One; apply Sk].
    + assert (Hh : hold h (EKey true rep vk ch) = h) by (destruct ch; [lia|reflexivity..]). rewrite Hh. unfold meant1. cbn [on_event rr_ctrl rr_alt].
      replace (ch =? 0) with false by lia. destruct (fst h) eqn:H1.
      * unfold CharLineStart, CharLineEnd, CharBckSearch, CharFwdSearch. rewrite ctrl_key_if, write_all by lia. eexists. exists [ctrl_key ch]. split; [reflexivity|]. split; [reflexivity|].
        assert (Sk : scalar (ctrl_key ch) /\ ctrl_key ch <> 27).
        { rewrite <- ctrl_key_if. clear - S E. unfold scalar in *. destruct (ch =? 65), (ch =? 69), (ch =? 82), (ch =? 83); lia. }
        split; [constructor; [apply Sk|constructor]|apply One; apply Sk].
      * destruct (snd h) eqn:H2.
        -- destruct n as [|n]; [lia|]. cbn [wr_writeEsc obind]. unfold VK_BACK, CharBackspace. rewrite firstn_all2 by (pose proof (encode_short (if ch =? 8 then 127 else ch)); lia).
           eexists. exists [27; if ch =? 8 then 127 else ch]. split; [reflexivity|]. split; [unfold encode; cbn; now rewrite app_nil_r|].
           split; [constructor; [unfold scalar; lia|constructor; [destruct (ch =? 8); [unfold scalar; lia|exact S]|constructor]]|].
           destruct (B eq_refl eq_refl). apply alt_seg; assumption.
        -- rewrite write_all by lia. eexists. exists [ch]. split; [reflexivity|]. split; [reflexivity|]. split; [constructor; [exact S|constructor]|now apply One].
  - unfold hold, meant1. exists None, []. split; [|auto]. cbn [on_event rr_ctrl rr_alt fst snd]. unfold is_ctrl, VK_RCONTROL, VK_LCONTROL, VK_MENU.
    rewrite (orb_comm (vk =? 162)). destruct h as [[] []]; cbn [fst snd orb andb]; destruct ((vk =? 163) || (vk =? 162)) eqn:A, (vk =? 18) eqn:A'; try reflexivity; lia.
Qed.

(** The editor gets the keys meant, in order, whatever is held when. *)
Theorem C92_held_partial : forall u n evs, (5 <= n)%nat -> clear_keys (false, false) evs ->
  exists bs, console_bytes n evs = Ok bs /\ keys_of u false (decode bs) = meant (false, false) evs.
Proof.
  intros u n evs N C.
  assert (G : forall h, clear_keys h evs -> exists s t, stream n {| rr_ctrl := fst h; rr_alt := snd h |} evs = Ok (s, encode t) /\ Forall scalar t /\
    seg u false TGround t (meant h evs) TGround).
  { clear C. induction evs as [|ev evs IH]; intros h C; cbn [stream].
    - exists {| rr_ctrl := fst h; rr_alt := snd h |}, []. split; [reflexivity|]. split; [constructor|split; reflexivity].
    - destruct C as (C1 & C2). destruct (event_meant u n h ev N C1) as (o & t & -> & Eo & St & Sg). cbn [obind fst snd].
      destruct (IH _ C2) as (s & t' & -> & St' & Sg'). cbn [obind fst snd]. exists s, (t ++ t'). rewrite Eo, encode_app. split; [reflexivity|].
      split; [apply Forall_app; auto|]. cbn [meant]. eapply seg_app; eassumption. }
  destruct (G _ C) as (s & t & E & St & Sg). exists (encode t). change NewRawReader with {| rr_ctrl := fst (false, false); rr_alt := snd (false, false) |} in *.
  rewrite bytes_stream. unfold NewRawReader. cbn [fst snd] in E. rewrite E. split; [reflexivity|]. rewrite decode_encode, map_sanitize_id by exact St.
  exact (proj1 Sg).
Qed.
Print Assumptions C92_held_partial.

(** Alt down, "b", "f", Alt up, "x"; left Ctrl down, "A", Alt down, "d", Ctrl up, "d", Alt up, "d". *)
Example C92_held_ex : let evs := [EKey true 1 18 0; EKey true 1 66 98; EKey true 1 70 102; EKey false 1 18 0; EKey true 1 88 120;
    EKey true 1 162 0; EKey true 1 65 65; EKey true 1 18 0; EKey true 1 68 100; EKey false 1 162 0; EKey true 1 68 100; EKey false 1 18 0; EKey true 1 68 100] in
  clear_keys (false, false) evs /\ meant (false, false) evs = [MetaBackward; MetaForward; 120; 1; 100; MetaDelete; 100].
Proof. cbv zeta. split; [cbn; repeat split; try discriminate; unfold scalar; lia|reflexivity]. Qed.
