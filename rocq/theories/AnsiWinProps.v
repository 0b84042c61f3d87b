(** Properties C63, C71, C72, C89: the Windows escape sequence translator. *)
From Verif Require Import Base ListAux TerminalModel TerminalSpec AnsiWinModel AnsiWinSpec AnsiWinProofs.
Open Scope Z_scope.

(** C63 fails on the standard "default foreground colour" sequence ESC [ 39 m. *)
Theorem C63_refuted : exists out, wwrite wctx0 out = Panic.
Proof. exists [27;91;51;57;109]. reflexivity. Qed.
Print Assumptions C63_refuted.

(** C63, what is true: output can only panic at the end of a colour sequence one of whose parameters is
    38, 39, 48 or 49, and it never loops. *)
Theorem C63_panics_only_on_bad_colours_partial : forall l s, wwrite s l = Panic ->
  exists p q s' out, l = p ++ 109 :: q /\ wwrite s p = Ok (s', out) /\ w_seq s' = true /\ has_bad (w_arg s').
Proof. exact wwrite_panic. Qed.
Print Assumptions C63_panics_only_on_bad_colours_partial.
Theorem C63_step_partial : forall s r,
  (wprocess s r = Panic <-> w_seq s = true /\ r = 109 /\ has_bad (w_arg s)) /\ wprocess s r <> Hang.
Proof. exact wprocess_panic. Qed.
Print Assumptions C63_step_partial.
Example C63_ex : exists s, wwrite wctx0 [27;91;51;49;59;52;55] = Ok (s, []) /\ w_seq s = true /\
  wprocess s 109 = Ok (wctx0, [WAttr 252]).
Proof. eexists. split; [vm_compute; reflexivity|]. split; reflexivity. Qed.

(** C71: text without escape characters reaches the console unchanged. *)
Theorem C71_plain_text : forall s l, w_seq s = false -> w_esc s = false -> ~ In CharEsc l ->
  wwrite s l = Ok (s, map WText l).
Proof. exact wwrite_text. Qed.
Print Assumptions C71_plain_text.
Example C71_ex : wwrite wctx0 [97;91;49;93] = Ok (wctx0, [WText 97; WText 91; WText 49; WText 93]).
Proof. reflexivity. Qed.

(** C71 fails after an escape that is not followed by '[': the next '[' anywhere later is swallowed. *)
Theorem C71_after_other_escape_refuted : exists p t s, wwrite wctx0 p = Ok (s, [WText 55]) /\ w_seq s = false /\
  ~ In CharEsc t /\ forall o s', wwrite s t = Ok (s', o) -> o <> map WText t.
Proof.
  exists [27;55], [97;91;49;93]. eexists. split; [vm_compute; reflexivity|]. split; [reflexivity|]. split.
  - cbn. unfold CharEsc. intuition discriminate.
  - intros o s' H. vm_compute in H. injection H as _ <-. discriminate.
Qed.
Print Assumptions C71_after_other_escape_refuted.

(** C72: ESC [ 0 m sets the normal colours, whatever went before in the sequence's state. *)
Theorem C72_reset : forall s, w_seq s = false -> exists s', wwrite s [27;91;48;109] = Ok (s', [WAttr 7]) /\ w_seq s' = false /\ w_esc s' = false.
Proof. intros s H. eexists. split; [|split]. - unfold wwrite, wprocess. rewrite H. cbn. reflexivity. - reflexivity. - reflexivity. Qed.
Print Assumptions C72_reset.

(** C72 fails for the equivalent short form ESC [ m: the console is set to black on black. *)
Theorem C72_short_reset_refuted : exists s', wwrite wctx0 [27;91;109] = Ok (s', [WAttr 0]).
Proof. eexists. vm_compute. reflexivity. Qed.
Print Assumptions C72_short_reset_refuted.

(** ** C89: colour sequences *)
(** [attr c fg bg]: the console attribute [c] shows ANSI colours [fg] on [bg]: the bits of an ANSI colour are red,
    green, blue from the lowest; those of a console colour blue, green, red; the background is four bits up; no underscore. *)
Definition attr (c fg bg : Z) : Prop := 0 <= c < 256 /\
  Z.testbit c 2 = Z.testbit fg 0 /\ Z.testbit c 1 = Z.testbit fg 1 /\ Z.testbit c 0 = Z.testbit fg 2 /\
  Z.testbit c 6 = Z.testbit bg 0 /\ Z.testbit c 5 = Z.testbit bg 1 /\ Z.testbit c 4 = Z.testbit bg 2.
(** Colour numbers 0 to 7. *)
Definition ansi8 (k : Z) : Prop := 0 <= k < 8.
Lemma ansi8_cases k : ansi8 k -> k = 0 \/ k = 1 \/ k = 2 \/ k = 3 \/ k = 4 \/ k = 5 \/ k = 6 \/ k = 7.
Proof. unfold ansi8. lia. Qed.

(** One foreground colour, one background colour, or both in either order: these are the colours set. *)
Theorem C89_colours_partial : forall s j k, w_seq s = false -> ansi8 j -> ansi8 k ->
  (exists s' c, wwrite s ([27; 91] ++ [51; 48 + j] ++ [109]) = Ok (s', [WAttr c]) /\ attr c j 0 /\ w_seq s' = false /\ w_esc s' = false) /\
  (exists s' c, wwrite s ([27; 91] ++ [52; 48 + k] ++ [109]) = Ok (s', [WAttr c]) /\ attr c 0 k /\ w_seq s' = false /\ w_esc s' = false) /\
  (exists s' c, wwrite s ([27; 91] ++ [51; 48 + j; 59; 52; 48 + k] ++ [109]) = Ok (s', [WAttr c]) /\ attr c j k /\ w_seq s' = false /\ w_esc s' = false) /\
  (exists s' c, wwrite s ([27; 91] ++ [52; 48 + k; 59; 51; 48 + j] ++ [109]) = Ok (s', [WAttr c]) /\ attr c j k /\ w_seq s' = false /\ w_esc s' = false).
Proof.
  intros [e q a] j k H J K. cbn in H. subst q. apply ansi8_cases in J, K.
  assert (R : forall l c s', wwrite (Build_wctx e false a) l = Ok (s', [WAttr c]) -> forall f b, attr c f b -> w_seq s' = false -> w_esc s' = false ->
    exists s' c, wwrite (Build_wctx e false a) l = Ok (s', [WAttr c]) /\ attr c f b /\ w_seq s' = false /\ w_esc s' = false) by eauto 10.
  destruct J as [->|[->|[->|[->|[->|[->|[->| ->]]]]]]]; destruct K as [->|[->|[->|[->|[->|[->|[->| ->]]]]]]];
    (split; [|split; [|split]]); (eapply R; [vm_compute; reflexivity|repeat split; vm_compute; congruence|reflexivity|reflexivity]).
Qed.
Print Assumptions C89_colours_partial.

(** Red on white. *)
Example C89_ex : wwrite wctx0 [27; 91; 51; 49; 59; 52; 55; 109] = Ok (wctx0, [WAttr 252]) /\ attr 252 1 7.
Proof. split; [reflexivity|]. repeat split; vm_compute; congruence. Qed.

(** Several foreground colours: their bits are joined instead of the last one winning (red, then green: yellow). *)
Theorem C89_last_colour_refuted : exists s c, wwrite wctx0 [27; 91; 51; 49; 59; 51; 50; 109] = Ok (s, [WAttr c]) /\ ~ attr c 2 0 /\ attr c 3 0.
Proof. do 2 eexists. split; [vm_compute; reflexivity|]. split; [intros (_ & X & _); vm_compute in X; discriminate|repeat split; vm_compute; congruence]. Qed.
Print Assumptions C89_last_colour_refuted.

(** With a reset (0) or bold (1) before the colour, as in the usual ESC[0;31m and ESC[1;31m, every colour is white. *)
Theorem C89_reset_colour_refuted : forall j, ansi8 j -> exists s s' c c',
  wwrite wctx0 ([27; 91; 48; 59; 51; 48 + j] ++ [109]) = Ok (s, [WAttr c]) /\ wwrite wctx0 ([27; 91; 49; 59; 51; 48 + j] ++ [109]) = Ok (s', [WAttr c']) /\
  attr c 7 0 /\ attr c' 7 0 /\ (j <> 7 -> ~ attr c j 0 /\ ~ attr c' j 0).
Proof.
  intros j J. apply ansi8_cases in J.
  destruct J as [->|[->|[->|[->|[->|[->|[->| ->]]]]]]]; do 4 eexists;
    (split; [vm_compute; reflexivity|]); (split; [vm_compute; reflexivity|]); (split; [repeat split; vm_compute; congruence|]);
    (split; [repeat split; vm_compute; congruence|]); intros N; try (now elim N);
    split; intros (_ & X & Y & Z & _); vm_compute in X, Y, Z; congruence.
Qed.
Print Assumptions C89_reset_colour_refuted.

(** ** C71, C72: sequences the translator does not know *)
(** A colour sequence whose first parameter is not a number (it contains something that is neither a digit nor a sign) appears
    as text, without the escape character. *)
Theorem C71_not_a_colour : forall s p ps r, w_seq s = false -> In r p -> ~ (48 <= r <= 57) -> r <> 43 -> r <> 45 ->
  Forall (fun p => p <> [] /\ Forall (fun r => ~ ends_seq r /\ r <> 59) p) (p :: ps) ->
  wwrite s ([27; 91] ++ semis (p :: ps) ++ [109]) = Ok (wctx0, map WText ([91] ++ semis (p :: ps) ++ [109])).
Proof.
  intros s p ps r W I N1 N2 N3 F. rewrite app_assoc, wwrite_app, wwrite_open by auto. cbn [obind fst snd wwrite]. unfold wprocess. cbn [w_seq w_arg w_esc].
  unfold ioloopEscSeq. cbn [sgr]. rewrite Atoi_bad by eauto. change ((65 <=? 109) && (109 <=? 68)) with false. change (109 =? 74) with false.
  change (109 =? 75) with false. change (109 =? 109) with true. cbn [obind fst snd]. rewrite join_semis. cbn [app]. now rewrite app_nil_r.
Qed.
Print Assumptions C71_not_a_colour.
Example C71_not_a_colour_ex : wwrite wctx0 [27; 91; 51; 63; 59; 49; 109] = Ok (wctx0, map WText [91; 51; 63; 59; 49; 109]).
Proof. reflexivity. Qed.

(** A sequence ended by a letter the translator does not know, like ESC[H or ESC[6n, swallows the text after it up to
    the next A, B, C, D, J, K, m or bell. *)
Theorem C71_after_other_sequence_refuted : exists f, In f [72; 110] /\ forall s t, w_seq s = false -> Forall (fun r => ~ ends_seq r) t ->
  exists s', wwrite s ([27; 91; f] ++ t) = Ok (s', []).
Proof.
  exists 72. split; [now left|]. set (f := 72). assert (Nf : ~ ends_seq f) by (unfold ends_seq, f; lia). clearbody f. intros s t W F.
  assert (G : forall t s, Forall (fun r => ~ ends_seq r) t -> w_seq s = true -> exists s', wwrite s t = Ok (s', []) /\ w_seq s' = true).
  { clear. induction t as [|r t IH]; intros s F W; [exists s; auto|]. inversion F as [|? ? N F']; subst. cbn [wwrite]. unfold wprocess, ioloopEscSeq. rewrite W.
    apply ends_dec in N. destruct N as (-> & -> & -> & -> & ->).
    assert (K : forall arg, exists s', (b <- wwrite {| w_esc := w_esc s; w_seq := true; w_arg := arg |} t ;; Ok (fst b, [] ++ snd b)) = Ok (s', []) /\ w_seq s' = true).
    { intros arg. destruct (IH {| w_esc := w_esc s; w_seq := true; w_arg := arg |} F' eq_refl) as (s' & -> & B). exists s'. auto. }
    destruct (r =? 59); [|cbn [obind fst snd]; apply K]. destruct (rev (w_arg s)) as [|[|] ?]; cbn [obind fst snd]; apply K. }
  change ([27; 91; f] ++ t) with (([27; 91] ++ semis []) ++ (f :: t)). rewrite wwrite_app, wwrite_open by auto. cbn [obind fst snd].
  destruct (G (f :: t) {| w_esc := false; w_seq := true; w_arg := [] |} (Forall_cons (P := fun r => ~ ends_seq r) f Nf F) eq_refl) as (s' & -> & _). exists s'. reflexivity.
Qed.
Print Assumptions C71_after_other_sequence_refuted.
(** ESC[6n, with which the library itself asks for the cursor position, then "hello". *)
Example C71_after_other_sequence_ex : exists s, wwrite wctx0 [27; 91; 54; 110; 104; 101; 108; 108; 111] = Ok (s, []).
Proof. eexists. vm_compute. reflexivity. Qed.

(** ** C89: cursor movements *)
(** ESC[nA to ESC[nD: the movement by the number written, one without a number, and one when it does not fit an int;
    the console gets it modulo 65536 between -32768 and 32767. *)
Theorem C89_moves : forall s d f, w_seq s = false -> 65 <= f <= 68 -> Forall (fun r => 48 <= r <= 57) d ->
  let move n := exists s', w_seq s' = false /\ w_esc s' = false /\ wwrite s ([27; 91] ++ d ++ [f]) = Ok (s', [WMove f n]) in
  (d = [] -> move 1) /\ (d <> [] -> decimal d <= 32767 -> move (decimal d)) /\
  (d <> [] -> 9223372036854775807 < decimal d -> move 1) /\
  (d <> [] -> decimal d <= 9223372036854775807 -> exists n, move n /\ -32768 <= n <= 32767 /\ (n - decimal d) mod 65536 = 0).
Proof.
  intros s d f W Hf F. assert (M : forall ps, ps = (match d with [] => [] | _ => [d] end) -> forall n, short (GetInt ps 1) = n ->
    exists s', w_seq s' = false /\ w_esc s' = false /\ wwrite s ([27; 91] ++ d ++ [f]) = Ok (s', [WMove f n])).
  { intros ps Eps n En. exists {| w_esc := false; w_seq := false; w_arg := ps |}. split; [reflexivity|]. split; [reflexivity|].
    assert (S : semis ps = d) by (rewrite Eps; destruct d; reflexivity). rewrite app_assoc, <- S, wwrite_app, wwrite_open; auto.
    - cbn [obind fst snd wwrite]. unfold wprocess, ioloopEscSeq. cbn [w_seq w_arg w_esc]. replace ((65 <=? f) && (f <=? 68)) with true by lia. cbn. now rewrite En.
    - rewrite Eps. destruct d; constructor; [|constructor]. split; [discriminate|now apply decimal_ends]. }
  cbn zeta. assert (D : d <> [] -> 0 <= decimal d).
  { intros _. clear - F. unfold decimal. cut (forall a, 0 <= a -> 0 <= fold_left (fun a r => a * 10 + (r - 48)) d a); [intros X; apply X; lia|].
    induction F as [|r d R _ IH]; intros a A; [exact A|]. cbn. apply IH. lia. }
  split; [|split; [|split]].
  - intros ->. apply (M []); reflexivity.
  - intros N L. destruct (Atoi_digits d N F) as (E & _). apply (M [d]); [now destruct d|]. cbn [GetInt]. rewrite E. replace (decimal d <=? 9223372036854775807) with true by lia.
    unfold short. specialize (D N). rewrite Z.mod_small; lia.
  - intros N L. destruct (Atoi_digits d N F) as (E & _). apply (M [d]); [now destruct d|]. cbn [GetInt]. rewrite E. replace (decimal d <=? 9223372036854775807) with false by lia. reflexivity.
  - intros N L. destruct (Atoi_digits d N F) as (E & _). exists (short (decimal d)). split; [|split].
    + apply (M [d]); [now destruct d|]. cbn [GetInt]. rewrite E. now replace (decimal d <=? 9223372036854775807) with true by lia.
    + unfold short. pose proof (Z.mod_pos_bound (decimal d + 32768) 65536 ltac:(lia)). lia.
    + unfold short. rewrite (Z.mod_eq (decimal d + 32768) 65536) by lia.
      replace (decimal d + 32768 - 65536 * ((decimal d + 32768) / 65536) - 32768 - decimal d) with (- ((decimal d + 32768) / 65536) * 65536) by lia. now apply Z.mod_mul.
Qed.
Print Assumptions C89_moves.
Example C89_moves_ex : exists s, wwrite wctx0 [27; 91; 49; 50; 68] = Ok (s, [WMove 68 12]).
Proof. eexists. reflexivity. Qed.

(** A parameter with a minus sign: the least int is accepted, one less is not (and resets the movement to one). *)
Theorem C89_negative : forall s d, w_seq s = false -> d <> [] -> Forall (fun r => 48 <= r <= 57) d ->
  exists s' n, wwrite s ([27; 91] ++ (45 :: d) ++ [67]) = Ok (s', [WMove 67 n]) /\
    if decimal d <=? 9223372036854775808 then (n + decimal d) mod 65536 = 0 else n = 1.
Proof.
  intros s d W N F. destruct (Atoi_digits d N F) as (_ & E).
  exists {| w_esc := false; w_seq := false; w_arg := [45 :: d] |}, (short (GetInt [45 :: d] 1)). split.
  - rewrite app_assoc. change (45 :: d) with (semis [45 :: d]) at 1. rewrite wwrite_app, wwrite_open; auto.
    constructor; [|constructor]. split; [discriminate|]. constructor; [unfold ends_seq; lia|now apply decimal_ends].
  - cbn [GetInt]. rewrite E. destruct (decimal d <=? 9223372036854775808); [|reflexivity].
    unfold short. rewrite (Z.mod_eq (- decimal d + 32768) 65536) by lia.
    replace (- decimal d + 32768 - 65536 * ((- decimal d + 32768) / 65536) - 32768 + decimal d) with (- ((- decimal d + 32768) / 65536) * 65536) by lia. now apply Z.mod_mul.
Qed.
Print Assumptions C89_negative.
Example C89_negative_ex : exists s, wwrite wctx0 [27; 91; 45; 51; 67] = Ok (s, [WMove 67 (-3)]).
Proof. eexists. reflexivity. Qed.
