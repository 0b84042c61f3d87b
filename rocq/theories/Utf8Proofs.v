From Verif Require Import Base ListAux Utf8Model Utf8Spec.
From Coq Require Import ZifyBool.
Ltac Zify.zify_post_hook ::= Z.div_mod_to_equations.
Open Scope Z_scope.

Ltac close_pair := cbn [andb]; match goal with |- (?a, ?t) = (?b, ?t) => replace a with b by lia; reflexivity end.

Lemma valid_scalarb r : valid_rune r = scalarb r.
Proof. unfold valid_rune, scalarb. lia. Qed.

Lemma sanitize_scalar r : scalar (sanitize r).
Proof. unfold sanitize, scalarb, scalar. destruct (_ || _) eqn:E; lia. Qed.

Lemma encode_rune_sanitize r : encode_rune r = encode_rune (sanitize r).
Proof.
  unfold encode_rune, sanitize. rewrite !valid_scalarb.
  destruct (scalarb r) eqn:E; [rewrite E; reflexivity|].
  reflexivity.
Qed.

Lemma encode_nonempty r : encode_rune r <> [].
Proof. unfold encode_rune. repeat destruct (_ <=? _); discriminate. Qed.

Lemma encode_bytes r : Forall is_byte (encode_rune r).
Proof.
  rewrite encode_rune_sanitize. pose proof (sanitize_scalar r) as H.
  set (s := sanitize r) in *. unfold encode_rune. rewrite valid_scalarb.
  replace (scalarb s) with true by (unfold scalarb, scalar in *; lia).
  unfold scalar in H. unfold is_byte.
  destruct (s <=? 127) eqn:E1; [repeat constructor; lia|].
  destruct (s <=? 2047) eqn:E2; [repeat constructor; lia|].
  destruct (s <=? 65535) eqn:E3; repeat constructor; lia.
Qed.

Lemma decode_rune_encode r tl : scalar r ->
  match encode_rune r ++ tl with
  | [] => False
  | b0 :: rest => decode_rune b0 rest = (r, tl)
  end.
Proof.
  intros Hs. unfold encode_rune. rewrite valid_scalarb.
  replace (scalarb r) with true by (unfold scalarb, scalar in *; lia).
  unfold scalar in Hs.
  destruct (r <=? 127) eqn:E1.
  { cbn [app]. unfold decode_rune.
    replace (r <? 128) with true by lia. reflexivity. }
  destruct (r <=? 2047) eqn:E2.
  { cbn [app]. unfold decode_rune, in_range.
    replace (192 + r / 64 <? 128) with false by lia.
    replace ((194 <=? 192 + r / 64) && (192 + r / 64 <=? 223)) with true by lia.
    replace ((128 <=? 128 + r mod 64) && (128 + r mod 64 <=? 191)) with true by lia.
    close_pair. }
  destruct (r <=? 65535) eqn:E3.
  { cbn [app]. unfold decode_rune, in_range.
    replace (224 + r / 4096 <? 128) with false by lia.
    replace ((194 <=? 224 + r / 4096) && (224 + r / 4096 <=? 223)) with false by lia.
    replace ((224 <=? 224 + r / 4096) && (224 + r / 4096 <=? 239)) with true by lia.
    destruct (224 + r / 4096 =? 224) eqn:Ea; destruct (224 + r / 4096 =? 237) eqn:Eb; try (exfalso; lia).
    - replace ((160 <=? 128 + (r / 64) mod 64) && (128 + (r / 64) mod 64 <=? 191) &&
        ((128 <=? 128 + r mod 64) && (128 + r mod 64 <=? 191))) with true by lia. close_pair.
    - replace ((128 <=? 128 + (r / 64) mod 64) && (128 + (r / 64) mod 64 <=? 159) &&
        ((128 <=? 128 + r mod 64) && (128 + r mod 64 <=? 191))) with true by lia. close_pair.
    - replace ((128 <=? 128 + (r / 64) mod 64) && (128 + (r / 64) mod 64 <=? 191) &&
        ((128 <=? 128 + r mod 64) && (128 + r mod 64 <=? 191))) with true by lia. close_pair. }
  cbn [app]. unfold decode_rune, in_range.
  replace (240 + r / 262144 <? 128) with false by lia.
  replace ((194 <=? 240 + r / 262144) && (240 + r / 262144 <=? 223)) with false by lia.
  replace ((224 <=? 240 + r / 262144) && (240 + r / 262144 <=? 239)) with false by lia.
  replace ((240 <=? 240 + r / 262144) && (240 + r / 262144 <=? 244)) with true by lia.
  replace ((128 <=? 128 + (r / 64) mod 64) && (128 + (r / 64) mod 64 <=? 191)) with true by lia.
  replace ((128 <=? 128 + r mod 64) && (128 + r mod 64 <=? 191)) with true by lia.
  destruct (240 + r / 262144 =? 240) eqn:Ea; destruct (240 + r / 262144 =? 244) eqn:Eb; try (exfalso; lia).
  - replace ((144 <=? 128 + (r / 4096) mod 64) && (128 + (r / 4096) mod 64 <=? 191)) with true by lia.
    cbn [andb]. close_pair.
  - replace ((128 <=? 128 + (r / 4096) mod 64) && (128 + (r / 4096) mod 64 <=? 143)) with true by lia.
    cbn [andb]. close_pair.
  - replace ((128 <=? 128 + (r / 4096) mod 64) && (128 + (r / 4096) mod 64 <=? 191)) with true by lia.
    cbn [andb]. close_pair.
Qed.

(** Decoding consumes at least the first byte and leaves a suffix. *)
Lemma decode_rune_suffix b0 rest : exists pre, rest = pre ++ snd (decode_rune b0 rest).
Proof.
  unfold decode_rune.
  destruct (b0 <? 128); [exists []; reflexivity|].
  destruct (in_range 194 223 b0).
  { destruct rest as [|b1 r1]; [exists []; reflexivity|].
    destruct (in_range 128 191 b1); [exists [b1]|exists []]; reflexivity. }
  destruct (in_range 224 239 b0).
  { destruct rest as [|b1 [|b2 r2]]; [exists []; reflexivity|exists []; reflexivity|].
    destruct (_ && _); [exists [b1; b2]|exists []]; reflexivity. }
  destruct (in_range 240 244 b0).
  { destruct rest as [|b1 [|b2 [|b3 r3]]]; try (exists []; reflexivity).
    destruct (_ && _ && _); [exists [b1; b2; b3]|exists []]; reflexivity. }
  exists []. reflexivity.
Qed.

Lemma decode_fuel_enough f bs : (length bs <= f)%nat -> decode_fuel f bs = decode bs.
Proof.
  unfold decode.
  assert (H : forall n f1 f2 l, (length l <= n)%nat -> (length l <= f1)%nat -> (length l <= f2)%nat ->
    decode_fuel f1 l = decode_fuel f2 l).
  { induction n as [|n IH]; intros f1 f2 l Hn H1 H2.
    - destruct l; [|cbn in Hn; lia]. destruct f1, f2; reflexivity.
    - destruct l as [|b0 rest]; [destruct f1, f2; reflexivity|].
      destruct f1 as [|f1]; [cbn in H1; lia|]. destruct f2 as [|f2]; [cbn in H2; lia|].
      cbn [decode_fuel]. destruct (decode_rune_suffix b0 rest) as [pre Hpre].
      destruct (decode_rune b0 rest) as [r rest']. cbn [snd] in Hpre. subst rest.
      cbn [length] in *. rewrite app_length in *. f_equal. apply IH; lia. }
  intros Hf. apply (H (length bs)); lia.
Qed.

Lemma decode_cons b0 rest : decode (b0 :: rest) =
  fst (decode_rune b0 rest) :: decode (snd (decode_rune b0 rest)).
Proof.
  unfold decode at 1. cbn [length decode_fuel].
  destruct (decode_rune_suffix b0 rest) as [pre Hpre].
  destruct (decode_rune b0 rest) as [r rest']. cbn [fst snd] in *. f_equal.
  apply decode_fuel_enough. subst rest. rewrite app_length. lia.
Qed.

Lemma decode_encode_app rs bs : decode (encode rs ++ bs) = map sanitize rs ++ decode bs.
Proof.
  induction rs as [|r rs IH]; [reflexivity|].
  cbn [encode flat_map map app]. rewrite <- app_assoc. change (flat_map encode_rune rs) with (encode rs).
  rewrite encode_rune_sanitize.
  pose proof (decode_rune_encode (sanitize r) (encode rs ++ bs) (sanitize_scalar r)) as Hd.
  destruct (encode_rune (sanitize r) ++ (encode rs ++ bs)) as [|b0 rest]; [contradiction|].
  rewrite decode_cons, Hd. cbn [fst snd]. now rewrite IH.
Qed.

Lemma decode_encode rs : decode (encode rs) = map sanitize rs.
Proof.
  rewrite <- (app_nil_r (encode rs)), decode_encode_app. cbn. apply app_nil_r.
Qed.

Lemma sanitize_id r : scalar r -> sanitize r = r.
Proof. unfold scalar, sanitize, scalarb. intros H. destruct (_ || _) eqn:E; [reflexivity|lia]. Qed.

Lemma map_sanitize_id rs : Forall scalar rs -> map sanitize rs = rs.
Proof.
  induction 1 as [|r rs H _ IH]; [reflexivity|]. cbn. rewrite IH, sanitize_id; auto.
Qed.

Lemma decode_rune_scalar b0 rest : Forall is_byte (b0 :: rest) -> scalar (fst (decode_rune b0 rest)).
Proof.
  intros H. inversion H as [|? ? Hb Hr]; subst. unfold is_byte in *. unfold decode_rune, scalar, in_range, RuneError.
  destruct (b0 <? 128) eqn:E0; [cbn [fst]; lia|].
  destruct ((194 <=? b0) && (b0 <=? 223)) eqn:E1.
  { destruct rest as [|b1 r1]; [cbn [fst]; lia|]. destruct ((128 <=? b1) && (b1 <=? 191)) eqn:E2; cbn [fst]; lia. }
  destruct ((224 <=? b0) && (b0 <=? 239)) eqn:E2.
  { destruct rest as [|b1 [|b2 r2]]; [cbn [fst]; lia|cbn [fst]; lia|].
    destruct (b0 =? 224) eqn:E4; destruct (b0 =? 237) eqn:E5;
    match goal with |- context [if ?c then _ else _] => destruct c eqn:E6 end; cbn [fst]; lia. }
  destruct ((240 <=? b0) && (b0 <=? 244)) eqn:E3.
  { destruct rest as [|b1 [|b2 [|b3 r3]]]; try (cbn [fst]; lia).
    destruct (b0 =? 240) eqn:E4; destruct (b0 =? 244) eqn:E5;
    match goal with |- context [if ?c then _ else _] => destruct c eqn:E6 end; cbn [fst]; lia. }
  cbn [fst]. lia.
Qed.

Lemma decode_scalar bs : Forall is_byte bs -> Forall scalar (decode bs).
Proof.
  remember (length bs) as n eqn:Hn. revert bs Hn. induction n as [n IH] using lt_wf_ind. intros bs Hn Hb.
  destruct bs as [|b0 rest]; [constructor|]. rewrite decode_cons. constructor.
  - apply decode_rune_scalar. exact Hb.
  - destruct (decode_rune_suffix b0 rest) as [pre Hpre].
    apply (IH (length (snd (decode_rune b0 rest)))).
    + subst n. cbn [length]. rewrite Hpre at 2. rewrite app_length. lia.
    + reflexivity.
    + inversion Hb as [|? ? _ Hr]; subst. rewrite Hpre in Hr. apply Forall_app in Hr. apply Hr.
Qed.

Lemma encode_app a b : encode (a ++ b) = encode a ++ encode b.
Proof. unfold encode. apply flat_map_app. Qed.

Lemma encode_all_bytes rs : Forall is_byte (encode rs).
Proof.
  induction rs as [|r rs IH]; [constructor|]. cbn. apply Forall_app. split; [apply encode_bytes|exact IH].
Qed.

Lemma encode_inj a b : Forall scalar a -> Forall scalar b -> encode a = encode b -> a = b.
Proof.
  intros Ha Hb H. apply (f_equal decode) in H. rewrite !decode_encode in H.
  rewrite !map_sanitize_id in H by assumption. exact H.
Qed.
