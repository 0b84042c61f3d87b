(** Properties C01-C05: text helpers and UTF-8. *)
From Verif Require Import Base ListAux RunesModel RunesSpec RunesProofs Utf8Model Utf8Spec Utf8Proofs.
Open Scope Z_scope.

(** C01: backward search returns the largest occurrence, or -1 iff there is none. *)
Theorem C01_backward_search : forall text sub fold,
  (exists k, IndexAllBckEx text sub fold = Z.of_nat k /\
     occurs_at (same_rune fold) text sub k /\
     forall m, occurs_at (same_rune fold) text sub m -> (m <= k)%nat)
  \/ (IndexAllBckEx text sub fold = -1 /\ forall m, ~ occurs_at (same_rune fold) text sub m).
Proof. exact IndexAllBckEx_spec. Qed.
Print Assumptions C01_backward_search.
Example C01_backward_search_ex :
  IndexAllBckEx [97;98;97;98;97] [97;66] true = 2 /\ IndexAllBckEx [97;98] [99] false = -1
  /\ occurs_at (same_rune true) [97;98;97;98;97] [97;66] 2.
Proof.
  split; [reflexivity|]. split; [reflexivity|].
  exists [97;98], [97;98], [97]. repeat split; repeat constructor.
Qed.

(** C01: forward search returns the smallest occurrence inside the text, or -1 iff there is none
    (for the empty text the empty needle is reported as not found). *)
Theorem C01_forward_search : forall text sub fold,
  (exists k, IndexAllEx text sub fold = Z.of_nat k /\ (k < length text)%nat /\
     occurs_at (same_rune fold) text sub k /\
     forall m, occurs_at (same_rune fold) text sub m -> (k <= m)%nat)
  \/ (IndexAllEx text sub fold = -1 /\
      forall m, (m < length text)%nat -> ~ occurs_at (same_rune fold) text sub m).
Proof. exact IndexAllEx_spec. Qed.
Print Assumptions C01_forward_search.
Example C01_forward_search_ex :
  IndexAllEx [97;98;97;98;97] [98;97] false = 1 /\ IndexAllEx [] [] false = -1.
Proof. split; reflexivity. Qed.

(** C02: folded comparison is equality after ASCII lower-casing, for runes and strings. *)
(** Without folding the match is exact. *)
Theorem C01_exact_backward : forall text sub,
  (exists k, IndexAllBck text sub = Z.of_nat k /\ occurs_at eq text sub k /\ forall m, occurs_at eq text sub m -> (m <= k)%nat)
  \/ (IndexAllBck text sub = -1 /\ forall m, ~ occurs_at eq text sub m).
Proof. exact (fun text sub => IndexAllBckEx_spec text sub false). Qed.
Print Assumptions C01_exact_backward.
Theorem C01_exact_forward : forall text sub,
  (exists k, IndexAll text sub = Z.of_nat k /\ (k < length text)%nat /\ occurs_at eq text sub k /\ forall m, occurs_at eq text sub m -> (k <= m)%nat)
  \/ (IndexAll text sub = -1 /\ forall m, (m < length text)%nat -> ~ occurs_at eq text sub m).
Proof. exact (fun text sub => IndexAllEx_spec text sub false). Qed.
Print Assumptions C01_exact_forward.
Example C01_exact_ex : IndexAllBck [97;66;97;98] [97;98] = 2 /\ IndexAllBck [97;98;65;98] [97;98] = 0 /\ IndexAll [65;98;97;98] [97;98] = 2.
Proof. repeat split. Qed.

Theorem C02_fold_rune : forall a b, EqualRuneFold a b = true <-> lower a = lower b.
Proof. exact EqualRune_fold_spec. Qed.
Print Assumptions C02_fold_rune.

Theorem C02_fold_string : forall a b, EqualFold a b = true <-> map lower a = map lower b.
Proof. exact EqualFold_spec. Qed.
Print Assumptions C02_fold_string.

Theorem C02_fold_prefix : forall r p,
  HasPrefixFold r p = true <-> exists p' t, r = p' ++ t /\ map lower p' = map lower p.
Proof. exact HasPrefixFold_spec. Qed.
Print Assumptions C02_fold_prefix.

Theorem C02_exact : forall a b, (EqualRune a b false = true <-> a = b).
Proof. exact (fun a b => EqualRune_spec a b false). Qed.
Print Assumptions C02_exact.

Theorem C02_exact_string : forall a b, Equal a b = true <-> a = b.
Proof. exact Equal_spec. Qed.
Print Assumptions C02_exact_string.

Theorem C02_exact_prefix : forall r p, HasPrefix r p = true <-> is_prefix p r.
Proof. exact HasPrefix_spec. Qed.
Print Assumptions C02_exact_prefix.
Example C02_ex : EqualRuneFold 65 97 = true /\ EqualRuneFold 201 233 = false /\ EqualRuneFold 64 96 = false
  /\ EqualFold [65;122;233] [97;90;233] = true.
Proof. repeat split; reflexivity. Qed.

(** C03: Aggregate computes the longest common prefix and strips exactly it. *)
Theorem C03_aggregate : forall cands, cands <> [] ->
  exists same size rest, Aggregate cands = Ok (same, size, rest) /\
    size = length same /\
    longest_common_prefix same cands /\
    cands = map (fun c => same ++ c) rest.
Proof. exact Aggregate_correct. Qed.
Print Assumptions C03_aggregate.
Example C03_ex : Aggregate [[100;100;98]; [100;100;97;106]; [100;100]]
  = Ok ([100;100], 2%nat, [[98]; [97;106]; []]).
Proof. reflexivity. Qed.

(** C04: colour sequences do not count as prompt width. *)
Theorem C04_prompt_width : forall u ps, forallb piece_ok ps = true ->
  exists filtered, ColorFilter (prompt_runes ps) = Ok filtered /\
    WidthAll u filtered = sum (map (Width u) (visible ps)).
Proof.
  exact (fun u ps H => ex_intro _ (visible ps) (conj (ColorFilter_prompt ps H) (WidthAll_sum u (visible ps)))).
Qed.
Print Assumptions C04_prompt_width.

Theorem C04_prompt_filtered : forall ps, forallb piece_ok ps = true ->
  ColorFilter (prompt_runes ps) = Ok (visible ps).
Proof. exact ColorFilter_prompt. Qed.
Print Assumptions C04_prompt_filtered.
Example C04_ex :
  let ps := [Sgr [51;49]; Vis 62; Vis 32; Sgr []; Vis 91] in
  forallb piece_ok ps = true /\ prompt_runes ps = [27;91;51;49;109;62;32;27;91;109;91] /\
  ColorFilter (prompt_runes ps) = Ok [62;32;91].
Proof. repeat split; reflexivity. Qed.

(** C04: a prompt ending in a bare ESC makes measuring the prompt panic. *)
Theorem C04_trailing_esc_panics : forall ps, forallb piece_ok ps = true ->
  ColorFilter (prompt_runes ps ++ [27]) = Panic.
Proof. exact ColorFilter_trailing_esc_panics. Qed.
Print Assumptions C04_trailing_esc_panics.

(** C04: ESC [ without an "m" anywhere after it: only ESC is left out. *)
Theorem C04_unfinished : forall t, ~ In 27 t -> ~ In 109 t -> ColorFilter (27 :: 91 :: t) = Ok (91 :: t).
Proof. exact ColorFilter_unfinished. Qed.
Print Assumptions C04_unfinished.
Example C04_unfinished_ex : ColorFilter [27; 91; 51; 49; 62; 32] = Ok [91; 51; 49; 62; 32].
Proof. reflexivity. Qed.

(** C04, finding: another escape sequence in the prompt (here ESC[2K before "name> ") swallows the
    visible text up to the next 'm', so the measured prompt is shorter than the shown one. *)
Theorem C04_other_csi_refuted :
  exists csi text, csi = [27;91;50;75] /\ ~ In 27 text /\ ColorFilter (csi ++ text) <> Ok text /\
    ColorFilter (csi ++ text) = Ok [101;62;32] /\ text = [110;97;109;101;62;32].
Proof.
  exists [27;91;50;75], [110;97;109;101;62;32].
  split; [reflexivity|]. split; [cbn; intuition discriminate|].
  split; [vm_compute; discriminate|]. split; reflexivity.
Qed.
Print Assumptions C04_other_csi_refuted.

(** C05: converting runes to a string and back only replaces invalid runes by U+FFFD,
    also in the middle of a longer byte string. *)
Theorem C05_utf8_roundtrip : forall rs bytes,
  decode (encode rs ++ bytes) = map sanitize rs ++ decode bytes.
Proof. exact decode_encode_app. Qed.
Print Assumptions C05_utf8_roundtrip.

Theorem C05_utf8_valid : forall rs, Forall scalar rs -> decode (encode rs) = rs.
Proof. exact (fun rs H => eq_trans (decode_encode rs) (map_sanitize_id rs H)). Qed.
Print Assumptions C05_utf8_valid.
Example C05_ex : encode [97; 233; 20320; 128512; -5; 55296] =
    [97; 195;169; 228;189;160; 240;159;152;128; 239;191;189; 239;191;189]
  /\ decode (encode [97; 233; 20320; 128512; -5]) = [97; 233; 20320; 128512; 65533]
  /\ Forall scalar [97; 233; 20320; 128512].
Proof. repeat split; repeat constructor; unfold scalar; lia. Qed.

(** C05: the encoding consists of bytes, decoding yields scalars only and [length bs] steps are always enough. *)
Theorem C05_utf8_bytes : forall rs, Forall is_byte (encode rs).
Proof. exact encode_all_bytes. Qed.
Print Assumptions C05_utf8_bytes.

Theorem C05_decode_total : forall bs fuel, (length bs <= fuel)%nat -> decode_fuel fuel bs = decode bs.
Proof. exact (fun bs fuel => decode_fuel_enough fuel bs). Qed.
Print Assumptions C05_decode_total.

Theorem C05_decode_scalars : forall bs, Forall is_byte bs -> Forall scalar (decode bs).
Proof. exact decode_scalar. Qed.
Print Assumptions C05_decode_scalars.
Example C05_decode_ex : decode [97; 255; 226; 130; 65] = [97; 65533; 65533; 65533; 65].
Proof. reflexivity. Qed.
