(** Go's conversions between rune slices and strings (UTF-8), as used by
    operation.go:376-379 and 430-436 ([string(r)]), history.go:86, 122, 316,
    terminal.go:144 ([bufio.Reader.ReadRune]). Follows Go's unicode/utf8 tables. *)
From Verif Require Import Base.
Open Scope Z_scope.

Definition RuneError : Z := 65533.

(** utf8.ValidRune *)
Definition valid_rune (r : Z) : bool :=
  ((0 <=? r) && (r <? 55296)) || ((57343 <? r) && (r <=? 1114111)).

(** utf8.EncodeRune: invalid runes are encoded as RuneError. *)
Definition encode_rune (r0 : Z) : list Z :=
  let r := if valid_rune r0 then r0 else RuneError in
  if r <=? 127 then [r]
  else if r <=? 2047 then [192 + r / 64; 128 + r mod 64]
  else if r <=? 65535 then [224 + r / 4096; 128 + (r / 64) mod 64; 128 + r mod 64]
  else [240 + r / 262144; 128 + (r / 4096) mod 64; 128 + (r / 64) mod 64; 128 + r mod 64].

(** string([]rune) / []byte(string([]rune)) *)
Definition encode (rs : list Z) : list Z := flat_map encode_rune rs.

Definition in_range (lo hi b : Z) : bool := (lo <=? b) && (b <=? hi).

(** utf8.DecodeRune on a non-empty byte list: rune and the unread rest. *)
Definition decode_rune (b0 : Z) (rest : list Z) : Z * list Z :=
  let bad := (RuneError, rest) in
  if b0 <? 128 then (b0, rest)
  else if in_range 194 223 b0 then
    match rest with
    | b1 :: r1 =>
        if in_range 128 191 b1 then ((b0 - 192) * 64 + (b1 - 128), r1) else bad
    | _ => bad
    end
  else if in_range 224 239 b0 then
    let lo := if b0 =? 224 then 160 else 128 in
    let hi := if b0 =? 237 then 159 else 191 in
    match rest with
    | b1 :: b2 :: r2 =>
        if in_range lo hi b1 && in_range 128 191 b2
        then ((b0 - 224) * 4096 + (b1 - 128) * 64 + (b2 - 128), r2) else bad
    | _ => bad
    end
  else if in_range 240 244 b0 then
    let lo := if b0 =? 240 then 144 else 128 in
    let hi := if b0 =? 244 then 143 else 191 in
    match rest with
    | b1 :: b2 :: b3 :: r3 =>
        if in_range lo hi b1 && in_range 128 191 b2 && in_range 128 191 b3
        then ((b0 - 240) * 262144 + (b1 - 128) * 4096 + (b2 - 128) * 64 + (b3 - 128), r3) else bad
    | _ => bad
    end
  else bad.

(** []rune(string(bytes)); every step consumes at least one byte, so [length bs] steps suffice
    (proved in Utf8Proofs: [decode_fuel_enough]). *)
Fixpoint decode_fuel (fuel : nat) (bs : list Z) : list Z :=
  match fuel with
  | O => []
  | S f =>
      match bs with
      | [] => []
      | b0 :: rest => let '(r, rest') := decode_rune b0 rest in r :: decode_fuel f rest'
      end
  end.

Definition decode (bs : list Z) : list Z := decode_fuel (length bs) bs.
