(** Independent specification for rune/string conversion. *)
From Verif Require Import Base.
Open Scope Z_scope.

(** Unicode scalar values: what a Go string can carry. *)
Definition scalar (r : Z) : Prop := (0 <= r <= 55295) \/ (57344 <= r <= 1114111).

Definition scalarb (r : Z) : bool :=
  ((0 <=? r) && (r <=? 55295)) || ((57344 <=? r) && (r <=? 1114111)).

(** What survives the conversion: scalars stay, everything else becomes U+FFFD. *)
Definition sanitize (r : Z) : Z := if scalarb r then r else 65533.

Definition is_byte (b : Z) : Prop := 0 <= b <= 255.
