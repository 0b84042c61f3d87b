(** Specification vocabulary for the Windows translator. *)
From Verif Require Import Base TerminalModel AnsiWinModel.
Open Scope Z_scope.

(** Colour codes outside the two eight-entry tables *)
Definition bad (c : Z) : Prop := c = 38 \/ c = 39 \/ c = 48 \/ c = 49.

(** some parameter before the first non-number is a bad colour *)
Fixpoint has_bad (arg : list (list Z)) : Prop :=
  match arg with
  | [] => False
  | x :: arg' => match Atoi_signed x with None => False | Some c => bad c \/ has_bad arg' end
  end.


(** The runes that end a sequence for the translator: A to D, J, K, m and the bell. *)
Definition ends_seq (r : Z) : Prop := 65 <= r <= 68 \/ r = 74 \/ r = 75 \/ r = 109 \/ r = 7.

(** Parameters with a semicolon between them. *)
Fixpoint semis (ps : list (list Z)) : list Z :=
  match ps with [] => [] | [p] => p | p :: ps' => p ++ [59] ++ semis ps' end.
