(** Several configurations: what is expected. *)
From Verif Require Import Base TtyModel CfgModel.
Open Scope nat_scope.

Section spec.
(** Which functions for the terminal a configuration has, and which input. *)
Variables (rm rt : nat -> nat).

(** What was given to WriteStdin while the configuration of the instance had the input [r]; [cur] is the one at the
    beginning. *)
Fixpoint written (r cur : nat) (es : list cev) : list Z :=
  match es with
  | [] => []
  | VSet c :: es' => written r c es'
  | VWrite b :: es' => (if rt cur =? r then b else []) ++ written r cur es'
  | _ :: es' => written r cur es'
  end.
(** All that was given to WriteStdin, and all that was read of it. *)
Definition text_of (e : cev) : list Z := match e with VWrite b => b | _ => [] end.
Definition all_written (es : list cev) : list Z := flat_map text_of es.
Definition from_fill (x : nat * bool * list Z) : list Z := let '(_, f, b) := x in if f then b else [].
Definition fills (d : list (nat * bool * list Z)) : list Z := flat_map from_fill d.

(** Every configuration given to the instance has the input [r]. *)
Definition same_input (r : nat) (es : list cev) : Prop := forall c, In (VSet c) es -> rt c = r.

(** The calls of a program that lets Readline return before it calls it again, and does not give the instance another
    configuration meanwhile unless that has the same functions for the terminal.  [p]: Readline has not returned yet. *)
Fixpoint orderly (p : bool) (cur : nat) (es : list cev) : Prop :=
  match es with
  | [] => True
  | VEnter :: es' => p = false /\ orderly true cur es'
  | VExit :: es' => p = true /\ orderly false cur es'
  | VStop :: es' => p = true /\ orderly p cur es'
  | VSet c :: es' => (p = true -> rm c = rm cur) /\ orderly p c es'
  | _ :: es' => orderly p cur es'
  end.
Fixpoint pending (p : bool) (es : list cev) : bool :=
  match es with [] => p | VEnter :: es' => pending true es' | VExit :: es' => pending false es' | _ :: es' => pending p es' end.

(** The inputs of the configurations used, each once. *)
Definition names_of (e : cev) : list nat := match e with VSet c | VOp c => [c] | _ => [] end.
Definition used (c0 : nat) (es : list cev) : list nat := nodup Nat.eq_dec (map rt (c0 :: flat_map names_of es)).
End spec.

(** A password prompt: ReadPassword makes a new configuration and puts the old one back (operation.go:403-420,
    password.go:13-33). *)
Definition ask_password (k : list Z) (back c : nat) : list cev := [VOp c; VEnter; VRead k; VExit; VOp back].
