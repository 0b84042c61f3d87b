(** Specification vocabulary for FillableStdin. *)
From Verif Require Import Base StdinModel.
Open Scope nat_scope.

(** Everything written to the fill side, in order *)
Fixpoint filled (ops : list fop) : list Z :=
  match ops with [] => [] | FFill p :: ops' => p ++ filled ops' | FRead _ :: ops' => filled ops' end.

(** Every read offers a buffer of at least [k] bytes *)
Definition reads_at_least (k : nat) (ops : list fop) : Prop :=
  Forall (fun o => match o with FRead n => k <= n | FFill _ => True end) ops.

(** [out] merges [a] and [b], keeping the order of each *)
Inductive merge {A} : list A -> list A -> list A -> Prop :=
| merge_nil : merge [] [] []
| merge_l x a b o : merge a b o -> merge (x :: a) b (x :: o)
| merge_r x a b o : merge a b o -> merge a (x :: b) (x :: o).
