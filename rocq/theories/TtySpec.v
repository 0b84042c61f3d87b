(** Specification vocabulary for terminal settings. *)
From Verif Require Import Base TtyModel.
Open Scope Z_scope.

(** Enter is never called while raw mode is on; every Exit is allowed. *)
Fixpoint unnested (on : bool) (cs : list rawcall) : Prop :=
  match cs with
  | [] => True
  | REnter :: cs' => on = false /\ unnested true cs'
  | RExit :: cs' => unnested false cs'
  end.

(** Flag [f] (a power of two) is set in word [w]. *)
Definition flag (w : Z) (bit : Z) : bool := Z.testbit w bit.
