(** Time as a suspended process sees it. *)
From Verif Require Import Base TtyModel.
Open Scope Z_scope.

(** The ticks of a process that runs: each at most 100 ms after the one before. *)
Fixpoint steady (t : Z) (ticks : list Z) : Prop :=
  match ticks with [] => True | x :: rest => t <= x <= t + 100 /\ steady x rest end.

(** A process that runs, is stopped from [a] to [b] and runs again: nothing ticks in between. *)
Record stopped (a b t0 : Z) (before after : list Z) : Prop := {
  st_before : steady t0 before;
  st_until : forall x, In x (t0 :: before) -> x <= a;
  st_from : match after with x :: _ => b <= x | [] => True end
}.

(** What the shell finds and leaves, one suspension after the other. *)
Fixpoint left_by (shells : list (termios -> termios)) (t : termios) : termios :=
  match shells with [] => t | f :: fs => left_by fs (f t) end.
Fixpoint found_by (shells : list (termios -> termios)) (t : termios) : list termios :=
  match shells with [] => [] | f :: fs => t :: found_by fs (f t) end.
