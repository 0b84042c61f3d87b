(** What GetOffset should do. *)
From Verif Require Import Base TerminalModel TerminalSpec OffsetModel.
Open Scope Z_scope.

Definition digits (d : list Z) : Prop := d <> [] /\ Forall (fun r => 48 <= r <= 57) d /\ decimal d <= 9223372036854775807.
(** A cursor position: row and column. *)
Definition position (a : list Z) : Prop := exists d1 d2, a = d1 ++ 59 :: d2 /\ digits d1 /\ digits d2.
(** The terminal's report of it. *)
Definition report_of (a : list Z) : list Z := [27; 91] ++ a ++ [82].

(** One question and its answer.  Before the report the keys [pre] come in; the goroutine runs at some time, before the report, in the middle of it or
    after it. *)
Inductive question (i : nat) (a pre : list Z) : list oevent -> Prop :=
| Question l1 l2 : ~ In 27 pre -> pre ++ report_of a = l1 ++ l2 -> question i a pre (OAsk i :: map OIn l1 ++ ORun i :: map OIn l2).
(** Keys and questions in turn; every report comes before the next question. *)
Inductive conversation : list (nat * list Z) -> list Z -> list oevent -> Prop :=
| Silence : conversation [] [] []
| Typed ks qs k es : ~ In 27 ks -> conversation qs k es -> conversation qs (ks ++ k) (map OIn ks ++ es)
| Asked i a pre qs k q es : position a -> question i a pre q -> conversation qs k es -> conversation ((i, a) :: qs) (pre ++ k) (q ++ es).

(** The positions of the reports in a decoded input. *)
Definition reports (os : list tout) : list (list Z) := flat_map (fun o => match o with TReport a => [a] | _ => [] end) os.
