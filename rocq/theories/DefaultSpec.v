(** Specification vocabulary for a line offered with ReadlineWithDefault. *)
From Verif Require Import Base RunesModel RuneBufModel HistoryModel RenderModel OpModel.
Open Scope Z_scope.

(** Keys that edit the line, move the cursor or complete: all but Enter, Ctrl-J, Ctrl-C, the end of the input, up, down,
    Ctrl-R and Ctrl-S; Ctrl-D only when it deletes. *)
Definition edits (line : list Z) (r : Z) : Prop :=
  r <> 0 /\ r <> 3 /\ r <> 10 /\ r <> 13 /\ r <> 14 /\ r <> 16 /\ r <> 18 /\ r <> 19 /\ (r = 4 -> line <> []).
