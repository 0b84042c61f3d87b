(** Specification vocabulary for a program reading lines in a loop: what the user does at each prompt. *)
From Verif Require Import Base RunesModel Utf8Model RuneBufModel HistoryModel RenderModel OpModel OpSpec.
Open Scope Z_scope.

(** A line is typed and entered, typed and given up with Ctrl-C, or Ctrl-D is pressed on the empty line. *)
Inductive user := UEnter (t : list Z) (e : Z) | UIntr (t : list Z) | UEof.
Definition does (x : user) : list Z := match x with UEnter t e => t ++ [e] | UIntr t => t ++ [3] | UEof => [4] end.
Definition sensible (x : user) : Prop :=
  match x with UEnter t e => Forall ordinary t /\ (e = 13 \/ e = 10) | UIntr t => Forall ordinary t | UEof => True end.

(** What the program is meant to handle: the lines entered, up to Ctrl-C or Ctrl-D on an empty line; and whether this came. *)
Fixpoint handled (xs : list user) : list (list Z) * bool :=
  match xs with
  | [] => ([], false)
  | UEnter t _ :: xs' => (encode t :: fst (handled xs'), snd (handled xs'))
  | UIntr [] :: _ => ([], true)
  | UIntr _ :: xs' => handled xs'
  | UEof :: _ => ([], true)
  end.
