(** Specification vocabulary for completers. *)
From Verif Require Import Base RunesModel RunesSpec CompleterModel.
Open Scope nat_scope.

(** The names a user wrote for one node (without the blank the library adds). *)
Definition written_names (orig : list Z) (t : ctree) : list (list Z) :=
  match t with Item n _ => [n] | Dynamic cb _ => cb orig end.

(** All names offered below a node, each with the subtree it leads to. *)
Definition entries (orig : list Z) (t : ctree) : list (list Z * ctree) :=
  flat_map (fun c => map (fun n => (n, c)) (written_names orig c)) (children t).

Definition name_ok (n : list Z) : Prop := n <> [] /\ Forall (fun x => IsSpace x = false) n.

(** Sibling names are distinct, non-empty and free of white space, at every level. *)
Inductive tree_ok (orig : list Z) : ctree -> Prop :=
| tree_ok_intro t :
    NoDup (map fst (entries orig t)) ->
    Forall (fun e => name_ok (fst e)) (entries orig t) ->
    (forall c, In c (children t) -> tree_ok orig c) ->
    tree_ok orig t.

(** [reach orig t ws t']: following the words [ws] from [t] leads to [t']. *)
Inductive reach (orig : list Z) : ctree -> list (list Z) -> ctree -> Prop :=
| reach_nil t : reach orig t [] t
| reach_cons t w c ws t' : In (w, c) (entries orig t) -> reach orig c ws t' -> reach orig t (w :: ws) t'.

(** A line: white space, then words each followed by a gap (a blank and more white space), then the
    last, possibly empty, word. *)
Definition all_space (g : list Z) : Prop := Forall (fun x => IsSpace x = true) g.
Definition word_ok (w : list Z) : Prop :=
  ~ In 32%Z w /\ match w with [] => True | x :: _ => IsSpace x = false end.

Inductive line_of_words : list (list Z) -> list Z -> list Z -> Prop :=
| low_last w : word_ok w -> line_of_words [] w w
| low_word v g ws w l : word_ok v -> v <> [] -> all_space g -> line_of_words ws w l ->
    line_of_words (v :: ws) w (v ++ 32%Z :: g ++ l).

(** The completions of [w] among the names below [t]. *)
Fixpoint strip (w n : list Z) : option (list Z) :=
  match w, n with
  | [], n => Some n
  | x :: w', y :: n' => if (x =? y)%Z then strip w' n' else None
  | _ :: _, [] => None
  end.

Definition completions (orig : list Z) (t : ctree) (w : list Z) : list (list Z) :=
  flat_map (fun e => match strip w (fst e) with Some s => [s ++ [32%Z]] | None => [] end) (entries orig t).

(** Segments joined by single blanks. *)
Fixpoint join_blank (segs : list (list Z)) : list Z :=
  match segs with
  | [] => []
  | [s] => s
  | s :: rest => s ++ 32%Z :: join_blank rest
  end.
