(** The outline of a completer, and what it stands for. *)
From Verif Require Import Base RunesModel CompleterModel.
Open Scope nat_scope.

(** The commands of a completer as a forest of words: items with a blank name and dynamic items have no word of their own,
    the words below them count as words of the level they are on. *)
Inductive words := Word (w : list Z) (below : list words).
Definition blank (w : list Z) : bool := forallb IsSpace w.
Fixpoint commands (t : ctree) : list words :=
  match t with
  | Item n k => if blank n then flat_map commands k else [Word n (flat_map commands k)]
  | Dynamic _ k => flat_map commands k
  end.

(** The words with their depths, each before those below it. *)
Fixpoint outline (d : nat) (w : words) : list (nat * list Z) :=
  match w with Word n below => (d, n) :: flat_map (outline (S d)) below end.

(** One line of the outline: the word and a blank, from depth 1 on behind a branch of 4 d - 2 dashes. *)
Definition shown (prefix : list Z) (l : nat * list Z) : list Z :=
  prefix ++ match fst l with O => [] | S d => 9500%Z :: repeat 9472%Z (2 + 4 * d) ++ [32%Z] end ++ snd l ++ [32; 10]%Z.

(** Words that cannot be taken for something else on a line. *)
Definition readable (w : list Z) : Prop := ~ In 10%Z w /\ match w with r :: _ => r <> 9500%Z | [] => True end.
Fixpoint all_readable (w : words) : Prop :=
  match w with Word n below => readable n /\ fold_right (fun x P => all_readable x /\ P) True below end.
