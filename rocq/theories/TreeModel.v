(** Model of PrefixCompleter.Tree and Print (/repo/complete_helper.go:32-56). *)
From Verif Require Import Base RunesModel CompleterModel HistoryModel.
Open Scope nat_scope.

(** The Name field (complete_helper.go:86-101): PcItem adds a blank, PcItemDynamic leaves it empty. *)
Definition GetName (t : ctree) : list Z := match t with Item n _ => n ++ [32%Z] | Dynamic _ _ => [] end.

(** complete_helper.go:38-52 Print *)
Fixpoint Print (prefix : list Z) (level : nat) (t : ctree) {struct t} : list Z :=
  let name := GetName t in
  let named := negb (length (TrimSpace name) =? 0) in
  let own :=
    if named then
      prefix ++ (if 0 <? level then [9500%Z] ++ repeat 9472%Z (level * 4 - 2) ++ [32%Z] else []) ++ name ++ [10%Z]
    else [] in
  let level' := if named then S level else level in
  own ++
  (fix loop (ks : list ctree) : list Z := match ks with [] => [] | c :: ks' => Print prefix level' c ++ loop ks' end)
    (match t with Item _ k => k | Dynamic _ k => k end).

(** complete_helper.go:32-36 Tree *)
Definition Tree (prefix : list Z) (t : ctree) : list Z := Print prefix 0 t.
