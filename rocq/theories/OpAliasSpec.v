(** Vocabulary for sessions with searches. *)
From Verif Require Import Base RunesModel RuneBufModel HistoryModel RenderModel OpModel OpSpec OpAliasModel.
Open Scope Z_scope.

(** Every search is started once, with Ctrl-R or Ctrl-S, and given up with Ctrl-G or Ctrl-C: while searching, only
    these two and keys that change the text searched for are pressed. *)
Fixpoint given_up (cf : ocfg) (rs : list (Z * (list Z -> list Z))) (a : aop) : Prop :=
  match rs with
  | [] => True
  | (r, spare) :: rs' =>
      (s_in (o_s (a_o a)) = true -> search_key r \/ r = 7 \/ r = 3) /\
      forall a' l, a_step spare cf r a = Ok (a', l) -> given_up cf rs' a'
  end.

(** Nothing is recorded for the line being edited. *)
Definition blank (h : hist) : Prop := forall e, back h = Some e -> it_src e = [].

(** No key of the sequence is one of those that can break the editor ([trips]). *)
Fixpoint asafe (cf : ocfg) (rs : list (Z * (list Z -> list Z))) (a : aop) : Prop :=
  match rs with
  | [] => True
  | (r, sp) :: rs' => ~ trips cf (a_o a) r /\ forall a' l, a_step sp cf r a = Ok (a', l) -> asafe cf rs' a'
  end.
