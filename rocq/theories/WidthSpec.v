(** Specification vocabulary for changes of the terminal's width. *)
From Verif Require Import Base WidthModel.
Open Scope Z_scope.

(** All parts of instance [k] use the terminal's width. *)
Definition agrees (k : nat) (p : wproc) : Prop :=
  wi_buf (p_inst p k) = p_width p /\ wi_comp (p_inst p k) = p_width p /\ wi_search (p_inst p k) (wi_cur (p_inst p k)) = Some (p_width p).

(** What happens to one instance (number [k], at first with configuration 0): other configurations are used once (as
    ReadPassword does), and the width does not change while one is in use. *)
Fixpoint used_once (k : nat) (cur : nat) (seen : list nat) (es : list wevent) : Prop :=
  match es with
  | [] => True
  | WNew :: _ => False
  | WConfig k' i _ :: es' => k' = k /\ (i = 0%nat \/ ~ In i seen) /\ used_once k i (i :: seen) es'
  | WResize _ :: es' => cur = 0%nat /\ used_once k cur seen es'
  end.
