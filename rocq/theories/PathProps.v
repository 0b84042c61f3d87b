(** Property C46, searching: which history Ctrl-R looks into. *)
From Verif Require Import Base RunesModel RuneBufModel HistoryModel HistorySpec OpModel LifeModel LifeSpec LifeProofs LifeProps PathModel.
Open Scope Z_scope.

(** Until SetHistoryPath is called, the search looks into the history lines are recorded in. *)
Theorem C46_search_partial : forall l, k_hist (l_cfg l (l_cur l)) = Some (l_hid l) -> search_op l = cur_op l.
Proof. intros l K. unfold search_op, search_hid. rewrite K. reflexivity. Qed.
Print Assumptions C46_search_partial.
(** After it, a line just recorded is not found, and a line from before is, though it is no longer in the history. *)
Theorem C46_search_refuted : exists e l l' a o1 o2, lreach e l /\ lrun e [LKeys [120; 13]; LPath [104]; LKeys [98; 13]] l = Ok (l', a) /\
  committed (l_his l' (l_hid l')) = [[98]] /\
  search_for e [98] l' = Ok o1 /\ rb_buf (o_b o1) = [] /\ s_fail (o_s o1) = true /\
  search_for e [120] l' = Ok o2 /\ rb_buf (o_b o2) = [120] /\ s_fail (o_s o2) = false.
Proof.
  exists term80, plain_app.
  destruct (lrun term80 [LKeys [120; 13]; LPath [104]; LKeys [98; 13]] plain_app) as [[l' a]| |] eqn:E; [|vm_compute in E; discriminate|vm_compute in E; discriminate].
  exists l', a. do 2 eexists. split; [apply lr_new; reflexivity|]. split; [reflexivity|]. vm_compute in E. injection E as <- <-.
  split; [vm_compute; reflexivity|]. split; [vm_compute; reflexivity|]. split; [vm_compute; reflexivity|]. split; [vm_compute; reflexivity|].
  split; [vm_compute; reflexivity|]. split; vm_compute; reflexivity.
Qed.
Print Assumptions C46_search_refuted.
