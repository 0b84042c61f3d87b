(** The search after SetHistoryPath: opSearch keeps the history it was made with. *)
From Verif Require Import Base RunesModel RuneBufModel HistoryModel OpModel LifeModel.
Open Scope Z_scope.

(** search.go:26 and 34-42: the history of the search is the one of the configuration (operation.go:476-479 creates both together);
    SetHistoryPath (operation.go:446-452) replaces op.history only. *)
Definition search_hid (l : life) : nat := match k_hist (l_cfg l (l_cur l)) with Some h => h | None => l_hid l end.
Definition search_op (l : life) : op := with_h (h_load (search_hid l) l) (cur_op l).

(** Ctrl-R (operation.go:187-191) and text typed while searching (operation.go:326-331, search.go:94-97); the editor as the search leaves it *)
Fixpoint search_chars (cf : ocfg) (rs : list Z) (o : op) : outcome op :=
  match rs with [] => Ok o | r :: rs' => o' <- SearchChar cf r o ;; search_chars cf rs' o' end.
Definition search_for (e : lenv) (rs : list Z) (l : life) : outcome op :=
  let cf := ocfg_of e (l_prompt l) (l_vim l) (l_cfg l (l_cur l)) in
  x <- SearchMode cf true (search_op l) ;; search_chars cf rs (fst x).
