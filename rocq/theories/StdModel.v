(** Model of the package-level functions, /repo/std.go:16-66, on top of LifeModel.v: one instance, made at the first call
    with recording of lines by the editor switched off.  [string] and [[]rune] are not told apart (the lines are valid text). *)
From Verif Require Import Base RunesModel RuneBufModel HistoryModel RenderModel OpModel LifeModel.
Open Scope Z_scope.

(** std.go:22-29 getInstance: Config{DisableAutoSaveHistory: true} *)
Definition std_config : lcfg :=
  {| k_prompt := []; k_file := []; k_limit := 0; k_nosave := true; k_fold := false; k_auto := None; k_listen := None;
     k_vim := false; k_intp := []; k_eofp := []; k_width := None; k_tty := None; k_force := false; k_enmask := false; k_mask := 0;
     k_unique := false; k_filter := None; k_inited := false; k_hist := None; k_srch := s0 |}.
Definition std_new (e : lenv) (fs : list Z -> list Z) : life := life_new e fs std_config.

(** readline.go:150-154 Clone *)
Definition clone (k : lcfg) : lcfg :=
  {| k_prompt := k_prompt k; k_file := k_file k; k_limit := k_limit k; k_nosave := k_nosave k; k_fold := k_fold k; k_auto := k_auto k;
     k_listen := k_listen k; k_vim := k_vim k; k_intp := k_intp k; k_eofp := k_eofp k; k_width := k_width k; k_tty := k_tty k;
     k_force := k_force k; k_enmask := k_enmask k; k_mask := k_mask k; k_unique := k_unique k; k_filter := k_filter k;
     k_inited := k_inited k; k_hist := None; k_srch := s0 |}.
Definition with_auto (f : option (list Z -> nat -> list (list Z) * nat)) (k : lcfg) : lcfg :=
  {| k_prompt := k_prompt k; k_file := k_file k; k_limit := k_limit k; k_nosave := k_nosave k; k_fold := k_fold k; k_auto := f;
     k_listen := k_listen k; k_vim := k_vim k; k_intp := k_intp k; k_eofp := k_eofp k; k_width := k_width k; k_tty := k_tty k;
     k_force := k_force k; k_enmask := k_enmask k; k_mask := k_mask k; k_unique := k_unique k; k_filter := k_filter k;
     k_inited := k_inited k; k_hist := k_hist k; k_srch := k_srch k |}.

(** std.go:31-40 SetHistoryPath, 42-48 SetAutoComplete.  The current configuration is the one Instance.Config points at. *)
Definition std_path (e : lenv) (p : list Z) (l : life) : life := SetConfig e (l_new l) (add_cfg (with_file p (clone (l_cfg l (l_cur l)))) l).
Definition std_auto (e : lenv) (f : option (list Z -> nat -> list (list Z) * nat)) (l : life) : life :=
  SetConfig e (l_new l) (add_cfg (with_auto f (clone (l_cfg l (l_cur l)))) l).

(** std.go:50-55 AddHistory; readline.go:265-267 and operation.go:499-501 SaveHistory *)
Definition AddHistory (s : list Z) (l : life) : outcome life :=
  h <- New (hcfg_of (l_cfg l (l_hcfg l (l_hid l)))) s (h_load (l_hid l) l) ;; Ok (h_store (l_hid l) h l).

(** std.go:57-60 Password *)
Definition std_password (e : lenv) (prompt rs : list Z) (l : life) : outcome (life * list act) := ReadPassword e prompt None rs l.
