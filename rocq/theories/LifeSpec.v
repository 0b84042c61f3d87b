(** Vocabulary for configurations and password entry. *)
From Verif Require Import Base HistoryModel OpModel OpSpec LifeModel.
Open Scope nat_scope.

(** Objects exist, the line buffer uses the current configuration, every configuration that has a history has one
    made for it. *)
Record lwf (l : life) : Prop := {
  lw_buf : l_buf l = l_cur l;
  lw_cur : l_cur l < l_new l;
  lw_hid : l_hid l < l_new l;
  lw_hcfg : l_hcfg l (l_hid l) = l_cur l;
  lw_init : k_inited (l_cfg l (l_cur l)) = true;
  lw_has : k_hist (l_cfg l (l_cur l)) <> None;
  lw_own : forall i h, k_hist (l_cfg l i) = Some h -> i < l_new l /\ h < l_new l /\ l_hcfg l h = i;
  lw_inter : l_inter l = interactive (l_cfg l (l_cur l)) }.

(** A configuration made by the application: used nowhere yet. *)
Definition unused (k : lcfg) : Prop := k_hist k = None.
Definition sane (l : life) (c : lcall) : Prop :=
  match c with LConfig k => unused k | LBack i => i < l_new l | _ => True end.

(** States an application can bring about. *)
Inductive lreach (e : lenv) : life -> Prop :=
| lr_new fs k : unused k -> lreach e (life_new e fs k)
| lr_step l c l' a : lreach e l -> sane l c -> lstep e c l = Ok (l', a) -> lreach e l'.

(** The configurations, histories and files that exist in [l] are the same in [l1] and [l2]. *)
Record same_store (l l1 l2 : life) : Prop := {
  st_cfg : forall i, i < l_new l -> l_cfg l1 i = l_cfg l2 i;
  st_his : forall i, i < l_new l -> l_his l1 i = l_his l2 i;
  st_files : forall q, l_files l1 q = l_files l2 q }.
(** ... and so is what is used now. *)
Record same_use (l1 l2 : life) : Prop := {
  su_cur : l_cur l1 = l_cur l2;
  su_buf : l_buf l1 = l_buf l2;
  su_prompt : l_prompt l1 = l_prompt l2;
  su_inter : l_inter l1 = l_inter l2;
  su_hid : l_hid l1 = l_hid l2 }.

(** The same entries and the same position among them. *)
Record same_entries (h h' : hist) : Prop := {
  se_items : h_items h' = h_items h; se_cur : h_cur h' = h_cur h; se_ver : h_ver h' = h_ver h;
  se_on : h_enable h' = h_enable h }.

(** What the application sees of a call: its results. *)
Definition results {A : Type} (x : outcome (A * list act)) : outcome (list act) :=
  match x with Ok (_, a) => Ok a | Panic => Panic | Hang => Hang end.

(** The configuration the editor works with, and what a configuration [k] the application has filled in asks for:
    fields left zero have their documented defaults (readline.go:29-78, 95-148). *)
Definition used (e : lenv) (l : life) : ocfg := ocfg_of e (l_prompt l) (l_vim l) (l_cfg l (l_cur l)).
Definition or_default {A} (zero : A) (default given taken : A) : Prop := (given = zero -> taken = default) /\ (given <> zero -> taken = given).
(** A prompt: by default "^C" or "^D"; a single newline stands for none. *)
Definition prompt_of (default given taken : list Z) : Prop :=
  (given = [] -> taken = default) /\ (given = [10%Z] -> taken = []) /\ (given <> [] -> given <> [10%Z] -> taken = given).
Record as_asked (e : lenv) (k : lcfg) (cf : ocfg) (inter : bool) : Prop := {
  aa_prompt : oc_prompt cf = k_prompt k;
  aa_limit : or_default 0%Z 500%Z (k_limit k) (hc_limit (oc_h cf));
  aa_fold : hc_fold (oc_h cf) = k_fold k;
  aa_file : hc_file (oc_h cf) = true <-> k_file k <> [];
  aa_nosave : oc_nosave cf = k_nosave k;
  aa_auto : forall f, k_auto k = Some f -> oc_auto cf = Some f;
  aa_listen : oc_listen cf = k_listen k;
  aa_intp : prompt_of [94; 67]%Z (k_intp k) (oc_intp cf);
  aa_eofp : prompt_of [94; 68]%Z (k_eofp k) (oc_eofp cf);
  aa_width : or_default None (Some (e_width e)) (k_width k) (Some (oc_w cf));
  aa_unique : oc_unique cf = k_unique k;
  aa_filter : oc_filter cf = k_filter k;
  aa_inter : inter = true <-> k_force k = true \/ k_tty k = Some true \/ k_tty k = None /\ e_tty e = true }.
