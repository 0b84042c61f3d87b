(** Properties C44-C46, C80-C82, C90: password entry and changes of configuration (operation.go, password.go, readline.go). *)
From Verif Require Import Base ListAux RunesModel Utf8Model RuneBufModel RuneBufSpec HistoryModel HistorySpec HistoryProofs HistoryFileProofs
  RenderModel OpModel OpSpec OpProofs OpKeys OpProps LifeModel LifeSpec LifeProofs.
From Coq Require Import ZifyBool.
Open Scope Z_scope.

(** Examples: a process with a terminal of 80 columns; a configuration with prompt ">", history file [f] and mask
    rune [m]; the file "h" holds one line, "a". *)
Definition term80 : lenv := {| e_u := ascii; e_width := 80; e_tty := true |}.
Definition app_cfg (f : list Z) (m : Z) : lcfg :=
  {| k_prompt := [62]; k_file := f; k_limit := 10; k_nosave := false; k_fold := false; k_auto := None; k_listen := None;
     k_vim := false; k_intp := []; k_eofp := []; k_width := None; k_tty := None; k_force := false; k_enmask := false; k_mask := m;
     k_unique := false; k_filter := None; k_inited := false; k_hist := None; k_srch := s0 |}.
Definition one_file : list Z -> list Z := fun p => if eqbl p [104] then [97; 10] else [].
Definition plain_app : life := life_new term80 one_file (app_cfg [] 0).
Definition file_app : life := life_new term80 one_file (app_cfg [104] 0).

(** ** C45: passwords are never stored *)
(** Whatever is typed at a password prompt, and whichever prompt and listener it has, the configurations, the
    histories and all files are afterwards the same. *)
Theorem C45_separate_partial : forall e l p1 lst1 rs1 l1 a1 p2 lst2 rs2 l2 a2, lreach e l ->
  ReadPassword e p1 lst1 rs1 l = Ok (l1, a1) -> ReadPassword e p2 lst2 rs2 l = Ok (l2, a2) ->
  same_store l l1 l2 /\ same_use l1 l2.
Proof.
  intros e l p1 lst1 rs1 l1 a1 p2 lst2 rs2 l2 a2 R E1 E2. apply reach_wf in R. destruct (k_hist (l_cfg l (l_cur l))) as [h|] eqn:K; [|now destruct (lw_has _ R)].
  destruct (read_ok e _ _ _ _ _ _ _ R K E1) as (A & _). destruct (read_ok e _ _ _ _ _ _ _ R K E2) as (B & _).
  destruct A, B. split; constructor; intros; try congruence.
  - now rewrite ap_cfg, ap_cfg0.
  - now rewrite ap_his, ap_his0.
  - now rewrite ap_files, ap_files0.
Qed.
Print Assumptions C45_separate_partial.
Example C45_ex : exists l1 l2, ReadPassword term80 [62] None [115; 13] file_app = Ok (l1, [ALine [115]]) /\
  ReadPassword term80 [62] None [116; 117; 13] file_app = Ok (l2, [ALine [116; 117]]) /\ l_files l1 [104] = [97; 10] /\ l_files l2 [104] = [97; 10].
Proof. do 2 eexists. split; [vm_compute; reflexivity|]. split; [vm_compute; reflexivity|]. vm_compute. auto. Qed.

Lemma init_disk c h : (Z.of_nat (length (read_lines (h_disk h) [])) <= hc_limit c) -> h_disk (HInit c true h) = h_disk h.
Proof.
  intros L. unfold HInit. destruct (h_fd h); try reflexivity; (destruct (hc_file c); [|reflexivity]); unfold historyUpdatePath; cbn [negb];
  replace (hc_limit c <? _) with false by lia; cbn [Push bump_ver h_disk]; destruct (load_lines_rest c (read_lines (h_disk h) []) (set_file FdOpen (h_disk h) h)) as (_ & _ & ->); reflexivity.
Qed.

(** No file changes, if the current history file is not longer than the history limit (a longer one is shortened,
    as it is whenever it is opened). *)
Theorem C45_files_partial : forall e l p lst rs l' a, lreach e l -> ReadPassword e p lst rs l = Ok (l', a) ->
  let k := l_cfg l (l_cur l) in
  (k_file k = [] \/ Z.of_nat (length (read_lines (l_files l (k_file k)) [])) <= k_limit k) ->
  forall q, l_files l' q = l_files l q.
Proof.
  intros e l p lst rs l' a R E k L q. apply reach_wf in R. pose proof R as [Wb Wc Wh Whc Wi Wk Wo Wt].
  destruct (k_hist (l_cfg l (l_cur l))) as [h|] eqn:K; [|now destruct Wk].
  destruct (read_ok e _ _ _ _ _ _ _ R K E) as (A & _). destruct (Wo _ _ K) as (_ & Lh & Hc). rewrite (ap_files _ _ _ A q). fold k in L |- *.
  destruct (k_file k) as [|z f] eqn:F; [reflexivity|]. destruct (eqbl q (z :: f)) eqn:Q; [|reflexivity]. apply eqbl_eq in Q. subst q.
  destruct L as [L|L]; [discriminate|]. unfold reopened, closed.
  assert (HL : h_disk (h_load h (h_store (l_hid l) (HClose (h_load (l_hid l) l)) l)) = l_files l (z :: f)).
  { rewrite load_disk.
    - unfold h_path. change (l_cfg (h_store _ _ l)) with (l_cfg l). change (l_hcfg (h_store _ _ l)) with (l_hcfg l). rewrite Hc. fold k. rewrite F.
      apply close_files.
    - unfold h_path. change (l_cfg (h_store _ _ l)) with (l_cfg l). change (l_hcfg (h_store _ _ l)) with (l_hcfg l). rewrite Hc. fold k. now rewrite F. }
  rewrite init_disk; [exact HL|]. rewrite HL. change (l_cfg (h_store _ _ l)) with (l_cfg l). change (l_hcfg (h_store _ _ l)) with (l_hcfg l).
  rewrite Hc. exact L.
Qed.
Print Assumptions C45_files_partial.

(** The goroutine calling ReadPassword can switch back to the normal configuration before the editor goroutine adds
    the line to "the" history: the password is then written to the normal history file. *)
Theorem C45_race_refuted : exists e l rs l' a, lreach e l /\ exit_early e [62] None rs l = Ok (l', a) /\
  rs = [115; 51] /\ l_files l [104] = [97; 10] /\ l_files l' [104] = [97; 10; 115; 51; 10].
Proof.
  exists term80, file_app, [115; 51]. destruct (exit_early term80 [62] None [115; 51] file_app) as [[l' a]| |] eqn:E;
    [|vm_compute in E; discriminate|vm_compute in E; discriminate].
  exists l', a. split; [apply lr_new; reflexivity|]. split; [reflexivity|]. split; [reflexivity|]. split; [vm_compute; reflexivity|].
  vm_compute in E. injection E as <- _. vm_compute. reflexivity.
Qed.
Print Assumptions C45_race_refuted.

(** ** C44: configuration and history entries are left alone *)
Lemma reopened_entries l h : h_path h l = [] -> same_entries (l_his l h) (reopened l h).
Proof.
  unfold reopened, h_path, h_load, h_path. intros F. rewrite F. unfold HInit, hcfg_of. rewrite F. cbn [hc_file].
  destruct (h_fd (l_his l h)); constructor; reflexivity.
Qed.

(** Without a history file, with mask rune 0, the prompt of the configuration and the history of the configuration,
    nothing changes. *)
Theorem C44_unchanged_partial : forall e l p lst rs l' a, lreach e l -> ReadPassword e p lst rs l = Ok (l', a) ->
  let k := l_cfg l (l_cur l) in
  k_file k = [] -> k_mask k = 0 -> l_prompt l = k_prompt k -> k_hist k = Some (l_hid l) ->
  (forall i, (i < l_new l)%nat -> l_cfg l' i = l_cfg l i /\ same_entries (l_his l i) (l_his l' i)) /\
  (forall q, l_files l' q = l_files l q) /\ same_use l' l.
Proof.
  intros e l p lst rs l' a R E k F M P K. apply reach_wf in R. pose proof R as [Wb Wc Wh Whc Wi Wk Wo Wt].
  destruct (read_ok e _ _ _ _ _ _ _ R K E) as (A & _). destruct A as [A1 A2 A3 A4 A5 A6 A7 A8 A9 A10]. fold k in A4, A9, A10. rewrite F in A4.
  split; [|split; [exact A4|constructor; try congruence; now rewrite A10]].
  intros i Li. split.
  - rewrite A1 by exact Li. destruct (Nat.eqb_spec i (l_cur l)) as [->|N]; [|reflexivity]. fold k. destruct k; cbn in *. now subst.
  - rewrite A2 by exact Li. destruct (Nat.eqb_spec i (l_hid l)) as [->|N].
    + apply se_trans with (l_his (closed l) (l_hid l)).
      * unfold closed, h_store. lproj. rewrite upd_same. eapply se_trans; [apply load_entries|apply close_entries].
      * apply reopened_entries. unfold h_path, closed, h_store. lproj. now rewrite Whc.
    + unfold closed, h_store. lproj. rewrite upd_other by exact N. constructor; reflexivity.
Qed.
Print Assumptions C44_unchanged_partial.
Example C44_ex : exists l a, lstep term80 (LKeys [97; 13; 98; 13]) plain_app = Ok (l, a) /\ lreach term80 l /\
  let k := l_cfg l (l_cur l) in k_file k = [] /\ k_mask k = 0 /\ l_prompt l = k_prompt k /\ k_hist k = Some (l_hid l) /\
  committed (l_his l (l_hid l)) = [[97]; [98]] /\
  exists l', ReadPassword term80 [] None [115; 21; 120; 13] l = Ok (l', [ALine [120]]) /\ committed (l_his l' (l_hid l')) = [[97]; [98]].
Proof.
  destruct (lstep term80 (LKeys [97; 13; 98; 13]) plain_app) as [[l a]| |] eqn:E; [|vm_compute in E; discriminate|vm_compute in E; discriminate].
  exists l, a. split; [reflexivity|]. split; [apply lr_step with plain_app (LKeys [97; 13; 98; 13]) a; [apply lr_new; reflexivity|exact I|exact E]|].
  vm_compute in E. injection E as <- _. cbv zeta. do 5 (split; [vm_compute; reflexivity|]). eexists. split; [vm_compute; reflexivity|]. vm_compute. reflexivity.
Qed.

(** The mask rune of the application's configuration is overwritten. *)
Theorem C44_mask_refuted : exists e l l' a, lreach e l /\ ReadPassword e [62] None [115; 13] l = Ok (l', a) /\
  k_mask (l_cfg l (l_cur l)) = 42 /\ k_mask (l_cfg l' (l_cur l')) = 0.
Proof.
  exists term80, (life_new term80 one_file (app_cfg [] 42)).
  destruct (ReadPassword term80 [62] None [115; 13] (life_new term80 one_file (app_cfg [] 42))) as [[l' a]| |] eqn:E;
    [|vm_compute in E; discriminate|vm_compute in E; discriminate].
  exists l', a. split; [apply lr_new; reflexivity|]. split; [reflexivity|]. vm_compute in E. injection E as <- _. vm_compute. auto.
Qed.
Print Assumptions C44_mask_refuted.

(** A prompt set by SetPrompt is replaced by that of the configuration. *)
Theorem C44_prompt_refuted : exists e l l' a, lreach e l /\ ReadPassword e [63] None [115; 13] l = Ok (l', a) /\
  l_prompt l = [36] /\ l_prompt l' = [62].
Proof.
  exists term80, (set_prompt [36] plain_app).
  destruct (ReadPassword term80 [63] None [115; 13] (set_prompt [36] plain_app)) as [[l' a]| |] eqn:E;
    [|vm_compute in E; discriminate|vm_compute in E; discriminate].
  exists l', a. split; [apply lr_step with plain_app (LPrompt [36]) []; [apply lr_new; reflexivity|exact I|reflexivity]|].
  split; [reflexivity|]. vm_compute in E. injection E as <- _. vm_compute. auto.
Qed.
Print Assumptions C44_prompt_refuted.

(** With a history file every entry is there twice afterwards. *)
Theorem C44_history_refuted : exists e l l' a, lreach e l /\ ReadPassword e [63] None [115; 13] l = Ok (l', a) /\
  committed (l_his l (l_hid l)) = [[97]] /\ committed (l_his l' (l_hid l')) = [[97]; []; [97]].
Proof.
  exists term80, file_app.
  destruct (ReadPassword term80 [63] None [115; 13] file_app) as [[l' a]| |] eqn:E; [|vm_compute in E; discriminate|vm_compute in E; discriminate].
  exists l', a. split; [apply lr_new; reflexivity|]. split; [reflexivity|]. vm_compute in E. injection E as <- _. vm_compute. auto.
Qed.
Print Assumptions C44_history_refuted.

(** ** C46: SetHistoryPath *)
(** Lines entered after SetHistoryPath are not written to the new file, and the entries of that file are not
    loaded. *)
Theorem C46_saved_refuted : exists e l l' a, lreach e l /\ lrun e [LPath [104]; LKeys [98; 13]] l = Ok (l', a) /\
  a = [ALine [98]] /\ l_files l [104] = [97; 10] /\ l_files l' [104] = [97; 10] /\ committed (l_his l' (l_hid l')) = [[98]].
Proof.
  exists term80, plain_app.
  destruct (lrun term80 [LPath [104]; LKeys [98; 13]] plain_app) as [[l' a]| |] eqn:E; [|vm_compute in E; discriminate|vm_compute in E; discriminate].
  exists l', a. split; [apply lr_new; reflexivity|]. split; [reflexivity|]. vm_compute in E. injection E as <- <-. vm_compute. auto 10.
Qed.
Print Assumptions C46_saved_refuted.
(** The new path takes effect at the next password prompt, and then for the history from before SetHistoryPath. *)
Theorem C46_password_refuted : exists e l l' a, lreach e l /\
  lrun e [LKeys [120; 13]; LPath [104]; LKeys [98; 13]; LPassword [63] None [115; 13]; LKeys [99; 13]] l = Ok (l', a) /\
  l_files l' [104] = [97; 10; 99; 10] /\ committed (l_his l' (l_hid l')) = [[120]; []; [97]; [99]].
Proof.
  exists term80, plain_app.
  destruct (lrun term80 [LKeys [120; 13]; LPath [104]; LKeys [98; 13]; LPassword [63] None [115; 13]; LKeys [99; 13]] plain_app) as [[l' a]| |] eqn:E;
    [|vm_compute in E; discriminate|vm_compute in E; discriminate].
  exists l', a. split; [apply lr_new; reflexivity|]. split; [reflexivity|]. vm_compute in E. injection E as <- <-. vm_compute. auto 10.
Qed.
Print Assumptions C46_password_refuted.

(** ** C82: a typed password is returned exactly *)
(** From every state an application can bring about in which the line is empty and no mode is entered. *)
Definition ready (l : life) : Prop := at_rest (with_h (newOpHistory []) (with_s s0 (with_c c0 (l_op l)))).
Theorem C82_typed : forall e l p t r, lreach e l -> ready l -> Forall ordinary t -> r = 13 \/ r = 10 ->
  exists l', ReadPassword e p None (t ++ [r]) l = Ok (l', [ALine t]).
Proof.
  intros e l p t r R A F Hr. apply reach_wf in R. pose proof (enter_ok e p None l R) as N.
  destruct (typed_line (pw_conf e p None (l_vim l)) t r (with_s s0 (with_h (newOpHistory []) (with_c c0 (l_op l))))) as (o' & E & _); try assumption.
  { split; reflexivity. }
  unfold ReadPassword, keys_in. destruct N as [N1 N2 N3 N4 N5 N6 N7 N8 N9 N10 N11 N12 N13 N14].
  assert (X : op_run (ocfg_of e (l_prompt (EnterPasswordMode e p None l)) (l_vim (EnterPasswordMode e p None l))
     (l_cfg (EnterPasswordMode e p None l) (l_cur (EnterPasswordMode e p None l)))) (t ++ [r]) (cur_op (EnterPasswordMode e p None l)) = Ok (o', [ALine t])).
  { rewrite <- E. unfold pw_conf, l_vim, cur_op. rewrite N5, N10, N13, N12. f_equal.
    - unfold ocfg_of, hcfg_of. cbn [with_hist k_file k_limit k_fold k_width k_auto k_unique k_nosave k_listen k_filter k_eofp k_intp].
      replace (k_vim (l_cfg (EnterPasswordMode e p None l) 0)) with (k_vim (l_cfg l 0)); [reflexivity|].
      rewrite N1 by (pose proof (lw_cur _ R); lia). destruct (Nat.eqb 0 (l_cur l)); reflexivity.
    - unfold h_load, h_path. rewrite N7, N9, N10, N11. reflexivity. }
  rewrite X. cbn [obind fst snd]. eauto.
Qed.
Print Assumptions C82_typed.
Example C82_ex : ready file_app /\ exists l', ReadPassword term80 [63] None ([115; 51; 32; 120] ++ [13]) file_app = Ok (l', [ALine [115; 51; 32; 120]]).
Proof.
  split; [constructor; try reflexivity; apply hwf_new|]. apply C82_typed; [apply lr_new; reflexivity| | |auto].
  - constructor; try reflexivity; apply hwf_new.
  - repeat constructor; unfold ordinary; lia.
Qed.

(** ** C80: nothing of a password is left for later prompts *)
(** Two passwords typed without editing keys leave the same state: configurations, histories, files and the editor,
    so that whatever is typed later gives the same results. *)
Theorem C80_typed_partial : forall e l p1 t1 r1 l1 a1 p2 t2 r2 l2 a2, lreach e l -> ready l ->
  Forall ordinary t1 -> Forall ordinary t2 -> r1 = 13 \/ r1 = 10 -> r2 = 13 \/ r2 = 10 ->
  ReadPassword e p1 None (t1 ++ [r1]) l = Ok (l1, a1) -> ReadPassword e p2 None (t2 ++ [r2]) l = Ok (l2, a2) ->
  same_store l l1 l2 /\ same_use l1 l2 /\ cur_op l1 = cur_op l2 /\
  forall rs, results (keys_in e rs l1) = results (keys_in e rs l2).
Proof.
  intros e l p1 t1 r1 l1 a1 p2 t2 r2 l2 a2 R A F1 F2 H1 H2 E1 E2.
  destruct (C45_separate_partial e l _ _ _ _ _ _ _ _ _ _ R E1 E2) as (SS & SU).
  apply reach_wf in R. destruct (k_hist (l_cfg l (l_cur l))) as [h|] eqn:K; [|now destruct (lw_has _ R)].
  destruct (read_ok e _ _ _ _ _ _ _ R K E1) as (P1 & o1 & O1 & Q1). destruct (read_ok e _ _ _ _ _ _ _ R K E2) as (P2 & o2 & O2 & Q2).
  destruct (typed_line (pw_conf e p1 None (l_vim l)) t1 r1 _ ltac:(split; reflexivity) A F1 H1) as (x1 & X1 & B1 & M1).
  destruct (typed_line (pw_conf e p2 None (l_vim l)) t2 r2 _ ltac:(split; reflexivity) A F2 H2) as (x2 & X2 & B2 & M2).
  change (with_h (newOpHistory []) (with_s s0 (with_c c0 (l_op l)))) with (with_s s0 (with_h (newOpHistory []) (with_c c0 (l_op l)))) in X1, X2.
  rewrite O1 in X1. rewrite O2 in X2. injection X1 as -> _. injection X2 as -> _.
  destruct (lw_own _ R _ _ K) as (_ & Lh & Hc). pose proof (lw_cur _ R) as Lc.
  assert (C : cur_op l1 = cur_op l2).
  { unfold cur_op. rewrite (ap_cur _ _ _ P1), (ap_cur _ _ _ P2), (ap_hid _ _ _ P1), (ap_hid _ _ _ P2).
    assert (HL : h_load h l1 = h_load h l2).
    { unfold h_load, h_path. rewrite (ap_hcfg _ _ _ P1), (ap_hcfg _ _ _ P2), Hc by exact Lh.
      rewrite (ap_cfg _ _ _ P1), (ap_cfg _ _ _ P2) by exact Lc. rewrite (ap_his _ _ _ P1), (ap_his _ _ _ P2) by exact Lh.
      destruct (k_file _); [reflexivity|]. now rewrite (st_files _ _ _ SS). }
    rewrite HL. rewrite (ap_cfg _ _ _ P1), (ap_cfg _ _ _ P2) by exact Lc.
    rewrite Q1, Q2. destruct M1 as [Y1 Y2 Y3 Y4 Y5], M2 as [Z1 Z2 Z3 Z4 Z5]. destruct x1, x2. cbn in *. subst. destruct (k_auto _); [|reflexivity].
    unfold with_s, with_h, with_c. cbn. congruence. }
  split; [exact SS|]. split; [exact SU|]. split; [exact C|]. intros rs. unfold keys_in. rewrite C, (su_prompt _ _ SU), (su_cur _ _ SU).
  assert (V : l_vim l1 = l_vim l2) by (unfold l_vim; now rewrite (st_cfg _ _ _ SS) by lia).
  rewrite V, (st_cfg _ _ _ SS) by (rewrite (ap_cur _ _ _ P2); exact Lc).
  destruct (op_run _ rs (cur_op l2)) as [[o b]| |]; reflexivity.
Qed.
Print Assumptions C80_typed_partial.

(** What was killed at the password prompt (Ctrl-U) can be yanked at the next one. *)
Theorem C80_kill_refuted : exists e l l' a, lreach e l /\ lrun e [LPassword [63] None [115; 51; 21; 13]; LKeys [25; 13]] l = Ok (l', a) /\
  a = [ALine []; ALine [115; 51]].
Proof.
  exists term80, plain_app.
  destruct (lrun term80 [LPassword [63] None [115; 51; 21; 13]; LKeys [25; 13]] plain_app) as [[l' a]| |] eqn:E;
    [|vm_compute in E; discriminate|vm_compute in E; discriminate].
  exists l', a. split; [apply lr_new; reflexivity|]. split; [reflexivity|]. vm_compute in E. injection E as <- <-. reflexivity.
Qed.
Print Assumptions C80_kill_refuted.

(** ** C81: terminal functions of the configuration *)
(** During a password prompt the process's own terminal decides whether the line is drawn at all, not the function
    the application configured (the peer's terminal, for a remote instance). *)
Theorem C81_remote_refuted : exists e l l', lreach e l /\ l' = EnterPasswordMode e [63] None l /\
  k_tty (l_cfg l (l_cur l)) = Some true /\ l_inter l = true /\ l_inter l' = false /\
  k_width (l_cfg l (l_cur l)) = Some 40 /\ k_width (l_cfg l' (l_cur l')) = Some 80.
Proof.
  set (e := {| e_u := ascii; e_width := 80; e_tty := false |}).
  set (k := {| k_prompt := [62]; k_file := []; k_limit := 10; k_nosave := false; k_fold := false; k_auto := None; k_listen := None;
     k_vim := false; k_intp := []; k_eofp := []; k_width := Some 40; k_tty := Some true; k_force := false; k_enmask := false; k_mask := 0;
     k_unique := false; k_filter := None; k_inited := false; k_hist := None; k_srch := s0 |}).
  exists e, (life_new e one_file k), (EnterPasswordMode e [63] None (life_new e one_file k)).
  split; [apply lr_new; reflexivity|]. split; [reflexivity|]. vm_compute. auto 10.
Qed.
Print Assumptions C81_remote_refuted.

(** ** C90: defaults *)
Ltac pr g := split; [now intros ->|split; [now intros ->|]]; intros N1 N2; destruct g as [|x [|y g]]; try congruence;
  (destruct x as [|q|q]; try reflexivity; do 3 (destruct q as [q|q|]; try reflexivity); destruct q; try reflexivity; now elim N2).
Lemma init_asked e k prompt vim h s : k_inited k = false -> prompt = k_prompt k ->
  let k' := with_hist h s (c_init e k) in as_asked e k (ocfg_of e prompt vim k') (interactive k').
Proof.
  intros I -> k'. subst k'. unfold c_init. rewrite I.
  constructor; cbn; try reflexivity.
  - split; intros X; destruct (k_limit k =? 0) eqn:E; try reflexivity; lia.
  - destruct (k_file k); split; congruence.
  - now intros f ->.
  - generalize (k_intp k). intros g. pr g.
  - generalize (k_eofp k). intros g. pr g.
  - split; intros X; destruct (k_width k); congruence.
  - unfold interactive. cbn. destruct (k_force k), (k_tty k) as [[]|], (e_tty e); intuition congruence.
Qed.

(** NewEx, and SetConfig with a configuration not used before (except VimMode): the editor works with what the
    configuration asks for. *)
Theorem C90_new : forall e fs k, unused k -> k_inited k = false ->
  as_asked e k (used e (life_new e fs k)) (l_inter (life_new e fs k)) /\ oc_vim (used e (life_new e fs k)) = k_vim k.
Proof.
  intros e fs k U I. assert (K : k_hist (c_init e k) = None) by (rewrite init_hist; exact U).
  pose proof (lw_inter _ (wf_new e fs k U)) as Li. rewrite Li. clear Li. unfold used, life_new. cbv zeta. set (l0 := Build_life _ _ _ _ _ _ _ _ _ _ _).
  destruct (switch_new e true 0 l0 K) as [S1 S2 S3 S4 S5 S6 S7 S8 S9 S10 S11 S12 S13 S14]. rewrite S8, S2, S13.
  assert (B : l_cfg l0 0 = c_init e k) by reflexivity.
  unfold l_vim. rewrite S2. cbn [l0 l_cfg l_buf]. rewrite ?upd_same. split.
  - apply init_asked; [exact I|]. unfold c_init. now rewrite I.
  - cbn [ocfg_of oc_vim with_hist k_vim]. unfold c_init. now rewrite I.
Qed.
Print Assumptions C90_new.
Theorem C90_set_config_partial : forall e l k, lreach e l -> unused k -> k_inited k = false ->
  let l' := SetConfig e (l_new l) (add_cfg k l) in as_asked e k (used e l') (l_inter l').
Proof.
  intros e l k R U I l'. apply reach_wf in R. pose proof (lw_cur _ R) as Lc.
  assert (W' : lwf l') by (apply wf_set_config; [now apply wf_add|cbn; lia]). rewrite (lw_inter _ W'). unfold used. subst l'.
  unfold SetConfig. replace (l_cur (add_cfg k l) =? l_new l)%nat with false by (cbn; lia).
  set (l1 := set_cfg _ _ _).
  assert (C1 : l_cfg l1 (l_new l) = c_init e k) by (unfold l1; cbn; unfold upd; now rewrite Nat.eqb_refl).
  assert (K : k_hist (l_cfg l1 (l_new l)) = None) by (rewrite C1, init_hist; exact U).
  destruct (switch_new e false (l_new l) l1 K) as [S1 S2 S3 S4 S5 S6 S7 S8 S9 S10 S11 S12 S13 S14]. rewrite S8, S2, S13, C1.
  apply init_asked; [exact I|]. unfold c_init. now rewrite I.
Qed.
Print Assumptions C90_set_config_partial.

(** SetConfig with a configuration that asks for vim mode: it is not in vim mode (Esc x does not delete), because
    opVim keeps the first configuration. *)
Theorem C90_vim_refuted : exists e l k, lreach e l /\ unused k /\ k_inited k = false /\ k_vim k = true /\
  let l' := SetConfig e (l_new l) (add_cfg k l) in oc_vim (used e l') = false /\
  exists l2, keys_in e [97; 98; 27; 120; 13] l' = Ok (l2, [ALine [97; 98; 27; 120]]).
Proof.
  exists term80, plain_app, (with_vim true (app_cfg [] 0)). split; [apply lr_new; reflexivity|]. do 3 (split; [reflexivity|]). cbv zeta.
  split; [reflexivity|]. eexists. vm_compute. reflexivity.
Qed.
Print Assumptions C90_vim_refuted.

(** Without AutoComplete, Tab types a tab (if the terminal has a width). *)
Theorem C90_tab : forall e fs k o, unused k -> k_inited k = false -> k_auto k = None -> plain (used e (life_new e fs k)) ->
  oc_w (used e (life_new e fs k)) <> 0 -> typing o ->
  exists o', op_step (used e (life_new e fs k)) 9 o = Ok (o', []) /\ typing o' /\
    rb_buf (o_b o') = firstn (rb_idx (o_b o)) (rb_buf (o_b o)) ++ [9] ++ skipn (rb_idx (o_b o)) (rb_buf (o_b o)) /\
    rb_idx (o_b o') = S (rb_idx (o_b o)).
Proof.
  intros e fs k o U I A P Wd T.
  assert (A' : oc_auto (used e (life_new e fs k)) = Some tab_completer).
  { assert (K : k_hist (c_init e k) = None) by (rewrite init_hist; exact U). unfold used, life_new. cbv zeta. set (l0 := Build_life _ _ _ _ _ _ _ _ _ _ _).
    destruct (switch_new e true 0 l0 K) as [S1 S2 S3 S4 S5 S6 S7 S8 S9 S10 S11 S12 S13 S14]. rewrite S8, S2. cbn [l0 l_cfg ocfg_of oc_auto with_hist with_file k_auto].
    unfold c_init. rewrite I. cbn [k_auto]. now rewrite A. }
  set (cf := used e (life_new e fs k)) in *. clearbody cf. rewrite (step_passes cf 9 o P T) by lia. unfold key_switch. cbn [Z.eqb CharBell CharTab Pos.eqb].
  rewrite A'. replace (oc_w cf =? 0) with false by lia. unfold OnComplete. replace (oc_w cf =? 0) with false by lia. rewrite (ty_sel _ T), (ty_c _ T). cbn [andb].
  unfold tab_completer, ExitCompleteSelectMode. cbn [c_in]. rewrite (ty_c _ T). cbn [obind]. rewrite write_spec by apply T. cbn [obind].
  set (o1 := with_c _ _). assert (C1 : c_in (o_c o1) = false) by reflexivity.
  unfold after_switch. rewrite (proj1 P). change (s_in (o_s o1)) with (s_in (o_s o)). rewrite (ty_s _ T), C1. cbn [negb andb obind].
  change (s_in (o_s o1)) with (s_in (o_s o)). rewrite (ty_s _ T). cbn [negb].
  destruct (Update_ok (oc_h cf) (rb_buf (o_b o1)) false (o_h o1) (ty_h _ T)) as (h & -> & W & _). cbn [obind].
  eexists. split; [reflexivity|]. split; [|split; [reflexivity|cbn; lia]].
  destruct T. constructor; cbn; try assumption; try reflexivity. unfold inside in *. cbn. rewrite app_length, firstn_length. cbn. rewrite skipn_length. lia.
Qed.
Print Assumptions C90_tab.

(** An empty configuration and one that sets things. *)
Definition zero_cfg : lcfg :=
  {| k_prompt := []; k_file := []; k_limit := 0; k_nosave := false; k_fold := false; k_auto := None; k_listen := None;
     k_vim := false; k_intp := []; k_eofp := []; k_width := None; k_tty := None; k_force := false; k_enmask := false; k_mask := 0;
     k_unique := false; k_filter := None; k_inited := false; k_hist := None; k_srch := s0 |}.
Example C90_ex : let cf := used term80 (life_new term80 one_file zero_cfg) in
  hc_limit (oc_h cf) = 500 /\ oc_intp cf = [94; 67] /\ oc_eofp cf = [94; 68] /\ oc_w cf = 80 /\ plain cf /\
  (exists o, op_run cf [97; 9; 98; 13] (cur_op (life_new term80 one_file zero_cfg)) = Ok (o, [ALine [97; 9; 98]])) /\
  hc_limit (oc_h (used term80 file_app)) = 10 /\ oc_prompt (used term80 file_app) = [62] /\ hc_file (oc_h (used term80 file_app)) = true.
Proof. cbv zeta. do 4 (split; [reflexivity|]). split; [split; reflexivity|]. split; [eexists; vm_compute; reflexivity|]. repeat split. Qed.
