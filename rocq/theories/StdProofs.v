(** Proofs about the package-level functions. *)
From Verif Require Import Base ListAux RunesModel RunesProofs RuneBufModel RuneBufSpec RuneBufProofs HistoryModel HistorySpec HistoryProofs HistoryFileProofs
  RenderModel OpModel OpSpec OpProofs OpStep OpKeys OpModes OpHist HistOffSpec OpHistOff OpHistFresh LifeModel LifeSpec LifeProofs StdModel StdSpec.
Open Scope Z_scope.

Definition ccfg (l : life) : lcfg := l_cfg l (l_cur l).
(** the instance: its history belongs to the current configuration *)
Record owns (l : life) : Prop := { ow_k : k_hist (ccfg l) = Some (l_hid l); ow_h : l_hcfg l (l_hid l) = l_cur l }.

Lemma file_same h : set_file (h_fd h) (h_disk h) h = h. Proof. destruct h; reflexivity. Qed.
Lemma load_store l h : h_load (l_hid l) (h_store (l_hid l) h l) = h.
Proof.
  unfold h_load. assert (P : h_path (l_hid l) (h_store (l_hid l) h l) = h_path (l_hid l) l) by reflexivity. rewrite P.
  unfold h_store. destruct (h_path (l_hid l) l) as [|x p]; cbn [set_his l_his l_files]; rewrite upd_same; [reflexivity|].
  unfold updf. rewrite eqbl_refl. apply file_same.
Qed.

(** what does not change while lines are read and recorded *)
Record kept (l l' : life) : Prop := {
  kt_hid : l_hid l' = l_hid l; kt_cur : l_cur l' = l_cur l; kt_hcfg : l_hcfg l' = l_hcfg l;
  kt_cfg : forall e p v, ocfg_of e p v (ccfg l') = ocfg_of e p v (ccfg l); kt_file : k_file (ccfg l') = k_file (ccfg l);
  kt_vim : k_vim (l_cfg l' 0) = k_vim (l_cfg l 0); kt_nosave : k_nosave (ccfg l') = k_nosave (ccfg l) }.
Lemma kept_refl l : kept l l. Proof. constructor; reflexivity. Qed.
Lemma kept_trans a b c : kept a b -> kept b c -> kept a c.
Proof. intros [A1 A2 A3 A4 A5 A6 A7] [B1 B2 B3 B4 B5 B6 B7]. constructor; congruence. Qed.
Lemma kept_prompt p l : kept l (set_prompt p l). Proof. constructor; reflexivity. Qed.

Lemma put_facts o l : owns l -> cur_op (put_op o l) = o /\ owns (put_op o l) /\ kept l (put_op o l).
Proof.
  intros [K H]. unfold ccfg in K.
  assert (C : l_cfg (put_op o l) (l_cur l) = with_hist (l_hid l) (o_s o) (l_cfg l (l_cur l))).
  { unfold put_op. cbn [set_lop set_cfg l_cfg h_store set_his l_cur]. rewrite upd_same, K. reflexivity. }
  assert (P : h_path (l_hid l) (put_op o l) = h_path (l_hid l) (h_store (l_hid l) (o_h o) l)).
  { unfold h_path. change (l_hcfg (put_op o l)) with (l_hcfg l). change (l_hcfg (h_store (l_hid l) (o_h o) l)) with (l_hcfg l).
    rewrite H, C. reflexivity. }
  assert (L : h_load (l_hid l) (put_op o l) = o_h o).
  { transitivity (h_load (l_hid l) (h_store (l_hid l) (o_h o) l)); [|apply load_store]. unfold h_load. rewrite P. reflexivity. }
  split; [|split].
  - unfold cur_op. change (l_cur (put_op o l)) with (l_cur l). change (l_hid (put_op o l)) with (l_hid l). rewrite C, L. cbn. destruct o; reflexivity.
  - constructor; [unfold ccfg; change (l_cur (put_op o l)) with (l_cur l); rewrite C; reflexivity|exact H].
  - constructor; unfold ccfg; change (l_cur (put_op o l)) with (l_cur l); rewrite ?C; try reflexivity.
    unfold put_op. cbn [set_lop set_cfg l_cfg h_store set_his l_cur]. unfold upd. destruct (0 =? l_cur l)%nat eqn:Q; [|reflexivity].
    apply Nat.eqb_eq in Q. rewrite <- Q in *. rewrite K. reflexivity.
Qed.

Lemma add_facts s l l' : owns l -> AddHistory s l = Ok l' -> exists h, New (hcfg_of (ccfg l)) s (o_h (cur_op l)) = Ok h /\
  cur_op l' = with_h h (cur_op l) /\ owns l' /\ kept l l' /\ l_prompt l' = l_prompt l.
Proof.
  intros [K H] E. unfold AddHistory in E. rewrite H in E. destruct (New _ _ _) as [h| |] eqn:En; cbn [obind] in E; try discriminate.
  injection E as <-. exists h. split; [exact eq_refl|]. split; [|split; [constructor; [exact K|exact H]|split; [constructor; reflexivity|reflexivity]]].
  unfold cur_op. change (l_hid (h_store (l_hid l) h l)) with (l_hid l). rewrite load_store. reflexivity.
Qed.

Section prog.
Variables (file : bool) (e : lenv).

Definition lcf (l : life) : ocfg := ocfg_of e (l_prompt l) (l_vim l) (ccfg l).
Record pinv (l : life) (R : list (list Z)) : Prop := {
  pv_own : owns l; pv_limit : 1 <= k_limit (ccfg l); pv_vim : l_vim l = false; pv_filter : k_filter (ccfg l) = None;
  pv_nosave : k_nosave (ccfg l) = true; pv_op : stdinv file (lcf l) (cur_op l) R }.

Lemma stdinv_cfg cf cf' o R : oc_h cf = oc_h cf' -> stdinv file cf o R -> stdinv file cf' o R.
Proof.
  intros E (V & K). split; [exact V|]. destruct K as [(K & On)|K]; [left; split; [|exact On]|now right].
  destruct K as [H T S B]. constructor; auto. unfold hoff in *. change (oc_h (autosave cf)) with (oc_h cf) in H. change (oc_h (autosave cf')) with (oc_h cf').
  rewrite <- E. exact H.
Qed.

Lemma kept_pinv l l' R0 R : kept l l' -> owns l' -> pinv l R0 -> stdinv file (lcf l) (cur_op l') R -> pinv l' R.
Proof.
  intros [K1 K2 K3 K4 K5 K6 K7] O [P1 P2 P3 P4 P5 P6] S.
  pose proof (K4 e (l_prompt l) (l_vim l)) as Kc.
  constructor; auto.
  - apply (f_equal (fun c => hc_limit (oc_h c))) in Kc. cbn in Kc. lia.
  - unfold l_vim in *. congruence.
  - apply (f_equal oc_filter) in Kc. cbn in Kc. congruence.
  - congruence.
  - apply (stdinv_cfg (lcf l)); [|exact S]. apply (f_equal oc_h) in Kc. cbn in Kc. unfold lcf. cbn. congruence.
Qed.

Lemma key_facts r l l1 a1 R : r <> 18 -> r <> 19 -> pinv l R -> keys_in e [r] l = Ok (l1, a1) ->
  owns l1 /\ kept l l1 /\ ((lines_of a1 = [] /\ pinv l1 R) \/
    (exists d, lines_of a1 = [d] /\ forall l2, AddHistory d l1 = Ok l2 -> (file = true -> d = [] \/ clean_line d) -> (file = false -> R = [] -> d <> []) ->
       pinv l2 (record R (Submit d)) /\ kept l1 l2)).
Proof.
  intros N1 N2 P E. pose proof P as [P1 P2 P3 P4 P5 P6]. unfold keys_in in E. fold (ccfg l) in E. fold (lcf l) in E. cbn [op_run] in E.
  destruct (op_step (lcf l) r (cur_op l)) as [[o1 b1]| |] eqn:E1; cbn [obind fst snd] in E; try discriminate. injection E as <- <-. rewrite app_nil_r.
  destruct (put_facts o1 l P1) as (C1 & O1 & K1). split; [exact O1|]. split; [exact K1|].
  destruct (std_step file (lcf l) P2 P3 P4 P5 r R (cur_op l) o1 b1 N1 N2 P6 E1) as [(L & S)|(d & L & S)].
  - left. split; [exact L|]. apply (kept_pinv l _ R); auto. now rewrite C1.
  - right. exists d. split; [exact L|]. intros l2 A Cl Fr.
    destruct (add_facts d _ l2 O1 A) as (h & En & C2 & O2 & K2 & _). rewrite C1 in En, C2.
    assert (X : hcfg_of (ccfg (put_op o1 l)) = oc_h (lcf l)) by (pose proof (kt_cfg _ _ K1 e [] false) as X; now apply (f_equal oc_h) in X).
    rewrite X in En. split; [|exact K2]. apply (kept_pinv l _ R); [exact (kept_trans _ _ _ K1 K2)|exact O2|exact P|]. rewrite C2. now apply S.
Qed.

Lemma program_inv es : no_searching es -> forall l R l' a, pinv l R -> program e es l = Ok (l', a) ->
  (file = true -> Forall (fun l => l = [] \/ clean_line l) (lines_of a)) -> (file = false -> R = [] -> starts_well (map Submit (lines_of a))) ->
  pinv l' (recorded R (map Submit (lines_of a))) /\ kept l l'.
Proof.
  induction es as [|v es IH]; intros (N1 & N2) l R l' a P E Cl Sw; cbn [program] in E.
  { injection E as <- <-. split; [exact P|apply kept_refl]. }
  assert (N : no_searching es) by (split; intros X; [apply N1|apply N2]; now right).
  destruct v as [r|p].
  - destruct (keys_in e [r] l) as [[l1 a1]| |] eqn:E1; cbn [obind fst snd] in E; try discriminate.
    assert (R1 : r <> 18) by (intros ->; apply N1; now left). assert (R2 : r <> 19) by (intros ->; apply N2; now left).
    destruct (key_facts r l l1 a1 R R1 R2 P E1) as (O1 & K1 & [(L & P1)|(d & L & Q)]); rewrite L in E; cbn [add_lines obind] in E.
    + destruct (program e es l1) as [[l2 a2]| |] eqn:E2; cbn [obind fst snd] in E; try discriminate. injection E as <- <-.
      rewrite lines_app, L in *. cbn [app] in *. destruct (IH N l1 R l2 a2 P1 E2 Cl Sw) as (P2 & K2). split; [exact P2|exact (kept_trans _ _ _ K1 K2)].
    + destruct (AddHistory d l1) as [l2| |] eqn:A; cbn [obind] in E; try discriminate.
      destruct (program e es l2) as [[l3 a3]| |] eqn:E2; cbn [obind fst snd] in E; try discriminate. injection E as <- <-.
      rewrite lines_app, L in *. cbn [app] in *.
      assert (D : file = false -> R = [] -> d <> []) by (intros F Er ->; exact (Sw F Er)).
      destruct (Q l2 eq_refl) as (P2 & K2); [intros F; specialize (Cl F); now inversion Cl|exact D|].
      assert (Ne : file = false -> record R (Submit d) <> []).
      { intros F X. cbn [record] in X. destruct (list_eq_dec Z.eq_dec d []) as [->|Nd]; [now apply (D F X)|].
        destruct (last_line R) eqn:Lr; [destruct (list_eq_dec Z.eq_dec l0 d)|]; now destruct R. }
      destruct (IH N l2 _ l3 a3 P2 E2) as (P3 & K3); [intros F; specialize (Cl F); now inversion Cl|intros F X; destruct (Ne F X)|].
      split; [|exact (kept_trans _ _ _ K1 (kept_trans _ _ _ K2 K3))]. exact P3.
  - destruct (IH N (set_prompt p l) R l' a) as (P2 & K2); auto.
    + apply (kept_pinv l _ R); [apply kept_prompt| |exact P|exact (pv_op l R P)]. destruct (pv_own l R P) as [A B]. constructor; [exact A|exact B].
    + split; [exact P2|exact (kept_trans _ _ _ (kept_prompt p l) K2)].
Qed.
End prog.

(** ** Reachable states *)
Record sgood (l : life) : Prop := {
  sg_wf : lwf l; sg_own : owns l; sg_nosave : k_nosave (ccfg l) = true; sg_filter : k_filter (ccfg l) = None; sg_limit : 1 <= k_limit (ccfg l);
  sg_vim : l_vim l = false; sg_auto : k_auto (ccfg l) <> None; sg_vp : o_vp (l_op l) = None }.

Definition newcfg (e : lenv) (k : lcfg) (l : life) : life := SetConfig e (l_new l) (add_cfg k l).

(** SetConfig with a copy of the current configuration changed in one place *)
Lemma good_new e k l : sgood l -> k_hist k = None -> k_inited k = true -> k_nosave k = true -> k_filter k = None -> 1 <= k_limit k -> k_auto k <> None ->
  let l' := newcfg e k l in
  sgood l' /\ ccfg l' = with_hist (S (l_new l)) s0 k /\ o_c (cur_op l') = c0 /\ s_in (o_s (cur_op l')) = false /\ o_vp (cur_op l') = None /\
  (k_file k <> [] -> o_h (cur_op l') = openf (hcfg_of k) (l_files l (k_file k))) /\
  (k_file k = [] -> o_h (cur_op l') = newOpHistory []).
Proof.
  intros [W O Ns Fi Li Vm Au Vp] Kh Ki Kn Kf Kl Ka l'. unfold newcfg in *. pose proof (lw_cur _ W) as Lc.
  assert (W' : lwf l') by (apply wf_set_config; [now apply wf_add|cbn; lia]).
  unfold l', SetConfig in *. replace (l_cur (add_cfg k l) =? l_new l)%nat with false in * by (cbn; lia).
  assert (Ci : c_init e k = k) by (unfold c_init; now rewrite Ki).
  set (l1 := set_cfg (l_new l) (c_init e (l_cfg (add_cfg k l) (l_new l))) (add_cfg k l)) in *.
  assert (C0 : l_cfg (add_cfg k l) (l_new l) = k) by (cbn; apply upd_same).
  assert (C1 : l_cfg l1 (l_new l) = k) by (unfold l1; cbn [set_cfg l_cfg]; rewrite upd_same, C0; exact Ci).
  assert (K : k_hist (l_cfg l1 (l_new l)) = None) by (rewrite C1; exact Kh).
  destruct (switch_new e false (l_new l) l1 K) as [S1 S2 S3 S4 S5 S6 S7 S8 S9 S10 S11 S12 S13 S14 S15].
  set (l2 := switch_config e false (l_new l) l1) in *. clearbody l2. rewrite C1 in *. change (l_new l1) with (S (l_new l)) in *.
  assert (Cc : ccfg l2 = with_hist (S (l_new l)) s0 k) by (unfold ccfg; rewrite S8, S2; destruct k; reflexivity).
  assert (Op : l_op l2 = with_c c0 (l_op l)) by (rewrite S12; destruct (k_auto k); [reflexivity|congruence]).
  split; [|split; [exact Cc|split; [|split; [|split; [|split]]]]].
  - constructor; rewrite ?Cc; auto.
    + constructor; [rewrite Cc, S10; reflexivity|congruence].
    + unfold l_vim. rewrite S1 by lia. assert (Z : k_vim (l_cfg l1 0) = false) by (unfold l1; cbn [set_cfg l_cfg add_cfg]; rewrite !upd_other by lia; exact Vm).
      destruct (0 =? l_buf l1)%nat; exact Z.
    + now rewrite Op.
  - unfold cur_op. cbn. now rewrite Op.
  - unfold cur_op. fold (ccfg l2). rewrite Cc. reflexivity.
  - unfold cur_op. cbn. now rewrite Op.
  - intros F. specialize (S15 F). unfold cur_op. cbn [o_h with_s with_h]. rewrite S10. exact S15.
  - intros F. specialize (S4 F). unfold cur_op. cbn [o_h with_s with_h]. rewrite S10. unfold h_load, h_path. rewrite S6. unfold ccfg in Cc. rewrite S8 in Cc. rewrite Cc.
    cbn [k_file with_hist]. rewrite F. exact S4.
Qed.

Lemma start_new e fs k : k_hist k = None -> exists l0, l_cfg l0 0%nat = c_init e k /\ l_new l0 = 1%nat /\ l_op l0 = op_new (newOpHistory []) /\
  switched_new true 0 l0 (life_new e fs k).
Proof.
  intros K. unfold life_new. cbv zeta. set (l0 := Build_life _ _ _ _ _ _ _ _ _ _ _). exists l0. do 3 (split; [reflexivity|]).
  apply switch_new. change (k_hist (c_init e k) = None). rewrite init_hist. exact K.
Qed.

Lemma good_start e fs : sgood (std_new e fs) /\ isfresh (cur_op (std_new e fs)).
Proof.
  unfold std_new. pose proof (wf_new e fs std_config eq_refl) as W.
  destruct (start_new e fs std_config eq_refl) as (l0 & Z1 & Z2 & Z3 & [S1 S2 S3 S4 S5 S6 S7 S8 S9 S10 S11 S12 S13 S14 S15]).
  set (l2 := life_new e fs std_config) in *. clearbody l2. rewrite Z1, ?Z2 in *.
  assert (Cc : ccfg l2 = with_hist 1 s0 (c_init e std_config)) by (unfold ccfg; rewrite S8, S2; reflexivity).
  assert (Op : l_op l2 = with_c c0 (op_new (newOpHistory []))) by (rewrite S12, Z3; reflexivity).
  split.
  - constructor; rewrite ?Cc; auto; try discriminate.
    + constructor; [rewrite Cc, S10; reflexivity|congruence].
    + unfold l_vim. rewrite S2. reflexivity.
    + rewrite Op. reflexivity.
  - constructor.
    + unfold cur_op. cbn [o_h with_s with_h]. rewrite S10. unfold h_load, h_path. rewrite S6, S2. cbn [k_file with_hist with_file c_init k_inited std_config].
      rewrite S4 by reflexivity. apply fresh_new.
    + unfold cur_op. cbn. rewrite Op. reflexivity.
    + unfold cur_op. fold (ccfg l2). rewrite Cc. reflexivity.
Qed.

Lemma good_add s l l' : sgood l -> AddHistory s l = Ok l' -> sgood l'.
Proof.
  intros G E. pose proof G as [W O Ns Fi Li Vm Au Vp]. destruct (add_facts s l l' O E) as (h & _ & _ & O' & _ & _).
  unfold AddHistory in E. destruct (New _ _ _) as [h'| |]; cbn [obind] in E; try discriminate. injection E as <-.
  constructor; auto. destruct W. constructor; auto.
Qed.
Lemma good_adds ls : forall l l', sgood l -> add_lines ls l = Ok l' -> sgood l'.
Proof.
  induction ls as [|s ls IH]; intros l l' G E; cbn [add_lines] in E; [now injection E as <-|].
  destruct (AddHistory s l) as [l1| |] eqn:A; cbn [obind] in E; try discriminate. apply (IH l1); [exact (good_add s l l1 G A)|exact E].
Qed.
Lemma good_key e r l l' a : sgood l -> keys_in e [r] l = Ok (l', a) -> sgood l'.
Proof.
  intros [W O Ns Fi Li Vm Au Vp] E. unfold keys_in in E. fold (ccfg l) in E. cbn [op_run] in E.
  destruct (op_step _ r (cur_op l)) as [[o1 b1]| |] eqn:E1; cbn [obind fst snd] in E; try discriminate. injection E as <- <-.
  destruct (put_facts o1 l O) as (_ & O' & [K1 K2 K3 K4 K5 K6 K7]). pose proof (K4 e [] false) as Kc.
  apply vp_step in E1; [|exact Vm|exact Fi|exact Vp].
  pose proof (wf_put o1 l W) as W'. assert (Vp' : o_vp (l_op (put_op o1 l)) = None) by exact E1.
  set (l' := put_op o1 l) in *. clearbody l'.
  pose proof (f_equal oc_filter Kc) as Kc1. pose proof (f_equal (fun c => hc_limit (oc_h c)) Kc) as Kc2. pose proof (f_equal oc_auto Kc) as Kc3. cbn in Kc1, Kc2, Kc3.
  constructor; auto; try congruence.
  - unfold l_vim in *. congruence.
Qed.
Lemma good_program e es : forall l l' a, sgood l -> program e es l = Ok (l', a) -> sgood l'.
Proof.
  induction es as [|v es IH]; intros l l' a G E; cbn [program] in E; [now injection E as <- _|]. destruct v as [r|p].
  - destruct (keys_in e [r] l) as [[l1 a1]| |] eqn:E1; cbn [obind fst snd] in E; try discriminate.
    destruct (add_lines _ l1) as [l2| |] eqn:E2; cbn [obind] in E; try discriminate.
    destruct (program e es l2) as [[l3 a3]| |] eqn:E3; cbn [obind fst snd] in E; try discriminate. injection E as <- _.
    apply (IH l2 l3 a3); [|exact E3]. apply (good_adds (lines_of a1) l1 l2); [|exact E2]. exact (good_key e r l l1 a1 G E1).
  - apply (IH (set_prompt p l) l' a); [|exact E]. destruct G as [W [O1 O2] Ns Fi Li Vm Au Vp]. constructor; auto; [|constructor; auto].
    destruct W. constructor; auto.
Qed.
Lemma reach_good e fs l : std_reach e fs l -> sgood l.
Proof.
  induction 1 as [|p l R G|f l R G|es l l' a R G E].
  - exact (proj1 (good_start e fs)).
  - pose proof G as [W O Ns Fi Li Vm Au Vp]. exact (proj1 (good_new e (with_file p (clone (ccfg l))) l G eq_refl (lw_init _ W) Ns Fi Li Au)).
  - pose proof G as [W O Ns Fi Li Vm Au Vp]. exact (proj1 (good_new e (with_auto (Some f) (clone (ccfg l))) l G eq_refl (lw_init _ W) Ns Fi Li ltac:(discriminate))).
  - exact (good_program e es l l' a G E).
Qed.

(** ** What is recorded *)
Lemma pinv_file e k l ls : sgood l -> k_hist k = None -> k_inited k = true -> k_nosave k = true -> k_filter k = None -> 1 <= k_limit k -> k_auto k <> None ->
  k_file k <> [] -> l_files l (k_file k) = flat_map file_line ls -> Forall clean_line ls -> pinv true e (newcfg e k l) (lastn (keep (hcfg_of k)) ls).
Proof.
  intros G Kh Ki Kn Kf Kl Ka F Fl Cl. destruct (good_new e k l G Kh Ki Kn Kf Kl Ka) as (G' & Cc & C & S & V & H & _).
  set (l' := newcfg e k l) in *. clearbody l'. specialize (H F). rewrite Fl in H.
  assert (Hf : hc_file (hcfg_of k) = true) by (cbn; destruct (k_file k); [congruence|reflexivity]).
  destruct (open_persisted (hcfg_of k) ls Kl Hf Cl) as (Fs & P). rewrite <- H in P.
  pose proof P as ((_ & _ & (Wh & _) & On & _) & _).
  destruct G' as [W O Ns Fi Li Vm Au Vp]. constructor; auto. split; [exact V|]. left. split; [|exact On]. constructor.
  - split; [exact Wh|]. rewrite (enable_same _ On). assert (E : oc_h (autosave (lcf e l')) = hcfg_of k) by (unfold lcf; rewrite Cc; reflexivity). rewrite E.
    rewrite (tracks_back true (hcfg_of k) _ (lastn (keep (hcfg_of k)) ls)); exists Fs; exact P.
  - intros X. rewrite C in X. discriminate.
  - exact S.
  - intros _. left. assert (T : tracks true (hcfg_of k) (o_h (cur_op l')) (lastn (keep (hcfg_of k)) ls)) by (exists Fs; exact P).
    apply tracks_cur in T. destruct T as (id & -> & ->). reflexivity.
Qed.

(** the file holds what is recorded, and so does the history *)
Lemma pinv_saved e l R c' : pinv true e l R -> k_file (ccfg l) <> [] -> hc_file c' = true -> hc_limit c' <= k_limit (ccfg l) ->
  committed (openf c' (l_files l (k_file (ccfg l)))) = lastn (keep c') R /\
  exists F, l_files l (k_file (ccfg l)) = flat_map file_line F /\ Forall clean_line F /\ lastn (keep (hcfg_of (ccfg l))) F = lastn (keep (hcfg_of (ccfg l))) R.
Proof.
  intros [O Li Vm Fi Ns (V & [(K & On)|(X & _)])] Nf Hf Le; [|discriminate].
  destruct K as [(W & (F & _ & P2 & P3 & P4 & P5)) _ _ _].
  change (h_disk (to_back (Enable (o_h (cur_op l))))) with (h_disk (o_h (cur_op l))) in P3.
  assert (D : h_disk (o_h (cur_op l)) = l_files l (k_file (ccfg l))).
  { unfold cur_op. cbn [o_h with_s with_h]. unfold h_load, h_path. rewrite (ow_h l O). fold (ccfg l). destruct (k_file (ccfg l)); [congruence|reflexivity]. }
  change (keep (oc_h (autosave (lcf e l)))) with (keep (hcfg_of (ccfg l))) in P5. rewrite <- D, P3.
  split; [|exists F; auto].
  assert (Y : Nat.min (keep c') (keep (hcfg_of (ccfg l))) = keep c') by (unfold keep; cbn; lia).
  rewrite <- (app_nil_r (flat_map file_line F)). rewrite open_committed by (auto; intros []). rewrite <- Y, <- !lastn_lastn, P5. reflexivity.
Qed.

Lemma pinv_memory file e l R : pinv file e l R ->
  exists n, std_history l = lastn n R /\ (n <= keep (hcfg_of (ccfg l)))%nat /\ (Nat.min (length R) (keep (hcfg_of (ccfg l)) - 1) <= n)%nat.
Proof.
  intros [O Li Vm Fi Ns (V & [(K & On)|(X & -> & K)])]; unfold std_history; change (h_load (l_hid l) l) with (o_h (cur_op l)).
  - destruct K as [(W & T) _ _ _]. apply tracks_rests in T. destruct T as (com & x & (_ & I & _) & _ & K1 & K2 & K3).
    change (h_items (to_back (Enable (o_h (cur_op l))))) with (h_items (o_h (cur_op l))) in I. exists (length com).
    unfold committed. rewrite I, removelast_last. auto.
  - exists 0%nat. destruct K as [(I & _) _ _]. unfold committed. rewrite I. cbn. split; [reflexivity|]. lia.
Qed.

Lemma std_memory e fs es l a : no_searching es -> program e es (std_new e fs) = Ok (l, a) -> starts_well (map Submit (lines_of a)) ->
  exists n, std_history l = lastn n (recorded [] (map Submit (lines_of a))) /\ (n <= 500)%nat /\
    (Nat.min (length (recorded [] (map Submit (lines_of a)))) 499 <= n)%nat.
Proof.
  intros N E Sw. destruct (good_start e fs) as (G & F). pose proof G as [W O Ns Fi Li Vm Au Vp].
  assert (P : pinv false e (std_new e fs) []) by (constructor; auto; split; [exact Vp|right; auto]).
  destruct (program_inv false e es N _ [] l a P E ltac:(intros X; discriminate) (fun _ _ => Sw)) as (P' & [K1 K2 K3 K4 K5 K6 K7]).
  destruct (pinv_memory false e l _ P') as (n & H1 & H2 & H3). exists n. split; [exact H1|].
  assert (L : hcfg_of (ccfg l) = hcfg_of (ccfg (std_new e fs))) by exact (f_equal oc_h (K4 e [] false)). rewrite L in *.
  assert (L2 : keep (hcfg_of (ccfg (std_new e fs))) = 500%nat).
  { destruct (start_new e fs std_config eq_refl) as (l0 & Z1 & _ & _ & [_ S2 _ _ _ _ _ S8 _ _ _ _ _ _ _]). unfold ccfg, std_new. rewrite S8, S2, Z1. reflexivity. }
  rewrite L2 in *. split; [exact H2|exact H3].
Qed.

Definition std_limit (l : life) : nat := keep (hcfg_of (ccfg l)).

Lemma std_path_saved e fs p l ls es l' a c' : std_reach e fs l -> p <> [] -> l_files l p = flat_map file_line ls -> Forall clean_line ls -> no_searching es ->
  program e es (std_path e p l) = Ok (l', a) -> Forall (fun s => s = [] \/ clean_line s) (lines_of a) ->
  hc_file c' = true -> hc_limit c' <= k_limit (ccfg l) ->
  let R := recorded (lastn (std_limit l) ls) (map Submit (lines_of a)) in
  pinv true e l' R /\ k_file (ccfg l') = p /\ k_limit (ccfg l') = k_limit (ccfg l) /\ committed (openf c' (l_files l' p)) = lastn (keep c') R.
Proof.
  intros Rc Np Fl Cl N E Ca Hf Le R. apply reach_good in Rc. pose proof Rc as [W O Ns Fi Li Vm Au Vp].
  set (k := with_file p (clone (ccfg l))).
  pose proof (pinv_file e k l ls Rc eq_refl (lw_init _ W) Ns Fi Li Au Np Fl Cl) as P. change (newcfg e k l) with (std_path e p l) in P.
  change (keep (hcfg_of k)) with (std_limit l) in P.
  destruct (good_new e k l Rc eq_refl (lw_init _ W) Ns Fi Li Au) as (_ & Cc & _). change (newcfg e k l) with (std_path e p l) in Cc.
  destruct (program_inv true e es N _ _ l' a P E (fun _ => Ca) ltac:(intros X; discriminate)) as (P' & [K1 K2 K3 K4 K5 K6 K7]).
  assert (Kf : k_file (ccfg l') = p) by (rewrite K5, Cc; reflexivity).
  assert (Kl : k_limit (ccfg l') = k_limit (ccfg l)) by (pose proof (f_equal (fun c => hc_limit (oc_h c)) (K4 e [] false)) as X; cbn in X; rewrite X, Cc; reflexivity).
  split; [exact P'|]. split; [exact Kf|]. split; [exact Kl|].
  destruct (pinv_saved e l' R c' P') as (X & _); [congruence|exact Hf|lia|]. rewrite Kf in X. exact X.
Qed.

(** SetAutoComplete reads the file again *)
Lemma std_auto_file e fs p l ls es l' a f : std_reach e fs l -> p <> [] -> l_files l p = flat_map file_line ls -> Forall clean_line ls -> no_searching es ->
  program e es (std_path e p l) = Ok (l', a) -> Forall (fun s => s = [] \/ clean_line s) (lines_of a) ->
  std_history (std_auto e (Some f) l') = lastn (std_limit l) (recorded (lastn (std_limit l) ls) (map Submit (lines_of a))).
Proof.
  intros Rc Np Fl Cl N E Ca.
  assert (Rc' : sgood l') by (apply (reach_good e fs); apply (sr_program e fs es (std_path e p l) l' a); [now apply sr_path|exact E]).
  set (c' := {| hc_limit := k_limit (ccfg l); hc_fold := k_fold (ccfg l'); hc_file := true |}).
  destruct (std_path_saved e fs p l ls es l' a c' Rc Np Fl Cl N E Ca eq_refl ltac:(cbn; lia)) as (P & Kf & Kl & X).
  pose proof Rc' as [W O Ns Fi Li Vm Au Vp]. set (k := with_auto (Some f) (clone (ccfg l'))).
  destruct (good_new e k l' Rc' eq_refl (lw_init _ W) Ns Fi Li ltac:(discriminate)) as (_ & _ & _ & _ & _ & H & _).
  change (newcfg e k l') with (std_auto e (Some f) l') in H. unfold std_history. change (h_load (l_hid (std_auto e (Some f) l')) (std_auto e (Some f) l')) with (o_h (cur_op (std_auto e (Some f) l'))).
  assert (Kfk : k_file k = p) by exact Kf. rewrite H by congruence. rewrite Kfk.
  assert (Hc : hcfg_of k = c'). { unfold hcfg_of. rewrite Kfk. unfold c'. rewrite <- Kl. destruct p; [congruence|reflexivity]. }
  rewrite Hc. exact X.
Qed.
