(** Configurations and password entry. *)
From Verif Require Import Base ListAux RunesModel RuneBufModel RuneBufSpec HistoryModel HistorySpec HistoryProofs
  RenderModel OpModel OpSpec OpProofs OpKeys LifeModel LifeSpec.
From Coq Require Import ZifyBool.
Open Scope nat_scope.

Lemma eqbl_refl q : eqbl q q = true.
Proof. induction q as [|x q IH]; cbn; [reflexivity|]. now rewrite Z.eqb_refl. Qed.
Lemma eqbl_eq q : forall p, eqbl q p = true <-> q = p.
Proof.
  induction q as [|x q IH]; intros [|y p]; cbn; split; intros H; try discriminate; try reflexivity.
  - apply andb_true_iff in H as (A & B). apply IH in B. f_equal; [lia|assumption].
  - injection H as -> ->. now rewrite Z.eqb_refl, eqbl_refl.
Qed.

Lemma upd_same {A} (f : nat -> A) i x : upd f i x i = x.
Proof. unfold upd. now rewrite Nat.eqb_refl. Qed.
Lemma upd_other {A} (f : nat -> A) i x j : j <> i -> upd f i x j = f j.
Proof. intros N. unfold upd. now replace (j =? i) with false by lia. Qed.

Lemma disk_close h : h_disk (HClose h) = h_disk h.
Proof. unfold HClose. now destruct (h_fd h). Qed.
Lemma close_entries h : same_entries h (HClose h).
Proof. unfold HClose. destruct (h_fd h); constructor; reflexivity. Qed.
Lemma load_entries i l : same_entries (l_his l i) (h_load i l).
Proof. unfold h_load. destruct (h_path i l); constructor; reflexivity. Qed.
Lemma se_trans a b c : same_entries a b -> same_entries b c -> same_entries a c.
Proof. intros [] []. constructor; congruence. Qed.

(** What is on the disk under a history's name. *)
Lemma load_disk i l : h_path i l <> [] -> h_disk (h_load i l) = l_files l (h_path i l).
Proof. unfold h_load. destruct (h_path i l); [congruence|reflexivity]. Qed.

(** Closing leaves all files alone. *)
Lemma close_files i l q : l_files (h_store i (HClose (h_load i l)) l) q = l_files l q.
Proof.
  unfold h_store. cbn [set_his l_files]. destruct (h_path i l) as [|x p] eqn:E; [reflexivity|].
  unfold updf. destruct (eqbl q (x :: p)) eqn:Q; [|reflexivity]. apply eqbl_eq in Q. subst q.
  rewrite disk_close, load_disk by congruence. now rewrite E.
Qed.

Ltac lproj := cbn [l_cfg l_his l_hcfg l_files l_cur l_buf l_prompt l_inter l_hid l_op l_new set_cfg set_his set_lop add_cfg h_store].

(** SetConfig with a configuration that has no history yet *)
Section switch_new.
Variables (e : lenv) (first : bool) (i : nat) (l : life).
Hypothesis Hk : k_hist (l_cfg l i) = None.

Record switched_new (l' : life) : Prop := {
  sn_cfg : forall j, j <> i -> l_cfg l' j = if j =? l_buf l then with_mask (k_mask (l_cfg l i)) (l_cfg l j) else l_cfg l j;
  sn_cfg' : l_cfg l' i = with_hist (l_new l) s0 (with_file (k_file (l_cfg l i)) (l_cfg l i));
  sn_his : forall j, j <> l_new l -> l_his l' j = if negb first && (j =? l_hid l) then HClose (h_load (l_hid l) l) else l_his l j;
  sn_his' : k_file (l_cfg l i) = [] -> l_his l' (l_new l) = newOpHistory [];
  sn_hcfg : forall j, j <> l_new l -> l_hcfg l' j = l_hcfg l j;
  sn_hcfg' : l_hcfg l' (l_new l) = i;
  sn_files : k_file (l_cfg l i) = [] -> forall q, l_files l' q = l_files l q;
  sn_cur : l_cur l' = i; sn_buf : l_buf l' = i; sn_hid : l_hid l' = l_new l; sn_new : l_new l' = S (l_new l);
  sn_op : l_op l' = match k_auto (l_cfg l i) with Some _ => with_c c0 (l_op l) | None => l_op l end;
  sn_prompt : l_prompt l' = k_prompt (l_cfg l i);
  sn_inter : l_inter l' = interactive (l_cfg l i);
  sn_load : k_file (l_cfg l i) <> [] -> h_load (l_new l) l' = HInit (hcfg_of (l_cfg l i)) true (newOpHistory (l_files l (k_file (l_cfg l i)))) }.

Lemma switch_new : switched_new (switch_config e first i l).
Proof.
  set (l1 := {| l_cfg := upd (l_cfg l) (l_buf l) (with_mask (k_mask (l_cfg l i)) (l_cfg l (l_buf l))); l_his := l_his l; l_hcfg := l_hcfg l; l_files := l_files l;
              l_cur := i; l_buf := i; l_prompt := k_prompt (l_cfg l i); l_inter := interactive (l_cfg l i);
              l_hid := l_hid l; l_op := l_op l; l_new := l_new l |}).
  assert (C1 : l_cfg l1 i = l_cfg l i).
  { cbn [l1 l_cfg]. unfold upd. destruct (i =? l_buf l) eqn:Q; [|reflexivity]. apply Nat.eqb_eq in Q. rewrite <- Q.
    destruct (l_cfg l i); reflexivity. }
  assert (P1 : forall j, h_path j l1 = h_path j l).
  { intros j. unfold h_path. cbn. unfold upd. destruct (_ =? _) eqn:Q; [|reflexivity]. apply Nat.eqb_eq in Q. rewrite Q. reflexivity. }
  assert (L1 : h_load (l_hid l) l1 = h_load (l_hid l) l) by (unfold h_load; rewrite P1; reflexivity).
  set (l2 := SetHistoryPath first (k_file (l_cfg l i)) l1).
  set (l3 := set_cfg i (with_hist (l_hid l2) s0 (l_cfg l2 i)) l2).
  assert (C2 : l_cfg l2 i = with_file (k_file (l_cfg l i)) (l_cfg l i)).
  { unfold l2, SetHistoryPath. destruct first; lproj; change (l_cur l1) with i; rewrite upd_same; now rewrite C1. }
  assert (H2 : l_hid l2 = l_new l) by (unfold l2; now destruct first).
  assert (C3 : l_cfg l3 i = with_hist (l_new l) s0 (with_file (k_file (l_cfg l i)) (l_cfg l i))) by (unfold l3; lproj; rewrite upd_same, C2, H2; reflexivity).
  assert (HC : l_hcfg l3 (l_new l) = i).
  { unfold l3, l2, SetHistoryPath. destruct first; lproj; change (l_new l1) with (l_new l); rewrite upd_same; reflexivity. }
  assert (HN : l_his l3 (l_new l) = newOpHistory []).
  { unfold l3, l2, SetHistoryPath. destruct first; lproj; change (l_new l1) with (l_new l); now rewrite upd_same. }
  set (l4 := {| l_cfg := l_cfg l3; l_his := l_his l3; l_hcfg := l_hcfg l3; l_files := l_files l3; l_cur := l_cur l3; l_buf := l_buf l3;
              l_prompt := l_prompt l3; l_inter := l_inter l3; l_hid := l_new l; l_op := l_op l3; l_new := l_new l3 |}).
  assert (HP : h_path (l_new l) l4 = k_file (l_cfg l i)) by (unfold h_path; cbn [l4 l_cfg l_hcfg]; rewrite HC, C3; reflexivity).
  set (l5 := h_store (l_new l) (HInit (hcfg_of (l_cfg l3 i)) true (h_load (l_new l) l4)) l4).
  assert (S5 : l_op l5 = l_op l) by (unfold l5, l4, l3, l2; now destruct first).
  assert (E : switch_config e first i l = match k_auto (l_cfg l i) with Some _ => set_lop (with_c c0 (l_op l)) l5 | None => l5 end).
  { unfold switch_config. cbv zeta. fold l1. rewrite C1, Hk. fold l2. fold l3. rewrite C3. cbn [k_hist with_hist]. fold l4.
    change (l_hcfg l4) with (l_hcfg l3). rewrite HC. change (l_cfg l4) with (l_cfg l3). fold l5.
    change (l_cfg l5) with (l_cfg l3). rewrite C3, S5. cbn [k_auto with_hist with_file]. reflexivity. }
  assert (G : forall l', l_cfg l' = l_cfg l5 -> l_his l' = l_his l5 -> l_hcfg l' = l_hcfg l5 -> l_files l' = l_files l5 -> l_cur l' = l_cur l5 ->
     l_buf l' = l_buf l5 -> l_hid l' = l_hid l5 -> l_new l' = l_new l5 -> l_prompt l' = l_prompt l5 -> l_inter l' = l_inter l5 ->
     l_op l' = match k_auto (l_cfg l i) with Some _ => with_c c0 (l_op l) | None => l_op l end -> switched_new l').
  { intros l' A1 A2 A3 A4 A5 A6 A7 A8 A9 A10 A11. constructor; rewrite ?A1, ?A2, ?A3, ?A4, ?A5, ?A6, ?A7, ?A8, ?A9, ?A10, ?A11.
    - intros j Nj. cbn [l5 h_store set_his l_cfg l4]. unfold l3. lproj. rewrite upd_other by exact Nj.
      assert (X : l_cfg l2 j = upd (l_cfg l) (l_buf l) (with_mask (k_mask (l_cfg l i)) (l_cfg l (l_buf l))) j).
      { unfold l2, SetHistoryPath. destruct first; lproj; change (l_cur l1) with i; rewrite upd_other by exact Nj; reflexivity. }
      rewrite X. unfold upd. destruct (j =? l_buf l) eqn:Q; [|reflexivity].
      apply Nat.eqb_eq in Q. now rewrite Q.
    - exact C3.
    - intros j Nj. cbn [l5 h_store set_his l_his]. rewrite upd_other by exact Nj. cbn [l4 l_his]. unfold l3, l2, SetHistoryPath.
      destruct first; lproj; change (l_new l1) with (l_new l); rewrite upd_other by exact Nj; change (l_hid l1) with (l_hid l); rewrite ?L1; reflexivity.
    - intros F. cbn [l5 h_store set_his l_his]. rewrite upd_same. unfold h_load. rewrite HP, F, C3. unfold HInit, hcfg_of. cbn [l4 l_his k_file with_hist with_file].
      rewrite HN, F. reflexivity.
    - intros j Nj. cbn [l5 h_store set_his l_hcfg l4]. unfold l3, l2, SetHistoryPath. destruct first; lproj; change (l_new l1) with (l_new l); now rewrite upd_other by exact Nj.
    - exact HC.
    - intros F q. unfold l5, h_store. cbn [set_his l_files]. rewrite HP, F. cbn [l4 l_files]. unfold l3, l2, SetHistoryPath. destruct first; lproj;
      [reflexivity|]. change (l_hid l1) with (l_hid l). exact (close_files (l_hid l) l1 q).
    - unfold l5, l4, l3, l2; now destruct first.
    - unfold l5, l4, l3, l2; now destruct first.
    - reflexivity.
    - unfold l5, l4, l3, l2; now destruct first.
    - reflexivity.
    - unfold l5, l4, l3, l2; now destruct first.
    - unfold l5, l4, l3, l2; now destruct first.
    - intros F.
      assert (P5 : h_path (l_new l) l' = k_file (l_cfg l i)) by (unfold h_path; rewrite A1, A3; exact HP).
      assert (F4 : l_files l4 (k_file (l_cfg l i)) = l_files l (k_file (l_cfg l i))).
      { cbn [l4 l_files]. unfold l3, l2, SetHistoryPath. destruct first; lproj; [reflexivity|]. change (l_hid l1) with (l_hid l).
        exact (close_files (l_hid l) l1 _). }
      assert (L4 : h_load (l_new l) l4 = newOpHistory (l_files l (k_file (l_cfg l i)))).
      { unfold h_load. rewrite HP. change (l_his l4) with (l_his l3). rewrite HN. clear - F F4. revert F F4.
        destruct (k_file (l_cfg l i)); intros F F4; [congruence|]. rewrite F4. reflexivity. }
      unfold h_load. rewrite P5, A2, A4. unfold l5, h_store. rewrite HP. cbn [set_his l_his l_files]. rewrite upd_same, L4.
      rewrite C3. change (hcfg_of (with_hist (l_new l) s0 (with_file (k_file (l_cfg l i)) (l_cfg l i)))) with (hcfg_of (l_cfg l i)).
      generalize (HInit (hcfg_of (l_cfg l i)) true (newOpHistory (l_files l (k_file (l_cfg l i))))). intros X.
      clear - F. destruct (k_file (l_cfg l i)) as [|x p]; [congruence|]. unfold updf. rewrite eqbl_refl.
      destruct X; reflexivity. }
  rewrite E. destruct (k_auto (l_cfg l i)); apply G; try reflexivity. exact S5.
Qed.
End switch_new.

(** ... with one that has a history *)
Section switch_old.
Variables (e : lenv) (i h : nat) (l : life).
Hypothesis Hk : k_hist (l_cfg l i) = Some h.
Hypothesis Nb : l_buf l <> i.
Hypothesis Hc : l_hcfg l h = i.

Definition reopened (l : life) (h : nat) : hist := HInit (hcfg_of (l_cfg l (l_hcfg l h))) true (h_load h l).

Record switched_old (l' : life) : Prop := {
  so_cfg : forall j, j <> l_buf l -> l_cfg l' j = l_cfg l j;
  so_cfg' : l_cfg l' (l_buf l) = with_mask (k_mask (l_cfg l i)) (l_cfg l (l_buf l));
  so_his : forall j, l_his l' j = if j =? h then reopened l h else l_his l j;
  so_hcfg : forall j, l_hcfg l' j = l_hcfg l j;
  so_files : forall q, l_files l' q =
    match k_file (l_cfg l i) with [] => l_files l q | p => if eqbl q p then h_disk (reopened l h) else l_files l q end;
  so_cur : l_cur l' = i; so_buf : l_buf l' = i; so_hid : l_hid l' = h; so_new : l_new l' = l_new l;
  so_op : l_op l' = match k_auto (l_cfg l i) with Some _ => with_c c0 (l_op l) | None => l_op l end;
  so_prompt : l_prompt l' = k_prompt (l_cfg l i);
  so_inter : l_inter l' = interactive (l_cfg l i) }.

Lemma switch_old : switched_old (switch_config e false i l).
Proof.
  set (l1 := {| l_cfg := upd (l_cfg l) (l_buf l) (with_mask (k_mask (l_cfg l i)) (l_cfg l (l_buf l))); l_his := l_his l; l_hcfg := l_hcfg l; l_files := l_files l;
              l_cur := i; l_buf := i; l_prompt := k_prompt (l_cfg l i); l_inter := interactive (l_cfg l i);
              l_hid := h; l_op := l_op l; l_new := l_new l |}).
  assert (C1 : l_cfg l1 i = l_cfg l i) by (cbn; apply upd_other; congruence).
  assert (P1 : h_path h l1 = k_file (l_cfg l i)) by (unfold h_path; change (l_hcfg l1 h) with (l_hcfg l h); now rewrite Hc, C1).
  assert (P2 : h_path h l = k_file (l_cfg l i)) by (unfold h_path; now rewrite Hc).
  assert (L1 : h_load h l1 = h_load h l) by (unfold h_load; rewrite P1, P2; reflexivity).
  assert (E : switch_config e false i l =
     match k_auto (l_cfg l i) with Some _ => set_lop (with_c c0 (l_op l)) (h_store h (reopened l h) l1) | None => h_store h (reopened l h) l1 end).
  { unfold switch_config. cbv zeta. lproj. rewrite upd_other by congruence. rewrite Hk. lproj. rewrite upd_other by congruence. rewrite Hk.
    lproj. fold l1. rewrite L1. unfold reopened. change (l_cfg l1) with (upd (l_cfg l) (l_buf l) (with_mask (k_mask (l_cfg l i)) (l_cfg l (l_buf l)))).
    rewrite Hc. rewrite !upd_other by congruence. reflexivity. }
  rewrite E. clear E. unfold h_store. rewrite P1.
  destruct (k_auto (l_cfg l i)) eqn:A; constructor; lproj; try reflexivity; try (exact (f_equal _ A)); try rewrite A; try reflexivity;
    try (intros j Nj; cbn [l1 l_cfg]; now rewrite upd_other by exact Nj);
    try (cbn [l1 l_cfg]; now rewrite upd_same);
    try (intros q; destruct (k_file (l_cfg l i)); reflexivity).
Qed.
End switch_old.

(** ** Password entry *)
Section pass.
Variables (e : lenv).

(** the configuration the password is read with *)
Definition pw_conf (p : list Z) (lst : option (list Z -> nat -> Z -> option (list Z * nat))) (vim : bool) : ocfg :=
  ocfg_of e p vim (c_init e (PasswordConfig p lst)).

Record entered (p : list Z) lst (l l' : life) : Prop := {
  en_cfg : forall i, i < l_new l -> l_cfg l' i = if i =? l_cur l then with_mask 0 (l_cfg l i) else l_cfg l i;
  en_his : forall i, i < l_new l -> l_his l' i = if i =? l_hid l then HClose (h_load (l_hid l) l) else l_his l i;
  en_hcfg : forall i, i < l_new l -> l_hcfg l' i = l_hcfg l i;
  en_files : forall q, l_files l' q = l_files l q;
  en_cur : l_cur l' = l_new l; en_buf : l_buf l' = l_new l; en_hid : l_hid l' = S (l_new l); en_new : l_new l' = S (S (l_new l));
  en_hcfg' : l_hcfg l' (S (l_new l)) = l_new l;
  en_cfg' : l_cfg l' (l_new l) = with_hist (S (l_new l)) s0 (c_init e (PasswordConfig p lst));
  en_his' : l_his l' (S (l_new l)) = newOpHistory [];
  en_op : l_op l' = with_c c0 (l_op l);
  en_prompt : l_prompt l' = p;
  en_inter : l_inter l' = e_tty e }.

Lemma enter_ok p lst l : lwf l -> entered p lst l (EnterPasswordMode e p lst l).
Proof.
  intros [Wb Wc Wh Whc Wi Wk Wo Wt].
  set (n := l_new l) in *. set (l1 := set_cfg n (c_init e (PasswordConfig p lst)) (add_cfg (PasswordConfig p lst) l)).
  assert (E : EnterPasswordMode e p lst l = switch_config e false n l1).
  { unfold EnterPasswordMode, SetConfig. cbn [add_cfg l_cur]. fold n. replace (l_cur l =? n) with false by lia. cbn [l_cfg add_cfg].
    fold n. rewrite upd_same. reflexivity. }
  assert (C1 : l_cfg l1 n = c_init e (PasswordConfig p lst)) by (cbn; apply upd_same).
  assert (C2 : forall i, i < n -> l_cfg l1 i = l_cfg l i).
  { intros i Li. unfold l1. cbn [set_cfg add_cfg l_cfg]. fold n. rewrite !upd_other by lia. reflexivity. }
  assert (L : h_load (l_hid l) l1 = h_load (l_hid l) l).
  { unfold h_load, h_path. change (l_hcfg l1) with (l_hcfg l). rewrite C2 by (rewrite Whc; exact Wc). reflexivity. }
  destruct (switch_new e false n l1) as [H1 H2 H3 H4 H5 H6 H7 H8 H9 H10 H11 H12 H13 H14].
  - rewrite C1. reflexivity.
  - rewrite <- E in *. rewrite C1 in *. cbn [l1 set_cfg add_cfg l_new l_hid l_buf l_his l_hcfg l_files l_op] in *.
    change (l_new l) with n in H1, H2, H3, H4, H5, H6, H7, H8, H9, H10, H11.
    cbn [c_init PasswordConfig k_inited k_file k_mask k_auto k_prompt] in *.
    constructor; fold n; try assumption.
    + intros i Li. rewrite H1 by lia. rewrite Wb, C2 by exact Li. reflexivity.
    + intros i Li. rewrite H3 by lia. rewrite L. reflexivity.
    + intros i Li. apply H5. lia.
    + exact (H7 eq_refl).
    + exact (H4 eq_refl).
Qed.

(** Keys typed while the history has no file *)
Record typed_in (l l' : life) : Prop := {
  ti_cfg : forall i, i <> l_cur l -> l_cfg l' i = l_cfg l i;
  ti_cfg' : exists s, l_cfg l' (l_cur l) = with_hist (l_hid l) s (l_cfg l (l_cur l));
  ti_his : forall i, i <> l_hid l -> l_his l' i = l_his l i;
  ti_hcfg : l_hcfg l' = l_hcfg l; ti_files : l_files l' = l_files l;
  ti_cur : l_cur l' = l_cur l; ti_buf : l_buf l' = l_buf l; ti_hid : l_hid l' = l_hid l; ti_new : l_new l' = l_new l;
  ti_prompt : l_prompt l' = l_prompt l; ti_inter : l_inter l' = l_inter l }.

Lemma put_typed o l : k_file (l_cfg l (l_hcfg l (l_hid l))) = [] -> k_hist (l_cfg l (l_cur l)) = Some (l_hid l) -> typed_in l (put_op o l).
Proof.
  intros F K. unfold put_op, h_store, h_path. rewrite F. constructor; lproj; try reflexivity.
  - intros i N. now rewrite upd_other by exact N.
  - rewrite upd_same, K. eauto.
  - intros i N. now rewrite upd_other by exact N.
Qed.

(** The instance after ReadPassword, whatever was typed.  [h] is the history of the current configuration. *)
Definition closed_his (l : life) (h : nat) : hist := if h =? l_hid l then HClose (h_load (l_hid l) l) else l_his l h.
Definition closed (l : life) : life := h_store (l_hid l) (HClose (h_load (l_hid l) l)) l.
Record after_password (h : nat) (l l' : life) : Prop := {
  ap_cfg : forall i, i < l_new l -> l_cfg l' i = if i =? l_cur l then with_mask 0 (l_cfg l i) else l_cfg l i;
  ap_his : forall i, i < l_new l -> l_his l' i = if i =? h then reopened (closed l) h else l_his (closed l) i;
  ap_hcfg : forall i, i < l_new l -> l_hcfg l' i = l_hcfg l i;
  ap_files : forall q, l_files l' q = match k_file (l_cfg l (l_cur l)) with
    | [] => l_files l q | p => if eqbl q p then h_disk (reopened (closed l) h) else l_files l q end;
  ap_cur : l_cur l' = l_cur l; ap_buf : l_buf l' = l_cur l; ap_hid : l_hid l' = h;
  ap_new : l_new l' = S (S (l_new l));
  ap_prompt : l_prompt l' = k_prompt (l_cfg l (l_cur l));
  ap_inter : l_inter l' = interactive (l_cfg l (l_cur l)) }.

Lemma read_ok p lst rs l h l' a : lwf l -> k_hist (l_cfg l (l_cur l)) = Some h -> ReadPassword e p lst rs l = Ok (l', a) ->
  after_password h l l' /\
  exists o, op_run (pw_conf p lst (l_vim l)) rs (with_s s0 (with_h (newOpHistory []) (with_c c0 (l_op l)))) = Ok (o, a) /\
    l_op l' = match k_auto (l_cfg l (l_cur l)) with Some _ => with_c c0 o | None => o end.
Proof.
  intros W K R. pose proof (enter_ok p lst l W) as N. destruct W as [Wb Wc Wh Whc Wi Wk Wo Wt].
  unfold ReadPassword in R. set (l1 := EnterPasswordMode e p lst l) in *. set (n := l_new l) in *.
  destruct N as [N1 N2 N3 N4 N5 N6 N7 N8 N9 N10 N11 N12 N13 N14]. fold n in N1, N2, N3, N5, N6, N7, N8, N9, N10, N11.
  unfold keys_in in R. destruct (op_run _ rs (cur_op l1)) as [[o b]| |] eqn:E; cbn [obind fst snd] in R; try discriminate.
  injection R as <- <-.
  assert (T : typed_in l1 (put_op o l1)).
  { apply put_typed; [rewrite N7, N9, N10; reflexivity|rewrite N5, N10, N7; reflexivity]. }
  destruct T as [T1 T2 T3 T4 T5 T6 T7 T8 T9 T10 T11]. set (l2 := put_op o l1) in *.
  rewrite N5 in T1, T2, T6. rewrite N7 in T3, T8. rewrite N6 in T7. rewrite N8 in T9.
  destruct (Wo _ _ K) as (_ & Hn & Hc). fold n in Hn.
  set (c := l_cur l) in *. set (l3 := set_cfg c (c_init e (l_cfg l2 c)) l2).
  assert (Cc : l_cfg l2 c = with_mask 0 (l_cfg l c)).
  { rewrite T1 by lia. rewrite N1 by lia. now rewrite Nat.eqb_refl. }
  assert (Ci : c_init e (l_cfg l2 c) = l_cfg l2 c) by (unfold c_init; rewrite Cc; cbn [with_mask k_inited]; now rewrite Wi).
  assert (E3 : SetConfig e c l2 = switch_config e false c l3).
  { unfold SetConfig. rewrite T6. replace (n =? c) with false by lia. reflexivity. }
  assert (C3 : forall i, l_cfg l3 i = l_cfg l2 i).
  { intros i. unfold l3. lproj. unfold upd. destruct (i =? c) eqn:Q; [|reflexivity]. apply Nat.eqb_eq in Q. rewrite Q. exact Ci. }
  assert (O2 : l_op l2 = o) by reflexivity.
  assert (HL : h_load h l3 = h_load h (closed l)).
  { unfold h_load, h_path, closed, h_store. lproj. change (l_hcfg l3) with (l_hcfg l2). change (l_his l3) with (l_his l2).
    change (l_files l3) with (l_files l2). rewrite C3, T4, T5, N3, Hc, Cc by exact Hn. cbn [with_mask k_file].
    assert (X : l_his l2 h = upd (l_his l) (l_hid l) (HClose (h_load (l_hid l) l)) h).
    { rewrite T3 by lia. rewrite N2 by exact Hn. reflexivity. }
    rewrite X. destruct (k_file (l_cfg l c)) as [|z zs] eqn:Q; [reflexivity|].
    assert (Y : l_files l1 (z :: zs) = match h_path (l_hid l) l with [] => l_files l | p0 => updf (l_files l) p0 (h_disk (HClose (h_load (l_hid l) l))) end (z :: zs)).
    { rewrite N4. symmetry. exact (close_files (l_hid l) l (z :: zs)). }
    rewrite Y. reflexivity. }
  assert (RO : reopened l3 h = reopened (closed l) h).
  { unfold reopened. rewrite HL. change (l_hcfg l3) with (l_hcfg l2). rewrite T4, N3 by exact Hn. unfold closed, h_store. lproj.
    rewrite Hc, C3, Cc. reflexivity. }
  destruct (switch_old e c h l3) as [S1 S2 S3 S4 S5 S6 S7 S8 S9 S10 S11 S12].
  { rewrite C3, Cc. exact K. }
  { change (l_buf l3) with (l_buf l2). rewrite T7. lia. }
  { change (l_hcfg l3) with (l_hcfg l2). rewrite T4, N3 by exact Hn. exact Hc. }
  change (l_buf l3) with (l_buf l2) in *. change (l_his l3) with (l_his l2) in *. change (l_hcfg l3) with (l_hcfg l2) in *.
  change (l_files l3) with (l_files l2) in *. change (l_op l3) with (l_op l2) in *. change (l_new l3) with (l_new l2) in *.
  rewrite T7 in S1. rewrite C3, Cc in S5, S10, S11, S12. rewrite RO in S3, S5. rewrite O2 in S10. rewrite T9 in S9. rewrite T4 in S4. rewrite T5 in S5.
  cbn [with_mask k_file k_auto k_prompt k_force k_tty interactive] in S5, S10, S11, S12.
  rewrite E3. split.
  - constructor; fold c n; try assumption.
    + intros i Li. assert (Ni : i <> n) by (clear - Li; lia). rewrite S1 by exact Ni. rewrite C3, T1 by exact Ni. apply N1. exact Li.
    + intros i Li. rewrite S3. destruct (i =? h); [reflexivity|]. rewrite T3 by (clear - Li; lia). rewrite N2 by exact Li. reflexivity.
    + intros i Li. rewrite S4. apply N3. exact Li.
    + intros q. rewrite S5. destruct (k_file (l_cfg l c)); [apply N4|]. destruct (eqbl q _); [reflexivity|apply N4].
  - exists o. split; [|exact S10]. rewrite <- E. unfold pw_conf, l_vim, cur_op. rewrite N5, N10, N13, N12.
    f_equal.
    + unfold ocfg_of, hcfg_of. cbn [with_hist k_file k_limit k_fold k_width k_auto k_unique k_nosave k_listen k_filter k_eofp k_intp].
      replace (k_vim (l_cfg l1 0)) with (k_vim (l_cfg l 0)); [reflexivity|]. rewrite N1 by (clear - Wc; lia). destruct (0 =? c); reflexivity.
    + unfold h_load, h_path. rewrite N7, N9, N10, N11. reflexivity.
Qed.
End pass.

(** ** The invariant *)
Lemma init_hist e k : k_hist (c_init e k) = k_hist k.
Proof. unfold c_init. now destruct (k_inited k). Qed.
Lemma init_inited e k : k_inited (c_init e k) = true.
Proof. unfold c_init. destruct (k_inited k) eqn:E; [exact E|reflexivity]. Qed.

Lemma wf_set_config e i l : lwf l -> i < l_new l -> lwf (SetConfig e i l).
Proof.
  intros W Li. unfold SetConfig. destruct (l_cur l =? i) eqn:Q; [exact W|]. apply Nat.eqb_neq in Q.
  destruct W as [Wb Wc Wh Whc Wi Wk Wo Wt]. set (l1 := set_cfg i (c_init e (l_cfg l i)) l).
  assert (C1 : l_cfg l1 i = c_init e (l_cfg l i)) by (unfold l1; lproj; apply upd_same).
  assert (C2 : forall j, j <> i -> l_cfg l1 j = l_cfg l j) by (intros j Nj; unfold l1; lproj; now apply upd_other).
  assert (Nb : l_buf l1 <> i) by (change (l_buf l1) with (l_buf l); lia).
  destruct (k_hist (l_cfg l i)) as [h|] eqn:K.
  - destruct (Wo _ _ K) as (_ & Lh & Hc).
    destruct (switch_old e i h l1) as [S1 S2 S3 S4 S5 S6 S7 S8 S9 S10 S11 S12]; [rewrite C1, init_hist; exact K|exact Nb|exact Hc|].
    change (l_buf l1) with (l_buf l) in *. change (l_hcfg l1) with (l_hcfg l) in *. change (l_new l1) with (l_new l) in *.
    assert (Ki : k_hist (l_cfg (switch_config e false i l1) i) = Some h) by (rewrite S1 by lia; now rewrite C1, init_hist).
    constructor.
    + now rewrite S6, S7.
    + now rewrite S6, S9.
    + now rewrite S8, S9.
    + rewrite S8, S6, S4. exact Hc.
    + rewrite S6, S1 by lia. rewrite C1. apply init_inited.
    + rewrite S6, Ki. discriminate.
    + intros j x Kj. rewrite S9, S4. destruct (Nat.eq_dec j (l_buf l)) as [->|Nj].
      * rewrite S2 in Kj. cbn [with_mask k_hist] in Kj. rewrite C2 in Kj by lia. exact (Wo _ _ Kj).
      * rewrite S1 in Kj by exact Nj. destruct (Nat.eq_dec j i) as [->|Nj'].
        -- rewrite C1, init_hist in Kj. exact (Wo _ _ Kj).
        -- rewrite C2 in Kj by exact Nj'. exact (Wo _ _ Kj).
    + rewrite S12, S6, S1 by lia. reflexivity.
  - destruct (switch_new e false i l1) as [S1 S2 S3 S4 S5 S6 S7 S8 S9 S10 S11 S12 S13 S14]; [rewrite C1, init_hist; exact K|].
    change (l_buf l1) with (l_buf l) in *. change (l_hcfg l1) with (l_hcfg l) in *. change (l_new l1) with (l_new l) in *.
    constructor.
    + now rewrite S8, S9.
    + rewrite S8, S11. lia.
    + rewrite S10, S11. lia.
    + now rewrite S10, S8, S6.
    + rewrite S8, S2. cbn [with_hist with_file k_inited]. rewrite C1. apply init_inited.
    + rewrite S8, S2. discriminate.
    + intros j x Kj. rewrite S11. destruct (Nat.eq_dec j i) as [->|Nj].
      * rewrite S2 in Kj. cbn in Kj. injection Kj as <-. rewrite S6. lia.
      * rewrite S1 in Kj by exact Nj.
        assert (Kj' : k_hist (l_cfg l j) = Some x) by (rewrite <- (C2 j Nj); destruct (j =? l_buf l); exact Kj).
        destruct (Wo _ _ Kj') as (L1 & L2 & L3). rewrite S5 by lia. lia.
    + rewrite S14, S8, S2. reflexivity.
Qed.

Lemma wf_add k l : lwf l -> unused k -> lwf (add_cfg k l).
Proof.
  intros [Wb Wc Wh Whc Wi Wk Wo Wt] U. assert (N : l_cur l <> l_new l) by lia.
  constructor; lproj; rewrite ?(upd_other (l_cfg l) _ k _ N); try assumption; try lia.
  intros j x. destruct (Nat.eq_dec j (l_new l)) as [->|Nj].
  - rewrite upd_same. intros H. unfold unused in U. congruence.
  - rewrite upd_other by exact Nj. intros H. destruct (Wo _ _ H) as (L1 & L2 & L3). lia.
Qed.

Lemma wf_put o l : lwf l -> lwf (put_op o l).
Proof.
  intros [Wb Wc Wh Whc Wi Wk Wo Wt]. unfold put_op, h_store.
  set (k := l_cfg l (l_cur l)) in *. destruct (k_hist k) as [h|] eqn:K; [|congruence].
  constructor; lproj; rewrite ?upd_same; fold k; rewrite ?K; try assumption; try discriminate.
  - intros j x. unfold upd. destruct (j =? l_cur l) eqn:Q.
    + apply Nat.eqb_eq in Q. cbn [k_hist with_hist]. intros E. injection E as <-. subst j. exact (Wo _ _ K).
    + intros H. exact (Wo _ _ H).
Qed.

(** the same configuration up to fields that do not matter here *)
Lemma wf_tune i k l : lwf l -> k_hist k = k_hist (l_cfg l i) -> k_inited k = k_inited (l_cfg l i) -> k_force k = k_force (l_cfg l i) ->
  k_tty k = k_tty (l_cfg l i) -> lwf (set_cfg i k l).
Proof.
  intros [Wb Wc Wh Whc Wi Wk Wo Wt] E1 E2 E3 E4.
  assert (C : forall j, k_hist (upd (l_cfg l) i k j) = k_hist (l_cfg l j) /\ k_inited (upd (l_cfg l) i k j) = k_inited (l_cfg l j) /\
     k_force (upd (l_cfg l) i k j) = k_force (l_cfg l j) /\ k_tty (upd (l_cfg l) i k j) = k_tty (l_cfg l j)).
  { intros j. unfold upd. destruct (j =? i) eqn:Q; [|auto]. apply Nat.eqb_eq in Q. subst j. auto. }
  destruct (C (l_cur l)) as (C1 & C2 & C3 & C4).
  constructor; lproj; try assumption.
  - now rewrite C2.
  - now rewrite C1.
  - intros j x. destruct (C j) as (-> & _). apply Wo.
  - unfold interactive. rewrite C3, C4. exact Wt.
Qed.

Lemma wf_path p l : lwf l -> lwf (SetHistoryPath false p l).
Proof.
  intros W. pose proof W as [Wb Wc Wh Whc Wi Wk Wo Wt].
  set (l1 := set_cfg (l_cur l) (with_file p (l_cfg l (l_cur l))) (h_store (l_hid l) (HClose (h_load (l_hid l) l)) l)).
  assert (W1 : lwf l1).
  { apply (wf_tune _ _ (h_store (l_hid l) (HClose (h_load (l_hid l) l)) l)); try reflexivity.
    constructor; lproj; assumption. }
  destruct W1 as [Vb Vc Vh Vhc Vi Vk Vo Vt].
  unfold SetHistoryPath. cbv zeta. change (l_cur (h_store (l_hid l) (HClose (h_load (l_hid l) l)) l)) with (l_cur l).
  change (l_cfg (h_store (l_hid l) (HClose (h_load (l_hid l) l)) l)) with (l_cfg l). fold l1.
  constructor; lproj; try assumption; try lia.
  - apply upd_same.
  - intros j x H. destruct (Vo _ _ H) as (L1 & L2 & L3). rewrite upd_other by lia. lia.
Qed.

Lemma wf_new e fs k : unused k -> lwf (life_new e fs k).
Proof.
  intros U. assert (K : k_hist (c_init e k) = None) by (rewrite init_hist; exact U).
  pose proof (init_inited e k) as I. unfold life_new. cbv zeta. set (k' := c_init e k) in *. clearbody k'. clear U k.
  set (l0 := Build_life _ _ _ _ _ _ _ _ _ _ _).
  destruct (switch_new e true 0 l0 K) as [S1 S2 S3 S4 S5 S6 S7 S8 S9 S10 S11 S12 S13 S14]. set (l := switch_config e true 0 l0) in *. clearbody l.
  cbn [l0 l_cfg l_hid l_new l_buf] in *. constructor.
  - congruence.
  - rewrite S8, S11. lia.
  - rewrite S10, S11. lia.
  - congruence.
  - rewrite S8, S2. exact I.
  - rewrite S8, S2. discriminate.
  - intros j x. destruct (Nat.eq_dec j 0) as [->|N].
    + rewrite S2. cbn [with_hist k_hist]. intros E. injection E as <-. rewrite S11, S6. lia.
    + rewrite S1 by exact N. destruct (j =? 0); cbn [with_mask k_hist]; congruence.
  - rewrite S14, S8, S2. reflexivity.
Qed.

Lemma wf_step e c l l' a : lwf l -> sane l c -> lstep e c l = Ok (l', a) -> lwf l'.
Proof.
  intros W S E. destruct c; cbn [lstep sane] in *.
  - unfold keys_in in E. destruct (op_run _ _ _) as [[o b]| |]; cbn [obind] in E; try discriminate. injection E as <- <-. now apply wf_put.
  - unfold ReadPassword, keys_in in E. set (l1 := EnterPasswordMode e prompt lst l) in *.
    assert (W1 : lwf l1).
    { apply wf_set_config; [apply wf_add; [exact W|reflexivity]|cbn; lia]. }
    assert (N1 : l_cur l < l_new l1).
    { unfold l1. rewrite (en_new _ _ _ _ _ (enter_ok e prompt lst l W)). pose proof (lw_cur _ W). lia. }
    destruct (op_run _ _ _) as [[o b]| |]; cbn [obind] in E; try discriminate. injection E as <- <-.
    apply wf_set_config; [now apply wf_put|exact N1].
  - injection E as <- <-. now apply wf_path.
  - injection E as <- <-. destruct W. constructor; assumption.
  - injection E as <- <-. now apply wf_tune.
  - injection E as <- <-. assert (W1 : lwf (set_cfg 0 (with_vim on (l_cfg l 0)) l)) by now apply wf_tune.
    destruct W1. constructor; assumption.
  - injection E as <- <-. apply wf_set_config; [now apply wf_add|cbn; lia].
  - injection E as <- <-. now apply wf_set_config.
Qed.

Lemma reach_wf e l : lreach e l -> lwf l.
Proof. induction 1; [now apply wf_new|eapply wf_step; eassumption]. Qed.

(** ** Typing a password and Enter *)
Lemma ordinary_kill cf r o o' a : plain cf -> typing o -> ordinary r -> op_step cf r o = Ok (o', a) -> rb_kill (o_b o') = rb_kill (o_b o).
Proof.
  intros P T R. rewrite (step_passes cf r o P T) by (destruct R; lia).
  rewrite switch_ordinary by (try assumption; apply T). rewrite write_spec by apply T. cbn [obind].
  set (b := Build_rbuf _ _ _).
  destruct (after_quiet cf r (with_b b o) [] true P (ty_s _ T) (ty_c _ T) (ty_h _ T)) as (h & -> & _).
  intros E. injection E as <- <-. reflexivity.
Qed.

Lemma enter_kill cf r o o' a : plain cf -> typing o -> r = 13%Z \/ r = 10%Z -> op_step cf r o = Ok (o', a) ->
  rb_kill (o_b o') = rb_kill (o_b o).
Proof.
  intros P T R. rewrite (step_passes cf r o P T) by lia.
  assert (K : key_switch cf r o = key_enter cf o) by (destruct R as [-> | ->]; reflexivity). rewrite K. clear K.
  unfold key_enter. rewrite (ty_s _ T). cbn [obind MoveToLineEnd].
  set (X := if negb (oc_unique cf) then _ else _).
  assert (E : exists d b', X = Ok (d, b') /\ rb_kill b' = rb_kill (o_b o)).
  { unfold X. destruct (negb (oc_unique cf)); [|repeat eexists]. rewrite write_spec by (unfold inside; cbn; lia).
    cbn [obind rb_buf rb_idx with_idx Reset]. rewrite slice_to by lia. cbn [obind]. repeat eexists. }
  destruct E as (d & b' & -> & Kb). cbn [obind].
  assert (Q : exists h, (if negb (oc_nosave cf) then
     h <- New (oc_h cf) d (o_h (with_b b' o)) ;; Ok (with_h h (with_b b' o), [ALine d], false, false, true)
     else Ok (with_b b' o, [ALine d], false, false, false)) =
     Ok (with_h h (with_b b' o), [ALine d], false, false, negb (oc_nosave cf)) /\ hwf h).
  { destruct (negb (oc_nosave cf)).
    - destruct (New_ok (oc_h cf) d (o_h o) (ty_h _ T)) as (h & E & W). exists h. cbn [o_h with_b]. rewrite E. auto.
    - exists (o_h o). split; [destruct o; reflexivity|apply T]. }
  destruct Q as (h & -> & W). cbn [obind].
  destruct (after_quiet cf r (with_h h (with_b b' o)) [ALine d] (negb (oc_nosave cf)) P (ty_s _ T) (ty_c _ T) W) as (h' & -> & _).
  intros E. injection E as <- <-. exact Kb.
Qed.

Lemma text_kill cf t : plain cf -> Forall ordinary t -> forall o o' a, typing o -> op_run cf t o = Ok (o', a) ->
  rb_kill (o_b o') = rb_kill (o_b o) /\ same_modes o o' /\ typing o'.
Proof.
  intros P. induction t as [|r t IH]; intros F o o' a T E.
  - injection E as <- <-. split; [reflexivity|]. split; [constructor; reflexivity|exact T].
  - inversion F; subst. destruct (ordinary_step cf r o P T) as (o1 & E1 & T1 & M & _); [assumption|].
    pose proof (ordinary_kill cf r o o1 [] P T ltac:(assumption) E1) as K1.
    cbn [op_run] in E. rewrite E1 in E. cbn [obind fst snd] in E. destruct (op_run cf t o1) as [[o2 b]| |] eqn:E2; cbn [obind fst snd] in E; try discriminate.
    injection E as <- <-. destruct (IH ltac:(assumption) o1 o2 b T1 E2) as (K2 & M2 & T2). split; [congruence|]. split; [|exact T2].
    destruct M, M2. constructor; congruence.
Qed.

Lemma typed_line cf t r o : plain cf -> at_rest o -> Forall ordinary t -> r = 13%Z \/ r = 10%Z ->
  exists o', op_run cf (t ++ [r]) o = Ok (o', [ALine t]) /\ o_b o' = o_b o /\ same_modes o o'.
Proof.
  intros P A F R. apply rest_typing in A as (T & B & I).
  destruct (text_steps cf t P F o T ltac:(rewrite I, B; reflexivity)) as (o1 & E1 & T1 & B1 & I1). rewrite B in B1. cbn [app] in B1.
  destruct (text_kill cf t P F o o1 [] T E1) as (K1 & M1 & _).
  destruct (enter_step cf r o1 P T1 R) as (o2 & E2 & A2 & M2). rewrite B1 in E2.
  pose proof (enter_kill cf r o1 o2 _ P T1 R E2) as K2.
  exists o2. rewrite op_run_app, E1. cbn [obind fst snd op_run app]. rewrite E2. cbn [obind fst snd app]. split; [reflexivity|].
  split; [|destruct M1, M2; constructor; congruence].
  pose proof (ar_buf _ A2) as Q1. pose proof (ar_idx _ A2) as Q2. assert (K : rb_kill (o_b o2) = rb_kill (o_b o)) by congruence.
  clear - Q1 Q2 K B I. destruct (o_b o2), (o_b o). cbn in *. congruence.
Qed.
