(** What the editor does to the history, for arbitrary keys: the recorded lines are the submitted ones. *)
From Verif Require Import Base ListAux RunesModel RunesProofs RuneBufModel RuneBufSpec RuneBufProofs HistoryModel HistorySpec HistoryProofs HistoryFileProofs
  RenderModel OpModel OpSpec OpProofs OpStep OpKeys OpModes.
From Coq Require Import ZifyBool Permutation.
Open Scope Z_scope.

(** ** History *)
(** the history with the line being edited as the current one *)
Definition to_back (h : hist) : hist := set_cur (back_id h) h.

Definition tracks (file : bool) (c : hcfg) (h : hist) (R : list (list Z)) : Prop :=
  if file then exists F, persisted c h R F else rests c h R.

Lemma tracks_rests file c h R : tracks file c h R -> rests c h R.
Proof. destruct file; [intros (F & P & _); exact P|auto]. Qed.

Lemma tracks_cur file c h R : tracks file c h R -> exists id, back_id h = Some id /\ h_cur h = Some id.
Proof.
  intros T. apply tracks_rests in T. destruct T as (com & e & (W & I & C) & _).
  exists (it_id e). split; [|exact C]. unfold back_id. rewrite (back_app _ _ _ I). reflexivity.
Qed.

Lemma to_back_id h : back_id (to_back h) = back_id h. Proof. reflexivity. Qed.
Lemma to_back_cur h x : to_back (set_cur x h) = to_back h. Proof. reflexivity. Qed.
Lemma to_back_same h : h_cur h = back_id h -> to_back h = h.
Proof. intros E. unfold to_back. rewrite <- E. destruct h; reflexivity. Qed.

Lemma tracks_back file c h R : tracks file c h R -> to_back h = h.
Proof. intros T. apply tracks_cur in T. destruct T as (id & E1 & E2). apply to_back_same. congruence. Qed.

Lemma tracks_bump file c h R : tracks file c h R -> tracks file c (bump_ver h) R.
Proof.
  assert (Q : rests c h R -> rests c (bump_ver h) R).
  { intros (com & e & (W & I & C) & En & K). exists com, e. split; [|split; [exact En|exact K]]. split; [now apply hwf_bump|]. split; [exact I|exact C]. }
  destruct file; cbn; [|exact Q]. intros (F & P1 & P2). exists F. split; [now apply Q|exact P2].
Qed.

Lemma deref_in h id x : deref h id = Ok x -> In id (map it_id (elems h)).
Proof.
  unfold deref. fold (elems h). destruct (find_item id (elems h)) as [y|] eqn:E; [|discriminate]. intros _.
  apply find_item_in in E. destruct E as (I & <-). now apply in_map.
Qed.

Lemma keeps_map c com com' R : map it_src com' = map it_src com -> keeps c com R -> keeps c com' R.
Proof.
  intros E (K1 & K2 & K3). assert (L : length com' = length com) by (rewrite <- !(map_length it_src), E; reflexivity).
  unfold keeps. rewrite E, L. auto.
Qed.

Definition touched (s : list Z) (h : hist) : Prop :=
  h_cur h = back_id h \/ exists id x, h_cur h = Some id /\ deref h id = Ok x /\ it_tmp x = s.

Lemma update_tracks file c s h R h' : 1 <= hc_limit c -> hwf h -> tracks file c (to_back h) R -> Update c s false h = Ok h' ->
  hwf h' /\ tracks file c (to_back h') R /\ touched s h'.
Proof.
  intros Hl W T U. pose proof (Update_hwf c s false h h' W U) as W'. split; [exact W'|].
  pose proof (tracks_rests _ _ _ _ T) as (com & e & (W0 & I & C0) & En & K).
  change (h_items (to_back h)) with (h_items h) in I. change (h_enable (to_back h)) with (h_enable h) in En.
  unfold Update in U. pose proof (w_cur h W) as Wc. destruct (h_cur h) as [id|] eqn:C; [|rewrite Wc in I; destruct com; discriminate].
  destruct (deref h id) as [y| |] eqn:D; cbn [obind] in U; try discriminate. injection U as <-.
  set (f := fun x : item => {| it_id := it_id x; it_src := it_src x; it_ver := h_ver h; it_tmp := s |}) in *.
  set (h1 := modify id f h) in *.
  destruct (Compact_rest c h1) as (R1 & R2 & R3 & R4 & R5 & R6).
  assert (I1 : h_items h1 = map_item id f com ++ [if (it_id e =? id)%nat then f e else e]).
  { unfold h1, modify. cbn [set_lists h_items]. rewrite I. unfold map_item. rewrite map_app. reflexivity. }
  set (com1 := map_item id f com) in *. set (e1 := if (it_id e =? id)%nat then f e else e) in *.
  assert (S1 : map it_src com1 = map it_src com).
  { unfold com1, map_item. rewrite map_map. apply map_ext. intros x. destruct (it_id x =? id)%nat; reflexivity. }
  assert (E1 : it_id e1 = it_id e) by (unfold e1; destruct (it_id e =? id)%nat; reflexivity).
  destruct (keeps_trim c com1 R e1 Hl (keeps_map c com com1 R S1 K)) as (com2 & X & K2).
  assert (I2 : h_items (Compact c h1) = com2 ++ [e1]) by (rewrite Compact_items, I1; exact X).
  assert (B2 : back_id (Compact c h1) = Some (it_id e)) by (unfold back_id; rewrite (back_app _ _ _ I2); cbn; congruence).
  assert (T2 : rests c (to_back (Compact c h1)) R).
  { exists com2, e1. split; [|split; [cbn; rewrite R4; exact En|exact K2]]. split; [|split; [exact I2|cbn; congruence]].
    unfold to_back. rewrite B2. apply hwf_set_cur; [exact W'|]. rewrite <- E1. apply back_in. now apply back_app in I2. }
  split.
  - destruct file; [|exact T2]. destruct T as (F & P1 & P2 & P3 & P4 & P5). exists F. split; [exact T2|]. cbn in P2, P3 |- *. rewrite R5, R6. auto.
  - right. destruct (hwf_cur (Compact c h1) id W') as (x & Dx & Ix & Ex); [rewrite R1; exact C|].
    exists id, x. split; [rewrite R1; exact C|]. split; [exact Dx|].
    assert (Ix' : In x (map_item id f (elems h))) by (rewrite <- elems_modify; eapply Permutation_in; [apply Compact_perm|exact Ix]).
    unfold map_item in Ix'. apply in_map_iff in Ix'. destruct Ix' as (z & Ez & _). destruct (it_id z =? id)%nat eqn:Q.
    + rewrite <- Ez. reflexivity.
    + exfalso. rewrite <- Ez in Ex. apply Nat.eqb_neq in Q. congruence.
Qed.

(** Submitting the text stored for the browsed entry is submitting it for the line being edited. *)
Lemma new_back c s h : h_enable h = true -> h_items h <> [] -> touched s h -> New c s h = New c s (to_back h).
Proof.
  intros En Ne [E|(id & x & C & D & T)]; [now rewrite to_back_same|].
  assert (B : exists e, back_id h = Some e).
  { unfold back_id. destruct (back h) eqn:B; [eexists; reflexivity|]. apply back_none in B. congruence. }
  destruct B as (e & B).
  unfold New. change (h_enable (to_back h)) with (h_enable h). change (h_items (to_back h)) with (h_items h).
  change (back_id (to_back h)) with (back_id h). rewrite En, B. cbn [negb].
  assert (CB : forall i, clean_back i h = clean_back i (to_back h)) by reflexivity.
  destruct (match rev (h_items h) with _ :: p :: _ => _ | _ => _ end); [now rewrite CB|].
  destruct (length s =? 0)%nat; [now rewrite CB|].
  unfold new_commit. change (back_id (to_back h)) with (back_id h). change (h_cur (to_back h)) with (back_id h). rewrite C, B.
  cbn [opt_eqb]. rewrite Nat.eqb_refl. destruct (id =? e)%nat eqn:Q.
  - apply Nat.eqb_eq in Q. subst id. rewrite to_back_same by congruence. reflexivity.
  - rewrite D. cbn [obind]. rewrite T. unfold to_back. rewrite B. reflexivity.
Qed.

Lemma new_tracks file c s h R h' : 1 <= hc_limit c -> tracks file c (to_back h) R -> touched s h ->
  (file = true -> s = [] \/ clean_line s) -> New c s h = Ok h' -> tracks file c h' (record R (Submit s)).
Proof.
  intros Hl T To Cl E. pose proof (tracks_rests _ _ _ _ T) as (com & e & (W0 & I & C0) & En & K).
  rewrite new_back in E; [|exact En| |exact To].
  2:{ change (h_items (to_back h)) with (h_items h) in I. rewrite I. destruct com; discriminate. }
  destruct file; cbn [tracks] in *.
  - destruct T as (F & P). apply (run_event_persisted c (Submit s) _ R F h' Hl P); [apply Cl; reflexivity|exact E].
  - exact (run_event_rests c (Submit s) _ R h' Hl T E).
Qed.

(** ** The editor *)
Section editor.
Variables (file : bool) (cf : ocfg).

Definition two (o : op) : Prop := c_sel (o_c o) = true -> length (c_cand (o_c o)) <> 1%nat.
Definition hw (h : hist) (R : list (list Z)) : Prop := hwf h /\ tracks file (oc_h cf) (to_back h) R.
Record keepsup (o : op) (R : list (list Z)) : Prop := {
  ku_h : hw (o_h o) R;
  ku_two : two o;
  ku_buf : s_in (o_s o) = false -> touched (rb_buf (o_b o)) (o_h o)
}.

Lemma hw_cur h R id x : hw h R -> deref h id = Ok x -> hw (set_cur (Some id) h) R.
Proof. intros (W & T) D. split; [apply hwf_set_cur; [exact W|now apply (deref_in h id x)]|exact T]. Qed.

Lemma hw_revert h R : hw h R -> hw (Revert h) R /\ h_cur (Revert h) = back_id (Revert h).
Proof.
  intros (W & T). split; [|reflexivity].
  assert (E : Revert h = bump_ver (to_back h)) by reflexivity.
  apply tracks_bump in T. rewrite <- E in T. split.
  - apply tracks_rests in T. destruct T as (? & ? & (X & _) & _). exact X.
  - rewrite (tracks_back _ _ _ _ T). exact T.
Qed.

(** *** completion leaves the history alone *)
Definition hf (o o' : op) : Prop := o_h o' = o_h o /\ o_s o' = o_s o /\ (two o -> two o').
Lemma hf_refl o : hf o o. Proof. repeat split; auto. Qed.
Lemma hf_trans a b c : hf a b -> hf b c -> hf a c.
Proof. intros (A1 & A2 & A3) (B1 & B2 & B3). split; [congruence|]. split; [congruence|auto]. Qed.

Lemma hf_menu o o' : CompleteRefresh cf o = Ok o' -> hf o o' /\ o_b o' = o_b o /\ c_sel (o_c o') = c_sel (o_c o) /\ c_cand (o_c o') = c_cand (o_c o).
Proof.
  unfold CompleteRefresh. destruct (negb _); [intros E; injection E as <-; split; [apply hf_refl|auto]|].
  destruct (menu_out _ _ _); cbn [obind]; try discriminate. intros E. injection E as <-. repeat split; auto.
Qed.

Lemma hf_next i c c' : nextCandidate i c = Ok c' -> c_cand c' = c_cand c /\ c_sel c' = c_sel c.
Proof. unfold nextCandidate. destruct (_ =? 0); [discriminate|]. intros E. injection E as <-. split; reflexivity. Qed.

Lemma select_other o o' : length (c_cand (o_c o)) <> 1%nat -> doSelect cf o = Ok o' ->
  o_h o' = o_h o /\ o_s o' = o_s o /\ two o' /\ o_b o' = o_b o.
Proof.
  intros N E. unfold doSelect in E.
  assert (E' : (c <- nextCandidate 1 (o_c o);; CompleteRefresh cf (with_c c o)) = Ok o').
  { destruct (c_cand (o_c o)) as [|c [|]]; auto. cbn in N. lia. }
  clear E. destruct (nextCandidate 1 (o_c o)) as [c| |] eqn:Ec; cbn [obind] in E'; try discriminate.
  apply hf_next in Ec. destruct Ec as (Ec & _). apply hf_menu in E'. destruct E' as ((H1 & H2 & _) & H3 & _ & H4).
  split; [exact H1|]. split; [exact H2|]. split; [|exact H3]. intros _. rewrite H4. cbn. rewrite Ec. exact N.
Qed.

Lemma hf_select o o' : doSelect cf o = Ok o' -> o_h o' = o_h o /\ o_s o' = o_s o /\ two o'.
Proof.
  destruct (Nat.eq_dec (length (c_cand (o_c o))) 1) as [E1|N].
  - unfold doSelect. destruct (c_cand (o_c o)) as [|c [|]]; try discriminate. destruct (WriteRunes c (o_b o)) as [b| |]; cbn [obind]; try discriminate.
    intros E. injection E as <-. repeat split. intros X. discriminate.
  - intros E. destruct (select_other o o' N E) as (A & B & C & _). auto.
Qed.

Lemma hf_complete Do o o' : OnComplete cf Do o = Ok o' -> hf o o'.
Proof.
  unfold OnComplete. destruct (oc_w cf =? 0); [intros E; injection E as <-; apply hf_refl|].
  destruct (c_sel (o_c o)); [intros E; apply hf_select in E; destruct E as (A & B & C); repeat split; auto|].
  destruct (c_in (o_c o) && _).
  - destruct (CompleteRefresh _ _) as [o1| |] eqn:E1; cbn [obind]; try discriminate. apply hf_menu in E1. destruct E1 as ((A & B & _) & _).
    intros E. apply hf_select in E. destruct E as (A' & B' & C'). cbn in A, B. repeat split; congruence || auto.
  - destruct (Do _ _) as [cands off]. destruct cands as [|x rest]; [intros E; injection E as <-; repeat split; intros _ X; discriminate|].
    match goal with |- obind ?e _ = _ -> _ => destruct e as [[ins|]| |]; cbn [obind]; try discriminate end.
    + destruct (WriteRunes _ _); cbn [obind]; try discriminate. intros E. injection E as <-. repeat split. intros _ X. discriminate.
    + intros E. apply hf_menu in E. destruct E as ((A & B & _) & _ & C & _). cbn in A, B, C. repeat split; auto. intros _ X. congruence.
Qed.

Lemma hf_handle r o o' k : HandleCompleteSelect cf r o = Ok (o', k) ->
  o_h o' = o_h o /\ o_s o' = o_s o /\
  (c_sel (o_c o) = true -> two o -> two o' /\ ((r =? CharEnter) || (r =? CharCtrlJ) = false -> o_b o' = o_b o)).
Proof.
  set (G := o_h o' = o_h o /\ o_s o' = o_s o /\
    (c_sel (o_c o) = true -> two o -> two o' /\ ((r =? CharEnter) || (r =? CharCtrlJ) = false -> o_b o' = o_b o))).
  assert (N : forall e, (forall c, e = Ok c -> c_cand c = c_cand (o_c o) /\ c_sel c = c_sel (o_c o)) ->
     (x <- e ;; o1 <- CompleteRefresh cf (with_c x o) ;; Ok (o1, true)) = Ok (o', k) -> G).
  { intros e He E. destruct e as [x| |]; cbn [obind] in E; try discriminate. destruct (He x eq_refl) as (He1 & He2).
    destruct (CompleteRefresh cf (with_c x o)) as [o1| |] eqn:R; cbn [obind] in E; try discriminate. injection E as <- <-.
    apply hf_menu in R. destruct R as ((A & B & _) & C & D1 & D2). cbn in A, B, C, D1, D2. split; [exact A|]. split; [exact B|].
    intros Sl Tw. split; [intros _; rewrite D2, He1; auto|auto]. }
  assert (L : forall c, c_sel c = false -> Ok (with_c c o, false) = Ok (o', k) -> G).
  { intros c Hc E. injection E as <- <-. split; [reflexivity|]. split; [reflexivity|]. intros _ _. split; [|reflexivity]. intros X. cbn in X. congruence. }
  unfold HandleCompleteSelect.
  destruct ((r =? CharEnter) || (r =? CharCtrlJ)) eqn:Er.
  { destruct (c_choice (o_c o) <? 0); [discriminate|]. destruct (get _ _); cbn [obind]; try discriminate.
    destruct (WriteRunes _ _); cbn [obind]; try discriminate. intros E. injection E as <- <-. split; [reflexivity|]. split; [reflexivity|].
    intros _ _. split; [intros X; discriminate X|intros X; congruence]. }
  destruct (r =? CharLineStart).
  { apply N. intros c. destruct (_ =? 0); [discriminate|]. apply hf_next. }
  destruct (r =? CharLineEnd).
  { apply N. intros c. destruct (_ =? 0); [discriminate|]. intros E. injection E as <-. split; reflexivity. }
  destruct (r =? CharBackspace); [now apply L|].
  destruct ((r =? CharTab) || (r =? CharForward)).
  { destruct (doSelect cf o) as [o1| |] eqn:E1; cbn [obind]; try discriminate.
    destruct (CompleteRefresh cf o1) as [o2| |] eqn:E2; cbn [obind]; try discriminate. intros E. injection E as <- <-.
    apply hf_menu in E2. destruct E2 as ((A' & B' & C') & D' & _). destruct (hf_select o o1 E1) as (A & B & _).
    split; [congruence|]. split; [congruence|]. intros Sl Tw. destruct (select_other o o1 (Tw Sl) E1) as (_ & _ & C & D).
    split; [auto|congruence]. }
  destruct ((r =? CharBell) || (r =? CharInterrupt)); [now apply L|].
  destruct (r =? CharNext).
  { apply N. intros c. destruct (getMatrixSize _); cbn [obind]; try discriminate. intros E. injection E as <-. split; reflexivity. }
  destruct (r =? CharBackward); [apply N; intros c; apply hf_next|].
  destruct (r =? CharPrev).
  { apply N. intros c. destruct (_ <? 0); [destruct (getMatrixSize _); cbn [obind]; try discriminate|]; intros E; injection E as <-; split; reflexivity. }
  now apply L.
Qed.

Hypothesis Hl : 1 <= hc_limit (oc_h cf).
Hypothesis Vi : oc_vim cf = false.
Hypothesis Ns : oc_nosave cf = false.
Hypothesis Fi : oc_filter cf = None.

(** *** search moves the current entry only *)
Lemma hw_refresh x o o' : SearchRefresh cf x o = Ok o' -> o_h o' = o_h o /\ o_c o' = o_c o.
Proof. unfold SearchRefresh. destruct (search_out _ _ _ _); cbn [obind]; try discriminate. intros E. injection E as <-. auto. Qed.

Lemma hw_search k o o' R : hw (o_h o) R -> search cf k o = Ok o' -> hw (o_h o') R /\ o_c o' = o_c o.
Proof.
  intros H. unfold search. destruct (s_data (o_s o)).
  - intros E. apply hw_refresh in E. destruct E as (-> & ->). split; [exact H|reflexivity].
  - match goal with |- obind ?e _ = _ -> _ => destruct e as [[[i id]|]| |]; cbn [obind]; try discriminate end.
    + destruct (deref (o_h o) id) as [x| |] eqn:D; cbn [obind]; try discriminate. intros E. apply hw_refresh in E. destruct E as (-> & ->).
      split; [|reflexivity]. cbn. now apply (hw_cur _ _ id x).
    + intros E. apply hw_refresh in E. destruct E as (-> & ->). split; [exact H|reflexivity].
Qed.

Lemma hw_mode b o o' k R : hw (o_h o) R -> SearchMode cf b o = Ok (o', k) -> hw (o_h o') R /\ o_c o' = o_c o.
Proof.
  intros H. unfold SearchMode. destruct (oc_w cf =? 0); [intros E; injection E as <- <-; auto|].
  set (o1 := with_s _ o). destruct (s_in (o_s o)).
  - destruct (search cf false o1) as [o2| |] eqn:E; cbn [obind]; try discriminate. intros X. injection X as <- <-.
    now apply (hw_search false o1 o2 R) in E.
  - destruct (SearchRefresh cf (-1) o1) as [o2| |] eqn:E; cbn [obind]; try discriminate. intros X. injection X as <- <-.
    apply hw_refresh in E. destruct E as (-> & ->). auto.
Qed.

Lemma hw_exit b o o' R : hw (o_h o) R -> ExitSearchMode b o = Ok o' -> hw (o_h o') R /\ o_c o' = o_c o /\ s_in (o_s o') = false.
Proof.
  intros H. unfold ExitSearchMode. destruct b; [|cbn [obind]; intros E; injection E as <-; auto].
  destruct (s_src (o_s o)) as [id|]; [|discriminate].
  destruct (deref _ id) as [x| |] eqn:D; cbn [obind]; try discriminate. intros E. injection E as <-. cbn. split; [|auto].
  now apply (hw_cur _ _ id x).
Qed.

(** *** the switch *)
Definition rec (R : list (list Z)) (a : list act) : list (list Z) := recorded R (map Submit (lines_of a)).
Definition cleans (a : list act) : Prop := file = true -> Forall (fun l => l = [] \/ clean_line l) (lines_of a).
Definition hpost (R : list (list Z)) (e : outcome swres) : Prop := forall o a ks kc upd, e = Ok (o, a, ks, kc, upd) -> cleans a ->
  hw (o_h o) (rec R a) /\ two o /\ (upd = false -> h_cur (o_h o) = back_id (o_h o)).

Lemma hp_if R (c : bool) A B : (c = true -> hpost R A) -> (c = false -> hpost R B) -> hpost R (if c then A else B).
Proof. destruct c; auto. Qed.
Lemma hp_bind {X} R (e : outcome X) (f : X -> outcome swres) : (forall x, e = Ok x -> hpost R (f x)) -> hpost R (x <- e ;; f x).
Proof. intros H. destruct e; cbn [obind]; auto; intros ? ? ? ? ? E; discriminate. Qed.
Lemma hp_ok R o a ks kc : hw (o_h o) R -> two o -> lines_of a = [] -> hpost R (Ok (o, a, ks, kc, true)).
Proof. intros H T L o1 a1 ks1 kc1 upd E _. injection E as <- <- <- <- <-. split; [unfold rec; rewrite L; exact H|]. split; [exact T|discriminate]. Qed.
Lemma hp_edit R e o : hw (o_h o) R -> two o -> hpost R (edit_buf e o).
Proof. intros H T. unfold edit_buf. apply hp_bind. intros b _. now apply hp_ok. Qed.

Lemma enter_data b d b' : (b1 <- MoveToLineEnd b ;;
   (if negb (oc_unique cf) then
          b <- WriteRunes [10] b1 ;;
          let '(data, b') := Reset b in
          d <- slice 0 (length data - 1) data ;; Ok (d, b')
        else Ok (Reset b1))) = Ok (d, b') -> d = rb_buf b.
Proof.
  cbn [obind MoveToLineEnd]. destruct (negb (oc_unique cf)).
  - rewrite write_spec by (unfold inside; cbn; lia). cbn [obind rb_buf rb_idx with_idx Reset].
    rewrite firstn_all, skipn_all. cbn [app]. rewrite slice_to by lia. cbn [obind]. rewrite app_length. cbn [length].
    replace (length (rb_buf b) + 1 - 1)%nat with (length (rb_buf b) + 0)%nat by lia.
    rewrite firstn_app_2, firstn_O, app_nil_r. intros E. now injection E as <- _.
  - cbn [Reset rb_buf]. intros E. now injection E as <- _.
Qed.

Lemma hp_enter R o : keepsup o R -> s_in (o_s o) = false -> hpost R (key_enter cf o).
Proof.
  intros [(W & T) Tw Tb] S. unfold key_enter. rewrite S. cbn [obind]. intros o' a ks kc upd E Cl. rewrite Ns in E. cbn [negb] in E.
  destruct (MoveToLineEnd (o_b o)) as [b1| |] eqn:Em; cbn [obind] in E; try discriminate.
  destruct (if negb (oc_unique cf) then _ else _) as [[d b']| |] eqn:Ed; cbn [obind] in E; try discriminate.
  assert (D : d = rb_buf (o_b o)) by (apply (enter_data (o_b o) d b'); rewrite Em; cbn [obind]; exact Ed).
  cbn [o_h with_b] in E. destruct (New (oc_h cf) d (o_h o)) as [h| |] eqn:En; cbn [obind] in E; try discriminate. injection E as <- <- <- <- <-.
  assert (T' : tracks file (oc_h cf) h (record R (Submit d))).
  { apply (new_tracks file (oc_h cf) d (o_h o) R h Hl T); [rewrite D; now apply Tb| |exact En].
    intros F. specialize (Cl F). cbn in Cl. now inversion Cl. }
  split; [|split; [exact Tw|discriminate]]. cbn [o_h with_h]. split; [now apply (New_hwf (oc_h cf) d (o_h o))|].
  rewrite (tracks_back _ _ _ _ T'). exact T'.
Qed.

Lemma hp_revert R o a ks kc b : hw (o_h o) R -> two o -> lines_of a = [] ->
  hpost R (Ok (with_h (Revert (o_h o)) (with_b b o), a, ks, kc, false)).
Proof.
  intros H T L o1 a1 ks1 kc1 upd E _. injection E as <- <- <- <- <-. destruct (hw_revert _ _ H) as (H' & C).
  split; [unfold rec; rewrite L; exact H'|]. split; [exact T|]. intros _. exact C.
Qed.

Lemma hp_delete R o : hw (o_h o) R -> two o -> hpost R (key_delete cf o).
Proof.
  intros H T. unfold key_delete. apply hp_if; intros _; apply hp_bind; intros x _.
  - apply hp_ok; auto. destruct (snd x); reflexivity.
  - now apply hp_revert.
Qed.

Lemma two_exit o : two (with_c (ExitCompleteMode (o_c o)) o). Proof. intros X. discriminate. Qed.

Lemma hp_interrupt R o : hw (o_h o) R -> two o -> hpost R (key_interrupt cf o).
Proof.
  intros H T. unfold key_interrupt. apply hp_if; intros _.
  - apply hp_bind; intros o1 E. apply (hw_exit true o o1 R H) in E. destruct E as (E1 & E2 & _). apply hp_ok; auto. unfold two in *. rewrite E2. exact T.
  - apply hp_if; intros _; [apply hp_ok; auto; apply two_exit|]. apply hp_bind; intros b _. apply hp_bind; intros b1 _.
    destruct (Reset b1) as [d b2]. apply hp_bind; intros d' _. now apply hp_revert.
Qed.

Lemma hp_switch R r o : keepsup o R -> (s_in (o_s o) = true -> r <> 13 /\ r <> 10) -> hpost R (key_switch cf r o).
Proof.
  intros K Se. pose proof K as [H T B]. pose proof (two_exit) as Te. unfold key_switch.
  assert (TC : forall o1, o_c o1 = o_c o -> two o1) by (intros o1 E; unfold two in *; rewrite E; exact T).
  apply hp_if; intros _.
  { apply hp_bind; intros o1 E.
    assert (Q : hw (o_h o1) R /\ o_c o1 = o_c o) by (destruct (s_in (o_s o)); [apply (hw_exit true o o1 R H) in E; tauto|injection E as <-; auto]).
    destruct Q as (Q1 & Q2). destruct (c_in (o_c o1)); apply hp_ok; auto; apply Te. }
  apply hp_if; intros _.
  { destruct (oc_auto cf); [apply hp_if; intros _|]; try (apply hp_ok; auto). apply hp_bind; intros o1 E. apply hf_complete in E.
    destruct E as (E1 & _ & E2). apply hp_ok; auto. congruence. }
  assert (SM : forall b, hpost R (x <- SearchMode cf b o;; Ok (fst x, if snd x then [] else [ABell], snd x, false, true))).
  { intros b. apply hp_bind; intros [o1 k] E. apply (hw_mode _ _ _ _ R H) in E. destruct E as (E1 & E2). apply hp_ok; auto. cbn. destruct k; reflexivity. }
  apply hp_if; intros _; [apply SM|]. apply hp_if; intros _; [now apply hp_edit|]. apply hp_if; intros _; [apply SM|].
  apply hp_if; intros _; [apply hp_bind; intros b _; apply hp_ok; auto|].
  do 6 (apply hp_if; intros _; [now apply hp_edit|]).
  apply hp_if; intros _.
  { apply hp_if; intros _.
    - apply hp_bind; intros o1 E. unfold SearchBackspace in E.
      assert (Q : hw (o_h o1) R /\ o_c o1 = o_c o).
      { destruct (s_data (o_s o)); [injection E as <-; auto|]. now apply (hw_search true _ o1 R) in E. }
      destruct Q. apply hp_ok; auto.
    - apply hp_if; intros _; [apply hp_ok; auto|]. apply hp_bind; intros b _. apply hp_bind; intros o1 E.
      assert (Q : hf (with_b b o) o1) by (destruct (c_in _); [destruct (oc_auto cf); [|discriminate]; now apply hf_complete in E|injection E as <-; apply hf_refl]).
      destruct Q as (Q1 & _ & Q3). apply hp_ok; auto. rewrite Q1. exact H. }
  apply hp_if; intros _; [apply hp_ok; auto|]. apply hp_if; intros _; [apply hp_ok; auto|].
  do 2 (apply hp_if; intros _; [now apply hp_edit|]).
  apply hp_if; intros Er.
  { apply hp_enter; [exact K|]. destruct (s_in (o_s o)); [|reflexivity]. destruct (Se eq_refl). clear - Er H0 H1. unfold CharEnter, CharCtrlJ in Er. lia. }
  do 2 (apply hp_if; intros _; [now apply hp_edit|]).
  apply hp_if; intros _.
  { apply hp_bind; intros x E.
    assert (Q : hw (snd x) R).
    { unfold Prev in E. destruct (h_cur (o_h o)) as [id|]; [|injection E as <-; exact H]. destruct (older id (o_h o)) as [|y l] eqn:Eo; injection E as <-; [exact H|].
      cbn [snd]. destruct H as (W & Tr). split; [|exact Tr]. apply hwf_set_cur; [exact W|]. now apply older_in in Eo. }
    destruct (fst x); apply hp_ok; auto. }
  apply hp_if; intros _.
  { apply hp_bind; intros x E.
    assert (Q : hw (snd x) R).
    { unfold Next in E. destruct (h_cur (o_h o)) as [id|]; [|injection E as <-; exact H]. destruct (newer id (o_h o)) as [|y l] eqn:Eo; injection E as <-; [exact H|].
      cbn [snd]. destruct H as (W & Tr). split; [|exact Tr]. apply hwf_set_cur; [exact W|]. now apply newer_in in Eo. }
    destruct (fst x); apply hp_ok; auto. }
  apply hp_if; intros _; [now apply hp_delete|]. apply hp_if; intros _; [now apply hp_interrupt|].
  apply hp_if; intros _.
  { apply hp_bind; intros o1 E. unfold SearchChar in E. apply (hw_search true _ o1 R) in E; [|exact H]. destruct E. apply hp_ok; auto. }
  apply hp_bind; intros b _. apply hp_if; intros _; [|apply hp_ok; auto]. destruct (oc_auto cf); [|intros ? ? ? ? ? E; discriminate].
  apply hp_bind; intros o1 E. apply hf_complete in E. destruct E as (E1 & _ & E2). apply hp_ok; auto. rewrite E1. exact H.
Qed.

(** *** after the switch, and the whole iteration *)
Lemma after_hist r R x o' a : hpost R (Ok x) -> after_switch cf r x = Ok (o', a) -> cleans a -> keepsup o' (rec R a).
Proof.
  intros P E Cl. pose proof (after_acts _ _ _ _ _ E) as Ea. destruct x as [[[[o acts] ks] kc] upd]. cbn [fst snd] in Ea. subst acts.
  destruct (P o a ks kc upd eq_refl Cl) as (H & T & B). revert E. unfold after_switch.
  set (o1 := match oc_listen cf with Some f => _ | None => o end).
  assert (F1 : o_h o1 = o_h o /\ o_c o1 = o_c o). { subst o1. destruct (oc_listen cf); [destruct (o0 _ _ _) as [[l p]|]|]; split; reflexivity. }
  destruct F1 as (F1 & F2). assert (H1 : hw (o_h o1) (rec R a)) by (rewrite F1; exact H). assert (T1 : two o1) by (unfold two in *; rewrite F2; exact T).
  destruct (if negb ks && s_in (o_s o1) then ExitSearchMode false o1 else _) as [o2| |] eqn:E2; cbn [obind]; try discriminate.
  assert (Q : o_h o2 = o_h o /\ two o2).
  { destruct (negb ks && s_in (o_s o1)).
    - cbn [ExitSearchMode obind] in E2. injection E2 as <-. cbn. split; [exact F1|exact T1].
    - destruct (c_in (o_c o1)); [destruct (negb kc)|].
      + injection E2 as <-. split; [exact F1|apply two_exit].
      + apply hf_menu in E2. destruct E2 as ((A1 & _ & A2) & _). split; [congruence|auto].
      + injection E2 as <-. auto. }
  destruct Q as (Q1 & Q2). destruct (upd && negb (s_in (o_s o2))) eqn:U.
  - destruct (Update _ _ _ _) as [h| |] eqn:Eu; cbn [obind]; try discriminate. intros E. injection E as <-.
    rewrite Q1 in Eu. destruct H as (W & Tr). destruct (update_tracks file _ _ _ _ _ Hl W Tr Eu) as (A1 & A2 & A3).
    constructor; cbn; [split; assumption|exact Q2|auto].
  - cbn [obind]. intros E. injection E as <-. constructor; [rewrite Q1; exact H|exact Q2|]. intros S. rewrite S in U. cbn [negb] in U. rewrite andb_true_r in U.
    rewrite Q1. left. now apply B.
Qed.

Lemma step_hist r R o o' a : o_vp o = None -> keepsup o R -> (s_in (o_s o) = true -> r <> 13 /\ r <> 10 /\ r <> 0) ->
  op_step cf r o = Ok (o', a) -> cleans a -> keepsup o' (rec R a) /\ o_vp o' = None.
Proof.
  intros Vp K Se E Cl. split; [|now apply (vp_step cf r o o' a)]. revert E. unfold op_step.
  destruct (o_end o); [intros E; injection E as <- <-; exact K|]. rewrite Vp, Fi. unfold handle_key.
  destruct ((r =? 0) && _); [intros E; injection E as <- <-; destruct K; constructor; auto|].
  set (r1 := if r =? 0 then CharEnter else r).
  assert (Se' : s_in (o_s o) = true -> r1 <> 13 /\ r1 <> 10).
  { intros S. destruct (Se S) as (S1 & S2 & S3). unfold r1. replace (r =? 0) with false by (clear - S3; lia). auto. }
  assert (Q : forall o1, keepsup o1 R -> o_s o1 = o_s o -> vim_and_switch cf r1 o1 = Ok (o', a) -> keepsup o' (rec R a)).
  { intros o1 K1 So E. unfold vim_and_switch in E. rewrite Vi in E. destruct (key_switch cf r1 o1) as [x| |] eqn:Ek; cbn [obind] in E; try discriminate.
    apply (after_hist r1 R x o' a); [|exact E|exact Cl]. rewrite <- Ek. apply hp_switch; [exact K1|]. rewrite So. exact Se'. }
  destruct (c_sel (o_c o)) eqn:Sl; [|now apply Q].
  destruct (HandleCompleteSelect cf r1 o) as [[o1 k]| |] eqn:S; cbn [obind]; try discriminate.
  destruct (hf_handle r1 o o1 k S) as (A1 & A2 & A34). destruct (A34 Sl (ku_two _ _ K)) as (A3 & A4). clear A34.
  destruct ((r1 =? CharEnter) || (r1 =? CharCtrlJ)) eqn:E1.
  - assert (k = false).
    { unfold HandleCompleteSelect in S. rewrite E1 in S. destruct (_ <? 0); [discriminate|]. destruct (get _ _); cbn [obind] in S; try discriminate.
      destruct (WriteRunes _ _); cbn [obind] in S; try discriminate. now injection S as _ <-. }
    subst k. destruct (Update _ _ _ _) as [h| |] eqn:Eu; cbn [obind]; try discriminate. intros E. injection E as <- <-.
    rewrite A1 in Eu. destruct K as [(W & Tr) _ _]. destruct (update_tracks file _ _ _ _ _ Hl W Tr Eu) as (B1 & B2 & B3).
    constructor; cbn; [split; assumption|exact A3|auto].
  - assert (K1 : keepsup o1 R).
    { destruct K as [H T B]. constructor; [rewrite A1; exact H|exact A3|]. rewrite A1, A2, (A4 eq_refl). exact B. }
    destruct k; [intros E; injection E as <- <-; exact K1|].
    destruct (r1 =? CharInterrupt); [intros E; injection E as <- <-; exact K1|].
    destruct (r1 =? CharBell); [intros E; injection E as <- <-; exact K1|]. now apply Q.
Qed.

Lemma lines_app a b : lines_of (a ++ b) = lines_of a ++ lines_of b.
Proof. unfold lines_of. now rewrite flat_map_app. Qed.

Lemma rec_app R a b : rec R (a ++ b) = rec (rec R a) b.
Proof. unfold rec, recorded. now rewrite lines_app, map_app, fold_left_app. Qed.

Lemma run_hist rs : forall R o o' a, o_vp o = None -> keepsup o R -> no_search_enter cf rs o ->
  op_run cf rs o = Ok (o', a) -> cleans a -> keepsup o' (rec R a).
Proof.
  induction rs as [|r rs IH]; intros R o o' a Vp K Se E Cl; cbn [op_run no_search_enter] in *.
  - injection E as <- <-. exact K.
  - destruct (op_step cf r o) as [[o1 a1]| |] eqn:E1; cbn [obind fst snd] in E; try discriminate.
    destruct (op_run cf rs o1) as [[o2 a2]| |] eqn:E2; cbn [obind fst snd] in E; try discriminate. injection E as <- <-.
    assert (C1 : cleans a1 /\ cleans a2). { unfold cleans in *. rewrite lines_app in Cl. split; intros F; specialize (Cl F); now apply Forall_app in Cl. }
    destruct (step_hist r R o o1 a1 Vp K (proj1 Se) E1 (proj1 C1)) as (K1 & Vp1).
    rewrite rec_app. apply (IH (rec R a1) o1 o2 a2); auto; [exact (proj2 Se o1 a1 eq_refl)|apply C1].
Qed.
End editor.

(** ** A session on a history file *)
Lemma op_rests file cf h R : hwf h -> tracks file (oc_h cf) h R -> keepsup file cf (op_new h) R.
Proof.
  intros W T. pose proof (tracks_back _ _ _ _ T) as B. constructor; cbn.
  - split; [exact W|]. rewrite B. exact T.
  - intros X. discriminate.
  - intros _. left. apply tracks_cur in T. destruct T as (id & -> & ->). reflexivity.
Qed.

Lemma keys_recorded cf h R rs o a : 1 <= hc_limit (oc_h cf) -> oc_vim cf = false -> oc_nosave cf = false -> oc_filter cf = None ->
  rests (oc_h cf) h R -> no_search_enter cf rs (op_new h) -> op_run cf rs (op_new h) = Ok (o, a) ->
  exists n, committed (o_h o) = lastn n (recorded R (map Submit (lines_of a))) /\ (n <= keep (oc_h cf))%nat /\
    (Nat.min (length (recorded R (map Submit (lines_of a)))) (keep (oc_h cf) - 1) <= n)%nat.
Proof.
  intros Hl Vi Ns Fi T Se E. assert (W : hwf h) by (destruct T as (? & ? & (X & _) & _); exact X).
  pose proof (run_hist false cf Hl Vi Ns Fi rs R (op_new h) o a eq_refl (op_rests false cf h R W T) Se E ltac:(intros X; discriminate)) as [(W' & (com & e & (_ & I & _) & _ & K)) _ _].
  change (h_items (to_back (o_h o))) with (h_items (o_h o)) in I. destruct K as (K1 & K2 & K3). exists (length com).
  unfold committed. rewrite I, removelast_last. auto.
Qed.

Lemma keys_saved cf c' ls rs o a : 1 <= hc_limit (oc_h cf) -> oc_vim cf = false -> oc_nosave cf = false -> oc_filter cf = None ->
  hc_file (oc_h cf) = true -> hc_file c' = true -> hc_limit c' <= hc_limit (oc_h cf) -> Forall clean_line ls ->
  let h := openf (oc_h cf) (flat_map file_line ls) in
  no_search_enter cf rs (op_new h) -> op_run cf rs (op_new h) = Ok (o, a) -> Forall (fun l => l = [] \/ clean_line l) (lines_of a) ->
  committed (openf c' (h_disk (HClose (o_h o)))) = lastn (keep c') (recorded (lastn (keep (oc_h cf)) ls) (map Submit (lines_of a))).
Proof.
  intros Hl Vi Ns Fi Hf Hf' Le Cl h Se E Ca. destruct (open_persisted (oc_h cf) ls Hl Hf Cl) as (F & P).
  assert (W : hwf h) by (destruct P as ((? & ? & (X & _) & _) & _); exact X).
  pose proof (run_hist true cf Hl Vi Ns Fi rs _ (op_new h) o a eq_refl (op_rests true cf h _ W (ex_intro _ F P)) Se E ltac:(intros _; exact Ca)) as [(W' & (F' & _ & P2 & P3 & P4 & P5)) _ _].
  change (h_fd (to_back (o_h o))) with (h_fd (o_h o)) in P2. change (h_disk (to_back (o_h o))) with (h_disk (o_h o)) in P3.
  unfold HClose. rewrite P2. cbn [set_file h_disk]. rewrite P3. rewrite <- (app_nil_r (flat_map file_line F')).
  rewrite open_committed by (auto; intros []).
  assert (X : Nat.min (keep c') (keep (oc_h cf)) = keep c') by (unfold keep; lia).
  rewrite <- X, <- !lastn_lastn. unfold rec in P5. rewrite P5. reflexivity.
Qed.

(** ** Without the search keys there is no search mode *)
Section nosearch.
Variables (cf : ocfg).
Hypothesis Vi : oc_vim cf = false.
Hypothesis Fi : oc_filter cf = None.

Definition calm (e : outcome swres) : Prop := forall x, e = Ok x -> s_in (o_s (fst (fst (fst (fst x))))) = false.
Lemma cm_if (c : bool) A B : (c = true -> calm A) -> (c = false -> calm B) -> calm (if c then A else B).
Proof. destruct c; auto. Qed.
Lemma cm_bind {X} (e : outcome X) (f : X -> outcome swres) : (forall x, e = Ok x -> calm (f x)) -> calm (x <- e ;; f x).
Proof. intros H. destruct e; cbn [obind]; auto; intros x E; discriminate. Qed.
Lemma cm_ok x : s_in (o_s (fst (fst (fst (fst x))))) = false -> calm (Ok x).
Proof. intros H y E. injection E as <-. exact H. Qed.
Lemma cm_edit e o : s_in (o_s o) = false -> calm (edit_buf e o).
Proof. intros H. unfold edit_buf. apply cm_bind. intros b _. now apply cm_ok. Qed.

Lemma calm_switch r o : r <> 18 -> r <> 19 -> s_in (o_s o) = false -> calm (key_switch cf r o).
Proof.
  intros N1 N2 S. unfold key_switch. rewrite S.
  apply cm_if; intros _; [cbn [obind]; destruct (c_in (o_c o)); apply cm_ok; exact S|].
  apply cm_if; intros _.
  { destruct (oc_auto cf); [apply cm_if; intros _|]; try (apply cm_ok; exact S). apply cm_bind; intros o1 E. apply cm_ok. cbn. apply (hf_complete cf) in E.
    destruct E as (_ & -> & _). exact S. }
  apply cm_if; intros E1; [exfalso; clear - E1 N1; unfold CharBckSearch in E1; lia|].
  apply cm_if; intros _; [now apply cm_edit|].
  apply cm_if; intros E2; [exfalso; clear - E2 N2; unfold CharFwdSearch in E2; lia|].
  apply cm_if; intros _; [apply cm_bind; intros b _; now apply cm_ok|].
  do 6 (apply cm_if; intros _; [now apply cm_edit|]).
  apply cm_if; intros _.
  { apply cm_if; intros _; [now apply cm_ok|]. apply cm_bind; intros b _. apply cm_bind; intros o1 E. apply cm_ok. cbn.
    destruct (c_in _); [destruct (oc_auto cf); [|discriminate]; apply (hf_complete cf) in E; destruct E as (_ & -> & _)|injection E as <-]; exact S. }
  apply cm_if; intros _; [now apply cm_ok|]. apply cm_if; intros _; [now apply cm_ok|].
  do 2 (apply cm_if; intros _; [now apply cm_edit|]).
  apply cm_if; intros _.
  { unfold key_enter. rewrite S. cbn [obind]. apply cm_bind; intros b _. apply cm_bind; intros [d b'] _.
    apply cm_if; intros _; [apply cm_bind; intros h _|]; apply cm_ok; exact S. }
  do 2 (apply cm_if; intros _; [now apply cm_edit|]).
  apply cm_if; intros _; [apply cm_bind; intros x _; destruct (fst x); now apply cm_ok|].
  apply cm_if; intros _; [apply cm_bind; intros x _; destruct (fst x); now apply cm_ok|].
  apply cm_if; intros _; [unfold key_delete; apply cm_if; intros _; apply cm_bind; intros x _; now apply cm_ok|].
  apply cm_if; intros _.
  { unfold key_interrupt. rewrite S. apply cm_if; intros _; [now apply cm_ok|]. apply cm_bind; intros b _. apply cm_bind; intros b1 _. destruct (Reset b1) as [d b2].
    apply cm_bind; intros d' _. now apply cm_ok. }
  apply cm_bind; intros b _. apply cm_if; intros _; [|now apply cm_ok]. destruct (oc_auto cf); [|intros x E; discriminate].
  apply cm_bind; intros o1 E. apply cm_ok. apply (hf_complete cf) in E. cbn. destruct E as (_ & -> & _). exact S.
Qed.

Lemma calm_after r x o' a : s_in (o_s (fst (fst (fst (fst x))))) = false -> after_switch cf r x = Ok (o', a) -> s_in (o_s o') = false.
Proof.
  destruct x as [[[[o acts] ks] kc] upd]. unfold after_switch. cbn [fst]. intros S.
  set (o1 := match oc_listen cf with Some f => _ | None => o end).
  assert (F1 : o_s o1 = o_s o). { subst o1. destruct (oc_listen cf); [destruct (o0 _ _ _) as [[l p]|]|]; reflexivity. }
  rewrite F1, S, andb_false_r.
  destruct (if c_in (o_c o1) then _ else _) as [o2| |] eqn:E2; cbn [obind]; try discriminate.
  assert (F2 : o_s o2 = o_s o).
  { destruct (c_in (o_c o1)); [destruct (negb kc)|].
    - injection E2 as <-. exact F1.
    - apply hf_menu in E2. destruct E2 as ((_ & -> & _) & _). exact F1.
    - injection E2 as <-. exact F1. }
  destruct (upd && negb (s_in (o_s o2))).
  - destruct (Update _ _ _ _); cbn [obind]; try discriminate. intros E. injection E as <- <-. cbn. now rewrite F2.
  - cbn [obind]. intros E. injection E as <- <-. now rewrite F2.
Qed.

Lemma calm_step r o o' a : r <> 18 -> r <> 19 -> o_vp o = None -> s_in (o_s o) = false -> op_step cf r o = Ok (o', a) ->
  s_in (o_s o') = false.
Proof.
  intros N1 N2 Vp S. unfold op_step. destruct (o_end o); [intros E; injection E as <- <-; exact S|]. rewrite Vp, Fi. unfold handle_key.
  destruct ((r =? 0) && _); [intros E; injection E as <- <-; exact S|].
  set (r1 := if r =? 0 then CharEnter else r).
  assert (R1 : r1 <> 18 /\ r1 <> 19) by (unfold r1; destruct (r =? 0); [unfold CharEnter|]; split; lia || assumption). destruct R1 as (R1 & R2).
  assert (Q : forall o1, s_in (o_s o1) = false -> vim_and_switch cf r1 o1 = Ok (o', a) -> s_in (o_s o') = false).
  { intros o1 S1 E. unfold vim_and_switch in E. rewrite Vi in E. destruct (key_switch cf r1 o1) as [x| |] eqn:Ek; cbn [obind] in E; try discriminate.
    apply (calm_after r1 x o' a); [|exact E]. now apply (calm_switch r1 o1). }
  destruct (c_sel (o_c o)) eqn:Sl; [|now apply Q].
  destruct (HandleCompleteSelect cf r1 o) as [[o1 k]| |] eqn:H; cbn [obind]; try discriminate.
  destruct (hf_handle cf r1 o o1 k H) as (A1 & A2 & _).
  destruct k; [intros E; injection E as <- <-; now rewrite A2|].
  destruct ((r1 =? CharEnter) || (r1 =? CharCtrlJ)).
  { destruct (Update _ _ _ _); cbn [obind]; try discriminate. intros E. injection E as <- <-. cbn. now rewrite A2. }
  destruct (r1 =? CharInterrupt); [intros E; injection E as <- <-; now rewrite A2|].
  destruct (r1 =? CharBell); [intros E; injection E as <- <-; now rewrite A2|]. apply Q. now rewrite A2.
Qed.

Lemma calm_keys rs : Forall (fun r => r <> 18 /\ r <> 19) rs -> forall o, o_vp o = None -> s_in (o_s o) = false -> no_search_enter cf rs o.
Proof.
  induction 1 as [|r rs (N1 & N2) F IH]; intros o Vp S; cbn [no_search_enter]; [exact I|]. split; [congruence|].
  intros o' a E. apply IH; [now apply (vp_step cf r o o' a)|now apply (calm_step r o o' a)].
Qed.
End nosearch.
