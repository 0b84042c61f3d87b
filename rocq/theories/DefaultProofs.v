(** Proofs about ReadlineWithDefault. *)
From Verif Require Import Base ListAux RunesModel RunesSpec RunesProofs RuneBufModel RuneBufSpec RuneBufProofs
  HistoryModel HistorySpec HistoryProofs RenderModel OpModel OpSpec OpProofs OpKeys OpModes OpHist DefaultModel DefaultSpec.
From Coq Require Import ZifyBool.
Open Scope Z_scope.

(** ** Recording the line again replaces what was recorded before *)
Lemma map_item_twice id f g l : (forall x, it_id x = id -> it_id (f x) = id /\ g (f x) = g x) ->
  map_item id g (map_item id f l) = map_item id g l.
Proof.
  intros H. unfold map_item. rewrite map_map. apply map_ext. intros x. destruct (Nat.eqb_spec (it_id x) id) as [E|E].
  - destruct (H x E) as (H1 & ->). rewrite H1, Nat.eqb_refl. reflexivity.
  - destruct (Nat.eqb_spec (it_id x) id); [contradiction|reflexivity].
Qed.
Lemma map_item_app id f a b : map_item id f (a ++ b) = map_item id f a ++ map_item id f b.
Proof. apply map_app. Qed.
Lemma map_item_lastn id f n l : map_item id f (lastn n l) = lastn n (map_item id f l).
Proof. unfold lastn, map_item. rewrite map_length, skipn_map. reflexivity. Qed.
Lemma map_item_firstn id f n l : map_item id f (firstn n l) = firstn n (map_item id f l).
Proof. unfold map_item. now rewrite firstn_map. Qed.
Lemma map_item_length id f l : length (map_item id f l) = length l.
Proof. apply map_length. Qed.

Lemma hist_eq a b : h_items a = h_items b -> h_dead a = h_dead b -> h_cur a = h_cur b -> h_ver a = h_ver b -> h_fresh a = h_fresh b ->
  h_enable a = h_enable b -> h_fd a = h_fd b -> h_disk a = h_disk b -> a = b.
Proof. destruct a, b; cbn; intros; subst; reflexivity. Qed.

Lemma update_again c s s' h h1 : hwf h -> h_cur h <> None -> Update c s false h = Ok h1 -> Update c s' false h1 = Update c s' false h.
Proof.
  intros W N U. assert (W1 := Update_hwf c s false h h1 W U). unfold Update in *.
  destruct (h_cur h) as [id|] eqn:C; [|congruence].
  destruct (deref h id) as [x| |] eqn:D; cbn [obind] in U; try discriminate. injection U as <-.
  set (f := fun x => {| it_id := it_id x; it_src := it_src x; it_ver := h_ver h; it_tmp := s |}) in *.
  set (g := fun x => {| it_id := it_id x; it_src := it_src x; it_ver := h_ver h; it_tmp := s' |}).
  destruct (Compact_rest c (modify id f h)) as (R1 & R2 & R3 & R4 & R5 & R6). rewrite R1, R2. cbn [modify set_lists h_cur h_ver]. rewrite C.
  assert (Q : exists y, deref (Compact c (modify id f h)) id = Ok y).
  { pose proof (w_cur _ W1) as I. rewrite R1 in I. cbn [modify set_lists h_cur] in I. rewrite C in I. apply in_map_iff in I.
    destruct I as (y & Ey & Iy). exists y. pose proof (deref_item _ y W1 Iy) as D2. rewrite Ey in D2. exact D2. }
  destruct Q as (y & ->). cbn [obind]. f_equal. fold g.
  assert (T : forall l, map_item id g (map_item id f l) = map_item id g l).
  { intros l. apply map_item_twice. intros z Ez. split; [exact Ez|reflexivity]. }
  assert (K : forall h, (length (h_items h) <= keep c)%nat -> Compact c h = h).
  { intros h0 L. apply hist_eq; try (destruct (Compact_rest c h0) as (E1 & E2 & E3 & E4 & E5 & E6); assumption).
    - rewrite Compact_items. unfold lastn. replace (length (h_items h0) - keep c)%nat with 0%nat by lia. reflexivity.
    - rewrite Compact_dead. replace (length (h_items h0) - keep c)%nat with 0%nat by lia. now rewrite firstn_O, app_nil_r. }
  rewrite K.
  2: { cbn [modify set_lists h_items]. rewrite map_item_length, Compact_items. unfold lastn. rewrite skipn_length. lia. }
  destruct (Compact_rest c (modify id g h)) as (S1 & S2 & S3 & S4 & S5 & S6).
  apply hist_eq; cbn [modify set_lists h_items h_dead h_cur h_ver h_fresh h_enable h_fd h_disk].
  - rewrite !Compact_items. cbn [modify set_lists h_items]. rewrite map_item_lastn, T. reflexivity.
  - rewrite !Compact_dead. cbn [modify set_lists h_items h_dead]. rewrite map_item_app, map_item_firstn, !T, !map_item_length. reflexivity.
  - rewrite R1, S1. reflexivity.
  - rewrite R2, S2. reflexivity.
  - rewrite R3, S3. reflexivity.
  - rewrite R4, S4. reflexivity.
  - rewrite R5, S5. reflexivity.
  - rewrite R6, S6. reflexivity.
Qed.

(** ** Keys that do not look at the history *)
Definition omap {A B} (f : A -> B) (x : outcome A) : outcome B := obind x (fun a => Ok (f a)).
Definition hmap (h : hist) (x : swres) : swres := let '(o, a, ks, kc, upd) := x in (with_h h o, a, ks, kc, upd).

Lemma refresh_h cf h o : CompleteRefresh cf (with_h h o) = omap (with_h h) (CompleteRefresh cf o).
Proof.
  unfold CompleteRefresh. cbn [with_h o_c o_b]. destruct (negb (c_in (o_c o))); [reflexivity|].
  destruct (menu_out cf (o_c o) (o_b o)) as [x| |]; reflexivity.
Qed.
Lemma select_h cf h o : doSelect cf (with_h h o) = omap (with_h h) (doSelect cf o).
Proof.
  unfold doSelect. cbn [with_h o_c o_b].
  destruct (c_cand (o_c o)) as [|x [|y l]]; cbn [length].
  - destruct (nextCandidate 1 (o_c o)) as [c| |]; cbn [obind omap]; try reflexivity. exact (refresh_h cf h (with_c c o)).
  - cbn. destruct (WriteRunes x (o_b o)) as [b| |]; reflexivity.
  - destruct (nextCandidate 1 (o_c o)) as [c| |]; cbn [obind omap]; try reflexivity. exact (refresh_h cf h (with_c c o)).
Qed.

Lemma complete_h cf Do h o : OnComplete cf Do (with_h h o) = omap (with_h h) (OnComplete cf Do o).
Proof.
  unfold OnComplete. cbn [with_h o_c o_b]. destruct (oc_w cf =? 0); [reflexivity|].
  destruct (c_sel (o_c o)); [exact (select_h cf h o)|].
  destruct (c_in (o_c o) && _).
  - match goal with |- context [with_c ?c (with_h h o)] => change (with_c c (with_h h o)) with (with_h h (with_c c o)) end.
    rewrite refresh_h. match goal with |- context [CompleteRefresh cf ?z] => destruct (CompleteRefresh cf z) as [o1| |] end; cbn [omap obind]; try reflexivity.
    apply select_h.
  - destruct (Do (rb_buf (o_b o)) (rb_idx (o_b o))) as [cands off]. destruct cands as [|x rest]; [reflexivity|].
    match goal with |- obind ?e _ = _ => destruct e as [[ins|]| |]; cbn [obind omap]; try reflexivity end.
    + destruct (WriteRunes ins (o_b o)) as [b| |]; reflexivity.
    + match goal with |- context [with_c ?c (with_h h o)] => exact (refresh_h cf h (with_c c o)) end.
Qed.

Lemma edit_h x h o : edit_buf x (with_h h o) = omap (hmap h) (edit_buf x o).
Proof. unfold edit_buf. destruct x; reflexivity. Qed.

Lemma switch_h cf r h o : edits (rb_buf (o_b o)) r -> s_in (o_s o) = false ->
  key_switch cf r (with_h h o) = omap (hmap h) (key_switch cf r o).
Proof.
  intros (N0 & N3 & N10 & N13 & N14 & N16 & N18 & N19 & N4) S. unfold key_switch. cbn [with_h o_b o_c o_s o_h]. rewrite S.
  destruct (r =? CharBell). { cbn [obind omap]. cbn [with_h o_c]. destruct (c_in (o_c o)); reflexivity. }
  destruct (r =? CharTab).
  { destruct (oc_auto cf) as [Do|]; [|reflexivity]. destruct (oc_w cf =? 0); [reflexivity|]. rewrite complete_h.
    destruct (OnComplete cf Do o); reflexivity. }
  replace (r =? CharBckSearch) with false by (unfold CharBckSearch; lia).
  destruct (r =? CharCtrlU); [apply edit_h|].
  replace (r =? CharFwdSearch) with false by (unfold CharFwdSearch; lia).
  destruct (r =? CharKill). { destruct (Kill (o_b o)); reflexivity. }
  destruct (r =? MetaForward); [apply edit_h|].
  destruct (r =? CharTranspose); [apply edit_h|].
  destruct (r =? MetaBackward); [apply edit_h|].
  destruct (r =? MetaDelete); [apply edit_h|].
  destruct (r =? CharLineStart); [apply edit_h|].
  destruct (r =? CharLineEnd); [apply edit_h|].
  destruct ((r =? CharBackspace) || (r =? CharCtrlH)).
  { destruct (length (rb_buf (o_b o)) =? 0)%nat; [reflexivity|]. destruct (BufBackspace (o_b o)) as [b| |]; cbn [obind omap]; try reflexivity.
    cbn [with_b with_h o_c]. destruct (c_in (o_c o)); [|reflexivity]. destruct (oc_auto cf) as [Do|]; [|reflexivity].
    change (with_b b (with_h h o)) with (with_h h (with_b b o)). rewrite complete_h. destruct (OnComplete cf Do (with_b b o)); reflexivity. }
  destruct (r =? CharCtrlZ); [reflexivity|].
  destruct (r =? CharCtrlL); [reflexivity|].
  destruct ((r =? MetaBackspace) || (r =? CharCtrlW)); [apply edit_h|].
  destruct (r =? CharCtrlY); [apply edit_h|].
  replace ((r =? CharEnter) || (r =? CharCtrlJ)) with false by (unfold CharEnter, CharCtrlJ; lia).
  destruct (r =? CharBackward); [apply edit_h|].
  destruct (r =? CharForward); [apply edit_h|].
  replace (r =? CharPrev) with false by (unfold CharPrev; lia).
  replace (r =? CharNext) with false by (unfold CharNext; lia).
  destruct (Z.eqb_spec r CharDelete) as [E|E].
  { unfold key_delete. cbn [with_h o_b]. specialize (N4 E). destruct (rb_buf (o_b o)) as [|x l]; [congruence|]. cbn [length Nat.ltb Nat.leb orb].
    destruct (Delete (o_b o)); reflexivity. }
  replace (r =? CharInterrupt) with false by (unfold CharInterrupt; lia).
  destruct (WriteRunes [r] (o_b o)) as [b| |]; cbn [obind omap]; try reflexivity.
  cbn [with_b with_h o_c]. destruct (c_in (o_c o)); [|reflexivity]. destruct (oc_auto cf) as [Do|]; [|reflexivity].
  change (with_b b (with_h h o)) with (with_h h (with_b b o)). rewrite complete_h. destruct (OnComplete cf Do (with_b b o)); reflexivity.
Qed.

(** These keys record the line, and leave history and search alone. *)
Definition keeps_h (o : op) (x : swres) : Prop := let '(o', _, _, _, upd) := x in o_h o' = o_h o /\ o_s o' = o_s o /\ upd = true.
Lemma refresh_keeps cf o o' : CompleteRefresh cf o = Ok o' -> o_h o' = o_h o /\ o_s o' = o_s o.
Proof.
  unfold CompleteRefresh. destruct (negb (c_in (o_c o))); [now intros [= <-]|].
  destruct (menu_out cf (o_c o) (o_b o)); cbn [obind]; try discriminate. now intros [= <-].
Qed.
Lemma select_keeps cf o o' : doSelect cf o = Ok o' -> o_h o' = o_h o /\ o_s o' = o_s o.
Proof.
  unfold doSelect. destruct (c_cand (o_c o)) as [|x [|y l]].
  - destruct (nextCandidate 1 (o_c o)) as [c| |]; cbn [obind]; try discriminate. intros E. apply refresh_keeps in E. exact E.
  - destruct (WriteRunes x (o_b o)); cbn [obind]; try discriminate. now intros [= <-].
  - destruct (nextCandidate 1 (o_c o)) as [c| |]; cbn [obind]; try discriminate. intros E. apply refresh_keeps in E. exact E.
Qed.
Lemma complete_keeps cf Do o o' : OnComplete cf Do o = Ok o' -> o_h o' = o_h o /\ o_s o' = o_s o.
Proof.
  unfold OnComplete. destruct (oc_w cf =? 0); [now intros [= <-]|].
  destruct (c_sel (o_c o)); [apply select_keeps|].
  destruct (c_in (o_c o) && _).
  - match goal with |- context [CompleteRefresh cf ?z] => destruct (CompleteRefresh cf z) as [o1| |] eqn:E1 end; cbn [obind]; try discriminate.
    apply refresh_keeps in E1. cbn [with_c o_h o_s] in E1. intros E. apply select_keeps in E. destruct E1 as (<- & <-). exact E.
  - destruct (Do (rb_buf (o_b o)) (rb_idx (o_b o))) as [cands off]. destruct cands as [|x rest]; [now intros [= <-]|].
    match goal with |- obind ?e _ = _ -> _ => destruct e as [[ins|]| |]; cbn [obind]; try discriminate end.
    + destruct (WriteRunes ins (o_b o)) as [b| |]; cbn [obind]; try discriminate. now intros [= <-].
    + intros E. apply refresh_keeps in E. exact E.
Qed.
Lemma edit_keeps x o y : edit_buf x o = Ok y -> keeps_h o y.
Proof. unfold edit_buf. destruct x; cbn [obind]; try discriminate. intros [= <-]. cbn. auto. Qed.

Lemma switch_keeps cf r o x : edits (rb_buf (o_b o)) r -> s_in (o_s o) = false -> key_switch cf r o = Ok x -> keeps_h o x.
Proof.
  intros (N0 & N3 & N10 & N13 & N14 & N16 & N18 & N19 & N4) S. unfold key_switch. rewrite S.
  destruct (r =? CharBell). { cbn [obind]. intros [= <-]. cbn. destruct (c_in (o_c o)); auto. }
  destruct (r =? CharTab).
  { destruct (oc_auto cf) as [Do|]; [|now intros [= <-]]. destruct (oc_w cf =? 0); [now intros [= <-]|].
    destruct (OnComplete cf Do o) as [o1| |] eqn:E; cbn [obind]; try discriminate. intros [= <-]. apply complete_keeps in E. cbn. tauto. }
  replace (r =? CharBckSearch) with false by (unfold CharBckSearch; lia).
  destruct (r =? CharCtrlU); [apply edit_keeps|].
  replace (r =? CharFwdSearch) with false by (unfold CharFwdSearch; lia).
  destruct (r =? CharKill). { destruct (Kill (o_b o)); cbn [obind]; try discriminate. now intros [= <-]. }
  destruct (r =? MetaForward); [apply edit_keeps|].
  destruct (r =? CharTranspose); [apply edit_keeps|].
  destruct (r =? MetaBackward); [apply edit_keeps|].
  destruct (r =? MetaDelete); [apply edit_keeps|].
  destruct (r =? CharLineStart); [apply edit_keeps|].
  destruct (r =? CharLineEnd); [apply edit_keeps|].
  destruct ((r =? CharBackspace) || (r =? CharCtrlH)).
  { destruct (length (rb_buf (o_b o)) =? 0)%nat; [now intros [= <-]|]. destruct (BufBackspace (o_b o)) as [b| |]; cbn [obind]; try discriminate.
    cbn [with_b o_c]. destruct (c_in (o_c o)); [|now intros [= <-]]. destruct (oc_auto cf) as [Do|]; [|discriminate].
    match goal with |- context [OnComplete cf Do ?z] => destruct (OnComplete cf Do z) as [o1| |] eqn:E end; cbn [obind]; try discriminate.
    apply complete_keeps in E. intros [= <-]. cbn in *. tauto. }
  destruct (r =? CharCtrlZ); [now intros [= <-]|].
  destruct (r =? CharCtrlL); [now intros [= <-]|].
  destruct ((r =? MetaBackspace) || (r =? CharCtrlW)); [apply edit_keeps|].
  destruct (r =? CharCtrlY); [apply edit_keeps|].
  replace ((r =? CharEnter) || (r =? CharCtrlJ)) with false by (unfold CharEnter, CharCtrlJ; lia).
  destruct (r =? CharBackward); [apply edit_keeps|].
  destruct (r =? CharForward); [apply edit_keeps|].
  replace (r =? CharPrev) with false by (unfold CharPrev; lia).
  replace (r =? CharNext) with false by (unfold CharNext; lia).
  destruct (Z.eqb_spec r CharDelete) as [E|E].
  { unfold key_delete. specialize (N4 E). destruct (rb_buf (o_b o)) as [|x0 l]; [congruence|]. cbn [length Nat.ltb Nat.leb orb].
    destruct (Delete (o_b o)); cbn [obind]; try discriminate. now intros [= <-]. }
  replace (r =? CharInterrupt) with false by (unfold CharInterrupt; lia).
  destruct (WriteRunes [r] (o_b o)) as [b| |]; cbn [obind]; try discriminate.
  cbn [with_b o_c]. destruct (c_in (o_c o)); [|now intros [= <-]]. destruct (oc_auto cf) as [Do|]; [|discriminate].
  match goal with |- context [OnComplete cf Do ?z] => destruct (OnComplete cf Do z) as [o1| |] eqn:E1 end; cbn [obind]; try discriminate.
  apply complete_keeps in E1. intros [= <-]. cbn in *. tauto.
Qed.

Lemma after_h cf r h o a ks kc : s_in (o_s o) = false -> (forall s, Update (oc_h cf) s false h = Update (oc_h cf) s false (o_h o)) ->
  after_switch cf r (with_h h o, a, ks, kc, true) = after_switch cf r (o, a, ks, kc, true).
Proof.
  intros S U. unfold after_switch. cbn [with_h o_b].
  set (z := match oc_listen cf with Some _ => _ | None => with_h h o end).
  set (y := match oc_listen cf with Some _ => _ | None => o end).
  assert (E : z = with_h h y).
  { unfold z, y. destruct (oc_listen cf); [|reflexivity]. destruct (o0 _ _ _) as [[l p]|]; reflexivity. }
  assert (Sy : s_in (o_s y) = false /\ o_h y = o_h o).
  { unfold y. destruct (oc_listen cf); [|auto]. destruct (o0 _ _ _) as [[l p]|]; auto. }
  clearbody z y. subst z. destruct Sy as (Sy & Hy). cbn [with_h o_s o_c o_b]. rewrite Sy, andb_false_r.
  assert (Q : forall y, s_in (o_s y) = false -> o_h y = o_h o ->
    (o3 <- (if true && negb (s_in (o_s (with_h h y))) then
           h <- Update (oc_h cf) (rb_buf (o_b (with_h h y))) false (o_h (with_h h y)) ;; Ok (with_h h (with_h h y))
         else Ok (with_h h y)) ;; Ok (o3, a)) =
    (o3 <- (if true && negb (s_in (o_s y)) then
           h <- Update (oc_h cf) (rb_buf (o_b y)) false (o_h y) ;; Ok (with_h h y)
         else Ok y) ;; Ok (o3, a))).
  { intros x Sx Hx. cbn [with_h o_s o_b o_h]. rewrite Sx. cbn [negb andb]. rewrite U, Hx.
    destruct (Update (oc_h cf) (rb_buf (o_b x)) false (o_h o)); reflexivity. }
  destruct (c_in (o_c y)).
  - destruct (negb kc).
    + cbn [obind]. exact (Q (with_c (ExitCompleteMode (o_c y)) y) Sy Hy).
    + rewrite refresh_h. destruct (CompleteRefresh cf y) as [o1| |] eqn:E1; cbn [omap obind]; try reflexivity.
      apply refresh_keeps in E1. destruct E1 as (E1 & E2). apply Q; congruence.
  - cbn [obind]. exact (Q y Sy Hy).
Qed.

(** A key pressed with a line that the history has not seen does what it does with the line recorded. *)
Lemma step_h cf r h o : oc_vim cf = false -> oc_filter cf = None -> typing o ->
  edits (rb_buf (o_b o)) r -> (forall s, Update (oc_h cf) s false h = Update (oc_h cf) s false (o_h o)) ->
  op_step cf r (with_h h o) = op_step cf r o.
Proof.
  intros Vi Fi T E U. unfold op_step. cbn [with_h o_end o_vp]. rewrite (ty_end _ T), (ty_vp _ T), Fi.
  assert (N0 : r <> 0) by (destruct E as (N0 & _); exact N0).
  unfold handle_key. replace (r =? 0) with false by lia. cbn [andb with_h o_c]. rewrite (ty_sel _ T). unfold vim_and_switch. rewrite Vi.
  rewrite switch_h by (try exact E; apply (ty_s _ T)).
  destruct (key_switch cf r o) as [x| |] eqn:K; cbn [omap obind]; try reflexivity.
  pose proof (switch_keeps cf r o x E (ty_s _ T) K) as H. destruct x as [[[[o1 a] ks] kc] upd]. cbn in H. destruct H as (H1 & H2 & ->).
  cbn [hmap]. apply after_h; [rewrite H2; apply (ty_s _ T)|]. intros s. rewrite H1. apply U.
Qed.

Lemma text_state cf t : plain cf -> Forall ordinary t -> forall o, typing o -> h_cur (o_h o) <> None -> rb_idx (o_b o) = length (rb_buf (o_b o)) ->
  exists h, op_run cf t o = Ok (with_h h (SetBuffer (rb_buf (o_b o) ++ t) o), []) /\ hwf h /\ h_cur h <> None /\
    forall s, Update (oc_h cf) s false h = Update (oc_h cf) s false (o_h o).
Proof.
  intros P F. induction F as [|r t R F IH]; intros o T N I.
  - exists (o_h o). split; [|split; [apply (ty_h _ T)|auto]]. rewrite app_nil_r. cbn [op_run]. f_equal. f_equal.
    destruct o as [b]. unfold SetBuffer, Set_, SetWithIdx. cbn in *. rewrite <- I. destruct b; reflexivity.
  - cbn [op_run]. rewrite step_passes; [|exact P|exact T|destruct R; lia|destruct R; lia].
    rewrite (switch_ordinary cf r o R (ty_s _ T) (ty_c _ T)).
    rewrite write_spec by apply (ty_in _ T). rewrite I, firstn_all, skipn_all, app_nil_r. cbn [obind].
    match goal with |- context [with_b ?b o] => set (b1 := b) end.
    unfold after_switch. rewrite (proj1 P). cbn [with_b o_s o_c]. rewrite (ty_s _ T), (ty_c _ T). cbn [negb andb obind]. cbn [with_b o_s o_c o_b o_h]. rewrite (ty_s _ T). cbn [negb].
    destruct (Update_ok (oc_h cf) (rb_buf b1) false (o_h o) (ty_h _ T)) as (h1 & E1 & W1 & N1). rewrite E1. cbn [obind fst snd].
    assert (T1 : typing (with_h h1 (with_b b1 o))).
    { destruct T. constructor; try assumption. unfold inside, b1. cbn. rewrite app_length. cbn. lia. }
    destruct (IH _ T1 N1) as (h & -> & Wh & Nh & U).
    { unfold b1. cbn. rewrite app_length. cbn. lia. }
    exists h. cbn [obind fst snd app]. split; [|split; [exact Wh|split; [exact Nh|]]].
    + f_equal. f_equal. unfold b1, SetBuffer, Set_, SetWithIdx, with_h, with_b. cbn. rewrite <- app_assoc. reflexivity.
    + intros s. rewrite U. cbn [with_h o_h]. apply (update_again (oc_h cf) (rb_buf b1)); [apply (ty_h _ T)|exact N|exact E1].
Qed.

Lemma typing_default d o : typing o -> typing (SetBuffer d o).
Proof. intros T. destruct T. constructor; try assumption. unfold inside. cbn. lia. Qed.

Lemma default_as_typed cf d r rs o : plain cf -> oc_vim cf = false -> at_rest o -> h_cur (o_h o) <> None -> Forall ordinary d -> edits d r ->
  ReadlineWithDefault cf d (r :: rs) o = op_run cf (d ++ r :: rs) o.
Proof.
  intros P Vi A N F E. pose proof A as T. apply rest_typing in T. destruct T as (T & B & I).
  rewrite op_run_app. destruct (text_state cf d P F o T N) as (h & -> & _ & _ & U); [rewrite I, B; reflexivity|].
  rewrite B. cbn [app obind fst snd]. unfold ReadlineWithDefault. cbn [op_run].
  rewrite (step_h cf r h (SetBuffer d o) Vi (proj2 P) (typing_default d o T) E U).
  destruct (op_step cf r (SetBuffer d o)) as [x| |]; cbn [obind]; try reflexivity.
  destruct (op_run cf rs (fst x)) as [y| |]; reflexivity.
Qed.

Lemma default_enter cf d t e o : plain cf -> at_rest o -> Forall ordinary t -> e = 13 \/ e = 10 ->
  exists o', ReadlineWithDefault cf d (t ++ [e]) o = Ok (o', [ALine (d ++ t)]) /\ at_rest o'.
Proof.
  intros P A F E. unfold ReadlineWithDefault. rewrite op_run_app. pose proof A as T. apply rest_typing in T. destruct T as (T & B & I).
  destruct (text_steps cf t P F (SetBuffer d o) (typing_default d o T)) as (o1 & -> & T1 & B1 & I1); [reflexivity|]. cbn [obind fst snd].
  destruct (enter_step cf e o1 P T1 E) as (o2 & E2 & A2 & _). cbn [op_run]. rewrite E2. cbn [obind fst snd app].
  exists o2. rewrite B1. split; [reflexivity|exact A2].
Qed.

Lemma default_interrupt cf d o : plain cf -> at_rest o -> exists o', ReadlineWithDefault cf d [3] o = Ok (o', [AIntr d]) /\ at_rest o'.
Proof.
  intros P A. pose proof A as T. apply rest_typing in T. destruct T as (T & _). apply (typing_default d) in T.
  unfold ReadlineWithDefault. cbn [op_run].
  destruct (interrupt_step cf (SetBuffer d o) P (ty_in _ T) (ty_h _ T) (ty_s _ T) (ty_c _ T) (ty_sel _ T) (ty_vp _ T) (ty_end _ T)) as (o' & -> & A').
  { intros X. pose proof (ty_vn _ T). congruence. }
  exists o'. cbn. split; [reflexivity|exact A'].
Qed.

Lemma default_recorded cf d rs o R o' a : 1 <= hc_limit (oc_h cf) -> oc_vim cf = false -> oc_nosave cf = false -> oc_filter cf = None ->
  at_rest o -> rests (oc_h cf) (o_h o) R -> no_search_enter cf rs (SetBuffer d o) -> ReadlineWithDefault cf d rs o = Ok (o', a) ->
  exists n, committed (o_h o') = lastn n (recorded R (map Submit (lines_of a))) /\ (n <= keep (oc_h cf))%nat /\
    (Nat.min (length (recorded R (map Submit (lines_of a)))) (keep (oc_h cf) - 1) <= n)%nat.
Proof.
  intros Hl Vi Ns Fi A T Se E. assert (W : hwf (o_h o)) by apply (ar_h _ A).
  assert (K : keepsup false cf (SetBuffer d o) R).
  { constructor; cbn [SetBuffer with_b o_h o_s o_b].
    - split; [exact W|]. change (tracks false (oc_h cf) (o_h o) R) in T. rewrite (tracks_back _ _ _ _ T). exact T.
    - intros X. cbn in X. rewrite (ar_sel _ A) in X. discriminate.
    - intros _. left. change (tracks false (oc_h cf) (o_h o) R) in T. apply tracks_cur in T. destruct T as (id & -> & ->). reflexivity. }
  pose proof (run_hist false cf Hl Vi Ns Fi rs R (SetBuffer d o) o' a (ar_vp _ A) K Se E ltac:(intros X; discriminate)) as [(W' & (com & e & (_ & I & _) & _ & K')) _ _].
  change (h_items (to_back (o_h o'))) with (h_items (o_h o')) in I. destruct K' as (K1 & K2 & K3). exists (length com).
  unfold committed. rewrite I, removelast_last. auto.
Qed.
