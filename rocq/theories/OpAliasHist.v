(** What the editor with shared memory does to the history, when searches are given up. *)
From Verif Require Import Base ListAux RunesModel RunesProofs RuneBufModel RuneBufSpec RuneBufProofs HistoryModel HistorySpec HistoryProofs HistoryFileProofs
  RenderModel OpModel OpSpec OpProofs OpStep OpKeys OpModes OpHist OpAliasModel OpAliasSpec OpAliasProofs.
From Coq Require Import ZifyBool Permutation.
Open Scope Z_scope.

(** ** Writing into a Tmp *)
Definition hs (h h' : hist) : Prop := h' = h \/ exists id arr, h' = modify id (write_tmp arr) h.

Lemma hs_rest h h' : hs h h' -> h_cur h' = h_cur h /\ back_id h' = back_id h /\ h_ver h' = h_ver h /\ h_enable h' = h_enable h.
Proof.
  intros [->|(id & arr & ->)]; [auto|]. split; [reflexivity|]. split; [|split; reflexivity].
  unfold back_id, back, modify. cbn [set_lists h_items]. unfold map_item. rewrite <- map_rev. destruct (rev (h_items h)); cbn; [reflexivity|].
  destruct (_ =? _)%nat; reflexivity.
Qed.

Lemma hs_blank h h' : hs h h' -> blank h -> blank h'.
Proof.
  intros [->|(id & arr & ->)] B; [exact B|]. intros e E. unfold back, modify in E. cbn [set_lists h_items] in E. unfold map_item in E.
  rewrite <- map_rev in E. specialize (B). unfold blank, back in B. destruct (rev (h_items h)) as [|y l]; cbn in E; [discriminate|].
  injection E as <-. specialize (B y eq_refl). destruct (_ =? _)%nat; cbn; exact B.
Qed.

Lemma find_map f id : (forall x, it_id (f x) = it_id x) -> forall l i, find_item i (map_item id f l) =
  option_map (fun x => if (it_id x =? id)%nat then f x else x) (find_item i l).
Proof.
  intros F l i. induction l as [|x l IH]; cbn [map_item map find_item option_map]; [reflexivity|].
  assert (E : it_id (if (it_id x =? id)%nat then f x else x) = it_id x) by (destruct (_ =? _)%nat; auto).
  rewrite E. destruct (it_id x =? i)%nat; [reflexivity|apply IH].
Qed.

Lemma deref_modify f id h i : (forall x, it_id (f x) = it_id x) -> deref (modify id f h) i =
  match deref h i with Ok x => Ok (if (it_id x =? id)%nat then f x else x) | e => e end.
Proof.
  intros F. unfold deref. fold (elems h). fold (elems (modify id f h)). rewrite elems_modify, find_map by exact F.
  destruct (find_item i (elems h)); reflexivity.
Qed.

Definition own (h : hist) (id : nat) : Prop := exists x, deref h id = Ok x /\ (it_ver x = h_ver h \/ it_src x = []).

Lemma hs_own h h' id : hs h h' -> own h id -> own h' id.
Proof.
  intros [->|(i & arr & ->)]; [auto|]. intros (x & D & H). unfold own. rewrite deref_modify by reflexivity. rewrite D.
  eexists. split; [reflexivity|]. destruct (_ =? _)%nat; exact H.
Qed.

Lemma hs_to_back h h' : hs h h' -> hs (to_back h) (to_back h').
Proof.
  intros H. pose proof (hs_rest _ _ H) as (_ & B & _). destruct H as [->|(i & arr & ->)]; [now left|]. right. exists i, arr.
  unfold to_back. rewrite B. reflexivity.
Qed.

Lemma hs_hwf h h' : hs h h' -> hwf h -> hwf h'.
Proof. intros [->|(i & arr & ->)]; [auto|]. intros W. apply hwf_modify; auto. Qed.

Lemma hs_tracks file c h h' R : hs h h' -> tracks file c h R -> tracks file c h' R.
Proof.
  intros [->|(i & arr & ->)]; [auto|]. intros T.
  assert (Q : rests c h R -> rests c (modify i (write_tmp arr) h) R).
  { intros (com & e & (W & I & C) & En & K).
    exists (map_item i (write_tmp arr) com), (if (it_id e =? i)%nat then write_tmp arr e else e).
    split; [|split; [exact En|]].
    - split; [apply hwf_modify; auto|]. split; [|cbn; rewrite C; destruct (_ =? _)%nat; reflexivity].
      cbn. rewrite I. unfold map_item. rewrite map_app. reflexivity.
    - apply (keeps_map c com); [|exact K]. unfold map_item. rewrite map_map. apply map_ext. intros x. destruct (_ =? _)%nat; reflexivity. }
  destruct file; cbn in *; [|auto]. destruct T as (F & P1 & P2). exists F. split; [now apply Q|exact P2].
Qed.

Definition no_src (al : option (nat * bool)) : Prop := forall id, al <> Some (id, true).

Section hist.
Variables (file : bool) (cf : ocfg).
Local Notation hw := (OpHist.hw file cf).
Local Notation keepsup := (OpHist.keepsup file cf).

Lemma hs_hw h h' R : hs h h' -> hw h R -> hw h' R.
Proof. intros H (W & T). split; [eapply hs_hwf; eauto|]. eapply hs_tracks; [apply hs_to_back; exact H|exact T]. Qed.

(** the line may be written over what it shares, if that is not a Source *)
Lemma put_h sp o a : no_src (a_al a) -> let a' := put sp o a in
  hs (o_h o) (o_h (a_o a')) /\ o_b (a_o a') = o_b o /\ o_s (a_o a') = o_s o /\ o_c (a_o a') = o_c o /\ no_src (a_al a') /\
  (forall l s, rb_buf (o_b o) = l ++ s -> touched l (o_h o) -> touched l (o_h (a_o a'))).
Proof.
  intros N. unfold put. destruct (_ <=? _)%nat.
  2:{ cbn. split; [now left|]. repeat split; auto. intros id E. discriminate. }
  cbn. destruct (a_al a) as [[id [|]]|] eqn:E.
  - exfalso. now apply (N id).
  - split; [right; eexists _, _; reflexivity|]. do 3 (split; [reflexivity|]). split; [exact N|].
    intros l s El T. set (arr := _ ++ _). destruct T as [T|(i & x & C & D & T)].
    + left. change (scribble (Some (id, false)) arr (o_h o)) with (modify id (write_tmp arr) (o_h o)). assert (H : hs (o_h o) (modify id (write_tmp arr) (o_h o))) by (right; eexists _, _; reflexivity).
      apply hs_rest in H. destruct H as (-> & -> & _). exact T.
    + right. exists i. cbn [scribble]. rewrite deref_modify by reflexivity. rewrite D. eexists. split; [exact C|]. split; [reflexivity|].
      destruct (_ =? _)%nat; [|exact T]. cbn. unfold over. rewrite T. subst arr. rewrite El, <- app_assoc, firstn_app, Nat.sub_diag, firstn_all, firstn_O, app_nil_r. reflexivity.
  - cbn. split; [now left|]. do 3 (split; [reflexivity|]). split; [exact N|]. auto.
Qed.

Hypothesis Hl : 1 <= hc_limit (oc_h cf).
Hypothesis Vi : oc_vim cf = false.
Hypothesis Ns : oc_nosave cf = false.
Hypothesis Fi : oc_filter cf = None.

Definition sc (c : comp) : Prop := c_sel c = true -> c_in c = true.
Record akeeps (a : aop) (R : list (list Z)) : Prop := {
  ak_k : keepsup (a_o a) R;
  ak_al : forall id, a_al a = Some (id, true) -> s_in (o_s (a_o a)) = true;
  ak_bl : blank (o_h (a_o a));
  ak_sc : sc (o_c (a_o a));
  ak_si : s_in (o_s (a_o a)) = true -> c_in (o_c (a_o a)) = false;
  ak_src : s_in (o_s (a_o a)) = true -> exists id, s_src (o_s (a_o a)) = Some id /\ own (o_h (a_o a)) id;
  ak_cur : s_in (o_s (a_o a)) = false -> exists id, h_cur (o_h (a_o a)) = Some id /\ own (o_h (a_o a)) id
}.

(** *** the completer's flags *)
Lemma sc_menu o o' : CompleteRefresh cf o = Ok o' -> sc (o_c o) -> sc (o_c o').
Proof.
  unfold CompleteRefresh. destruct (negb _); [intros E; injection E as <-; auto|].
  destruct (menu_out _ _ _); cbn [obind]; try discriminate. intros E. injection E as <-. auto.
Qed.
Lemma in_menu o o' : CompleteRefresh cf o = Ok o' -> c_in (o_c o') = c_in (o_c o).
Proof.
  unfold CompleteRefresh. destruct (negb _); [intros E; injection E as <-; auto|].
  destruct (menu_out _ _ _); cbn [obind]; try discriminate. intros E. injection E as <-. auto.
Qed.
Lemma sc_next i c c' : nextCandidate i c = Ok c' -> sc c -> sc c'.
Proof. unfold nextCandidate. destruct (_ =? 0); [discriminate|]. intros E. injection E as <-. auto. Qed.
Lemma sc_exit c : sc (ExitCompleteMode c). Proof. intros X. discriminate. Qed.
Lemma sc_exit_sel c : sc (ExitCompleteSelectMode c). Proof. intros X. discriminate. Qed.
Lemma sc_select o o' : doSelect cf o = Ok o' -> sc (o_c o) -> sc (o_c o').
Proof.
  intros E S. unfold doSelect in E.
  assert (G : (c <- nextCandidate 1 (o_c o) ;; CompleteRefresh cf (with_c c o)) = Ok o' -> sc (o_c o')).
  { clear E. destruct (nextCandidate 1 (o_c o)) as [c1| |] eqn:En; cbn [obind]; try discriminate. intros E. apply sc_menu in E; [exact E|]. now apply sc_next in En. }
  destruct (c_cand (o_c o)) as [|c [|]]; [exact (G E)| |exact (G E)].
  destruct (WriteRunes c (o_b o)); cbn [obind] in E; try discriminate. injection E as <-. apply sc_exit.
Qed.
Lemma sc_complete Do o o' : OnComplete cf Do o = Ok o' -> sc (o_c o) -> sc (o_c o').
Proof.
  unfold OnComplete. destruct (oc_w cf =? 0); [intros E; injection E as <-; auto|].
  destruct (c_sel (o_c o)); [apply sc_select|].
  destruct (c_in (o_c o) && _) eqn:Ci.
  - destruct (CompleteRefresh _ _) as [o1| |] eqn:E1; cbn [obind]; try discriminate. intros E S. apply sc_select in E; [exact E|].
    apply sc_menu in E1; [exact E1|]. cbn. intros _. now apply andb_true_iff in Ci.
  - destruct (Do _ _) as [cands off]. destruct cands as [|x rest]; [intros E; injection E as <-; intros _; apply sc_exit|].
    match goal with |- obind ?e _ = _ -> _ => destruct e as [[ins|]| |]; cbn [obind]; try discriminate end.
    + destruct (WriteRunes _ _); cbn [obind]; try discriminate. intros E. injection E as <-. intros _. apply sc_exit.
    + intros E _. apply sc_menu in E; [exact E|]. intros X. discriminate.
Qed.
Lemma sc_handle r o o' k : HandleCompleteSelect cf r o = Ok (o', k) -> sc (o_c o) -> sc (o_c o').
Proof.
  intros E S. revert E.
  assert (N : forall e, (forall c, e = Ok c -> sc c) ->
     (x <- e ;; o1 <- CompleteRefresh cf (with_c x o) ;; Ok (o1, true)) = Ok (o', k) -> sc (o_c o')).
  { intros e He E. destruct e as [x| |]; cbn [obind] in E; try discriminate.
    destruct (CompleteRefresh cf (with_c x o)) as [o1| |] eqn:R; cbn [obind] in E; try discriminate. injection E as <- <-.
    apply sc_menu in R; [exact R|]. now apply He. }
  assert (X : forall n, sc (set_choice n (o_c o))) by (intros n; exact S).
  unfold HandleCompleteSelect.
  destruct ((r =? CharEnter) || (r =? CharCtrlJ)).
  { destruct (c_choice (o_c o) <? 0); [discriminate|]. destruct (get _ _); cbn [obind]; try discriminate.
    destruct (WriteRunes _ _); cbn [obind]; try discriminate. intros E. injection E as <- <-. apply sc_exit. }
  destruct (r =? CharLineStart).
  { apply N. intros c. destruct (_ =? 0); [discriminate|]. intros E. now apply sc_next in E. }
  destruct (r =? CharLineEnd).
  { apply N. intros c. destruct (_ =? 0); [discriminate|]. intros E. injection E as <-. apply X. }
  destruct (r =? CharBackspace); [intros E; injection E as <- <-; apply sc_exit_sel|].
  destruct ((r =? CharTab) || (r =? CharForward)).
  { destruct (doSelect cf o) as [o1| |] eqn:E1; cbn [obind]; try discriminate.
    destruct (CompleteRefresh cf o1) as [o2| |] eqn:E2; cbn [obind]; try discriminate. intros E. injection E as <- <-.
    apply sc_menu in E2; [exact E2|]. now apply sc_select in E1. }
  destruct ((r =? CharBell) || (r =? CharInterrupt)); [intros E; injection E as <- <-; apply sc_exit|].
  destruct (r =? CharNext).
  { apply N. intros c. destruct (getMatrixSize _); cbn [obind]; try discriminate. intros E. injection E as <-. apply X. }
  destruct (r =? CharBackward); [apply N; intros c E; now apply sc_next in E|].
  destruct (r =? CharPrev).
  { apply N. intros c. destruct (_ <? 0); [destruct (getMatrixSize _); cbn [obind]; try discriminate|]; intros E; injection E as <-; apply X. }
  intros E; injection E as <- <-; apply sc_exit_sel.
Qed.

(** *** the switch *)
Definition apost (R : list (list Z)) (e : outcome (aop * swres)) : Prop := forall a' o0 acts ks kc upd,
  e = Ok (a', (o0, acts, ks, kc, upd)) -> cleans file acts -> let o := a_o a' in
  hw (o_h o) (rec R acts) /\ two o /\ (upd = false -> h_cur (o_h o) = back_id (o_h o)) /\
  (forall id, a_al a' = Some (id, true) -> s_in (o_s o) = true) /\ blank (o_h o) /\ sc (o_c o) /\
  (s_in (o_s o) = true -> ks = true /\ kc = false /\ exists id, s_src (o_s o) = Some id /\ own (o_h o) id).

Lemma ap_if R (c : bool) A B : (c = true -> apost R A) -> (c = false -> apost R B) -> apost R (if c then A else B).
Proof. destruct c; auto. Qed.
Lemma ap_bind {X} R (e : outcome X) (f : X -> outcome (aop * swres)) : (forall x, e = Ok x -> apost R (f x)) -> apost R (x <- e ;; f x).
Proof. intros H. destruct e; cbn [obind]; auto; intros ? ? ? ? ? ? E; discriminate. Qed.

(** a state outside search mode *)
Record out (R : list (list Z)) (a : aop) : Prop := {
  ou_h : hw (o_h (a_o a)) R; ou_t : two (a_o a); ou_a : no_src (a_al a); ou_b : blank (o_h (a_o a)); ou_c : sc (o_c (a_o a));
  ou_s : s_in (o_s (a_o a)) = false }.

Lemma ap_out R a o0 acts ks kc : out R a -> lines_of acts = [] -> apost R (Ok (a, (o0, acts, ks, kc, true))).
Proof.
  intros [H T A B C S] L a' o acts' ks' kc' upd E _. injection E as <- <- <- <- <- <-. cbn zeta.
  split; [unfold rec; rewrite L; exact H|]. split; [exact T|]. split; [discriminate|].
  split; [intros id E; now apply A in E|]. split; [exact B|]. split; [exact C|]. congruence.
Qed.

Lemma out_put sp R o a : out R a -> o_h o = o_h (a_o a) -> o_s o = o_s (a_o a) -> two o -> sc (o_c o) -> out R (put sp o a).
Proof.
  intros [H T A B C S] Eh Es To So. destruct (put_h sp o a A) as (P1 & P2 & P3 & P4 & P5 & _).
  constructor.
  - apply (hs_hw (o_h o)); [exact P1|]. rewrite Eh. exact H.
  - unfold two in *. rewrite P4. exact To.
  - exact P5.
  - apply (hs_blank (o_h o)); [exact P1|]. rewrite Eh. exact B.
  - rewrite P4. exact So.
  - rewrite P3, Es. exact S.
Qed.

Lemma out_b sp R b a : out R a -> out R (put sp (with_b b (a_o a)) a).
Proof. intros O. apply out_put; auto; [apply (ou_t R a O)|apply (ou_c R a O)]. Qed.

Lemma akeeps_out R a : akeeps a R -> s_in (o_s (a_o a)) = false -> out R a.
Proof.
  intros [K1 K2 K3 K4 K5 K6 K7] S. constructor; auto.
  - apply K1.
  - apply K1.
  - intros id E. apply K2 in E. congruence.
Qed.

Lemma ap_lift sp R f a : out R a ->
  (forall x, f (a_o a) = Ok x -> let o := fst4 x in o_h o = o_h (a_o a) /\ o_s o = o_s (a_o a) /\ two o /\ sc (o_c o) /\
     lines_of (snd (fst (fst (fst x)))) = [] /\ snd x = true) ->
  apost R (lift_sw sp f a).
Proof.
  intros O F. unfold lift_sw. apply ap_bind. intros x E. destruct (F x E) as (F1 & F2 & F3 & F4 & F5 & F6).
  destruct x as [[[[o acts] ks] kc] upd]. cbn [fst4 fst snd] in *. subst upd.
  apply ap_out; [now apply out_put|exact F5].
Qed.

Ltac okeys := unfold CharBell, CharTab, CharBckSearch, CharFwdSearch, CharCtrlU, CharKill, MetaForward, CharTranspose, MetaBackward, MetaDelete,
  CharLineStart, CharLineEnd, CharBackspace, CharCtrlH, CharCtrlZ, CharCtrlL, MetaBackspace, CharCtrlW, CharCtrlY, CharEnter, CharCtrlJ, CharBackward,
  CharForward, CharPrev, CharNext, CharDelete, CharInterrupt in *.

Definition frame (o : op) (e : outcome swres) : Prop := forall x, e = Ok x -> let o' := fst4 x in
  o_h o' = o_h o /\ o_s o' = o_s o /\ two o' /\ sc (o_c o') /\ lines_of (snd (fst (fst (fst x)))) = [] /\ snd x = true.

Lemma frame_edit o e : two o -> sc (o_c o) -> frame o (edit_buf e o).
Proof. intros T C. unfold edit_buf, frame. destruct e; cbn [obind]; try discriminate. intros x E. injection E as <-. cbn. auto 10. Qed.

Lemma frame_lift r o : two o -> sc (o_c o) ->
  (r = 9 \/ r = 21 \/ r = 11 \/ r = -2 \/ r = 20 \/ r = -1 \/ r = -3 \/ r = 1 \/ r = 5 \/ r = 26 \/ r = 12 \/ r = -4 \/ r = 23 \/ r = 2 \/ r = 6) ->
  frame o (key_switch cf r o).
Proof.
  intros T C H.
  assert (F : forall a, lines_of a = [] -> frame o (Ok (o, a, false, false, true))) by (intros a L x E; injection E as <-; cbn; auto 10).
  decompose [or] H; subst r; unfold key_switch; okeys; cbn [Z.eqb Pos.eqb orb]; try (now apply frame_edit); try (now apply F).
  - destruct (oc_auto cf) as [Do|]; [|now apply F]. destruct (oc_w cf =? 0); [now apply F|].
    destruct (OnComplete cf Do o) as [o1| |] eqn:E; cbn [obind]; [|intros x X; discriminate|intros x X; discriminate].
    pose proof (sc_complete Do o o1 E C). apply hf_complete in E. destruct E as (E1 & E2 & E3). intros x X. injection X as <-. cbn. auto 10.
  - destruct (Kill (o_b o)); cbn [obind]; [|intros x X; discriminate|intros x X; discriminate]. intros x X. injection X as <-. cbn. auto 10.
Qed.

(** *** searching *)
Definition same_items (h h' : hist) : Prop := h_items h' = h_items h /\ h_dead h' = h_dead h /\ h_ver h' = h_ver h.
Lemma same_blank h h' : same_items h h' -> blank h -> blank h'.
Proof. intros (E1 & _) B. unfold blank, back in *. now rewrite E1. Qed.
Lemma same_own h h' id : same_items h h' -> own h id -> own h' id.
Proof. intros (E1 & E2 & E3). unfold own, deref. now rewrite E1, E2, E3. Qed.

Lemma refresh_facts x o o' : SearchRefresh cf x o = Ok o' -> s_in (o_s o') = s_in (o_s o) /\ s_src (o_s o') = s_src (o_s o) /\ o_h o' = o_h o /\ o_c o' = o_c o.
Proof. unfold SearchRefresh. destruct (search_out _ _ _ _); cbn [obind]; try discriminate. intros E. injection E as <-. auto. Qed.

Lemma search_facts k o o' : search cf k o = Ok o' -> s_in (o_s o') = s_in (o_s o) /\ s_src (o_s o') = s_src (o_s o) /\
  same_items (o_h o) (o_h o') /\ o_c o' = o_c o.
Proof.
  unfold search. destruct (s_data (o_s o)).
  - intros E. apply refresh_facts in E. destruct E as (-> & -> & -> & ->). repeat split; auto.
  - match goal with |- obind ?e _ = _ -> _ => destruct e as [[[i id]|]| |]; cbn [obind]; try discriminate end.
    + destruct (deref (o_h o) id) as [x| |]; cbn [obind]; try discriminate. intros E. apply refresh_facts in E.
      destruct E as (-> & -> & -> & ->). repeat split; auto.
    + intros E. apply refresh_facts in E. destruct E as (-> & -> & -> & ->). repeat split; auto.
Qed.

Record ins (R : list (list Z)) (o : op) : Prop := {
  in_h : hw (o_h o) R; in_t : two o; in_b : blank (o_h o); in_c : sc (o_c o); in_s : s_in (o_s o) = true;
  in_src : exists id, s_src (o_s o) = Some id /\ own (o_h o) id }.

Lemma ap_in R a o0 acts : ins R (a_o a) -> lines_of acts = [] -> apost R (Ok (a, (o0, acts, true, false, true))).
Proof.
  intros [H T B C S Sr] L a' o acts' ks' kc' upd E _. injection E as <- <- <- <- <- <-. cbn zeta.
  split; [unfold rec; rewrite L; exact H|]. split; [exact T|]. split; [discriminate|].
  split; [auto|]. split; [exact B|]. split; [exact C|]. auto.
Qed.

Lemma a_search_o sp k a a' : a_search sp cf k a = Ok a' -> search cf k (a_o a) = Ok (a_o a').
Proof.
  unfold a_search. destruct (search cf k (a_o a)) as [o'| |]; cbn [obind]; try discriminate. destruct (s_data _).
  - intros E. injection E as <-. reflexivity.
  - match goal with |- obind ?e _ = _ -> _ => destruct e as [[[i id]|]| |]; cbn [obind]; try discriminate end.
    + destruct (deref _ _); cbn [obind]; try discriminate. intros E. injection E as <-. reflexivity.
    + intros E. injection E as <-. reflexivity.
Qed.

Lemma ins_search R k o o' : ins R o -> search cf k o = Ok o' -> ins R o'.
Proof.
  intros [H T B C S Sr] E. destruct (search_facts k o o' E) as (A1 & A2 & A3 & A4). destruct (hw_search file cf k o o' R H E) as (B1 & _).
  constructor; auto.
  - unfold two in *. now rewrite A4.
  - now apply (same_blank (o_h o)).
  - now rewrite A4.
  - now rewrite A1.
  - destruct Sr as (id & Sr1 & Sr2). exists id. split; [congruence|]. now apply (same_own (o_h o)).
Qed.

Lemma ins_data R o d : ins R o -> ins R (with_s (set_data d (o_s o)) o).
Proof. intros [H T B C S Sr]. constructor; auto. Qed.

Lemma akeeps_ins R a : akeeps a R -> s_in (o_s (a_o a)) = true -> ins R (a_o a).
Proof. intros [K1 K2 K3 K4 K5 K6 K7] S. constructor; auto; apply K1. Qed.

Lemma exit_out sp R a a' : ins R (a_o a) -> a_ExitSearchMode sp true a = Ok a' -> out R a' /\ o_c (a_o a') = o_c (a_o a).
Proof.
  intros [H T B C S (id & Sr & (x & D & Ow))]. unfold a_ExitSearchMode.
  destruct (ExitSearchMode true (a_o a)) as [o'| |] eqn:E; cbn [obind]; try discriminate. rewrite Sr, D. cbn [obind]. intros X. injection X as <-.
  destruct (hw_exit file cf true _ _ R H E) as (E1 & E2 & E3). cbn [put_shown a_o]. split; [|exact E2]. constructor; cbn [put_shown a_o a_al]; auto.
  - unfold two in *. now rewrite E2.
  - unfold shown. destruct Ow as [Ow|Ow].
    + rewrite Ow, Nat.eqb_refl. cbn [fst snd]. intros i. destruct (_ ++ _); [discriminate|]. intros X. injection X. discriminate.
    + destruct (_ =? _)%nat; cbn [fst snd]; [|rewrite Ow; intros i X; discriminate].
      intros i. destruct (_ ++ _); [discriminate|]. intros X. injection X. discriminate.
  - unfold ExitSearchMode in E. rewrite Sr in E. change (deref (set_cur (Some id) (o_h (a_o a))) id) with (deref (o_h (a_o a)) id) in E. rewrite D in E.
    cbn [obind] in E. injection E as <-. exact B.
  - now rewrite E2.
Qed.

(** *** Enter *)
Lemma new_blank s h h' : h_enable h = true -> New (oc_h cf) s h = Ok h' -> blank h'.
Proof.
  intros En. unfold New. rewrite En. cbn [negb].
  assert (CB : forall b, back h = Some b -> blank (clean_back (it_id b) h)).
  { intros b Eb e E. unfold back in *. unfold clean_back, bump_ver, modify in E. cbn [set_lists h_items set_cur] in E. unfold map_item in E.
    rewrite <- map_rev in E. destruct (rev (h_items h)) as [|y l]; [discriminate|]. injection Eb as <-. cbn in E. rewrite Nat.eqb_refl in E. injection E as <-. reflexivity. }
  assert (Pu : forall h1, blank (Push [] (bump_ver h1))).
  { intros h1 e E. unfold back, Push in E. cbn [h_items] in E. rewrite rev_app_distr in E. cbn in E. injection E as <-. reflexivity. }
  assert (NC : forall h1, new_commit (oc_h cf) s h1 = Ok h' -> blank h').
  { intros h1. unfold new_commit. match goal with |- obind ?e _ = _ -> _ => destruct e as [[c h2]| |]; cbn [obind]; try discriminate end.
    destruct (Update _ _ _ _); cbn [obind]; try discriminate. intros E. injection E as <-. apply Pu. }
  destruct (rev (h_items h)) as [|b [|p l]] eqn:Rv.
  - destruct (length s =? 0)%nat; [|apply NC]. unfold back_id, back. rewrite Rv. apply NC.
  - destruct (length s =? 0)%nat; [|apply NC]. unfold back_id, back. rewrite Rv. cbn [option_map]. intros E. injection E as <-. apply CB. unfold back. now rewrite Rv.
  - destruct (Equal s (it_src p)); [intros E; injection E as <-; apply CB; unfold back; now rewrite Rv|].
    destruct (length s =? 0)%nat; [|apply NC]. unfold back_id, back. rewrite Rv. cbn [option_map]. intros E. injection E as <-. apply CB. unfold back. now rewrite Rv.
Qed.

Lemma hw_enable h R : hw h R -> h_enable h = true.
Proof. intros (_ & T). apply tracks_rests in T. destruct T as (? & ? & _ & E & _). exact E. Qed.

Lemma enter_new R a a2 d sp o0 : out R a2 -> touched d (o_h (a_o a2)) -> a_al a2 = a_al a2 ->
  apost R (h <- New (oc_h cf) d (o_h (a_o a2)) ;;
    Ok ({| a_o := with_h h (a_o a2); a_arr := a_arr a; a_al := unshare (o_h (a_o a2)) h (a_al a2) |}, (o0 h, [ALine d], false, false, sp : bool))).
Proof.
  intros [H T A B C S] To _. apply ap_bind. intros h En a' o acts ks kc upd E Cl. injection E as <- <- <- <- <- <-. cbn zeta. cbn [a_o with_h o_h o_c o_s a_al].
  assert (T' : tracks file (oc_h cf) h (record R (Submit d))).
  { apply (new_tracks file (oc_h cf) d (o_h (a_o a2)) R h Hl (proj2 H)); [exact To| |exact En].
    intros F. specialize (Cl F). cbn in Cl. now inversion Cl. }
  split. { split; [apply (New_hwf (oc_h cf) d (o_h (a_o a2))); [apply H|exact En]|]. rewrite (tracks_back _ _ _ _ T'). exact T'. }
  split; [exact T|]. split. { intros _. destruct (tracks_cur _ _ _ _ T') as (id & E1 & E2). congruence. }
  split. { intros id E. exfalso. unfold unshare in E. destruct (a_al a2) as [[i f]|] eqn:Ea; [|discriminate]. destruct (_ && _ && _); [discriminate|].
    apply (A id). rewrite E in *. congruence. }
  split; [apply (new_blank d (o_h (a_o a2))); [now apply hw_enable in H|exact En]|].
  split; [exact C|]. cbn. congruence.
Qed.

Lemma ap_enter sp R a : akeeps a R -> s_in (o_s (a_o a)) = false -> apost R (a_enter sp cf a).
Proof.
  intros K S. pose proof (akeeps_out R a K S) as O. pose proof (ku_buf _ _ _ _ (ak_k _ _ K) S) as Tb.
  unfold a_enter. rewrite S, Ns. cbn [obind negb]. apply ap_bind. intros b Eb. unfold MoveToLineEnd in Eb. cbn [obind] in Eb. injection Eb as <-.
  destruct (negb (oc_unique cf)).
  - rewrite write_spec by (unfold inside; cbn; lia). cbn [obind]. set (b1 := {| rb_buf := _ |}).
    assert (E1 : rb_buf b1 = rb_buf (o_b (a_o a)) ++ [10]).
    { subst b1. cbn [rb_buf rb_idx with_idx]. rewrite firstn_all, skipn_all. now rewrite app_nil_r. }
    pose proof (out_b sp R b1 a O) as O1. pose proof (put_h sp (with_b b1 (a_o a)) a (ou_a _ _ O)) as (_ & _ & _ & _ & _ & P6).
    specialize (P6 (rb_buf (o_b (a_o a))) [10] E1 Tb). set (a1 := put sp (with_b b1 (a_o a)) a) in *. clearbody a1. cbn [Reset]. rewrite E1.
    rewrite slice_to by lia. cbn [obind]. rewrite app_length. cbn [length].
    replace (length (rb_buf (o_b (a_o a))) + 1 - 1)%nat with (length (rb_buf (o_b (a_o a))) + 0)%nat by lia.
    rewrite firstn_app_2, firstn_O, app_nil_r.
    apply (enter_new R a1 (put_rest (with_b {| rb_buf := []; rb_idx := 0; rb_kill := rb_kill b1 |} (a_o a1)) a1)); [|exact P6|reflexivity].
    destruct O1. constructor; auto.
  - cbn [Reset obind rb_buf with_idx].
    apply (enter_new R a (put_rest (with_b {| rb_buf := []; rb_idx := 0; rb_kill := _ |} (a_o a)) a)); [|exact Tb|reflexivity].
    destruct O. constructor; auto.
Qed.

Lemma ap_revert R a o0 b acts ks kc : out R a -> lines_of acts = [] ->
  apost R (Ok (put_rest (with_h (Revert (o_h (a_o a))) (with_b b (a_o a))) a, (o0, acts, ks, kc, false))).
Proof.
  intros [H T A B C S] L a' o acts' ks' kc' upd E _. injection E as <- <- <- <- <- <-. cbn zeta. cbn [put_rest a_o o_h with_h o_c o_s with_b a_al].
  destruct (hw_revert file cf _ _ H) as (H' & Cu).
  split; [unfold rec; rewrite L; exact H'|]. split; [exact T|]. split; [auto|].
  split; [intros id E; now apply A in E|]. split; [exact B|]. split; [exact C|]. congruence.
Qed.

Lemma ap_delete sp R a : out R a -> apost R (a_delete sp cf a).
Proof.
  intros O. unfold a_delete. destruct ((0 <? _)%nat || _) eqn:Cd.
  - apply ap_lift; [exact O|]. intros x. unfold key_delete. rewrite Cd. destruct (Delete _) as [[b k]| |]; cbn [obind]; try discriminate.
    intros E. injection E as <-. cbn. destruct k; destruct O; auto 10.
  - destruct (negb (oc_unique cf)); cbn [obind].
    + apply ap_bind. intros a1 E. unfold lift in E. destruct (WriteRunes _ _) as [b| |]; cbn [obind] in E; try discriminate. injection E as <-.
      apply ap_revert; [now apply out_b|reflexivity].
    + now apply ap_revert.
Qed.

Lemma ap_interrupt sp R a : akeeps a R -> apost R (a_interrupt sp cf a).
Proof.
  intros K. unfold a_interrupt. destruct (s_in (o_s (a_o a))) eqn:S.
  - apply ap_bind. intros a1 E. destruct (exit_out sp R a a1 (akeeps_ins R a K S) E) as (O1 & _). now apply ap_out.
  - pose proof (akeeps_out R a K S) as O. destruct (c_in (o_c (a_o a))) eqn:Ci.
    + apply ap_lift; [exact O|]. intros x. unfold key_interrupt. rewrite S, Ci. intros E. injection E as <-. cbn.
      do 2 (split; [reflexivity|]). split; [apply two_exit|]. split; [apply sc_exit|]. auto.
    + apply ap_bind. intros b _. apply ap_bind. intros a1 E.
      assert (O1 : out R a1).
      { destruct (negb (oc_unique cf)).
        - destruct (WriteRunes _ b) as [b1| |]; cbn [obind] in E; try discriminate. injection E as <-. now apply out_b.
        - injection E as <-. destruct O. constructor; auto. }
      cbn [Reset]. apply ap_bind. intros d _. now apply ap_revert.
Qed.

Lemma out_rest R a o : out R a -> o_h o = o_h (a_o a) -> o_s o = o_s (a_o a) -> two o -> sc (o_c o) -> out R (put_rest o a).
Proof. intros [H T A B C S] E1 E2 To So. constructor; cbn [put_rest a_o a_al]; rewrite ?E1, ?E2; auto. Qed.

Lemma out_complete sp R a a' : out R a -> a_complete sp cf a = Ok a' -> out R a'.
Proof.
  intros O. unfold a_complete. destruct (c_in _); [|intros E; injection E as <-; exact O]. destruct (oc_auto cf) as [Do|]; [|discriminate].
  unfold lift. destruct (OnComplete cf Do (a_o a)) as [o1| |] eqn:E; cbn [obind]; try discriminate. intros X. injection X as <-.
  pose proof (sc_complete _ _ _ E (ou_c _ _ O)). apply hf_complete in E. destruct E as (E1 & E2 & E3).
  apply out_put; auto. apply E3. apply O.
Qed.

Lemma out_new sp R a o : out R a -> hw (o_h o) R -> same_items (o_h (a_o a)) (o_h o) -> o_s o = o_s (a_o a) -> o_c o = o_c (a_o a) -> out R (put_new sp o).
Proof.
  intros [H T A B C S] Ho Si E1 E2. constructor; cbn [put_new a_o a_al]; auto.
  - unfold two in *. now rewrite E2.
  - intros id X. discriminate.
  - now apply (same_blank (o_h (a_o a))).
  - now rewrite E2.
  - now rewrite E1.
Qed.

Lemma ap_browse sp R r a : akeeps a R -> s_in (o_s (a_o a)) = false -> r = 16 \/ r = 14 ->
  apost R (x <- key_switch cf r (a_o a) ;;
    y <- (if r =? CharPrev then Prev (o_h (a_o a)) else Next (o_h (a_o a))) ;;
    let o1 := fst (fst (fst (fst x))) in
    Ok (match fst y with Some _ => put_new sp o1 | None => put_rest o1 a end, x)).
Proof.
  intros K S Hr. pose proof (akeeps_out R a K S) as O.
  assert (HP : hpost file cf R (key_switch cf r (a_o a))).
  { apply hp_switch; auto; [apply K|congruence]. }
  apply ap_bind. intros x Ex. apply ap_bind. intros y Ey.
  assert (Q : same_items (o_h (a_o a)) (o_h (fst4 x)) /\ o_s (fst4 x) = o_s (a_o a) /\ o_c (fst4 x) = o_c (a_o a) /\
     exists acts, x = (fst4 x, acts, false, false, true) /\ lines_of acts = []).
  { assert (M : forall z : option (list Z) * hist, same_items (o_h (a_o a)) (snd z) ->
        match fst z with
        | Some l => Ok (with_b (Set_ l (o_b (a_o a))) (with_h (snd z) (a_o a)), [], false, false, true)
        | None => Ok (with_h (snd z) (a_o a), [ABell], false, false, true)
        end = Ok x -> same_items (o_h (a_o a)) (o_h (fst4 x)) /\ o_s (fst4 x) = o_s (a_o a) /\ o_c (fst4 x) = o_c (a_o a) /\
     exists acts, x = (fst4 x, acts, false, false, true) /\ lines_of acts = []).
    { intros z Z E. destruct (fst z); injection E as <-; cbn; (split; [exact Z|]); (split; [reflexivity|]); (split; [reflexivity|]); eexists; split; reflexivity. }
    destruct Hr; subst r; unfold key_switch in Ex; okeys; cbn [Z.eqb Pos.eqb orb] in Ex.
    - destruct (Prev (o_h (a_o a))) as [z| |] eqn:Ep; cbn [obind] in Ex; try discriminate. apply (M z); [|exact Ex].
      unfold Prev in Ep. destruct (h_cur _); [destruct (older _ _)|]; injection Ep as <-; repeat split.
    - destruct (Next (o_h (a_o a))) as [z| |] eqn:Ep; cbn [obind] in Ex; try discriminate. apply (M z); [|exact Ex].
      unfold Next in Ep. destruct (h_cur _); [destruct (newer _ _)|]; injection Ep as <-; repeat split. }
  destruct Q as (Q1 & Q2 & Q3 & acts & Q4 & Q5).
  assert (Hh : hw (o_h (fst4 x)) R).
  { rewrite Ex, Q4 in HP. destruct (HP (fst4 x) acts false false true) as (X & _).
    - reflexivity.
    - intros _. rewrite Q5. constructor.
    - unfold rec in X. rewrite Q5 in X. exact X. }
  cbn zeta. destruct x as [[[[ox ax] kx] cx] ux]. cbn [fst4 fst] in *. injection Q4 as -> -> -> ->. destruct (fst y).
  - apply ap_out; [|exact Q5]. now apply (out_new sp R a).
  - apply ap_out; [|exact Q5]. destruct O as [H T A B C S1]. constructor; cbn [put_rest a_o a_al]; auto.
    + unfold two in *. now rewrite Q3.
    + now apply (same_blank (o_h (a_o a))).
    + now rewrite Q3.
    + now rewrite Q2.
Qed.

Lemma ap_search_mode sp R b a : akeeps a R -> s_in (o_s (a_o a)) = false ->
  apost R (x <- a_SearchMode sp cf b a ;; Ok (fst x, (a_o (fst x), if snd x then [] else [ABell], snd x, false, true))).
Proof.
  intros K S. pose proof (akeeps_out R a K S) as O. apply ap_bind. intros [a1 k]. unfold a_SearchMode. destruct (oc_w cf =? 0).
  - intros E. injection E as <- <-. cbn [fst snd]. now apply ap_out.
  - rewrite S. set (o1 := with_s _ _). destruct (SearchRefresh cf (-1) o1) as [o2| |] eqn:E; cbn [obind]; try discriminate.
    intros X. injection X as <- <-. cbn [fst snd]. apply ap_in; [|reflexivity]. apply refresh_facts in E. destruct E as (E1 & E2 & E3 & E4).
    cbn [put_rest a_o]. destruct O as [H T A B C _]. constructor.
    + now rewrite E3.
    + unfold two in *. rewrite E4. exact T.
    + now rewrite E3.
    + rewrite E4. exact C.
    + now rewrite E1.
    + rewrite E2, E3. cbn. apply (ak_cur _ _ K S).
Qed.

Lemma ap_switch sp R r a : akeeps a R -> (s_in (o_s (a_o a)) = true -> search_key r \/ r = 7 \/ r = 3) -> apost R (a_key_switch sp cf r a).
Proof.
  intros K Se. unfold a_key_switch.
  apply ap_if; intros E1.
  { apply ap_bind. intros a1 E.
    assert (O1 : out R a1).
    { destruct (s_in (o_s (a_o a))) eqn:S; [apply (exit_out sp R a a1 (akeeps_ins R a K S) E)|]. injection E as <-. now apply akeeps_out. }
    apply ap_out; [|reflexivity]. destruct (c_in (o_c (a_o a1))).
    - apply out_rest; auto; [apply two_exit|apply sc_exit].
    - apply out_rest; auto; apply O1. }
  destruct (s_in (o_s (a_o a))) eqn:S.
  - specialize (Se eq_refl). assert (Hr : ordinary r \/ r = 127 \/ r = 8 \/ r = 3).
    { unfold search_key, ordinary in *. okeys. clear - Se E1. lia. }
    clear Se. pose proof (akeeps_ins R a K S) as I. unfold ordinary in Hr. okeys.
    replace ((r =? 18) || (r =? 19)) with false by lia.
    apply ap_if; intros E2.
    { apply ap_bind. intros a1 E. apply ap_in; [|reflexivity]. unfold a_SearchBackspace in E. destruct (s_data (o_s (a_o a))); [injection E as <-; exact I|].
      apply a_search_o in E. eapply ins_search; [|exact E]. cbn [put_rest a_o]. now apply ins_data. }
    replace (r =? 25) with false by lia. replace ((r =? 13) || (r =? 10)) with false by lia. replace ((r =? 16) || (r =? 14)) with false by lia.
    replace (r =? 4) with false by lia. apply ap_if; intros E3; [now apply ap_interrupt|].
    match goal with |- apost _ (if ?c then _ else _) => replace c with false by lia end.
    apply ap_bind. intros a1 E. apply ap_in; [|reflexivity]. apply a_search_o in E. eapply ins_search; [|exact E]. cbn [put_rest a_o]. now apply ins_data.
  - pose proof (akeeps_out R a K S) as O.
    apply ap_if; intros _; [now apply ap_search_mode|].
    apply ap_if; intros _.
    { apply ap_if; intros _; [now apply ap_out|]. apply ap_bind. intros a1 E. apply ap_bind. intros a2 E2. apply ap_out; [|reflexivity].
      apply (out_complete sp R a1 a2); [|exact E2]. unfold lift in E. destruct (BufBackspace _); cbn [obind] in E; try discriminate. injection E as <-. now apply out_b. }
    apply ap_if; intros _.
    { apply ap_bind. intros a1 E. apply ap_out; [|reflexivity]. unfold a_yank in E. destruct (Yank _) as [b| |]; cbn [obind] in E; try discriminate.
      destruct (rb_kill _); injection E as <-.
      - apply out_rest; auto; apply O.
      - apply (out_new sp R a); auto; [apply O|repeat split]. }
    apply ap_if; intros _; [now apply ap_enter|].
    apply ap_if; intros E6; [apply ap_browse; auto; okeys; lia|].
    apply ap_if; intros _; [now apply ap_delete|]. apply ap_if; intros _; [now apply ap_interrupt|].
    apply ap_if; intros E8.
    { apply ap_lift; [exact O|]. apply frame_lift; [apply O|apply O|]. okeys. lia. }
    apply ap_bind. intros a1 E. apply ap_bind. intros a2 E2.
    assert (O1 : out R a1).
    { unfold lift in E. destruct (WriteRunes _ _); cbn [obind] in E; try discriminate. injection E as <-. now apply out_b. }
    apply ap_out; [|reflexivity]. now apply (out_complete sp R a1 a2).
Qed.

(** *** after the switch *)
Lemma back_lastn n l (x : item) : (1 <= n)%nat -> rev (lastn n (l ++ [x])) = x :: rev (firstn (n - 1) [] ++ lastn (n - 1) l).
Proof.
  intros H. unfold lastn. rewrite app_length. cbn [length]. rewrite firstn_nil. cbn [app].
  destruct (le_lt_dec (length l + 1) n) as [L|L].
  - replace (length l + 1 - n)%nat with 0%nat by lia. replace (length l - (n - 1))%nat with 0%nat by lia. cbn [skipn]. apply rev_unit.
  - rewrite skipn_app. replace (length l + 1 - n - length l)%nat with 0%nat by lia. cbn [skipn].
    replace (length l - (n - 1))%nat with (length l + 1 - n)%nat by lia. apply rev_unit.
Qed.

Lemma update_own s h h' : Update (oc_h cf) s false h = Ok h' -> h_items h <> [] -> hwf h -> blank h ->
  blank h' /\ exists id, h_cur h' = Some id /\ own h' id.
Proof.
  intros U Ne W B. pose proof (Update_hwf _ _ _ _ _ W U) as W'. unfold Update in U. pose proof (w_cur h W) as Wc.
  destruct (h_cur h) as [id|] eqn:C; [|congruence].
  destruct (deref h id) as [y| |]; cbn [obind] in U; try discriminate. injection U as <-.
  set (f := fun x : item => {| it_id := it_id x; it_src := it_src x; it_ver := h_ver h; it_tmp := s |}) in *.
  set (h1 := modify id f h) in *. destruct (Compact_rest (oc_h cf) h1) as (R1 & R2 & _). split.
  - intros e E. unfold back in E. rewrite Compact_items in E. unfold h1, modify in E. cbn [set_lists h_items] in E.
    destruct (exists_last Ne) as (l & z & El). unfold blank, back in B. rewrite El in *. rewrite rev_unit in B. specialize (B z eq_refl).
    unfold map_item in E. rewrite map_app in E. cbn [map] in E. rewrite back_lastn in E by (unfold keep; clear - Hl; lia). injection E as <-.
    destruct (_ =? _)%nat; exact B.
  - exists id. rewrite R1. split; [exact C|]. destruct (hwf_cur (Compact (oc_h cf) h1) id W') as (x & Dx & Ix & Ex); [rewrite R1; exact C|].
    exists x. split; [exact Dx|]. left. rewrite R2. change (h_ver h1) with (h_ver h).
    assert (Ix' : In x (map_item id f (elems h))) by (rewrite <- elems_modify; eapply Permutation_in; [apply Compact_perm|exact Ix]).
    unfold map_item in Ix'. apply in_map_iff in Ix'. destruct Ix' as (z & Ez & _). destruct (it_id z =? id)%nat eqn:Q.
    + rewrite <- Ez. reflexivity.
    + exfalso. rewrite <- Ez in Ex. apply Nat.eqb_neq in Q. congruence.
Qed.

Lemma hw_items h R : hw h R -> h_items h <> [] /\ exists id, back_id h = Some id.
Proof.
  intros (_ & T). pose proof (tracks_cur _ _ _ _ T) as (id & B & _). change (back_id (to_back h)) with (back_id h) in B. split; [|eauto].
  unfold back_id, back in B. intros E. rewrite E in B. discriminate.
Qed.

Lemma back_own h R : hw h R -> blank h -> h_cur h = back_id h -> exists id, h_cur h = Some id /\ own h id.
Proof.
  intros H B C. destruct (hw_items h R H) as (_ & id & Bi). exists id. split; [congruence|].
  unfold back_id in Bi. destruct (back h) as [e|] eqn:Eb; [|discriminate]. injection Bi as Ei. exists e. split; [|right; now apply B].
  unfold back in Eb. destruct (rev (h_items h)) as [|y l] eqn:Er; [discriminate|]. injection Eb as ->.
  assert (I : In e (elems h)). { unfold elems. apply in_or_app. left. apply in_rev. rewrite Er. now left. }
  destruct (deref_ok h id) as (x & D & Ix & Exx); [rewrite <- Ei; now apply in_map|]. rewrite D. f_equal.
  pose proof (w_nodup h (proj1 H)) as Nd. rewrite <- Ei in Exx. clear - I Ix Exx Nd. revert I Ix Nd. induction (elems h) as [|z l IH]; cbn; [tauto|].
  intros [->|I] [->|Ix] Nd; auto; inversion Nd; subst.
  - exfalso. apply H1. rewrite <- Exx. now apply in_map.
  - exfalso. apply H1. rewrite Exx. now apply in_map.
  - now apply IH.
Qed.

Lemma after_akeeps sp r R y a' acts : apost R (Ok y) -> a_after_switch sp cf r y = Ok (a', acts) -> cleans file acts -> akeeps a' (rec R acts).
Proof.
  destruct y as [a [[[[o0 acts0] ks] kc] upd]]. intros P E Cl.
  assert (Ea : acts0 = acts).
  { unfold a_after_switch in E. repeat match type of E with obind ?e _ = _ => destruct e; cbn [obind] in E; try discriminate end. now injection E as _ <-. }
  subst acts0. destruct (P a o0 acts ks kc upd eq_refl Cl) as (H & T & U & A & B & C & I). revert E. unfold a_after_switch.
  set (a1 := match oc_listen cf with Some f => _ | None => a end).
  assert (F : o_h (a_o a1) = o_h (a_o a) /\ o_s (a_o a1) = o_s (a_o a) /\ o_c (a_o a1) = o_c (a_o a) /\
     (forall id, a_al a1 = Some (id, true) -> s_in (o_s (a_o a1)) = true)).
  { subst a1. destruct (oc_listen cf) as [f|]; [destruct (f _ _ _) as [[l p]|]|]; auto. cbn. do 3 (split; [reflexivity|]). intros id X. discriminate. }
  destruct F as (F1 & F2 & F3 & F4). clearbody a1.
  set (e2 := if negb ks && s_in (o_s (a_o a1)) then a_ExitSearchMode sp false a1 else _).
  destruct e2 as [a2| |] eqn:E2; cbn [obind]; try discriminate. subst e2.
  assert (Q : o_h (a_o a2) = o_h (a_o a) /\ o_s (a_o a2) = o_s (a_o a) /\ two (a_o a2) /\ sc (o_c (a_o a2)) /\ a_al a2 = a_al a1 /\
     (s_in (o_s (a_o a2)) = true -> c_in (o_c (a_o a2)) = false)).
  { destruct (negb ks && s_in (o_s (a_o a1))) eqn:Q.
    - exfalso. apply andb_true_iff in Q. destruct Q as (Q1 & Q2). rewrite F2 in Q2. destruct (I Q2) as (X & _). rewrite X in Q1. discriminate.
    - destruct (c_in (o_c (a_o a1))) eqn:Ci; [destruct (negb kc) eqn:Kc|].
      + injection E2 as <-. cbn [put_rest a_o a_al]. do 2 (split; [assumption|]). split; [apply two_exit|]. split; [apply sc_exit|]. auto.
      + destruct (CompleteRefresh cf (a_o a1)) as [o2| |] eqn:Em; cbn [obind] in E2; try discriminate. injection E2 as <-. cbn [put_rest a_o a_al].
        pose proof (sc_menu _ _ Em) as Sm. apply hf_menu in Em. destruct Em as ((M1 & M2 & M3) & _).
        split; [congruence|]. split; [congruence|]. split; [apply M3; unfold two in *; now rewrite F3|]. split; [apply Sm; now rewrite F3|]. split; [reflexivity|].
        intros X. exfalso. rewrite M2, F2 in X. destruct (I X) as (_ & X2 & _). rewrite X2 in Kc. discriminate.
      + injection E2 as <-. do 2 (split; [assumption|]). split; [unfold two in *; now rewrite F3|]. split; [now rewrite F3|]. auto. }
  destruct Q as (Q1 & Q2 & Q3 & Q4 & Q5 & Q6).
  assert (Al : forall id, a_al a2 = Some (id, true) -> s_in (o_s (a_o a2)) = true) by (intros id X; rewrite Q2, <- F2; apply (F4 id); congruence).
  destruct (upd && negb (s_in (o_s (a_o a2)))) eqn:Up.
  - destruct (Update _ _ _ _) as [h| |] eqn:Eu; cbn [obind]; try discriminate. intros E. injection E as <-.
    apply andb_true_iff in Up. destruct Up as (_ & Si). apply negb_true_iff in Si. rewrite Q1 in Eu.
    destruct (update_tracks file _ _ _ _ _ Hl (proj1 H) (proj2 H) Eu) as (A1 & A2 & A3).
    destruct (update_own _ _ _ Eu (proj1 (hw_items _ _ H)) (proj1 H) B) as (B1 & B2).
    constructor; cbn [put_rest a_o a_al o_h with_h o_s o_c]; auto; try congruence. constructor; cbn [o_h with_h o_s o_b]; auto. now split.
  - cbn [obind]. intros E. injection E as <-. destruct (s_in (o_s (a_o a2))) eqn:Si.
    + rewrite Q2 in Si. destruct (I Si) as (_ & _ & Sr). constructor; rewrite ?Q1, ?Q2; auto; try congruence.
      constructor; [rewrite Q1; exact H|exact Q3|]. rewrite Q2. congruence.
    + cbn [negb] in Up. rewrite andb_true_r in Up. constructor; rewrite ?Q1; auto; try congruence.
      * constructor; [rewrite Q1; exact H|exact Q3|]. intros _. rewrite Q1. left. now apply U.
      * intros id X. now apply Al in X.
      * intros _. apply (back_own _ (rec R acts)); auto.
Qed.

(** *** one key, all keys *)
Lemma step_akeeps sp r R a a' acts : o_vp (a_o a) = None -> akeeps a R -> (s_in (o_s (a_o a)) = true -> search_key r \/ r = 7 \/ r = 3) ->
  a_step sp cf r a = Ok (a', acts) -> cleans file acts -> akeeps a' (rec R acts).
Proof.
  intros Vp K Se E Cl. revert E. unfold a_step.
  destruct (o_end (a_o a)); [intros E; injection E as <- <-; exact K|]. rewrite Vp, Fi. unfold a_handle_key.
  destruct ((r =? 0) && _); [intros E; injection E as <- <-; destruct K as [[] ? ? ? ? ? ?]; constructor; auto; constructor; auto|].
  set (r1 := if r =? 0 then CharEnter else r).
  assert (Se' : s_in (o_s (a_o a)) = true -> search_key r1 \/ r1 = 7 \/ r1 = 3).
  { intros S. destruct (Se S) as [S1|[S1|S1]]; unfold search_key, ordinary, r1 in *; destruct (r =? 0) eqn:Z; try (exfalso; clear - S1 Z; lia); auto. }
  assert (Q : forall a1, akeeps a1 R -> o_s (a_o a1) = o_s (a_o a) -> a_vim_and_switch sp cf r1 a1 = Ok (a', acts) -> akeeps a' (rec R acts)).
  { intros a1 K1 So E. unfold a_vim_and_switch in E. rewrite Vi in E. destruct (a_key_switch sp cf r1 a1) as [x| |] eqn:Ek; cbn [obind] in E; try discriminate.
    apply (after_akeeps sp r1 R x a' acts); [|exact E|exact Cl]. rewrite <- Ek. apply ap_switch; [exact K1|]. rewrite So. exact Se'. }
  destruct (c_sel (o_c (a_o a))) eqn:Sl; [|now apply Q].
  assert (S : s_in (o_s (a_o a)) = false).
  { destruct (s_in (o_s (a_o a))) eqn:S; [|reflexivity]. pose proof (ak_si _ _ K S) as X. rewrite (ak_sc _ _ K Sl) in X. discriminate. }
  destruct (HandleCompleteSelect cf r1 (a_o a)) as [[o1 k]| |] eqn:Hs; cbn [obind]; try discriminate.
  pose proof (akeeps_out R a K S) as O. pose proof (sc_handle _ _ _ _ Hs (ak_sc _ _ K)) as Sc1.
  destruct (hf_handle cf r1 _ o1 k Hs) as (A1 & A2 & A34). destruct (A34 Sl (ku_two _ _ _ _ (ak_k _ _ K))) as (A3 & A4). clear A34.
  destruct (put_h sp o1 a (ou_a _ _ O)) as (P1 & P2 & P3 & P4 & P5 & P6). pose proof (out_put sp R o1 a O A1 A2 A3 Sc1) as O1.
  set (a1 := put sp o1 a) in *. clearbody a1.
  destruct ((r1 =? CharEnter) || (r1 =? CharCtrlJ)) eqn:Ee.
  - assert (k = false).
    { unfold HandleCompleteSelect in Hs. rewrite Ee in Hs. destruct (_ <? 0); [discriminate|]. destruct (get _ _); cbn [obind] in Hs; try discriminate.
      destruct (WriteRunes _ _); cbn [obind] in Hs; try discriminate. now injection Hs as _ <-. }
    subst k. destruct (Update _ _ _ _) as [h| |] eqn:Eu; cbn [obind]; try discriminate. intros E. injection E as <- <-.
    destruct O1 as [H T A B C S1]. destruct (update_tracks file _ _ _ _ _ Hl (proj1 H) (proj2 H) Eu) as (B1 & B2 & B3).
    destruct (update_own _ _ _ Eu (proj1 (hw_items _ _ H)) (proj1 H) B) as (B4 & B5).
    constructor; cbn [put_rest a_o a_al o_h with_h o_s o_c]; auto; try congruence.
    constructor; cbn [o_h with_h o_s o_b]; auto. now split.
  - assert (K1 : akeeps a1 R).
    { destruct O1 as [H T A B C S1]. constructor; auto; try congruence.
      - constructor; auto. intros _. rewrite P2. apply (P6 _ []); [now rewrite app_nil_r|]. rewrite A1, (A4 eq_refl). apply (ku_buf _ _ _ _ (ak_k _ _ K) S).
      - intros _. destruct (ak_cur _ _ K S) as (id & X1 & X2). exists id. destruct (hs_rest _ _ P1) as (-> & _). rewrite A1. split; [exact X1|].
        apply (hs_own (o_h o1)); [exact P1|]. now rewrite A1. }
    destruct k; [intros E; injection E as <- <-; exact K1|].
    destruct (r1 =? CharInterrupt); [intros E; injection E as <- <-; exact K1|].
    destruct (r1 =? CharBell); [intros E; injection E as <- <-; exact K1|]. apply Q; [exact K1|]. now rewrite P3.
Qed.
End hist.
