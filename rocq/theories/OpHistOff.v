(** What the editor does to the history while recording is switched off and on (HistoryDisable, HistoryEnable,
    DisableAutoSaveHistory), for arbitrary keys other than the search keys. *)
From Verif Require Import Base ListAux RunesModel RunesProofs RuneBufModel RuneBufSpec RuneBufProofs HistoryModel HistorySpec HistoryProofs HistoryFileProofs
  RenderModel OpModel OpSpec OpProofs OpStep OpKeys OpModes OpHist HistOffSpec.
From Coq Require Import ZifyBool Permutation.
Open Scope Z_scope.

(** ** The history with recording switched on *)
Lemma hwf_enable b h : hwf h -> hwf (set_enable b h).
Proof. intros [A B C D]. constructor; assumption. Qed.
Lemma hwf_enabled b h : hwf (set_enable b h) -> hwf h.
Proof. intros [A B C D]. constructor; assumption. Qed.
Lemma enable_same h : h_enable h = true -> Enable h = h.
Proof. destruct h; cbn. now intros ->. Qed.
Lemma enable_twice b h : Enable (set_enable b h) = Enable h.
Proof. reflexivity. Qed.
Lemma Compact_enable c h : Compact c (Enable h) = Enable (Compact c h).
Proof. unfold Compact. cbn. destruct (compact_loop _ _ _). reflexivity. Qed.
Lemma Update_enable c s h h' : Update c s false h = Ok h' -> Update c s false (Enable h) = Ok (Enable h').
Proof.
  unfold Update. cbn [Enable set_enable h_cur]. destruct (h_cur h) as [id|].
  - change (deref (Enable h) id) with (deref h id). destruct (deref h id); cbn [obind]; try discriminate. intros E. injection E as <-.
    match goal with |- _ = Ok (Enable (Compact c ?x)) => exact (f_equal Ok (Compact_enable c x)) end.
  - intros E. injection E as <-. match goal with |- _ = Ok (Enable (Compact c ?x)) => exact (f_equal Ok (Compact_enable c x)) end.
Qed.
Lemma Update_disk c s h h' : Update c s false h = Ok h' -> h_disk h' = h_disk h.
Proof.
  unfold Update. destruct (h_cur h) as [id|].
  - destruct (deref h id); cbn [obind]; try discriminate. intros E. injection E as <-. unfold Compact. destruct (compact_loop _ _ _). reflexivity.
  - intros E. injection E as <-. unfold Compact. destruct (compact_loop _ _ _). reflexivity.
Qed.
Lemma Update_flag c s h h' : Update c s false h = Ok h' -> h_enable h' = h_enable h.
Proof.
  unfold Update. destruct (h_cur h) as [id|].
  - destruct (deref h id); cbn [obind]; try discriminate. intros E. injection E as <-. unfold Compact. destruct (compact_loop _ _ _). reflexivity.
  - intros E. injection E as <-. unfold Compact. destruct (compact_loop _ _ _). reflexivity.
Qed.

Section off.
Variables (file : bool) (cf : ocfg).
Hypothesis Hl : 1 <= hc_limit (oc_h cf).
Hypothesis Vi : oc_vim cf = false.
Hypothesis Fi : oc_filter cf = None.

Definition hoff (h : hist) (R : list (list Z)) : Prop := hwf h /\ tracks file (oc_h cf) (to_back (Enable h)) R.
(** recording is on *)
Definition saves (o : op) : bool := h_enable (o_h o) && negb (oc_nosave cf).
Definition nrec (on : bool) (R : list (list Z)) (a : list act) : list (list Z) := if on then recorded R (map Submit (lines_of a)) else R.

Record keepoff (o : op) (R : list (list Z)) : Prop := {
  kf_h : hoff (o_h o) R;
  kf_two : two o;
  kf_s : s_in (o_s o) = false;
  kf_buf : oc_nosave cf = false -> touched (rb_buf (o_b o)) (o_h o)
}.

Lemma hoff_cur h R id x : hoff h R -> deref h id = Ok x -> hoff (set_cur (Some id) h) R.
Proof. intros (W & T) D. split; [apply hwf_set_cur; [exact W|now apply (deref_in h id x)]|exact T]. Qed.
Lemma hoff_in h R id : hoff h R -> In id (map it_id (elems h)) -> hoff (set_cur (Some id) h) R.
Proof. intros (W & T) D. split; [now apply hwf_set_cur|exact T]. Qed.

Lemma hoff_revert h R : hoff h R -> hoff (Revert h) R.
Proof.
  intros (W & T). assert (E : Enable (Revert h) = bump_ver (to_back (Enable h))) by reflexivity.
  apply tracks_bump in T. rewrite <- E in T. split.
  - apply tracks_rests in T. destruct T as (? & ? & (X & _) & _). exact (hwf_enabled _ _ X).
  - rewrite (tracks_back _ _ _ _ T). exact T.
Qed.

(** *** the switch *)
Definition cleanl (a : list act) : Prop := file = true -> Forall (fun l => l = [] \/ clean_line l) (lines_of a).
(** the switch, and the file untouched unless recording is on *)
Definition same (en : bool) (D : list Z) (h : hist) : Prop := h_enable h = en /\ (en && negb (oc_nosave cf) = false -> h_disk h = D).
Definition opost (en : bool) (D : list Z) (R : list (list Z)) (e : outcome swres) : Prop := forall o a ks kc upd, e = Ok (o, a, ks, kc, upd) -> cleanl a ->
  hoff (o_h o) (nrec (en && negb (oc_nosave cf)) R a) /\ same en D (o_h o) /\ two o /\ s_in (o_s o) = false /\
  (upd = false -> oc_nosave cf = true \/ h_cur (o_h o) = back_id (o_h o)).

Lemma op_if en D R (c : bool) A B : (c = true -> opost en D R A) -> (c = false -> opost en D R B) -> opost en D R (if c then A else B).
Proof. destruct c; auto. Qed.
Lemma op_bind {X} en D R (e : outcome X) (f : X -> outcome swres) : (forall x, e = Ok x -> opost en D R (f x)) -> opost en D R (x <- e ;; f x).
Proof. intros H. destruct e; cbn [obind]; auto; intros ? ? ? ? ? E; discriminate. Qed.
Lemma nrec_none on R a : lines_of a = [] -> nrec on R a = R.
Proof. intros L. unfold nrec. rewrite L. destruct on; reflexivity. Qed.
Lemma op_ok en D R o a ks kc : hoff (o_h o) R -> same en D (o_h o) -> two o -> s_in (o_s o) = false -> lines_of a = [] -> opost en D R (Ok (o, a, ks, kc, true)).
Proof.
  intros H En T S L o1 a1 ks1 kc1 upd E _. injection E as <- <- <- <- <-. rewrite nrec_none by exact L. split; [exact H|]. split; [exact En|]. split; [exact T|]. split; [exact S|]. discriminate.
Qed.
Lemma op_edit en D R e o : hoff (o_h o) R -> same en D (o_h o) -> two o -> s_in (o_s o) = false -> opost en D R (edit_buf e o).
Proof. intros H En T S. unfold edit_buf. apply op_bind. intros b _. now apply op_ok. Qed.

Lemma entered b d b' : (b1 <- MoveToLineEnd b ;;
   (if negb (oc_unique cf) then
          b <- WriteRunes [10] b1 ;;
          let '(data, b') := Reset b in
          d <- slice 0 (length data - 1) data ;; Ok (d, b')
        else Ok (Reset b1))) = Ok (d, b') -> d = rb_buf b.
Proof.
  cbn [obind MoveToLineEnd]. destruct (negb (oc_unique cf)).
  - rewrite write_spec by (unfold inside; cbn; lia). cbn [obind rb_buf rb_idx with_idx Reset].
    rewrite firstn_all, skipn_all. cbn [app]. rewrite slice_to by lia. cbn [obind]. rewrite app_length. cbn [length].
    replace (length (rb_buf b) + 1 - 1)%nat with (length (rb_buf b) + 0)%nat by lia.
    rewrite firstn_app_2, firstn_O, app_nil_r. intros E. now injection E as <- _.
  - cbn [Reset rb_buf]. intros E. now injection E as <- _.
Qed.
Lemma op_enter R o : keepoff o R -> opost (h_enable (o_h o)) (h_disk (o_h o)) R (key_enter cf o).
Proof.
  intros [(W & T) Tw S Tb]. unfold key_enter. rewrite S. cbn [obind]. intros o' a ks kc upd E Cl.
  destruct (MoveToLineEnd (o_b o)) as [b1| |] eqn:Em; cbn [obind] in E; try discriminate.
  destruct (if negb (oc_unique cf) then _ else _) as [[d b']| |] eqn:Ed; cbn [obind] in E; try discriminate.
  assert (D : d = rb_buf (o_b o)) by (apply (entered (o_b o) d b'); rewrite Em; cbn [obind]; exact Ed).
  destruct (oc_nosave cf) eqn:Ns; cbn [negb] in E.
  { injection E as <- <- <- <- <-. rewrite andb_false_r. cbn [nrec o_h with_b]. split; [split; assumption|]. split; [split; [reflexivity|intros _; reflexivity]|]. auto. }
  cbn [o_h with_b] in E. destruct (New (oc_h cf) d (o_h o)) as [h| |] eqn:En; cbn [obind] in E; try discriminate. injection E as <- <- <- <- <-.
  cbn [o_h with_h]. rewrite andb_true_r. destruct (h_enable (o_h o)) eqn:On.
  - rewrite (enable_same _ On) in T.
    assert (T' : tracks file (oc_h cf) h (record R (Submit d))).
    { apply (new_tracks file (oc_h cf) d (o_h o) R h Hl T); [rewrite D; now apply Tb| |exact En].
      intros F. specialize (Cl F). cbn in Cl. now inversion Cl. }
    assert (On' : h_enable h = true). { apply tracks_rests in T'. destruct T' as (? & ? & _ & X & _). exact X. }
    split; [|split; [split; [exact On'|rewrite Ns; discriminate]|split; [exact Tw|split; [exact S|discriminate]]]]. split; [now apply (New_hwf (oc_h cf) d (o_h o))|].
    rewrite (enable_same _ On'), (tracks_back _ _ _ _ T'). exact T'.
  - unfold New in En. rewrite On in En. cbn [negb] in En. injection En as <-. cbn [nrec]. split; [split; assumption|]. split; [split; [exact On|intros _; reflexivity]|]. split; [exact Tw|]. split; [exact S|discriminate].
Qed.

Lemma op_revert en D R o a ks kc b : hoff (o_h o) R -> same en D (o_h o) -> two o -> s_in (o_s o) = false -> lines_of a = [] ->
  opost en D R (Ok (with_h (Revert (o_h o)) (with_b b o), a, ks, kc, false)).
Proof.
  intros H En T S L o1 a1 ks1 kc1 upd E _. injection E as <- <- <- <- <-. rewrite nrec_none by exact L. cbn [o_h with_h]. split; [now apply hoff_revert|].
  split; [exact En|]. split; [exact T|]. split; [exact S|]. auto.
Qed.

Lemma op_switch R r o : r <> 18 -> r <> 19 -> keepoff o R -> opost (h_enable (o_h o)) (h_disk (o_h o)) R (key_switch cf r o).
Proof.
  intros N1 N2 K. pose proof K as [H T S B]. pose proof two_exit as Te. assert (Sm : same (h_enable (o_h o)) (h_disk (o_h o)) (o_h o)) by (split; auto). unfold key_switch. rewrite S.
  assert (TC : forall o1, o_c o1 = o_c o -> two o1) by (intros o1 E; unfold two in *; rewrite E; exact T).
  apply op_if; intros _; [cbn [obind]; destruct (c_in (o_c o)); apply op_ok; auto; apply Te|].
  apply op_if; intros _.
  { destruct (oc_auto cf); [apply op_if; intros _|]; try (now apply op_ok). apply op_bind; intros o1 E. apply hf_complete in E.
    destruct E as (E1 & E3 & E2). apply op_ok; auto; congruence. }
  apply op_if; intros E1; [exfalso; clear - E1 N1; unfold CharBckSearch in E1; lia|].
  apply op_if; intros _; [now apply op_edit|].
  apply op_if; intros E2; [exfalso; clear - E2 N2; unfold CharFwdSearch in E2; lia|].
  apply op_if; intros _; [apply op_bind; intros b _; now apply op_ok|].
  do 6 (apply op_if; intros _; [now apply op_edit|]).
  apply op_if; intros _.
  { apply op_if; intros _; [now apply op_ok|]. apply op_bind; intros b _. apply op_bind; intros o1 E.
    assert (Q : hf (with_b b o) o1) by (destruct (c_in _); [destruct (oc_auto cf); [|discriminate]; now apply hf_complete in E|injection E as <-; apply hf_refl]).
    destruct Q as (Q1 & Q2 & Q3). apply op_ok; auto; rewrite ?Q1, ?Q2; auto. }
  apply op_if; intros _; [now apply op_ok|]. apply op_if; intros _; [now apply op_ok|].
  do 2 (apply op_if; intros _; [now apply op_edit|]).
  apply op_if; intros _; [now apply op_enter|].
  do 2 (apply op_if; intros _; [now apply op_edit|]).
  apply op_if; intros _.
  { apply op_bind; intros x E.
    assert (Q : hoff (snd x) R /\ same (h_enable (o_h o)) (h_disk (o_h o)) (snd x)).
    { unfold Prev in E. destruct (h_cur (o_h o)) as [id|]; [|injection E as <-; auto]. destruct (older id (o_h o)) as [|y l] eqn:Eo; injection E as <-; [auto|].
      cbn [snd]. split; [|split; [reflexivity|intros _; reflexivity]]. apply hoff_in; [exact H|]. now apply older_in in Eo. }
    destruct Q. destruct (fst x); apply op_ok; auto. }
  apply op_if; intros _.
  { apply op_bind; intros x E.
    assert (Q : hoff (snd x) R /\ same (h_enable (o_h o)) (h_disk (o_h o)) (snd x)).
    { unfold Next in E. destruct (h_cur (o_h o)) as [id|]; [|injection E as <-; auto]. destruct (newer id (o_h o)) as [|y l] eqn:Eo; injection E as <-; [auto|].
      cbn [snd]. split; [|split; [reflexivity|intros _; reflexivity]]. apply hoff_in; [exact H|]. now apply newer_in in Eo. }
    destruct Q. destruct (fst x); apply op_ok; auto. }
  apply op_if; intros _.
  { unfold key_delete. apply op_if; intros _; apply op_bind; intros x _; [apply op_ok; auto; destruct (snd x); reflexivity|now apply op_revert]. }
  apply op_if; intros _.
  { unfold key_interrupt. rewrite S. apply op_if; intros _; [apply op_ok; auto; apply Te|]. apply op_bind; intros b _. apply op_bind; intros b1 _.
    destruct (Reset b1) as [d b2]. apply op_bind; intros d' _. now apply op_revert. }
  apply op_bind; intros b _. apply op_if; intros _; [|now apply op_ok]. destruct (oc_auto cf); [|intros ? ? ? ? ? E; discriminate].
  apply op_bind; intros o1 E. apply hf_complete in E. destruct E as (Q1 & Q2 & Q3). cbn [with_b o_h o_s] in Q1, Q2.
  apply op_ok; auto; rewrite ?Q1, ?Q2; auto.
Qed.

(** *** after the switch, and the whole iteration *)
Lemma after_off en D r R x o' a : opost en D R (Ok x) -> after_switch cf r x = Ok (o', a) -> cleanl a ->
  keepoff o' (nrec (en && negb (oc_nosave cf)) R a) /\ same en D (o_h o').
Proof.
  intros P E Cl. pose proof (after_acts _ _ _ _ _ E) as Ea. destruct x as [[[[o acts] ks] kc] upd]. cbn [fst snd] in Ea. subst acts.
  destruct (P o a ks kc upd eq_refl Cl) as (H & En & T & S & B). revert E. unfold after_switch.
  set (o1 := match oc_listen cf with Some f => _ | None => o end).
  assert (F1 : o_h o1 = o_h o /\ o_c o1 = o_c o /\ o_s o1 = o_s o). { subst o1. destruct (oc_listen cf); [destruct (o0 _ _ _) as [[l p]|]|]; repeat split; reflexivity. }
  destruct F1 as (F1 & F2 & F3). rewrite F3, S, andb_false_r.
  destruct (if c_in (o_c o1) then _ else _) as [o2| |] eqn:E2; cbn [obind]; try discriminate.
  assert (T1 : two o1) by (unfold two in *; rewrite F2; exact T).
  assert (Q : o_h o2 = o_h o /\ two o2 /\ o_s o2 = o_s o).
  { destruct (c_in (o_c o1)); [destruct (negb kc)|].
    - injection E2 as <-. split; [exact F1|]. split; [apply two_exit|exact F3].
    - apply hf_menu in E2. destruct E2 as ((A1 & A3 & A2) & _). split; [congruence|]. split; [auto|congruence].
    - injection E2 as <-. auto. }
  destruct Q as (Q1 & Q2 & Q3). rewrite Q3, S, andb_true_r. destruct upd.
  - destruct (Update _ _ _ _) as [h| |] eqn:Eu; cbn [obind]; try discriminate. intros E. injection E as <-.
    rewrite Q1 in Eu. destruct H as (W & Tr). pose proof (Update_flag _ _ _ _ Eu) as Ef. pose proof (Update_disk _ _ _ _ Eu) as Ed. pose proof (Update_hwf _ _ _ _ _ W Eu) as W'. apply Update_enable in Eu.
    destruct (update_tracks file _ _ _ _ _ Hl (hwf_enable true _ W) Tr Eu) as (A1 & A2 & A3).
    split; [|destruct En as (En1 & En2); split; [cbn; congruence|cbn; rewrite Ed; exact En2]]. constructor; cbn; [split; assumption|exact Q2|congruence|intros _; exact A3].
  - cbn [obind]. intros E. injection E as <-. split; [|rewrite Q1; exact En].
    constructor; [rewrite Q1; exact H|exact Q2|rewrite Q3; exact S|]. intros Ns. rewrite Q1. left. destruct (B eq_refl); [congruence|assumption].
Qed.

Lemma step_off r R o o' a : r <> 18 -> r <> 19 -> o_vp o = None -> keepoff o R -> op_step cf r o = Ok (o', a) -> cleanl a ->
  keepoff o' (nrec (saves o) R a) /\ o_vp o' = None /\ same (h_enable (o_h o)) (h_disk (o_h o)) (o_h o').
Proof.
  intros N1 N2 Vp K E Cl. assert (Z : keepoff o' (nrec (saves o) R a) /\ same (h_enable (o_h o)) (h_disk (o_h o)) (o_h o')); [|destruct Z as (Z1 & Z2); split; [exact Z1|split; [now apply (vp_step cf r o o' a)|exact Z2]]].
  revert E. unfold op_step, saves.
  assert (Sm : same (h_enable (o_h o)) (h_disk (o_h o)) (o_h o)) by (split; auto).
  assert (Y : forall o1, keepoff o1 R -> same (h_enable (o_h o)) (h_disk (o_h o)) (o_h o1) -> lines_of a = [] -> keepoff o1 (nrec (h_enable (o_h o) && negb (oc_nosave cf)) R a) /\ same (h_enable (o_h o)) (h_disk (o_h o)) (o_h o1)).
  { intros o1 K1 E L. rewrite nrec_none by exact L. auto. }
  destruct (o_end o); [intros E; injection E as <- <-; now apply Y|]. rewrite Vp, Fi. unfold handle_key.
  destruct ((r =? 0) && _); [intros E; injection E as <- <-; apply Y; [destruct K; constructor; auto|exact Sm|reflexivity]|].
  set (r1 := if r =? 0 then CharEnter else r).
  assert (R1 : r1 <> 18 /\ r1 <> 19) by (unfold r1; destruct (r =? 0); [unfold CharEnter|]; split; lia || assumption). destruct R1 as (R1 & R2).
  assert (Q : forall o1, keepoff o1 R -> o_h o1 = o_h o -> vim_and_switch cf r1 o1 = Ok (o', a) -> keepoff o' (nrec (h_enable (o_h o) && negb (oc_nosave cf)) R a) /\ same (h_enable (o_h o)) (h_disk (o_h o)) (o_h o')).
  { intros o1 K1 So E. unfold vim_and_switch in E. rewrite Vi in E. destruct (key_switch cf r1 o1) as [x| |] eqn:Ek; cbn [obind] in E; try discriminate.
    apply (after_off _ _ r1 R x o' a); [|exact E|exact Cl]. rewrite <- Ek, <- So. now apply op_switch. }
  destruct (c_sel (o_c o)) eqn:Sl; [|now apply Q].
  destruct (HandleCompleteSelect cf r1 o) as [[o1 k]| |] eqn:S; cbn [obind]; try discriminate.
  destruct (hf_handle cf r1 o o1 k S) as (A1 & A2 & A34). destruct (A34 Sl (kf_two _ _ K)) as (A3 & A4). clear A34.
  destruct ((r1 =? CharEnter) || (r1 =? CharCtrlJ)) eqn:E1.
  - assert (k = false).
    { unfold HandleCompleteSelect in S. rewrite E1 in S. destruct (_ <? 0); [discriminate|]. destruct (get _ _); cbn [obind] in S; try discriminate.
      destruct (WriteRunes _ _); cbn [obind] in S; try discriminate. now injection S as _ <-. }
    subst k. destruct (Update _ _ _ _) as [h| |] eqn:Eu; cbn [obind]; try discriminate. intros E. injection E as <- <-.
    rewrite A1 in Eu. destruct K as [(W & Tr) _ Ks _]. pose proof (Update_flag _ _ _ _ Eu) as Ef. pose proof (Update_disk _ _ _ _ Eu) as Ed. pose proof (Update_hwf _ _ _ _ _ W Eu) as W'. apply Update_enable in Eu.
    destruct (update_tracks file _ _ _ _ _ Hl (hwf_enable true _ W) Tr Eu) as (B1 & B2 & B3).
    apply Y; [|split; cbn; auto|reflexivity]. constructor; cbn; [split; assumption|exact A3|congruence|intros _; exact B3].
  - assert (K1 : keepoff o1 R).
    { destruct K as [H T Ks B]. constructor; [rewrite A1; exact H|exact A3|congruence|]. rewrite A1, (A4 eq_refl). exact B. }
    assert (E1h : same (h_enable (o_h o)) (h_disk (o_h o)) (o_h o1)) by now rewrite A1.
    destruct k; [intros E; injection E as <- <-; now apply Y|].
    destruct (r1 =? CharInterrupt); [intros E; injection E as <- <-; now apply Y|].
    destruct (r1 =? CharBell); [intros E; injection E as <- <-; now apply Y|]. now apply Q.
Qed.
End off.

(** ** Sessions *)
Lemma recorded_app R a b : recorded R (map Submit (a ++ b)) = recorded (recorded R (map Submit a)) (map Submit b).
Proof. unfold recorded. now rewrite map_app, fold_left_app. Qed.

Lemma hev_keeps file cf es : 1 <= hc_limit (oc_h cf) -> oc_vim cf = false -> oc_filter cf = None -> no_search_keys es ->
  forall on R o o' a l, o_vp o = None -> keepoff file cf o R -> h_enable (o_h o) = on ->
  hev_run cf es on o = Ok (o', a, l) -> (file = true -> Forall (fun l => l = [] \/ clean_line l) (lines_of a)) ->
  keepoff file cf o' (if oc_nosave cf then R else recorded R (map Submit l)).
Proof.
  intros Hl Vi Fi. induction es as [|e es IH]; intros (N1 & N2) on R o o' a l Vp K En E Cl; cbn [hev_run] in E.
  - injection E as <- <- <-. destruct (oc_nosave cf); exact K.
  - assert (N : no_search_keys es) by (split; intros X; [apply N1|apply N2]; now right).
    assert (W : forall b, keepoff file cf (with_h (set_enable b (o_h o)) o) R).
    { intros b. destruct K as [(W & T) T2 S B]. constructor; cbn; auto. split; [now apply hwf_enable|exact T]. }
    destruct e as [r| |].
    + destruct (op_step cf r o) as [[o1 a1]| |] eqn:E1; cbn [obind fst snd] in E; try discriminate.
      destruct (hev_run cf es on o1) as [[[o2 a2] l2]| |] eqn:E2; cbn [obind fst snd] in E; try discriminate. injection E as <- <- <-.
      assert (C1 : cleanl file a1 /\ (file = true -> Forall (fun l => l = [] \/ clean_line l) (lines_of a2))).
      { unfold cleanl. rewrite lines_app in Cl. split; intros F; specialize (Cl F); now apply Forall_app in Cl. }
      destruct C1 as (C1 & C2).
      assert (R1 : r <> 18) by (intros ->; apply N1; now left). assert (R2 : r <> 19) by (intros ->; apply N2; now left).
      destruct (step_off file cf Hl Vi Fi r R o o1 a1 R1 R2 Vp K E1 C1) as (K1 & Vp1 & En1).
      pose proof (IH N on _ o1 o2 a2 l2 Vp1 K1 (eq_trans (proj1 En1) En) E2 C2) as Z. unfold saves in Z. rewrite En in Z.
      destruct (oc_nosave cf); cbn [negb] in Z; [rewrite andb_false_r in Z; exact Z|]. rewrite andb_true_r in Z.
      destruct on; [rewrite recorded_app; exact Z|exact Z].
    + apply (IH N false R (with_h (Disable (o_h o)) o) o' a l); auto; apply W.
    + apply (IH N true R (with_h (Enable (o_h o)) o) o' a l); auto; apply W.
Qed.

Lemma off_rests file cf h R : hwf h -> tracks file (oc_h cf) h R -> keepoff file cf (op_new h) R.
Proof.
  intros W T. pose proof (tracks_back _ _ _ _ T) as B. pose proof (tracks_rests _ _ _ _ T) as (_ & _ & _ & On & _). constructor; cbn.
  - split; [exact W|]. rewrite (enable_same _ On), B. exact T.
  - intros X. discriminate.
  - reflexivity.
  - intros _. left. apply tracks_cur in T. destruct T as (id & -> & ->). reflexivity.
Qed.

Lemma off_recorded cf h R es o a l : 1 <= hc_limit (oc_h cf) -> oc_vim cf = false -> oc_filter cf = None -> no_search_keys es ->
  rests (oc_h cf) h R -> hev_run cf es true (op_new h) = Ok (o, a, l) ->
  let kept := if oc_nosave cf then R else recorded R (map Submit l) in
  exists n, committed (o_h o) = lastn n kept /\ (n <= keep (oc_h cf))%nat /\ (Nat.min (length kept) (keep (oc_h cf) - 1) <= n)%nat.
Proof.
  intros Hl Vi Fi N T E kept. pose proof T as T0. destruct T0 as (? & ? & (W & _) & On & _).
  destruct (hev_keeps false cf es Hl Vi Fi N true R (op_new h) o a l eq_refl (off_rests false cf h R W T) On E ltac:(intros X; discriminate))
    as [(W' & (com & e & (_ & I & _) & _ & K)) _ _ _].
  change (h_items (to_back (Enable (o_h o)))) with (h_items (o_h o)) in I. destruct K as (K1 & K2 & K3). exists (length com).
  unfold committed. rewrite I, removelast_last. auto.
Qed.

Lemma off_saved cf c' ls es o a l : 1 <= hc_limit (oc_h cf) -> oc_vim cf = false -> oc_filter cf = None -> no_search_keys es ->
  hc_file (oc_h cf) = true -> hc_file c' = true -> hc_limit c' <= hc_limit (oc_h cf) -> Forall clean_line ls ->
  let h := openf (oc_h cf) (flat_map file_line ls) in
  hev_run cf es true (op_new h) = Ok (o, a, l) -> Forall (fun l => l = [] \/ clean_line l) (lines_of a) ->
  committed (openf c' (h_disk (HClose (o_h o)))) =
    lastn (keep c') (if oc_nosave cf then lastn (keep (oc_h cf)) ls else recorded (lastn (keep (oc_h cf)) ls) (map Submit l)).
Proof.
  intros Hl Vi Fi N Hf Hf' Le Cl h E Ca. destruct (open_persisted (oc_h cf) ls Hl Hf Cl) as (F & P).
  assert (W : hwf h /\ h_enable h = true) by (destruct P as ((? & ? & (X & _) & Y & _) & _); split; assumption). destruct W as (W & On).
  destruct (hev_keeps true cf es Hl Vi Fi N true _ (op_new h) o a l eq_refl (off_rests true cf h _ W (ex_intro _ F P)) On E ltac:(intros _; exact Ca))
    as [(W' & (F' & _ & P2 & P3 & P4 & P5)) _ _ _].
  change (h_fd (to_back (Enable (o_h o)))) with (h_fd (o_h o)) in P2. change (h_disk (to_back (Enable (o_h o)))) with (h_disk (o_h o)) in P3.
  unfold HClose. rewrite P2. cbn [set_file h_disk]. rewrite P3. rewrite <- (app_nil_r (flat_map file_line F')).
  rewrite open_committed by (auto; intros []).
  assert (X : Nat.min (keep c') (keep (oc_h cf)) = keep c') by (unfold keep; lia).
  rewrite <- X, <- !lastn_lastn. rewrite P5. reflexivity.
Qed.

Lemma hev_vp cf es : oc_vim cf = false -> oc_filter cf = None -> forall on o o' a l, o_vp o = None -> hev_run cf es on o = Ok (o', a, l) -> o_vp o' = None.
Proof.
  intros Vi Fi. induction es as [|e es IH]; intros on o o' a l Vp E; cbn [hev_run] in E; [now injection E as <- _ _|]. destruct e as [r| |].
  - destruct (op_step cf r o) as [[o1 a1]| |] eqn:E1; cbn [obind fst snd] in E; try discriminate.
    destruct (hev_run cf es on o1) as [[[o2 a2] l2]| |] eqn:E2; cbn [obind fst snd] in E; try discriminate. injection E as <- <- <-.
    apply (IH on o1 o2 a2 l2); [|exact E2]. now apply (vp_step cf r o o1 a1).
  - now apply (IH false (with_h (Disable (o_h o)) o) o' a l).
  - now apply (IH true (with_h (Enable (o_h o)) o) o' a l).
Qed.

Lemma hev_file cf es : 1 <= hc_limit (oc_h cf) -> oc_vim cf = false -> oc_filter cf = None -> no_search_keys es ->
  forall on R o o' a l, o_vp o = None -> keepoff false cf o R -> h_enable (o_h o) = on ->
  oc_nosave cf = true \/ (on = false /\ ~ In HOn es) ->
  hev_run cf es on o = Ok (o', a, l) -> h_disk (o_h o') = h_disk (o_h o).
Proof.
  intros Hl Vi Fi. induction es as [|e es IH]; intros (N1 & N2) on R o o' a l Vp K En Off E; cbn [hev_run] in E.
  - now injection E as <- <- <-.
  - assert (N : no_search_keys es) by (split; intros X; [apply N1|apply N2]; now right).
    assert (W : forall b, keepoff false cf (with_h (set_enable b (o_h o)) o) R).
    { intros b. destruct K as [(W & T) T2 S B]. constructor; cbn; auto. split; [now apply hwf_enable|exact T]. }
    assert (Off' : oc_nosave cf = true \/ (on = false /\ ~ In HOn es)). { destruct Off as [|(Off & O2)]; auto. right. split; auto. intros X. apply O2. now right. }
    destruct e as [r| |].
    + destruct (op_step cf r o) as [[o1 a1]| |] eqn:E1; cbn [obind fst snd] in E; try discriminate.
      destruct (hev_run cf es on o1) as [[[o2 a2] l2]| |] eqn:E2; cbn [obind fst snd] in E; try discriminate. injection E as <- <- <-.
      assert (R1 : r <> 18) by (intros ->; apply N1; now left). assert (R2 : r <> 19) by (intros ->; apply N2; now left).
      assert (C1 : cleanl false a1) by (intros X; discriminate).
      destruct (step_off false cf Hl Vi Fi r R o o1 a1 R1 R2 Vp K E1 C1) as (K1 & Vp1 & En1 & En2).
      pose proof (IH N on _ o1 o2 a2 l2 Vp1 K1 (eq_trans En1 En) Off' E2) as Z. rewrite Z. apply En2. rewrite En.
      destruct Off as [->|(-> & _)]; [apply andb_false_r|reflexivity].
    + apply (IH N false R (with_h (Disable (o_h o)) o) o' a l); auto; [apply W|]. destruct Off' as [|(_ & ?)]; auto.
    + destruct Off as [Off|(_ & Off)]; [|exfalso; apply Off; now left].
      apply (IH N true R (with_h (Enable (o_h o)) o) o' a l); auto; apply W.
Qed.

Lemma off_file cf h R es1 o1 a1 l1 es2 o2 a2 l2 : 1 <= hc_limit (oc_h cf) -> oc_vim cf = false -> oc_filter cf = None ->
  no_search_keys es1 -> no_search_keys es2 -> rests (oc_h cf) h R ->
  hev_run cf es1 true (op_new h) = Ok (o1, a1, l1) -> ~ In HOn es2 ->
  hev_run cf (HOff :: es2) true o1 = Ok (o2, a2, l2) -> h_disk (o_h o2) = h_disk (o_h o1).
Proof.
  intros Hl Vi Fi N1 N2 T E1 N E2. pose proof T as (? & ? & (W & _) & On & _).
  pose proof (hev_keeps false cf es1 Hl Vi Fi N1 true R (op_new h) o1 a1 l1 eq_refl (off_rests false cf h R W T) On E1 ltac:(intros X; discriminate)) as K.
  pose proof (hev_vp cf es1 Vi Fi true (op_new h) o1 a1 l1 eq_refl E1) as Vp. cbn [hev_run] in E2.
  apply (hev_file cf es2 Hl Vi Fi N2 false (if oc_nosave cf then R else recorded R (map Submit l1)) (with_h (Disable (o_h o1)) o1) o2 a2 l2 Vp) in E2; auto; [].
  destruct K as [(W' & T') T2 S B]. constructor; cbn; [|exact T2|exact S|exact B]. split; [now apply hwf_enable|exact T'].
Qed.

Lemma nosave_file cf h R es o a l : 1 <= hc_limit (oc_h cf) -> oc_vim cf = false -> oc_filter cf = None -> no_search_keys es -> rests (oc_h cf) h R ->
  oc_nosave cf = true -> hev_run cf es true (op_new h) = Ok (o, a, l) -> h_disk (o_h o) = h_disk h.
Proof.
  intros Hl Vi Fi N1 T Ns E. pose proof T as (? & ? & (W & _) & On & _).
  exact (hev_file cf es Hl Vi Fi N1 true R (op_new h) o a l eq_refl (off_rests false cf h R W T) On (or_introl Ns) E).
Qed.
