(** Search, selection among candidates, Tab, and the kicks of the terminal, key by key. *)
From Verif Require Import Base ListAux RunesModel RunesSpec RunesProofs RuneBufModel RuneBufSpec RuneBufProofs
  HistoryModel HistorySpec HistoryProofs RenderModel Utf8Model Utf8Spec Utf8Proofs TerminalModel TerminalSpec TerminalProofs
  OpModel OpSpec OpProofs OpStep OpKeys.
From Coq Require Import ZifyBool.
Open Scope Z_scope.

(** ** Kicks *)
Definition pauseb (r : Z) : bool := (r =? 3) || (r =? 13) || (r =? 10) || (r =? 4).
Definition kicks (a : list act) : nat := length (filter resumes a).

Definition kick1 (r : Z) (e : outcome swres) : Prop :=
  forall x, e = Ok x -> kicks (snd (fst (fst (fst x)))) = if pauseb r then 1%nat else 0%nat.

Lemma kpick r (c : bool) (A B : outcome swres) : (c = true -> kick1 r A) -> (c = false -> kick1 r B) ->
  kick1 r (if c then A else B).
Proof. destruct c; auto. Qed.

Lemma kbind r {X} (e : outcome X) (f : X -> outcome swres) : (forall x, e = Ok x -> kick1 r (f x)) -> kick1 r (x <- e ;; f x).
Proof. intros H. destruct e; cbn [obind]; auto; intros x E; discriminate. Qed.

Lemma kok r x : kicks (snd (fst (fst (fst x)))) = (if pauseb r then 1%nat else 0%nat) -> kick1 r (Ok x).
Proof. intros H y E. injection E as <-. exact H. Qed.

Lemma kpanic r : kick1 r Panic.
Proof. intros y E. discriminate. Qed.

Ltac kno := unfold pauseb; 
  match goal with |- _ = (if ?c then _ else _) => replace c with false; [reflexivity|] end.

Lemma edit_kick r e o : pauseb r = false -> kick1 r (edit_buf e o).
Proof. intros P. unfold edit_buf. apply kbind. intros b _. apply kok. rewrite P. reflexivity. Qed.

Lemma switch_kicks cf r o : kick1 r (key_switch cf r o).
Proof.
  unfold key_switch.
  apply kpick; intros K1.
  { apply kbind; intros o1 _. apply kok. replace (pauseb r) with false; [reflexivity|]. clear - K1. unfold pauseb, CharBell in *. lia. }
  apply kpick; intros K2.
  { assert (P : pauseb r = false) by (clear - K2; unfold pauseb, CharTab in *; lia).
    destruct (oc_auto cf); [apply kpick; intros _|]; try (apply kok; rewrite P; reflexivity).
    apply kbind; intros o1 _. apply kok. rewrite P. reflexivity. }
  apply kpick; intros K3.
  { assert (P : pauseb r = false) by (clear - K3; unfold pauseb, CharBckSearch in *; lia).
    apply kbind; intros [o1 b] _. apply kok. rewrite P. destruct b; reflexivity. }
  apply kpick; intros K4; [apply edit_kick; clear - K4; unfold pauseb, CharCtrlU in *; lia|].
  apply kpick; intros K5.
  { assert (P : pauseb r = false) by (clear - K5; unfold pauseb, CharFwdSearch in *; lia).
    apply kbind; intros [o1 b] _. apply kok. rewrite P. destruct b; reflexivity. }
  apply kpick; intros K6.
  { apply kbind; intros b _. apply kok. replace (pauseb r) with false; [reflexivity|]. clear - K6. unfold pauseb, CharKill in *. lia. }
  apply kpick; intros K7; [apply edit_kick; clear - K7; unfold pauseb, MetaForward in *; lia|].
  apply kpick; intros K8; [apply edit_kick; clear - K8; unfold pauseb, CharTranspose in *; lia|].
  apply kpick; intros K9; [apply edit_kick; clear - K9; unfold pauseb, MetaBackward in *; lia|].
  apply kpick; intros K10; [apply edit_kick; clear - K10; unfold pauseb, MetaDelete in *; lia|].
  apply kpick; intros K11; [apply edit_kick; clear - K11; unfold pauseb, CharLineStart in *; lia|].
  apply kpick; intros K12; [apply edit_kick; clear - K12; unfold pauseb, CharLineEnd in *; lia|].
  apply kpick; intros K13.
  { assert (P : pauseb r = false) by (clear - K13; unfold pauseb, CharBackspace, CharCtrlH in *; lia).
    apply kpick; intros _; [apply kbind; intros o1 _; apply kok; rewrite P; reflexivity|].
    apply kpick; intros _; [apply kok; rewrite P; reflexivity|].
    apply kbind; intros b _. apply kbind; intros o1 _. apply kok. rewrite P. reflexivity. }
  apply kpick; intros K14.
  { apply kok. replace (pauseb r) with false; [reflexivity|]. clear - K14. unfold pauseb, CharCtrlZ in *. lia. }
  apply kpick; intros K15.
  { apply kok. replace (pauseb r) with false; [reflexivity|]. clear - K15. unfold pauseb, CharCtrlL in *. lia. }
  apply kpick; intros K16; [apply edit_kick; clear - K16; unfold pauseb, MetaBackspace, CharCtrlW in *; lia|].
  apply kpick; intros K17; [apply edit_kick; clear - K17; unfold pauseb, CharCtrlY in *; lia|].
  apply kpick; intros K18.
  { assert (P : pauseb r = true) by (clear - K18; unfold pauseb, CharEnter, CharCtrlJ in *; lia).
    unfold key_enter. apply kbind; intros o1 _. apply kbind; intros b _. apply kbind; intros [d b'] _.
    apply kpick; intros _; [apply kbind; intros h _|]; apply kok; rewrite P; reflexivity. }
  apply kpick; intros K19; [apply edit_kick; clear - K19; unfold pauseb, CharBackward in *; lia|].
  apply kpick; intros K20; [apply edit_kick; clear - K20; unfold pauseb, CharForward in *; lia|].
  apply kpick; intros K21.
  { assert (P : pauseb r = false) by (clear - K21; unfold pauseb, CharPrev in *; lia).
    apply kbind; intros x _. destruct (fst x); apply kok; rewrite P; reflexivity. }
  apply kpick; intros K22.
  { assert (P : pauseb r = false) by (clear - K22; unfold pauseb, CharNext in *; lia).
    apply kbind; intros x _. destruct (fst x); apply kok; rewrite P; reflexivity. }
  apply kpick; intros K23.
  { assert (P : pauseb r = true) by (clear - K23; unfold pauseb, CharDelete in *; lia). unfold key_delete.
    apply kpick; intros _; [apply kbind; intros x _; apply kok; rewrite P; destruct (snd x); reflexivity|].
    apply kbind; intros b _. apply kok. rewrite P. reflexivity. }
  apply kpick; intros K24.
  { assert (P : pauseb r = true) by (clear - K24; unfold pauseb, CharInterrupt in *; lia). unfold key_interrupt.
    apply kpick; intros _; [apply kbind; intros x _; apply kok; rewrite P; reflexivity|].
    apply kpick; intros _; [apply kok; rewrite P; reflexivity|].
    apply kbind; intros b _. apply kbind; intros b1 _. destruct (Reset b1) as [d b2]. apply kbind; intros d' _.
    apply kok. rewrite P. reflexivity. }
  assert (P : pauseb r = false).
  { clear - K18 K23 K24. unfold pauseb, CharEnter, CharCtrlJ, CharDelete, CharInterrupt in *. lia. }
  apply kpick; intros _; [apply kbind; intros o1 _; apply kok; rewrite P; reflexivity|].
  apply kbind; intros b _. apply kpick; intros _; [|apply kok; rewrite P; reflexivity].
  destruct (oc_auto cf); [|apply kpanic]. apply kbind; intros o1 _. apply kok. rewrite P. reflexivity.
Qed.

Lemma after_acts cf r x o' a : after_switch cf r x = Ok (o', a) -> a = snd (fst (fst (fst x))).
Proof.
  destruct x as [[[[o acts] ks] kc] upd]. unfold after_switch. cbn [fst snd].
  destruct (if negb ks && _ then _ else _) as [o2| |]; cbn [obind]; try discriminate.
  destruct (if upd && _ then _ else _) as [o3| |]; cbn [obind]; try discriminate. congruence.
Qed.

(** without vim and filter *)
Lemma step_kicks cf r o o' a : oc_vim cf = false -> oc_filter cf = None -> o_end o = false -> o_vp o = None -> r <> 0 ->
  op_step cf r o = Ok (o', a) -> kicks a = if pauseb r then 1%nat else 0%nat.
Proof.
  intros Vi Fi En Vp N0. unfold op_step. rewrite En, Vp, Fi. unfold handle_key. replace (r =? 0) with false by lia. cbn [andb].
  assert (Q : forall o1, vim_and_switch cf r o1 = Ok (o', a) -> kicks a = if pauseb r then 1%nat else 0%nat).
  { intros o1 E. unfold vim_and_switch in E. rewrite Vi in E. pose proof (switch_kicks cf r o1) as K. unfold kick1 in K.
    destruct (key_switch cf r o1) as [x| |]; cbn [obind] in E; try discriminate. apply after_acts in E. subst a. now apply K. }
  destruct (c_sel (o_c o)); [|apply Q].
  destruct (HandleCompleteSelect cf r o) as [[o1 k]| |] eqn:S; cbn [obind]; try discriminate. destruct k.
  - intros E. injection E as <- <-. unfold HandleCompleteSelect in S. replace (pauseb r) with false; [reflexivity|].
    destruct (pauseb r) eqn:P; [exfalso|reflexivity].
    assert (R : r = 3 \/ r = 13 \/ r = 10 \/ r = 4) by (clear - P; unfold pauseb in P; lia).
    destruct R as [-> | [-> | [-> | ->]]]; cbn in S; try discriminate.
    + destruct (c_choice (o_c o) <? 0); [discriminate|]. destruct (get _ _); cbn in S; try discriminate.
      destruct (WriteRunes _ _); cbn in S; discriminate.
    + destruct (c_choice (o_c o) <? 0); [discriminate|]. destruct (get _ _); cbn in S; try discriminate.
      destruct (WriteRunes _ _); cbn in S; discriminate.
  - destruct ((r =? CharEnter) || (r =? CharCtrlJ)) eqn:E1.
    { destruct (Update _ _ _ _); cbn [obind]; try discriminate. intros E. injection E as <- <-.
      replace (pauseb r) with true; [reflexivity|]. clear - E1. unfold pauseb, CharEnter, CharCtrlJ in *. lia. }
    destruct (r =? CharInterrupt) eqn:E2.
    { intros E. injection E as <- <-. replace (pauseb r) with true; [reflexivity|]. clear - E2. unfold pauseb, CharInterrupt in *. lia. }
    destruct (r =? CharBell) eqn:E3.
    { intros E. injection E as <- <-. replace (pauseb r) with false; [reflexivity|]. clear - E3. unfold pauseb, CharBell in *. lia. }
    apply Q.
Qed.

(** ** What never changes: the loop goes on, and no vim command is pending, whatever the switch does *)
Definition fr (o o' : op) : Prop := o_end o' = o_end o /\ o_vp o' = o_vp o /\ o_vn o' = o_vn o.
Definition frE (o : op) (e : outcome op) : Prop := forall o', e = Ok o' -> fr o o'.
Definition frS (o : op) (e : outcome swres) : Prop := forall x, e = Ok x -> fr o (fst (fst (fst (fst x)))).

Lemma fr_refl o : fr o o. Proof. repeat split. Qed.
Lemma fr_trans a b c : fr a b -> fr b c -> fr a c.
Proof. intros (A1 & A2 & A3) (B1 & B2 & B3). repeat split; congruence. Qed.

Lemma frE_bind {X} o (e : outcome X) (f : X -> outcome op) : (forall x, e = Ok x -> frE o (f x)) -> frE o (x <- e ;; f x).
Proof. intros H. destruct e; cbn [obind]; auto; intros x E; discriminate. Qed.
Lemma frE_then o (e : outcome op) (f : op -> outcome op) : frE o e -> (forall x, frE x (f x)) -> frE o (x <- e ;; f x).
Proof.
  intros H1 H2. destruct e as [x| |]; cbn [obind]; try (intros x E; discriminate). intros y E.
  eapply fr_trans; [now apply H1|]. now apply H2.
Qed.
Lemma frE_ok o o' : fr o o' -> frE o (Ok o').
Proof. intros H x E. injection E as <-. exact H. Qed.
Lemma frE_panic o : frE o Panic. Proof. intros x E. discriminate. Qed.
Lemma frE_if o (c : bool) A B : frE o A -> frE o B -> frE o (if c then A else B). Proof. destruct c; auto. Qed.

Ltac fr0 := apply frE_ok; repeat split.

Lemma fr_refresh cf x o : frE o (SearchRefresh cf x o).
Proof. unfold SearchRefresh. apply frE_bind; intros y _. fr0. Qed.

Lemma fr_search cf c o : frE o (search cf c o).
Proof.
  unfold search. destruct (s_data (o_s o)).
  - intros o' E. apply (fr_refresh cf (-1) _) in E. exact E.
  - apply frE_bind; intros [[i id]|] _; [|apply fr_refresh]. apply frE_bind; intros x _.
    intros o' E. apply fr_refresh in E. exact E.
Qed.

Lemma fr_mode cf b o o' k : SearchMode cf b o = Ok (o', k) -> fr o o'.
Proof.
  unfold SearchMode. destruct (oc_w cf =? 0); [intros E; injection E as <- <-; apply fr_refl|].
  set (o1 := with_s _ o). assert (F1 : fr o o1) by (repeat split).
  destruct (s_in (o_s o)).
  - destruct (search cf false o1) as [o2| |] eqn:E; cbn [obind]; try discriminate. intros X. injection X as <- <-.
    eapply fr_trans; [exact F1|]. now apply (fr_search cf false o1).
  - destruct (SearchRefresh cf (-1) o1) as [o2| |] eqn:E; cbn [obind]; try discriminate. intros X. injection X as <- <-.
    eapply fr_trans; [exact F1|]. now apply (fr_refresh cf (-1) o1).
Qed.

Lemma fr_exit b o : frE o (ExitSearchMode b o).
Proof.
  unfold ExitSearchMode. apply frE_then; [|intros x; fr0]. apply frE_if; [|apply frE_ok, fr_refl].
  destruct (s_src (o_s o)); [|apply frE_panic]. apply frE_bind; intros x _. fr0.
Qed.

Lemma fr_menu cf o : frE o (CompleteRefresh cf o).
Proof. unfold CompleteRefresh. apply frE_if; [apply frE_ok, fr_refl|]. apply frE_bind; intros x _. fr0. Qed.

Lemma fr_select cf o : frE o (doSelect cf o).
Proof.
  unfold doSelect. assert (Q : frE o (c <- nextCandidate 1 (o_c o);; CompleteRefresh cf (with_c c o))).
  { apply frE_bind; intros c _. intros o' E. apply fr_menu in E. exact E. }
  destruct (c_cand (o_c o)) as [|c [|]]; try exact Q. apply frE_bind; intros b _. fr0.
Qed.

Lemma fr_complete cf Do o : frE o (OnComplete cf Do o).
Proof.
  unfold OnComplete. apply frE_if; [apply frE_ok, fr_refl|]. apply frE_if; [apply fr_select|].
  apply frE_if.
  - apply frE_then; [|intros x; apply fr_select]. intros o' E. apply fr_menu in E. exact E.
  - destruct (Do _ _) as [cands off]. destruct cands as [|x rest]; [fr0|]. apply frE_bind; intros [ins|] _.
    + apply frE_bind; intros b _. fr0.
    + intros o' E. apply fr_menu in E. exact E.
Qed.

Lemma fr_handle cf r o o' k : HandleCompleteSelect cf r o = Ok (o', k) -> fr o o'.
Proof.
  assert (N : forall e, (x <- e ;; o1 <- CompleteRefresh cf (with_c x o) ;; Ok (o1, true)) = Ok (o', k) -> fr o o').
  { intros e E. destruct e as [x| |]; cbn [obind] in E; try discriminate.
    destruct (CompleteRefresh cf (with_c x o)) as [o1| |] eqn:R; cbn [obind] in E; try discriminate. injection E as <- <-.
    apply fr_menu in R. exact R. }
  unfold HandleCompleteSelect.
  destruct ((r =? CharEnter) || (r =? CharCtrlJ)).
  { destruct (c_choice (o_c o) <? 0); [discriminate|]. destruct (get _ _); cbn [obind]; try discriminate.
    destruct (WriteRunes _ _); cbn [obind]; try discriminate. intros E. injection E as <- <-. repeat split. }
  destruct (r =? CharLineStart); [apply N|]. destruct (r =? CharLineEnd); [apply N|].
  destruct (r =? CharBackspace); [intros E; injection E as <- <-; repeat split|].
  destruct ((r =? CharTab) || (r =? CharForward)).
  { destruct (doSelect cf o) as [o1| |] eqn:E1; cbn [obind]; try discriminate.
    destruct (CompleteRefresh cf o1) as [o2| |] eqn:E2; cbn [obind]; try discriminate. intros E. injection E as <- <-.
    eapply fr_trans; [exact (fr_select cf o o1 E1)|exact (fr_menu cf o1 _ E2)]. }
  destruct ((r =? CharBell) || (r =? CharInterrupt)); [intros E; injection E as <- <-; repeat split|].
  destruct (r =? CharNext); [apply N|]. destruct (r =? CharBackward); [apply N|]. destruct (r =? CharPrev); [apply N|].
  intros E. injection E as <- <-. repeat split.
Qed.

Lemma frS_bind {X} o (e : outcome X) (f : X -> outcome swres) : (forall x, e = Ok x -> frS o (f x)) -> frS o (x <- e ;; f x).
Proof. intros H. destruct e; cbn [obind]; auto; intros x E; discriminate. Qed.
Lemma frS_if o (c : bool) A B : frS o A -> frS o B -> frS o (if c then A else B). Proof. destruct c; auto. Qed.
Lemma frS_ok o x : fr o (fst (fst (fst (fst x)))) -> frS o (Ok x).
Proof. intros H y E. injection E as <-. exact H. Qed.
Lemma frS_edit o e : frS o (edit_buf e o).
Proof. unfold edit_buf. apply frS_bind; intros b _. apply frS_ok. repeat split. Qed.

Ltac frs := apply frS_ok; repeat split.

Lemma fr_switch cf r o : frS o (key_switch cf r o).
Proof.
  unfold key_switch.
  apply frS_if.
  { apply frS_bind; intros o1 E. apply frS_ok. cbn [fst].
    assert (F : fr o o1) by (destruct (s_in (o_s o)); [now apply fr_exit in E|injection E as <-; apply fr_refl]).
    destruct (c_in (o_c o1)); exact F. }
  apply frS_if.
  { destruct (oc_auto cf); [apply frS_if|]; try frs. apply frS_bind; intros o1 E. apply frS_ok. now apply fr_complete in E. }
  apply frS_if; [apply frS_bind; intros [o1 k] E; apply frS_ok; now apply fr_mode in E|].
  apply frS_if; [apply frS_edit|].
  apply frS_if; [apply frS_bind; intros [o1 k] E; apply frS_ok; now apply fr_mode in E|].
  apply frS_if; [apply frS_bind; intros b _; frs|].
  do 6 (apply frS_if; [apply frS_edit|]).
  apply frS_if.
  { apply frS_if.
    - apply frS_bind; intros o1 E. apply frS_ok. cbn [fst]. unfold SearchBackspace in E.
      destruct (s_data (o_s o)); [injection E as <-; apply fr_refl|apply fr_search in E; exact E].
    - apply frS_if; [frs|]. apply frS_bind; intros b _. apply frS_bind; intros o1 E. apply frS_ok. cbn [fst].
      destruct (c_in _); [destruct (oc_auto cf); [|discriminate]; apply fr_complete in E; exact E|injection E as <-; repeat split]. }
  apply frS_if; [frs|]. apply frS_if; [frs|].
  do 2 (apply frS_if; [apply frS_edit|]).
  apply frS_if.
  { unfold key_enter. apply frS_bind; intros o1 E. apply frS_bind; intros b _. apply frS_bind; intros [d b'] _.
    assert (F : fr o o1) by (destruct (s_in (o_s o)); [now apply fr_exit in E|injection E as <-; apply fr_refl]).
    apply frS_if; [apply frS_bind; intros h _|]; apply frS_ok; exact F. }
  do 2 (apply frS_if; [apply frS_edit|]).
  apply frS_if; [apply frS_bind; intros x _; destruct (fst x); frs|].
  apply frS_if; [apply frS_bind; intros x _; destruct (fst x); frs|].
  apply frS_if; [unfold key_delete; apply frS_if; apply frS_bind; intros x _; frs|].
  apply frS_if.
  { unfold key_interrupt. apply frS_if; [apply frS_bind; intros o1 E; apply frS_ok; now apply fr_exit in E|].
    apply frS_if; [frs|]. apply frS_bind; intros b _. apply frS_bind; intros b1 _. destruct (Reset b1) as [d b2].
    apply frS_bind; intros d' _. frs. }
  apply frS_if; [apply frS_bind; intros o1 E; apply frS_ok; unfold SearchChar in E; apply fr_search in E; exact E|].
  apply frS_bind; intros b _. apply frS_if; [|frs]. destruct (oc_auto cf); [|intros x E; discriminate].
  apply frS_bind; intros o1 E. apply frS_ok. apply fr_complete in E. exact E.
Qed.

Lemma fr_after cf r x o' a : after_switch cf r x = Ok (o', a) -> fr (fst (fst (fst (fst x)))) o'.
Proof.
  destruct x as [[[[o acts] ks] kc] upd]. unfold after_switch. cbn [fst].
  set (o1 := match oc_listen cf with Some f => _ | None => o end).
  assert (F1 : fr o o1). { subst o1. destruct (oc_listen cf); [destruct (o0 _ _ _) as [[l p]|]|]; repeat split. }
  destruct (if negb ks && s_in (o_s o1) then ExitSearchMode false o1 else _) as [o2| |] eqn:E2; cbn [obind]; try discriminate.
  assert (F2 : fr o1 o2).
  { destruct (negb ks && s_in (o_s o1)); [now apply fr_exit in E2|]. destruct (c_in (o_c o1)).
    - destruct (negb kc); [injection E2 as <-; repeat split|now apply fr_menu in E2].
    - injection E2 as <-. apply fr_refl. }
  destruct (if upd && negb (s_in (o_s o2)) then _ else _) as [o3| |] eqn:E3; cbn [obind]; try discriminate.
  assert (F3 : fr o2 o3).
  { destruct (upd && negb (s_in (o_s o2))); [|injection E3 as <-; apply fr_refl].
    destruct (Update _ _ _ _); cbn [obind] in E3; try discriminate. injection E3 as <-. repeat split. }
  intros E. injection E as <- <-. eapply fr_trans; [exact F1|]. eapply fr_trans; eassumption.
Qed.

Lemma fr_rest cf r o o' a : oc_vim cf = false -> vim_and_switch cf r o = Ok (o', a) -> fr o o'.
Proof.
  intros Vi E. unfold vim_and_switch in E. rewrite Vi in E. destruct (key_switch cf r o) as [x| |] eqn:K; cbn [obind] in E; try discriminate.
  apply fr_after in E. apply fr_switch in K. eapply fr_trans; eassumption.
Qed.

Lemma fr_step cf r o o' a : oc_vim cf = false -> oc_filter cf = None -> o_vp o = None -> r <> 0 ->
  op_step cf r o = Ok (o', a) -> fr o o'.
Proof.
  intros Vi Fi Vp N0. unfold op_step. destruct (o_end o); [intros E; injection E as <- <-; apply fr_refl|].
  rewrite Vp, Fi. unfold handle_key. replace (r =? 0) with false by lia. cbn [andb].
  destruct (c_sel (o_c o)); [|now apply fr_rest].
  destruct (HandleCompleteSelect cf r o) as [[o1 k]| |] eqn:S; cbn [obind]; try discriminate. apply fr_handle in S.
  destruct k; [intros E; injection E as <- <-; exact S|].
  destruct ((r =? CharEnter) || (r =? CharCtrlJ)).
  { destruct (Update _ _ _ _); cbn [obind]; try discriminate. intros E. injection E as <- <-. exact S. }
  destruct (r =? CharInterrupt); [intros E; injection E as <- <-; exact S|].
  destruct (r =? CharBell); [intros E; injection E as <- <-; exact S|].
  intros E. eapply fr_trans; [exact S|]. now apply fr_rest in E.
Qed.

Lemma kicks_app a b : kicks (a ++ b) = (kicks a + kicks b)%nat.
Proof. unfold kicks. now rewrite filter_app, app_length. Qed.

Lemma run_kicks cf rs : oc_vim cf = false -> oc_filter cf = None -> Forall (fun r => r <> 0) rs ->
  forall o o' a, o_end o = false -> o_vp o = None -> op_run cf rs o = Ok (o', a) ->
    kicks a = length (filter pauseb rs) /\ o_end o' = false.
Proof.
  intros Vi Fi. induction rs as [|r rs IH]; intros F o o' a En Vp; cbn [op_run].
  - intros E. injection E as <- <-. auto.
  - inversion F as [|? ? R0 F']; subst. destruct (op_step cf r o) as [[o1 a1]| |] eqn:E1; cbn [obind fst snd]; try discriminate.
    destruct (op_run cf rs o1) as [[o2 a2]| |] eqn:E2; cbn [obind fst snd]; try discriminate. intros E. injection E as <- <-.
    pose proof (fr_step _ _ _ _ _ Vi Fi Vp R0 E1) as (F1 & F2 & F3).
    pose proof (step_kicks _ _ _ _ _ Vi Fi En Vp R0 E1) as K1.
    destruct (IH F' o1 o2 a2 ltac:(congruence) ltac:(congruence) E2) as (K2 & N2).
    rewrite kicks_app, K1, K2. cbn [filter]. split; [|exact N2]. destruct (pauseb r); reflexivity.
Qed.

(** ** Choosing among candidates *)
Section good.
Variable cf : ocfg.
Hypothesis G : good_config cf.

Lemma refresh_ok o : inside (o_b o) -> c_in (o_c o) = true ->
  fits cf (rb_buf (o_b o)) (rb_idx (o_b o)) (c_cand (o_c o)) (c_off (o_c o)) ->
  exists n, 0 < n /\ CompleteRefresh cf o = Ok (with_c (set_col n (o_c o)) o).
Proof.
  intros I C F. unfold CompleteRefresh. rewrite C. cbn [negb].
  destruct (menu_ok cf G (o_c o) (o_b o) I F) as (r & -> & R). cbn [obind]. eauto.
Qed.

Lemma sel_move r o : selecting cf o -> sel_key r -> exists o', op_step cf r o = Ok (o', []) /\ selecting cf o' /\
  o_b o' = o_b o /\ o_h o' = o_h o /\ c_cand (o_c o') = c_cand (o_c o) /\
  moves (Z.of_nat (length (c_cand (o_c o)))) (c_col (o_c o)) (c_choice (o_c o)) r (c_choice (o_c o')).
Proof.
  intros S R. destruct S as [C Sel L2 F Ch Col I Vp En]. set (c := o_c o) in *. set (n := Z.of_nat (length (c_cand c))) in *.
  assert (Next : forall x, 0 <= x < n -> moves n (c_col c) (c_choice c) r x ->
     exists o', (z <- (y <- Ok (set_choice x c) ;; o' <- CompleteRefresh cf (with_c y o) ;; Ok (o', true)) ;; let '(o1, keep) := z in
       if keep then Ok (o1, []) else if (r =? CharEnter) || (r =? CharCtrlJ) then
        h <- Update (oc_h cf) (rb_buf (o_b o1)) false (o_h o1) ;; Ok (with_h h o1, [AKick])
      else if r =? CharInterrupt then Ok (o1, [AKick])
      else if r =? CharBell then Ok (o1, [])
      else vim_and_switch cf r o1) = Ok (o', []) /\ selecting cf o' /\
       o_b o' = o_b o /\ o_h o' = o_h o /\ c_cand (o_c o') = c_cand (o_c o) /\ moves n (c_col c) (c_choice c) r (c_choice (o_c o'))).
  { intros x X M. cbn [obind]. destruct (refresh_ok (with_c (set_choice x c) o) I C F) as (m & Nm & ->). cbn [obind].
    eexists. split; [reflexivity|]. split; [|repeat (split; [reflexivity|]); exact M].
    constructor; cbn; try assumption; lia. }
  unfold op_step. rewrite En, Vp, (gc_filter _ G). unfold handle_key.
  assert (N0 : r <> 0) by (clear - R; unfold sel_key in R; lia). replace (r =? 0) with false by (clear - N0; lia). cbn [andb]. fold c. rewrite Sel.
  unfold HandleCompleteSelect. fold c. fold n.
  assert (Cm : c_choice c mod c_col c = Z.rem (c_choice c) (c_col c)) by (rewrite Z.rem_mod_nonneg by (clear - Ch Col; lia); reflexivity).
  pose proof (Z.mod_pos_bound (c_choice c) (c_col c) Col) as Mb.
  pose proof (Z.div_mod (c_choice c) (c_col c) ltac:(clear - Col; lia)) as Dm.
  pose proof (Z.div_pos (c_choice c) (c_col c) ltac:(clear - Ch; lia) Col) as Dp.
  destruct R as [-> | [-> | [-> | [-> | [-> | [-> | ->]]]]]]; cbn [Z.eqb Pos.eqb orb CharEnter CharCtrlJ CharLineStart CharLineEnd CharBackspace CharTab CharForward CharBell CharInterrupt CharNext CharBackward CharPrev].
  - replace (c_col c =? 0) with false by (clear - Col; lia).
    destruct (nextCandidate_range (- Z.rem (c_choice c) (c_col c)) c ltac:(clear - L2; lia)) as (x & -> & X & E). apply Next; [exact X|].
    fold n in E. rewrite <- Cm in E. rewrite Z.mod_small in E by nia. unfold moves. repeat split; intros K; try (exfalso; clear - K; lia).
    clear - E. lia.
  - replace (c_col c =? 0) with false by (clear - Col; lia). rewrite <- Cm. apply Next.
    + destruct (n <=? _) eqn:E; nia.
    + unfold moves. repeat split; intros K; try (exfalso; clear - K; lia). clear - Ch Mb. destruct (n <=? _) eqn:E; lia.
  - unfold doSelect. fold c. destruct (c_cand c) as [|c1 [|c2 l]] eqn:Ec; [cbn in L2; lia|cbn in L2; lia|]. rewrite <- Ec in *.
    destruct (nextCandidate_range 1 c ltac:(clear - L2; lia)) as (x & -> & X & E). fold n in X, E. cbn [obind].
    destruct (refresh_ok (with_c (set_choice x c) o) I C F) as (m & Nm & ->). cbn [obind].
    match goal with |- context [CompleteRefresh cf ?z] => destruct (refresh_ok z I C F) as (m' & Nm' & ->) end. cbn [obind].
    eexists. split; [reflexivity|]. split; [|split; [reflexivity|split; [reflexivity|split; [reflexivity|]]]].
    + constructor; cbn; try assumption; fold c; fold n; clear - X L2 Nm'; lia.
    + unfold moves. cbn. repeat split; intros K; try (exfalso; clear - K; lia). rewrite Ec in E. exact E.
  - unfold doSelect. fold c. destruct (c_cand c) as [|c1 [|c2 l]] eqn:Ec; [cbn in L2; lia|cbn in L2; lia|]. rewrite <- Ec in *.
    destruct (nextCandidate_range 1 c ltac:(clear - L2; lia)) as (x & -> & X & E). fold n in X, E. cbn [obind].
    destruct (refresh_ok (with_c (set_choice x c) o) I C F) as (m & Nm & ->). cbn [obind].
    match goal with |- context [CompleteRefresh cf ?z] => destruct (refresh_ok z I C F) as (m' & Nm' & ->) end. cbn [obind].
    eexists. split; [reflexivity|]. split; [|split; [reflexivity|split; [reflexivity|split; [reflexivity|]]]].
    + constructor; cbn; try assumption; fold c; fold n; clear - X L2 Nm'; lia.
    + unfold moves. cbn. repeat split; intros K; try (exfalso; clear - K; lia). rewrite Ec in E. exact E.
  - destruct (matrix_size c Col) as (m & -> & Mx & (q & Mq)). cbn [obind]. fold n in Mx. fold n.
    assert (J : (if m <=? c_choice c + c_col c then c_choice c + c_col c - m
                 else if n <=? c_choice c + c_col c then c_choice c + c_col c + c_col c - m else c_choice c + c_col c) =
                if c_choice c + c_col c <? n then c_choice c + c_col c else c_choice c mod c_col c).
    { destruct (c_choice c + c_col c <? n) eqn:E0.
      - replace (m <=? c_choice c + c_col c) with false by (clear - E0 Mx; lia).
        now replace (n <=? c_choice c + c_col c) with false by (clear - E0; lia).
      - assert (Qd : c_choice c / c_col c + 1 = q \/ c_choice c / c_col c + 2 = q) by (clear - E0 Mx Mq Mb Dm Dp Ch Col; nia).
        destruct (m <=? c_choice c + c_col c) eqn:E1.
        + destruct Qd as [Qd|Qd]; [clear - Qd Mq Dm; nia|exfalso; clear - Qd Mq Dm Mb E1 Col; nia].
        + replace (n <=? c_choice c + c_col c) with true by (clear - E0; lia).
          destruct Qd as [Qd|Qd]; [exfalso; clear - Qd Mq Dm Mb E1 Col; nia|clear - Qd Mq Dm; nia]. }
    rewrite J. apply Next.
    + destruct (c_choice c + c_col c <? n) eqn:E0; [clear - E0 Ch Col; lia|clear - Mb Ch Dm Dp Col; nia].
    + unfold moves. repeat split; intros K; try (exfalso; clear - K; lia). destruct (_ <? n); reflexivity.
  - destruct (nextCandidate_range (-1) c ltac:(clear - L2; lia)) as (x & -> & X & E). apply Next; [exact X|].
    unfold moves. repeat split; intros K; try (exfalso; clear - K; lia). fold n in E. exact E.
  - destruct (c_choice c - c_col c <? 0) eqn:E1.
    + destruct (matrix_size c Col) as (m & -> & Mx & (q & Mq)). cbn [obind]. fold n in Mx. fold n.
      assert (Q1 : 1 <= q) by (clear - Mx Mq Ch Col; nia). assert (Cs : c_choice c mod c_col c = c_choice c) by (apply Z.mod_small; clear - Ch E1; lia).
      set (j := if n <=? c_choice c - c_col c + m then c_choice c - c_col c + m - c_col c else c_choice c - c_col c + m).
      assert (J : exists k, j = c_choice c + k * c_col c).
      { unfold j. destruct (n <=? _); [exists (q - 2)|exists (q - 1)]; clear - Mq; nia. }
      assert (J2 : 0 <= j < n /\ n <= j + c_col c).
      { unfold j. destruct (n <=? c_choice c - c_col c + m) eqn:E2.
        - destruct (Z.eq_dec q 1) as [->|Nq]; [exfalso; clear - Mq E2 Ch; lia|]. clear - Nq Q1 Mq Mx E2 Ch E1 Col. nia.
        - clear - Q1 Mq Mx E2 Ch E1 Col. nia. }
      apply Next; [apply J2|]. unfold moves. repeat split; intros K; try (exfalso; clear - K; lia).
      replace (c_col c <=? c_choice c) with false by (clear - E1; lia). split; [apply J2|]. split; [apply J2|].
      destruct J as (k & ->). rewrite Z.mod_add by (clear - Col; lia). reflexivity.
    + apply Next; [clear - E1 Ch Col; lia|]. unfold moves. repeat split; intros K; try (exfalso; clear - K; lia).
      replace (c_col c <=? c_choice c) with true by (clear - E1; lia). reflexivity.
Qed.

Lemma sel_accept r o : selecting cf o -> hwf (o_h o) -> r = 13 \/ r = 10 ->
  exists o' x, op_step cf r o = Ok (o', [AKick]) /\ nth_error (c_cand (o_c o)) (Z.to_nat (c_choice (o_c o))) = Some x /\
    rb_buf (o_b o') = firstn (rb_idx (o_b o)) (rb_buf (o_b o)) ++ x ++ skipn (rb_idx (o_b o)) (rb_buf (o_b o)) /\
    rb_idx (o_b o') = (rb_idx (o_b o) + length x)%nat /\ c_in (o_c o') = false /\ c_sel (o_c o') = false.
Proof.
  intros S W R. destruct S as [C Sel L2 F Ch Col I Vp En].
  unfold op_step. rewrite En, Vp, (gc_filter _ G). unfold handle_key.
  replace (r =? 0) with false by (clear - R; lia). cbn [andb]. rewrite Sel. unfold HandleCompleteSelect.
  replace ((r =? CharEnter) || (r =? CharCtrlJ)) with true by (clear - R; unfold CharEnter, CharCtrlJ; lia).
  replace (c_choice (o_c o) <? 0) with false by (clear - Ch; lia).
  destruct (get_ok (c_cand (o_c o)) (Z.to_nat (c_choice (o_c o))) ltac:(clear - Ch; lia)) as (x & -> & X). cbn [obind].
  rewrite write_spec by exact I. cbn [obind o_b o_h with_b with_c].
  destruct (Update_ok (oc_h cf) (firstn (rb_idx (o_b o)) (rb_buf (o_b o)) ++ x ++ skipn (rb_idx (o_b o)) (rb_buf (o_b o))) false (o_h o) W)
    as (h & E & _). cbn [rb_buf]. rewrite E. cbn [obind].
  do 2 eexists. split; [reflexivity|]. split; [exact X|]. cbn. repeat split.
Qed.

(** ** Tab *)
Lemma tab_step Do o cands off : typing o -> oc_auto cf = Some Do -> Do (rb_buf (o_b o)) (rb_idx (o_b o)) = (cands, off) ->
  exists o', op_step cf 9 o = Ok (o', []) /\ s_in (o_s o') = false /\ c_sel (o_c o') = false /\
    let put t := rb_buf (o_b o') = firstn (rb_idx (o_b o)) (rb_buf (o_b o)) ++ t ++ skipn (rb_idx (o_b o)) (rb_buf (o_b o)) /\
                 rb_idx (o_b o') = (rb_idx (o_b o) + length t)%nat in
    match cands with
    | [] => put [] /\ c_in (o_c o') = false
    | [x] => put x /\ c_in (o_c o') = false
    | _ => exists same, longest_common_prefix same cands /\ put same /\
             (if match same with [] => true | _ => false end then c_in (o_c o') = true /\ c_cand (o_c o') = cands
              else c_in (o_c o') = false)
    end.
Proof.
  intros T A D. pose proof (ty_in _ T) as I. pose proof (gc_w _ G) as W0.
  rewrite (step_passes cf 9 o (conj (gc_listen _ G) (gc_filter _ G)) T) by lia.
  change (key_switch cf 9 o) with (match oc_auto cf with
    | None => Ok (o, [ABell], false, false, true)
    | Some Do =>
        if oc_w cf =? 0 then Ok (o, [ABell], false, false, true)
        else o1 <- OnComplete cf Do o ;; Ok (o1, [], false, true, true)
    end). rewrite A. replace (oc_w cf =? 0) with false by (clear - W0; lia).
  pose proof (gc_auto _ G Do _ _ _ _ A I D) as F.
  unfold OnComplete. replace (oc_w cf =? 0) with false by (clear - W0; lia). rewrite (ty_sel _ T), (ty_c _ T). cbn [andb].
  rewrite D. cbn [ExitCompleteSelectMode c_in c_col]. rewrite (ty_c _ T).
  assert (Fin : forall o1, s_in (o_s o1) = false -> hwf (o_h o1) -> inside (o_b o1) -> 
     (c_in (o_c o1) = true -> fits cf (rb_buf (o_b o1)) (rb_idx (o_b o1)) (c_cand (o_c o1)) (c_off (o_c o1))) ->
     exists o', after_switch cf 9 (o1, [], false, true, true) = Ok (o', []) /\ o_b o' = o_b o1 /\ o_s o' = o_s o1 /\
       c_in (o_c o') = c_in (o_c o1) /\ c_sel (o_c o') = c_sel (o_c o1) /\ c_cand (o_c o') = c_cand (o_c o1)).
  { intros o1 S1 W1 I1 F1. unfold after_switch. rewrite (gc_listen _ G), S1. cbn [negb andb].
    assert (Q : exists o2, (if c_in (o_c o1) then CompleteRefresh cf o1 else Ok o1) = Ok o2 /\ o_b o2 = o_b o1 /\ o_s o2 = o_s o1 /\ o_h o2 = o_h o1 /\
       c_in (o_c o2) = c_in (o_c o1) /\ c_sel (o_c o2) = c_sel (o_c o1) /\ c_cand (o_c o2) = c_cand (o_c o1)).
    { destruct (c_in (o_c o1)) eqn:C1.
      - destruct (refresh_ok o1 I1 C1 (F1 eq_refl)) as (m & _ & ->). eexists. split; [reflexivity|]. cbn. rewrite C1. auto 8.
      - exists o1. auto 8. }
    destruct Q as (o2 & -> & B & S & Hh & C & Sl & Cd). cbn [obind]. rewrite S, S1. cbn [negb].
    rewrite Hh, B. destruct (Update_ok (oc_h cf) (rb_buf (o_b o1)) false (o_h o1) W1) as (h & -> & _). cbn [obind].
    eexists. split; [reflexivity|]. cbn. auto. }
  assert (Ins : forall t c1, c_in c1 = false -> c_sel c1 = false -> 
     exists o', (o1 <- (b <- WriteRunes t (o_b o) ;; Ok (with_c c1 (with_b b o))) ;; y <- Ok (o1, [], false, true, true) ;; after_switch cf 9 y) = Ok (o', []) /\
       s_in (o_s o') = false /\ c_sel (o_c o') = false /\ c_in (o_c o') = false /\
       rb_buf (o_b o') = firstn (rb_idx (o_b o)) (rb_buf (o_b o)) ++ t ++ skipn (rb_idx (o_b o)) (rb_buf (o_b o)) /\
       rb_idx (o_b o') = (rb_idx (o_b o) + length t)%nat).
  { intros t c1 C1 L1. rewrite write_spec by exact I. cbn [obind].
    match goal with |- context [after_switch cf 9 (?x, _, _, _, _)] => destruct (Fin x) as (o' & -> & B & S & C & L & _) end.
    - apply T.
    - apply T.
    - unfold inside. cbn. rewrite !app_length, firstn_length, skipn_length. unfold inside in I. clear - I. lia.
    - cbn. rewrite C1. discriminate.
    - eexists. split; [reflexivity|]. rewrite B, S, C, L. cbn. rewrite (ty_s _ T). auto. }
  assert (Id : rb_buf (o_b o) = firstn (rb_idx (o_b o)) (rb_buf (o_b o)) ++ [] ++ skipn (rb_idx (o_b o)) (rb_buf (o_b o))).
  { cbn [app]. now rewrite firstn_skipn. }
  destruct cands as [|x rest].
  - cbn [obind]. destruct (Fin (with_c (ExitCompleteMode {| c_in := c_in (o_c o); c_sel := false; c_cand := []; c_src := Some (rb_buf (o_b o));
        c_off := -1; c_choice := -1; c_col := c_col (o_c o) |}) o)) as (o' & E & B & S & C & L & _); [apply T|apply T|exact I|discriminate|].
    cbn [ExitCompleteMode c_in c_col] in E. rewrite (ty_c _ T) in E. eexists. split; [exact E|].
    rewrite S, L, B. cbn [with_c o_s o_c o_b ExitCompleteMode c_sel]. split; [apply T|]. split; [reflexivity|]. cbv zeta.
    split; [split; [exact Id|cbn; lia]|exact C].
  - destruct F as [F|F]; [discriminate|]. destruct rest as [|y rest].
    + cbn [obind]. match goal with |- context [with_c ?c1 (with_b _ o)] => destruct (Ins x c1 eq_refl eq_refl) as (o' & E & S & L & C & B & J) end.
      exists o'. split.
      { destruct (WriteRunes x (o_b o)); cbn [obind] in *; exact E. }
      cbv zeta. auto 6.
    + destruct (Aggregate_correct (x :: y :: rest)) as (same & size & rs & Ag & -> & Lcp & _); [discriminate|].
      cbn [obind]. rewrite Ag. cbn [obind]. destruct same as [|s0 ss].
      * cbn [length Nat.ltb Nat.leb obind].
        match goal with |- context [CompleteRefresh cf (with_c ?c2 o)] => set (o2 := with_c c2 o) end.
        destruct (refresh_ok o2 I eq_refl F) as (m & Nm & ->). cbn [obind].
        destruct (Fin (with_c (set_col m (o_c o2)) o2)) as (o' & E & B & S & C & L & Cd); [apply T|apply T|exact I|intros _; exact F|].
        exists o'. split; [exact E|]. rewrite S, L, B, C, Cd. cbn. rewrite (ty_s _ T). split; [reflexivity|]. split; [reflexivity|].
        exists []. split; [exact Lcp|]. split; [|auto]. split; [exact Id|cbn; lia].
      * cbn [length Nat.ltb Nat.leb obind]. match goal with |- context [with_c ?c1 (with_b _ o)] => destruct (Ins (s0 :: ss) c1 eq_refl eq_refl) as (o' & E & S & L & C & B & J) end.
        exists o'. split.
        { destruct (WriteRunes (s0 :: ss) (o_b o)); cbn [obind] in *; exact E. }
        cbv zeta. split; [exact S|]. split; [exact L|]. exists (s0 :: ss). auto.
Qed.
End good.

(** ** Cancelling a search *)
Section search.
Variable cf : ocfg.
Hypothesis G : good_config cf.

Record searching (h0 : hist) (id : nat) (o : op) : Prop := {
  se_in : inside (o_b o);
  se_h : hwf (o_h o);
  se_items : h_items (o_h o) = h_items h0;
  se_dead : h_dead (o_h o) = h_dead h0;
  se_ver : h_ver (o_h o) = h_ver h0;
  se_s : s_in (o_s o) = true;
  se_src : s_src (o_s o) = Some id;
  se_marks : marks_ok (o_s o) (o_b o);
  se_c : c_in (o_c o) = false;
  se_sel : c_sel (o_c o) = false;
  se_vn : o_vn o = false;
  se_vp : o_vp o = None;
  se_end : o_end o = false
}.

Lemma step_open r o : o_vn o = false -> o_vp o = None -> o_end o = false -> c_sel (o_c o) = false -> r <> 27 -> r <> 0 ->
  op_step cf r o = (y <- key_switch cf r o ;; after_switch cf r y).
Proof.
  intros V Vp En Sl N N0. unfold op_step. rewrite En, Vp, (gc_filter _ G). unfold handle_key.
  replace (r =? 0) with false by lia. cbn [andb]. rewrite Sl. now apply vim_passes.
Qed.

Lemma after_keep r o a : s_in (o_s o) = true -> c_in (o_c o) = false ->
  after_switch cf r (o, a, true, false, true) = Ok (o, a).
Proof.
  intros S C. unfold after_switch. rewrite (gc_listen _ G), S, C. cbn [negb andb obind]. rewrite S. reflexivity.
Qed.

Lemma search_begin k o id : typing o -> s_ms (o_s o) = 0%nat -> h_cur (o_h o) = Some id -> k = 18 \/ k = 19 ->
  exists o1, op_step cf k o = Ok (o1, []) /\ searching (o_h o) id o1.
Proof.
  intros T Ms Cu K. rewrite step_open by (try apply T; lia).
  assert (M : marks_ok (o_s o) (o_b o)) by (intros H; lia).
  destruct (SearchMode_ok cf G (k =? 18) o (ty_in _ T) (ty_h _ T) M)
    as (o1 & E & I & W & It & De & Ve & S & Sr & Mk & C & Vn & Vp & En & _).
  assert (E' : key_switch cf k o = Ok (o1, [], true, false, true)).
  { destruct K as [-> | ->]; cbn in E.
    - change (key_switch cf 18 o) with (x <- SearchMode cf true o ;; Ok (fst x, if snd x then [] else [ABell], snd x, false, true) : outcome swres).
      rewrite E. reflexivity.
    - change (key_switch cf 19 o) with (x <- SearchMode cf false o ;; Ok (fst x, if snd x then [] else [ABell], snd x, false, true) : outcome swres).
      rewrite E. reflexivity. }
  rewrite E'. cbn [obind]. rewrite after_keep; [|exact S|rewrite C; apply T]. exists o1. split; [reflexivity|].
  constructor; try assumption; try congruence; try (rewrite ?C, ?Vn, ?Vp, ?En; apply T).
Qed.

Lemma search_more r h0 id o : searching h0 id o -> search_key r -> exists o1, op_step cf r o = Ok (o1, []) /\ searching h0 id o1.
Proof.
  intros S R. destruct S. rewrite step_open by (try assumption; unfold search_key, ordinary in R; lia).
  assert (Q : forall d, exists o1, search cf true (with_s (set_data d (o_s o)) o) = Ok o1 /\ searching h0 id o1).
  { intros d. destruct (search_ok cf G true (with_s (set_data d (o_s o)) o)) as (o1 & E & K); [assumption..|].
    exists o1. split; [exact E|]. destruct K. cbn in *. constructor; try assumption; congruence. }
  assert (E : exists o1, key_switch cf r o = Ok (o1, [], true, false, true) /\ searching h0 id o1).
  { destruct R as [(R1 & R2)|R].
    - destruct (Q (s_data (o_s o) ++ [r])) as (o1 & E & K). exists o1. split; [|exact K]. unfold key_switch.
      repeat match goal with
         | |- context [r =? ?k] => replace (r =? k) with false by (clear - R1 R2; unfold k; lia)
         end.
      cbn [orb]. rewrite se_s0. unfold SearchChar. rewrite E. reflexivity.
    - assert (E : key_switch cf r o = (o1 <- SearchBackspace cf o ;; Ok (o1, [], true, false, true))).
      { destruct R as [-> | ->]; unfold key_switch; cbn [Z.eqb Pos.eqb orb CharBell CharTab CharBckSearch CharCtrlU CharFwdSearch CharKill MetaForward
          CharTranspose MetaBackward MetaDelete CharLineStart CharLineEnd CharBackspace CharCtrlH]; rewrite se_s0; reflexivity. }
      rewrite E. unfold SearchBackspace. destruct (s_data (o_s o)) as [|d0 dd] eqn:D.
      + cbn [obind]. exists o. split; [reflexivity|]. constructor; assumption.
      + destruct (Q (firstn (length (d0 :: dd) - 1) (d0 :: dd))) as (o1 & E1 & K). rewrite E1. cbn [obind]. eauto. }
  destruct E as (o1 & E & K). rewrite E. cbn [obind]. rewrite after_keep by (destruct K; assumption). eauto.
Qed.

Lemma search_many ks h0 id : Forall search_key ks -> forall o, searching h0 id o ->
  exists o1, op_run cf ks o = Ok (o1, []) /\ searching h0 id o1.
Proof.
  induction 1 as [|r ks R _ IH]; intros o S; cbn [op_run]; [eauto|].
  destruct (search_more r h0 id o S R) as (o1 & -> & S1). cbn [obind fst snd].
  destruct (IH o1 S1) as (o2 & -> & S2). cbn [obind fst snd app]. eauto.
Qed.

Lemma search_end e h0 id o l : searching h0 id o -> hwf h0 -> shows h0 id l -> e = 7 \/ e = 3 ->
  exists o1 a, op_step cf e o = Ok (o1, a) /\ results a = [] /\ typing o1 /\ h_cur (o_h o1) = Some id /\ rb_buf (o_b o1) = l /\
    s_ms (o_s o1) = 0%nat.
Proof.
  intros S W0 (x & X & Xi & Xl) E. destruct S. rewrite step_open by (try assumption; lia).
  assert (Xe : In x (elems (o_h o))) by (unfold elems in *; rewrite se_items0, se_dead0; exact X).
  assert (Q : exists o2, ExitSearchMode true o = Ok o2 /\ o_b o2 = Set_ l (o_b o) /\ o_h o2 = set_cur (Some id) (o_h o) /\
     s_in (o_s o2) = false /\ s_ms (o_s o2) = 0%nat /\ o_c o2 = o_c o /\ o_vn o2 = o_vn o /\ o_vp o2 = o_vp o /\ o_end o2 = o_end o).
  { unfold ExitSearchMode. rewrite se_src0.
    assert (D : deref (set_cur (Some id) (o_h o)) id = Ok x).
    { subst id. change (deref (o_h o) (it_id x) = Ok x). now apply deref_item. }
    rewrite D. cbn [obind]. eexists. split; [reflexivity|]. cbn. repeat (split; [|repeat split; reflexivity]).
    unfold showItem. cbn. rewrite se_ver0, <- Xl. reflexivity. }
  destruct Q as (o2 & Eq & B & Hh & S2 & M2 & C & Vn & Vp & En).
  assert (W2 : hwf (o_h o2)).
  { rewrite Hh. apply hwf_set_cur; [assumption|]. subst id. now apply in_map. }
  assert (K : exists a, results a = [] /\ key_switch cf e o = Ok (o2, a, false, false, true)).
  { destruct E as [-> | ->].
    - exists []. split; [reflexivity|]. unfold key_switch. cbn [Z.eqb Pos.eqb CharBell]. rewrite se_s0, Eq. cbn [obind].
      now rewrite C, se_c0.
    - exists [AKick]. split; [reflexivity|]. change (key_switch cf 3 o) with (key_interrupt cf o). unfold key_interrupt.
      rewrite se_s0, Eq. reflexivity. }
  destruct K as (a & Ra & ->). cbn [obind].
  assert (Cc : c_in (o_c o2) = false) by congruence.
  unfold after_switch. rewrite (gc_listen _ G), S2, Cc. cbn [negb andb obind]. rewrite S2. cbn [negb].
  unfold Update. rewrite Hh. cbn [h_cur set_cur].
  pose proof (Update_ok (oc_h cf) (rb_buf (o_b o2)) false (o_h o2) W2) as (h & U & Wh & _).
  unfold Update in U. rewrite Hh in U. cbn [h_cur set_cur] in U. rewrite U. cbn [obind].
  do 2 eexists. split; [reflexivity|]. split; [exact Ra|].
  assert (Cu : h_cur h = Some id).
  { destruct (deref (set_cur (Some id) (o_h o)) id) as [y| |]; cbn [obind] in U; try discriminate. injection U as <-.
    rewrite (proj1 (Compact_rest _ _)). reflexivity. }
  split; [|split; [exact Cu|split; [cbn; rewrite B; reflexivity|exact M2]]].
  constructor; cbn; try assumption; try congruence. rewrite B. unfold inside. cbn. lia.
Qed.

Lemma cancel_search k ks e o id l : typing o -> s_ms (o_s o) = 0%nat -> h_cur (o_h o) = Some id -> shows (o_h o) id l ->
  k = 18 \/ k = 19 -> Forall search_key ks -> e = 7 \/ e = 3 ->
  exists o' a, op_run cf (k :: ks ++ [e]) o = Ok (o', a) /\ results a = [] /\ typing o' /\
    h_cur (o_h o') = Some id /\ rb_buf (o_b o') = l.
Proof.
  intros T Ms Cu Sh K F E. cbn [op_run].
  destruct (search_begin k o id T Ms Cu K) as (o1 & -> & S1). cbn [obind fst snd]. rewrite op_run_app.
  destruct (search_many ks _ id F o1 S1) as (o2 & -> & S2). cbn [obind fst snd op_run].
  destruct (search_end e _ id o2 l S2 (ty_h _ T) Sh E) as (o3 & a & -> & R & T3 & C3 & B3 & _). cbn [obind fst snd app].
  do 2 eexists. split; [reflexivity|]. rewrite app_nil_r. auto.
Qed.
End search.

Lemma vp_step cf r o o' a : oc_vim cf = false -> oc_filter cf = None -> o_vp o = None ->
  op_step cf r o = Ok (o', a) -> o_vp o' = None.
Proof.
  intros Vi Fi Vp E. destruct (Z.eq_dec r 0) as [->|N0].
  - destruct (o_end o) eqn:En; [unfold op_step in E; rewrite En in E; injection E as <- <-; exact Vp|].
    destruct (rb_buf (o_b o)) as [|x l] eqn:B.
    + unfold op_step in E. rewrite En, Vp, Fi in E. unfold handle_key in E. rewrite B in E. cbn in E. injection E as <- <-. exact Vp.
    + assert (E' : op_step cf 13 o = Ok (o', a)).
      { rewrite <- E. unfold op_step. rewrite En, Vp, Fi. unfold handle_key. rewrite B. reflexivity. }
      apply fr_step in E'; [|assumption|assumption|assumption|lia]. destruct E' as (_ & E' & _). congruence.
  - apply fr_step in E; try assumption. destruct E as (_ & E & _). congruence.
Qed.

(** ** Typing while candidates are shown *)
Lemma typing_refreshes cf Do r o : good_config cf -> oc_auto cf = Some Do -> ordinary r ->
  inside (o_b o) -> hwf (o_h o) -> s_in (o_s o) = false -> c_in (o_c o) = true -> c_sel (o_c o) = false -> 
  c_src (o_c o) = Some (rb_buf (o_b o)) -> o_vn o = false -> o_vp o = None -> o_end o = false ->
  exists o' off, op_step cf r o = Ok (o', []) /\ c_sel (o_c o') = false /\
    rb_buf (o_b o') = firstn (rb_idx (o_b o)) (rb_buf (o_b o)) ++ [r] ++ skipn (rb_idx (o_b o)) (rb_buf (o_b o)) /\
    rb_idx (o_b o') = S (rb_idx (o_b o)) /\
    Do (rb_buf (o_b o')) (rb_idx (o_b o')) = (c_cand (o_c o'), off) /\
    (c_in (o_c o') = true <-> c_cand (o_c o') <> []).
Proof.
  intros G A (R1 & R2) I W S C Sl Sr V Vp En. rewrite (step_open cf G) by (try assumption; lia).
  assert (K : key_switch cf r o = (b <- WriteRunes [r] (o_b o) ;; o2 <- OnComplete cf Do (with_b b o) ;; Ok (o2, [], false, true, true))).
  { unfold key_switch.
    repeat match goal with
         | |- context [r =? ?k] => replace (r =? k) with false by (clear - R1 R2; unfold k; lia)
         end.
    cbn [orb]. rewrite S. destruct (WriteRunes [r] (o_b o)); cbn [obind]; try reflexivity. cbn [with_b o_c]. rewrite C, A. reflexivity. }
  rewrite K, write_spec by exact I. cbn [obind]. clear K.
  match goal with |- context [OnComplete cf Do (with_b ?b o)] => set (b1 := b) end.
  assert (I1 : inside b1).
  { unfold b1, inside in *. cbn. rewrite app_length, firstn_length. cbn. rewrite skipn_length. clear - I. lia. }
  pose proof (gc_w _ G) as W0. unfold OnComplete. replace (oc_w cf =? 0) with false by (clear - W0; lia). cbn [with_b o_c o_b]. rewrite Sl, C, Sr.
  assert (Ne : Equal (rb_buf b1) (rb_buf (o_b o)) = false).
  { destruct (Equal (rb_buf b1) (rb_buf (o_b o))) eqn:E; [|reflexivity]. apply Equal_spec in E. apply (f_equal (@length Z)) in E.
    unfold b1, inside in *. cbn in E. rewrite app_length, firstn_length in E. cbn in E. rewrite skipn_length in E. clear - E I. lia. }
  rewrite Ne. cbn [andb ExitCompleteSelectMode c_in c_col]. destruct (Do (rb_buf b1) (rb_idx b1)) as [cands off] eqn:D.
  pose proof (gc_auto _ G Do _ _ _ _ A I1 D) as F.
  assert (X : rb_idx b1 = Datatypes.S (rb_idx (o_b o))) by (unfold b1; cbn; lia).
  destruct cands as [|x rest].
  - cbn [obind]. destruct (after_quiet cf r (with_c (ExitCompleteMode {| c_in := true; c_sel := false; c_cand := []; c_src := Some (rb_buf b1);
       c_off := -1; c_choice := -1; c_col := c_col (o_c o) |}) (with_b b1 o)) [] true (conj (gc_listen _ G) (gc_filter _ G)) S eq_refl W) as (h & E & Wh).
    assert (E' : forall o1 , c_in (o_c o1) = false -> after_switch cf r (o1, [], false, true, true) = after_switch cf r (o1, [], false, false, true)).
    { intros o1 C1. unfold after_switch. rewrite (gc_listen _ G), C1. reflexivity. }
    rewrite C. rewrite E' by reflexivity. rewrite E. exists (with_h h (with_c (ExitCompleteMode {| c_in := true; c_sel := false; c_cand := []; c_src := Some (rb_buf b1);
       c_off := -1; c_choice := -1; c_col := c_col (o_c o) |}) (with_b b1 o))), off. split; [reflexivity|]. split; [reflexivity|].
    split; [reflexivity|]. split; [exact X|]. split; [exact D|]. cbn. split; [discriminate|congruence].
  - destruct F as [F|F]; [discriminate|]. cbn [obind].
    set (c2 := Build_comp _ _ _ _ _ _ _). rewrite C. cbn [obind].
    set (c3 := {| c_in := true; c_sel := false; c_cand := x :: rest; c_src := Some (rb_buf b1); c_off := Z.of_nat off; c_choice := -1; c_col := c_col (o_c o) |}).
    destruct (refresh_ok cf G (with_c c3 (with_b b1 o)) I1 eq_refl F) as (m & Nm & E). rewrite E. cbn [obind].
    unfold after_switch. rewrite (gc_listen _ G). cbn [with_c with_b o_s o_c c_in set_col]. rewrite S. cbn [negb andb].
    change (c_in c3) with true. cbn [negb].
    match goal with |- context [CompleteRefresh cf ?z] => destruct (refresh_ok cf G z I1 eq_refl F) as (m2 & Nm2 & ->) end. cbn [obind with_c o_s o_b o_h with_b].
    rewrite S. cbn [negb]. destruct (Update_ok (oc_h cf) (rb_buf b1) false (o_h o) W) as (h & -> & _). cbn [obind].
    do 2 eexists. split; [reflexivity|]. split; [reflexivity|]. split; [reflexivity|]. split; [exact X|]. split; [exact D|].
    cbn. split; [discriminate|reflexivity].
Qed.

(** ** Whole inputs *)
Lemma ended_run cf rs o : o_end o = true -> op_run cf rs o = Ok (o, []).
Proof.
  intros En. induction rs as [|r rs IH]; [reflexivity|]. cbn [op_run]. unfold op_step. rewrite En. cbn [obind fst snd]. rewrite IH. reflexivity.
Qed.

Lemma lines_then_eof cf ls tail o n : plain cf -> at_rest o ->
  Forall (fun le => Forall ordinary (fst le) /\ (snd le = 13 \/ snd le = 10)) ls -> Forall ordinary tail -> (2 <= n)%nat ->
  exists o', op_run cf (typed ls ++ tail ++ repeat 0 n) o =
    Ok (o', map (fun le => ALine (fst le)) ls ++ match tail with [] => [] | _ => [ALine tail] end ++ [AEof]) /\ o_end o' = true.
Proof.
  intros P A F Ft N. rewrite op_run_app. destruct (lines_steps cf ls P F o A) as (o1 & -> & A1). cbn [obind fst snd].
  rewrite op_run_app. pose proof A1 as T1. apply rest_typing in T1. destruct T1 as (T1 & B1 & I1).
  destruct (text_steps cf tail P Ft o1 T1) as (o2 & -> & T2 & B2 & I2); [rewrite B1; exact I1|]. cbn [obind fst snd].
  rewrite B1 in B2. cbn [app] in B2. destruct n as [|[|n]]; [lia|lia|]. cbn [repeat op_run].
  destruct tail as [|x tail].
  - assert (A2 : at_rest o2) by (apply rest_typing; split; [exact T2|]; split; [exact B2|rewrite I2, B2; reflexivity]).
    destruct (eof_step cf o2 P A2) as (o3 & -> & En3). cbn [obind fst snd]. 
    unfold op_step at 1. rewrite En3. cbn [obind fst snd]. rewrite ended_run by exact En3. cbn. eauto.
  - rewrite eof_enter; [|exact P|exact T2|rewrite B2; discriminate].
    destruct (enter_step cf 13 o2 P T2 ltac:(now left)) as (o3 & -> & A3 & _). cbn [obind fst snd]. rewrite B2.
    destruct (eof_step cf o3 P A3) as (o4 & -> & En4). cbn [obind fst snd]. rewrite ended_run by exact En4. cbn. eauto.
Qed.

Lemma typed_forall (P : Z -> Prop) ls : P 13 -> P 10 -> Forall (fun le => Forall P (fst le) /\ (snd le = 13 \/ snd le = 10)) ls -> Forall P (typed ls).
Proof.
  intros P1 P2. induction 1 as [|[l e] ls (H1 & H2) _ IH]; cbn [typed]; [constructor|]. cbn [fst snd] in *.
  apply Forall_app. split; [exact H1|]. constructor; [destruct H2 as [-> | ->]; assumption|exact IH].
Qed.

Lemma bytes_then_eof cf u ls tail o n : plain cf -> at_rest o ->
  Forall (fun le => Forall ordinary (fst le) /\ Forall scalar (fst le) /\ (snd le = 13 \/ snd le = 10)) ls ->
  Forall ordinary tail -> Forall scalar tail -> (2 <= n)%nat ->
  exists o', op_run cf (keys_of u (oc_vim cf) (decode (encode (typed ls ++ tail))) ++ repeat 0 n) o =
    Ok (o', map (fun le => ALine (fst le)) ls ++ match tail with [] => [] | _ => [ALine tail] end ++ [AEof]) /\ o_end o' = true.
Proof.
  intros P A F Ft St N.
  assert (S : Forall scalar (typed ls ++ tail)).
  { apply Forall_app. split; [|exact St]. apply typed_forall; try (unfold scalar; lia). eapply Forall_impl; [|exact F]. cbn. tauto. }
  rewrite decode_encode, map_sanitize_id by exact S.
  assert (E : keys_of u (oc_vim cf) (typed ls ++ tail) = typed ls ++ tail).
  { apply plain_seg. left. intros X. assert (Q : Forall (fun r => r <> 27) (typed ls ++ tail)).
    - apply Forall_app. split.
      + apply typed_forall; try lia. eapply Forall_impl; [|exact F]. cbn. intros [l e] (H1 & _ & H2). split; [|exact H2].
        eapply Forall_impl; [|exact H1]. intros r (R & _). lia.
      + eapply Forall_impl; [|exact Ft]. intros r (R & _). lia.
    - rewrite Forall_forall in Q. now apply (Q 27). }
  rewrite E, <- app_assoc. apply lines_then_eof; auto. eapply Forall_impl; [|exact F]. cbn. tauto.
Qed.
