(** Whenever the candidate menu is open after a key, it has just been drawn. *)
From Coq Require Import List ZArith Lia Bool ZifyBool.
From Verif Require Import Base RunesModel RuneBufModel RenderModel HistoryModel OpModel OpHist.
Import ListNotations.
Open Scope Z_scope.

Definition menu_current (cf : ocfg) (o : op) : Prop :=
  c_in (o_c o) = true -> exists out, menu_out cf (o_c o) (o_b o) = Ok (out, c_col (o_c o)).

Lemma menu_col cf n c b : menu_out cf (set_col n c) b = menu_out cf c b.
Proof. destruct c; reflexivity. Qed.

Lemma current_refresh cf o o' : CompleteRefresh cf o = Ok o' -> menu_current cf o'.
Proof.
  unfold CompleteRefresh. destruct (c_in (o_c o)) eqn:C; cbn [negb].
  - destruct (menu_out cf (o_c o) (o_b o)) as [[out n]| |] eqn:M; cbn [obind]; try discriminate. intros E. injection E as <-. intros _. exists out.
    cbn [with_c o_c o_b snd]. rewrite menu_col, M. destruct (o_c o); reflexivity.
  - intros E. injection E as <-. intros X. congruence.
Qed.

Lemma current_handle cf r o o' : HandleCompleteSelect cf r o = Ok (o', true) -> menu_current cf o'.
Proof.
  assert (N : forall e, (x <- e ;; o1 <- CompleteRefresh cf (with_c x o) ;; Ok (o1, true)) = Ok (o', true) -> menu_current cf o').
  { intros e E. destruct e as [x| |]; cbn [obind] in E; try discriminate. destruct (CompleteRefresh _ _) as [o1| |] eqn:R; cbn [obind] in E; try discriminate.
    injection E as <-. now apply (current_refresh cf _ _ R). }
  unfold HandleCompleteSelect.
  destruct ((r =? CharEnter) || (r =? CharCtrlJ)).
  { destruct (c_choice (o_c o) <? 0); [discriminate|]. destruct (get _ _); cbn [obind]; try discriminate. destruct (WriteRunes _ _); cbn [obind]; discriminate. }
  destruct (r =? CharLineStart); [apply N|]. destruct (r =? CharLineEnd); [apply N|]. destruct (r =? CharBackspace); [discriminate|].
  destruct ((r =? CharTab) || (r =? CharForward)).
  { destruct (doSelect cf o) as [o1| |]; cbn [obind]; try discriminate. destruct (CompleteRefresh cf o1) as [o2| |] eqn:E2; cbn [obind]; try discriminate.
    intros E. injection E as <-. now apply (current_refresh cf _ _ E2). }
  destruct ((r =? CharBell) || (r =? CharInterrupt)); [discriminate|].
  destruct (r =? CharNext); [apply N|]. destruct (r =? CharBackward); [apply N|]. destruct (r =? CharPrev); [apply N|]. discriminate.
Qed.

Lemma current_after cf r o a ks kc u o' a' : negb ks && s_in (o_s o) = false -> after_switch cf r (o, a, ks, kc, u) = Ok (o', a') -> menu_current cf o'.
Proof.
  intros K. unfold after_switch. set (o1 := match oc_listen cf with Some f => _ | None => o end).
  assert (F1 : o_s o1 = o_s o). { subst o1. destruct (oc_listen cf); [destruct (o0 _ _ _) as [[l p]|]|]; reflexivity. }
  rewrite F1, K. destruct (if c_in (o_c o1) then _ else _) as [o2| |] eqn:E2; cbn [obind]; try discriminate.
  assert (M : menu_current cf o2).
  { destruct (c_in (o_c o1)) eqn:C; [destruct (negb kc)|].
    - injection E2 as <-. intros X. discriminate X.
    - now apply (current_refresh cf _ _ E2).
    - injection E2 as <-. intros X. congruence. }
  destruct (u && negb (s_in (o_s o2))).
  - destruct (Update _ _ _ _); cbn [obind]; try discriminate. intros E. injection E as <- <-. exact M.
  - cbn [obind]. intros E. injection E as <- <-. exact M.
Qed.

Lemma menu_step cf r o o' a : oc_vim cf = false -> oc_filter cf = None -> o_end o = false -> o_vp o = None -> s_in (o_s o) = false -> r <> 0 ->
  op_step cf r o = Ok (o', a) -> menu_current cf o'.
Proof.
  intros Vi Fi En Vp S N. unfold op_step. rewrite En, Vp, Fi. unfold handle_key.
  replace (r =? 0) with false by lia. cbn [andb].
  assert (Q : forall o1, s_in (o_s o1) = false -> vim_and_switch cf r o1 = Ok (o', a) -> menu_current cf o').
  { intros o1 S1 E. unfold vim_and_switch in E. rewrite Vi in E. destruct (key_switch cf r o1) as [x| |] eqn:Ek; cbn [obind] in E; try discriminate.
    destruct x as [[[[o2 a2] ks] kc] u]. refine (current_after cf r o2 a2 ks kc u o' a _ E).
    destruct (Z.eq_dec r 18) as [->|N1]; [|destruct (Z.eq_dec r 19) as [->|N2]].
    - unfold key_switch in Ek. cbn in Ek. destruct (SearchMode cf true o1) as [[o3 k3]| |] eqn:Em; cbn [obind fst snd] in Ek; try discriminate.
      injection Ek as <- _ <- _ _. destruct k3; [reflexivity|]. unfold SearchMode in Em. rewrite S1 in Em. cbn [negb andb].
      destruct (oc_w cf =? 0); [injection Em as <-; exact S1|]. destruct (SearchRefresh _ _ _); cbn [obind] in Em; discriminate.
    - unfold key_switch in Ek. cbn in Ek. destruct (SearchMode cf false o1) as [[o3 k3]| |] eqn:Em; cbn [obind fst snd] in Ek; try discriminate.
      injection Ek as <- _ <- _ _. destruct k3; [reflexivity|]. unfold SearchMode in Em. rewrite S1 in Em. cbn [negb andb].
      destruct (oc_w cf =? 0); [injection Em as <-; exact S1|]. destruct (SearchRefresh _ _ _); cbn [obind] in Em; discriminate.
    - assert (C := calm_switch cf r o1 N1 N2 S1 _ Ek). cbn [fst] in C. rewrite C. apply andb_false_r. }
  destruct (c_sel (o_c o)) eqn:Sl; [|now apply Q].
  destruct (HandleCompleteSelect cf r o) as [[o1 k]| |] eqn:H; cbn [obind]; try discriminate.
  destruct k; [intros E; injection E as <- <-; now apply (current_handle cf r o)|].
  assert (S1 : s_in (o_s o1) = false) by (destruct (hf_handle cf r o o1 false H) as (_ & -> & _); exact S).
  assert (X : (r =? CharEnter) || (r =? CharCtrlJ) = true \/ r =? CharInterrupt = true \/ r =? CharBell = true -> c_in (o_c o1) = false).
  { intros R. unfold HandleCompleteSelect in H. destruct ((r =? CharEnter) || (r =? CharCtrlJ)).
    - destruct (c_choice (o_c o) <? 0); [discriminate|]. destruct (get _ _); cbn [obind] in H; try discriminate. destruct (WriteRunes _ _); cbn [obind] in H; try discriminate.
      now injection H as <-.
    - destruct R as [R|[R|R]]; [discriminate| |]; apply Z.eqb_eq in R; subst r; vm_compute in H; injection H as <-; reflexivity. }
  destruct ((r =? CharEnter) || (r =? CharCtrlJ)).
  { destruct (Update _ _ _ _); cbn [obind]; try discriminate. intros E. injection E as <- <-. intros C. cbn [with_h o_c] in C. rewrite X in C by auto. discriminate. }
  destruct (r =? CharInterrupt); [intros E; injection E as <- <-; intros C; rewrite X in C by auto; discriminate|].
  destruct (r =? CharBell); [intros E; injection E as <- <-; intros C; rewrite X in C by auto; discriminate|]. now apply Q.
Qed.
