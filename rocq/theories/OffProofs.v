From Verif Require Import Base ListAux RunesModel RuneBufModel RuneBufProofs HistoryModel HistorySpec HistoryProofs HistoryFileProofs
  OpModel OpSpec OpProofs OpProps SessionProps DefaultProofs HistOffSpec AppendSpec AppendProofs OffSpec.
Open Scope nat_scope.

Lemma off_compact c h : (hc_limit c < 0)%Z -> blank (Compact c h).
Proof.
  intros L. assert (E : h_items (Compact c h) = []); [|unfold blank; rewrite E; split; [cbn; lia|constructor]].  rewrite Compact_items. replace (keep c) with 0 by (unfold keep; lia). unfold lastn. rewrite Nat.sub_0_r. apply skipn_all. Qed.
Lemma off_update c s b h h' : (hc_limit c < 0)%Z -> Update c s b h = Ok h' -> blank h'.
Proof.
  intros L E. unfold Update in E. destruct (h_cur h).
  - ob E. injection E as <-. now apply off_compact.
  - injection E as <-. now apply off_compact.
Qed.
Lemma off_path c n h h' : (hc_limit c < 0)%Z -> hpath c n h h' -> n = 0 -> blank h -> blank h'.
Proof.
  intros L P. induction P as [| ? ? ? ? ? ? IH1 ? IH2| | | |]; intros N E; try exact E; try discriminate.
  - apply IH2; [lia|]. apply IH1; [lia|exact E].
  - eapply off_update; eassumption.
Qed.

Lemma enter_lines cf o o' a ks kc upd : key_enter cf o = Ok (o', a, ks, kc, upd) -> s_in (o_s o') = false /\ (upd = true \/ oc_nosave cf = true).
Proof.
  unfold key_enter. intros H. ob H.
  assert (S : s_in (o_s a0) = false).
  { destruct (s_in (o_s o)) eqn:S0; [|injection E as <-; exact S0]. cbn [ExitSearchMode obind] in E. injection E as <-. reflexivity. }
  destruct (oc_nosave cf); cbn [negb] in H.
  - injection H as <- <- <- <- <-. auto.
  - ob H. injection H as <- <- <- <- <-. auto.
Qed.

Lemma switch_lines cf r o o' a ks kc upd : key_switch cf r o = Ok (o', a, ks, kc, upd) -> lines_of a <> [] -> key_enter cf o = Ok (o', a, ks, kc, upd).
Proof.
  unfold key_switch. intros H N.
  repeat match type of H with
    | key_enter _ _ = _ => exact H
    | key_delete _ _ = _ => unfold key_delete in H
    | key_interrupt _ _ = _ => unfold key_interrupt in H
    | edit_buf _ _ = _ => unfold edit_buf in H
    | (if ?b then _ else _) = Ok _ => let B := fresh "B" in destruct b eqn:B; clear B
    | obind ?x _ = Ok _ => destruct x; cbn [obind] in H; try discriminate H
    | match ?x with Some _ => _ | None => _ end = Ok _ => destruct x; try discriminate H
    | (let '(_, _) := ?p in _) = Ok _ => destruct p
    end; try discriminate H;
  injection H as <- <- <- <- <-; elim N;
  try reflexivity; repeat match goal with |- context [if ?b then _ else _] => destruct b end; reflexivity.
Qed.

Lemma switch_off cf r o o' a ks kc upd : history_off cf -> nothing_kept o -> key_switch cf r o = Ok (o', a, ks, kc, upd) ->
  nothing_kept o' \/ (upd = true /\ s_in (o_s o') = false).
Proof.
  intros L K H. pose proof (switch_h _ _ _ _ H) as G. cbn in G. destruct (lines_of a) eqn:E.
  - left. eapply off_path; [exact L|exact G| |exact K]. now destruct (oc_nosave cf).
  - apply switch_lines in H; [|congruence]. destruct (enter_lines _ _ _ _ _ _ _ H) as (S & [U|U]); [right; auto|].
    left. rewrite U in G. eapply off_path; [exact L|exact G|reflexivity|exact K].
Qed.

Lemma after_off cf r o a ks kc upd y : history_off cf -> nothing_kept o \/ (upd = true /\ s_in (o_s o) = false) ->
  after_switch cf r (o, a, ks, kc, upd) = Ok y -> nothing_kept (fst y).
Proof.
  intros L K H. unfold after_switch in H.
  set (o2 := match oc_listen cf with Some _ => _ | None => _ end) in H.
  assert (Q : o_h o2 = o_h o /\ s_in (o_s o2) = s_in (o_s o)).
  { unfold o2. destruct (oc_listen cf); [|auto]. destruct (o0 _ _ _) as [[l p]|]; auto. }
  clearbody o2. destruct Q as (Q1 & Q2). ob H. injection H as <-. cbn [fst].
  assert (G1 : hpath (oc_h cf) 0 (o_h o2) (o_h a0) /\ (s_in (o_s o2) = false -> s_in (o_s a0) = false)).
  { destruct (negb ks && s_in (o_s o2)) eqn:B.
    - split; [now apply (exit_h cf) in E|]. intros _. cbn [ExitSearchMode obind] in E. injection E as <-. reflexivity.
    - destruct (c_in (o_c o2)); [|injection E as <-; split; [apply hp_refl|auto]].
      destruct kc; cbn [negb] in E; [|injection E as <-; split; [apply hp_refl|auto]]. apply refresh_keeps in E. destruct E as (-> & S). split; [apply hp_refl|].
      intros X. first [rewrite S; exact X|congruence]. }
  destruct G1 as (G1 & S1). unfold nothing_kept in *. destruct (upd && negb (s_in (o_s a0))) eqn:B.
  - ob E0. injection E0 as <-. cbn. eapply off_update; eassumption.
  - injection E0 as <-. destruct K as [K|(-> & S)].
    + eapply off_path; [exact L|exact G1|reflexivity|congruence].
    + rewrite S1 in B by congruence. discriminate.
Qed.

Lemma both_off cf r o x : history_off cf -> nothing_kept o -> vim_and_switch cf r o = Ok x -> nothing_kept (fst x).
Proof.
  intros L K. unfold vim_and_switch. destruct (oc_vim cf); intros H.
  - ob H. apply vim_h in E. destruct E as (E & _). assert (K1 : nothing_kept o0) by (unfold nothing_kept in *; now rewrite E). destruct v.
    + destruct (r0 =? 0)%Z; [injection H as <-; exact K1|]. ob H. destruct a as [[[[o1 a1] ks] kc] upd]. eapply after_off; [exact L| |exact H].
      eapply switch_off; eassumption.
    + injection H as <-. exact K1.
    + injection H as <-. exact K1.
  - ob H. destruct a as [[[[o1 a1] ks] kc] upd]. eapply after_off; [exact L| |exact H]. eapply switch_off; eassumption.
Qed.

Lemma step_off cf r o x : history_off cf -> nothing_kept o -> op_step cf r o = Ok x -> nothing_kept (fst x).
Proof.
  intros L K. unfold op_step. destruct (o_end o); [injection 1 as <-; exact K|]. destruct (o_vp o).
  - intros H. ob H. injection H as <-. cbn [fst]. unfold vim_next in E. destruct v; ob E; injection E as <-; exact K.
  - assert (Hk : forall r, handle_key cf r o = Ok x -> nothing_kept (fst x)).
    { clear r. intros r. unfold handle_key. destruct ((r =? 0)%Z && (length (rb_buf (o_b o)) =? 0)); [injection 1 as <-; exact K|].
      destruct (c_sel (o_c o)); [|now apply both_off]. intros H. ob H. apply select_keys_h in E.
      assert (K1 : nothing_kept o0) by (unfold nothing_kept in *; now rewrite E). destruct b; [injection H as <-; exact K1|].
      destruct (((if r =? 0 then CharEnter else r) =? CharEnter) || ((if r =? 0 then CharEnter else r) =? CharCtrlJ))%Z.
      - ob H. injection H as <-. cbn. unfold nothing_kept. eapply off_update; eassumption.
      - destruct ((if r =? 0 then CharEnter else r) =? CharInterrupt)%Z; [injection H as <-; exact K1|].
        destruct ((if r =? 0 then CharEnter else r) =? CharBell)%Z; [injection H as <-; exact K1|].
        now apply (both_off cf _ o0 x L K1) in H. }
    destruct (oc_filter cf) as [f|]; [|apply Hk]. destruct (f r); [apply Hk|]. injection 1 as <-. exact K.
Qed.

Lemma run_off cf rs : history_off cf -> forall o o' a, nothing_kept o -> op_run cf rs o = Ok (o', a) -> nothing_kept o'.
Proof.
  intros L. induction rs as [|r rs IH]; intros o o' a K H; cbn [op_run] in H; [injection H as <- _; exact K|]. ob H.
  injection H as <- _. apply (IH (fst a0) (fst a1) (snd a1)); [eapply step_off; eassumption|]. rewrite E0. now destruct a1.
Qed.

Lemma recall_few cf r o x : browsing_prompt cf o -> length (h_items (o_h o)) <= 1 -> r = CharPrev \/ r = CharNext -> op_step cf r o = Ok x ->
  snd x = [ABell] /\ rb_buf (o_b (fst x)) = rb_buf (o_b o) /\ rb_idx (o_b (fst x)) = rb_idx (o_b o).
Proof.
  intros (N1 & N2 & N3 & N4 & N5 & N6 & N7 & N8) K R H.
  assert (P : Prev (o_h o) = Ok (None, o_h o) /\ Next (o_h o) = Ok (None, o_h o)).
  { unfold Prev, Next, older, newer. destruct (h_items (o_h o)) as [|y [|z l]]; [| |cbn in K; lia]; cbn [split_at_id].
    - destruct (h_cur (o_h o)); auto.
    - destruct (h_cur (o_h o)) as [n|]; auto. destruct (it_id y =? n); auto. }
  destruct P as (P1 & P2).
  assert (S : key_switch cf r o = Ok (with_h (o_h o) o, [ABell], false, false, true)).
  { destruct R as [->| ->]; unfold key_switch; cbn -[Prev Next]; rewrite ?P1, ?P2; reflexivity. }
  unfold op_step in H. rewrite N1, N4, N8 in H. unfold handle_key in H. rewrite N2 in H.
  replace (r =? 0)%Z with false in H by (destruct R as [->| ->]; reflexivity). cbn [andb] in H.
  unfold vim_and_switch in H. rewrite N6 in H. rewrite S in H. cbn [obind] in H. unfold after_switch in H. rewrite N7 in H.
  cbn [negb andb with_h o_s o_c] in H. rewrite N3, N5 in H. cbn [negb andb obind with_h o_s o_b] in H. rewrite N5 in H. cbn [negb] in H.
  ob H. injection H as <-. match goal with X : _ = Ok a |- _ => ob X; injection X as <- end. cbn. auto.
Qed.
Lemma recall_off cf r o x : browsing_prompt cf o -> nothing_kept o -> r = CharPrev \/ r = CharNext -> op_step cf r o = Ok x ->
  snd x = [ABell] /\ rb_buf (o_b (fst x)) = rb_buf (o_b o) /\ rb_idx (o_b (fst x)) = rb_idx (o_b o).
Proof. intros B (K & _). now apply recall_few. Qed.

Lemma load_off c ls : (hc_limit c < 0)%Z -> forall h, h_items h = [] -> h_items (load_lines c ls h) = [].
Proof.
  intros L. induction ls as [|l ls IH]; intros h E; cbn [load_lines]; [exact E|]. apply IH. destruct (length _ =? 0); [exact E|].
  rewrite Compact_items. replace (keep c) with 0 by (unfold keep; lia). unfold lastn. rewrite Nat.sub_0_r. apply skipn_all.
Qed.
Lemma start_off cf disk openable : history_off cf -> nothing_kept (op_new (HInit (oc_h cf) openable (newOpHistory disk))).
Proof.
  intros L. unfold nothing_kept, op_new. cbn [o_h]. unfold HInit. cbn [newOpHistory h_fd].
  assert (B : blank (newOpHistory disk)) by (split; [cbn; lia|constructor]).
  destruct (hc_file (oc_h cf)); [|exact B]. unfold historyUpdatePath. destruct openable; cbn [negb]; [|exact B].
  set (h1 := load_lines _ _ _). assert (E : h_items h1 = []) by (apply load_off; [exact L|reflexivity]). clearbody h1.
  unfold blank, Push, rewriteLocked. destruct (hc_limit (oc_h cf) <? _)%Z; cbn; try (destruct (hc_file (oc_h cf)); cbn); rewrite ?E; cbn; (split; [lia|repeat constructor]).
Qed.

Lemma alone id h : blank h -> older id h = [] /\ newer id h = [].
Proof.
  intros (K & _). unfold older, newer. destruct (h_items h) as [|y [|z l]]; [| |cbn in K; lia]; cbn [split_at_id]; [auto|]. destruct (it_id y =? id); auto.
Qed.
Lemma find_off c (b : bool) new txt start h idx id : blank h ->
  (if b then FindBck c new txt start h else FindFwd c new txt start h) = Ok (Some (idx, id)) -> h_cur h = Some id.
Proof.
  intros B H. destruct b; [unfold FindBck in H|unfold FindFwd in H]; (destruct (h_cur h) as [k|]; [|discriminate]); ob H;
    destruct (alone k h B) as (E1 & E2).
  - rewrite E1 in H. cbn [find_bck_older] in H. destruct (_ <? 0)%Z in H; [discriminate|]. injection H as _ <-. reflexivity.
  - rewrite E2 in H. cbn [find_fwd_newer] in H. destruct (_ <? length _) in H; [|discriminate]. destruct (_ <? 0)%Z in H; [discriminate|].
    injection H as _ <-. reflexivity.
Qed.
