(** Histories of whole sessions with abandoned searches, in the model that knows about shared arrays. *)
From Verif Require Import Base RunesModel RuneBufModel HistoryModel HistorySpec HistoryProofs HistoryFileProofs RenderModel OpModel OpSpec OpProofs OpModes OpHist
  OpAliasModel OpAliasSpec OpAliasProofs OpAliasHist.
Open Scope Z_scope.

(** ** No command of vim mode is pending outside vim mode *)
Definition vp_of (a : aop) := o_vp (a_o a).
Definition same_vp {B} (v : option vpend) (e : outcome (aop * B)) : Prop := forall a x, e = Ok (a, x) -> vp_of a = v.
Definition same_vp1 (v : option vpend) (e : outcome aop) : Prop := forall a, e = Ok a -> vp_of a = v.

Lemma sv_ok {B} a (x : B) : same_vp (vp_of a) (Ok (a, x)).
Proof. intros a' y E. now injection E as <- _. Qed.
Lemma sv_if {B} v (c : bool) (e1 e2 : outcome (aop * B)) : same_vp v e1 -> same_vp v e2 -> same_vp v (if c then e1 else e2).
Proof. now destruct c. Qed.
Lemma sv_bind {A B} v (e : outcome A) (f : A -> outcome (aop * B)) : (forall x, e = Ok x -> same_vp v (f x)) -> same_vp v (obind e f).
Proof. intros H a x E. destruct e; cbn [obind] in E; try discriminate. exact (H a0 eq_refl a x E). Qed.
Lemma vp_put sp o a : vp_of (put sp o a) = o_vp o.
Proof. unfold vp_of, put. now destruct (_ <=? _)%nat. Qed.
Lemma sv_lift sp f a : (forall o, frE o (f o)) -> same_vp1 (vp_of a) (lift sp f a).
Proof.
  intros H a' E. unfold lift in E. destruct (f (a_o a)) as [o| |] eqn:Ef; cbn [obind] in E; try discriminate. injection E as <-.
  rewrite vp_put. apply H in Ef. apply Ef.
Qed.
Lemma sv_b sp a (f : rbuf -> outcome rbuf) : same_vp1 (vp_of a) (lift sp (fun o => b <- f (o_b o) ;; Ok (with_b b o)) a).
Proof. apply sv_lift. intros o o' E. destruct (f (o_b o)); cbn [obind] in E; try discriminate. injection E as <-. repeat split. Qed.
Lemma sv_search sp cf b a : same_vp1 (vp_of a) (a_search sp cf b a).
Proof.
  intros a' E. unfold a_search in E. destruct (search cf b (a_o a)) as [o| |] eqn:Es; cbn [obind] in E; try discriminate.
  apply fr_search in Es. destruct Es as (_ & V & _). destruct (s_data _); [injection E as <-; exact V|].
  destruct (if s_bck _ then _ else _) as [[[n id]|]| |]; cbn [obind] in E; try discriminate.
  - destruct (deref _ _); cbn [obind] in E; try discriminate. injection E as <-. exact V.
  - injection E as <-. exact V.
Qed.
Lemma sv_exit sp b a : same_vp1 (vp_of a) (a_ExitSearchMode sp b a).
Proof.
  intros a' E. unfold a_ExitSearchMode in E. destruct (ExitSearchMode b (a_o a)) as [o| |] eqn:Es; cbn [obind] in E; try discriminate.
  apply fr_exit in Es. destruct Es as (_ & V & _). destruct b; [|injection E as <-; exact V].
  destruct (s_src _); [|discriminate]. destruct (deref _ _); cbn [obind] in E; try discriminate. injection E as <-. exact V.
Qed.
Lemma sv_complete sp cf a : same_vp1 (vp_of a) (a_complete sp cf a).
Proof.
  unfold a_complete. destruct (c_in _).
  - destruct (oc_auto cf) as [Do|]; [|discriminate]. apply sv_lift. intros o. apply fr_complete.
  - intros a' E. now injection E as <-.
Qed.
Lemma sv_sw sp f a : (forall o, frS o (f o)) -> same_vp (vp_of a) (lift_sw sp f a).
Proof.
  intros H a' x E. unfold lift_sw in E. destruct (f (a_o a)) as [y| |] eqn:Ef; cbn [obind] in E; try discriminate. injection E as <- <-.
  rewrite vp_put. apply H in Ef. apply Ef.
Qed.

Lemma sv_switch sp cf r a : same_vp (vp_of a) (a_key_switch sp cf r a).
Proof.
  assert (X : forall a1 x, vp_of a1 = vp_of a -> same_vp (vp_of a) (Ok (a1, x) : outcome (aop * swres))) by (intros a1 x <-; apply sv_ok).
  unfold a_key_switch. apply sv_if.
  { apply sv_bind. intros a1 E. apply X.
    assert (V : vp_of a1 = vp_of a) by (destruct (s_in _); [now apply sv_exit in E|now injection E as <-]).
    unfold vp_of in *. cbn [put_rest a_o]. now destruct (c_in _). }
  apply sv_if.
  { apply sv_bind. intros [a1 k] E. apply X. cbn [fst]. unfold a_SearchMode in E. destruct (oc_w cf =? 0); [now injection E as <- _|].
    destruct (s_in _).
    - destruct (a_search _ _ _ _) as [a2| |] eqn:Es; cbn [obind] in E; try discriminate. injection E as <- _. apply sv_search in Es. exact Es.
    - destruct (SearchRefresh _ _ _) as [o2| |] eqn:Es; cbn [obind] in E; try discriminate. injection E as <- _. apply fr_refresh in Es. destruct Es as (_ & V & _). exact V. }
  apply sv_if.
  { apply sv_if.
    - apply sv_bind. intros a1 E. apply X. unfold a_SearchBackspace in E. destruct (s_data _); [now injection E as <-|]. apply sv_search in E. exact E.
    - apply sv_if; [now apply X|]. apply sv_bind. intros a1 E. apply sv_bind. intros a2 E2. apply X.
      apply sv_complete in E2. rewrite E2. now apply sv_b in E. }
  apply sv_if.
  { apply sv_bind. intros a1 E. apply X. unfold a_yank in E. destruct (Yank _); cbn [obind] in E; try discriminate. destruct (rb_kill _); now injection E as <-. }
  apply sv_if.
  { unfold a_enter. apply sv_bind. intros a1 E.
    assert (V : vp_of a1 = vp_of a) by (destruct (s_in _); [now apply sv_exit in E|now injection E as <-]).
    apply sv_bind. intros b _. apply sv_bind. intros [d a2] E2.
    assert (V2 : vp_of a2 = vp_of a).
    { destruct (negb (oc_unique cf)).
      - destruct (WriteRunes [10] b); cbn [obind] in E2; try discriminate. unfold Reset in E2. cbn iota in E2.
        destruct (slice _ _ _); cbn [obind] in E2; try discriminate. injection E2 as _ <-. rewrite <- V. etransitivity; [apply (vp_put sp)|reflexivity].
      - unfold Reset in E2. injection E2 as _ <-. exact V. }
    destruct (negb (oc_nosave cf)); [apply sv_bind; intros h _; apply X; exact V2|now apply X]. }
  apply sv_if.
  { apply sv_bind. intros x E. apply sv_bind. intros y _ a1 z E2. apply fr_switch in E. destruct E as (_ & V & _).
    destruct (fst y); injection E2 as <- _; exact V. }
  apply sv_if.
  { unfold a_delete. apply sv_if.
    - apply sv_sw. intros o x E. apply (fr_switch cf CharDelete o x). exact E.
    - apply sv_bind. intros a1 E. apply X. assert (V : vp_of a1 = vp_of a) by (destruct (negb _); [now apply sv_b in E|now injection E as <-]). exact V. }
  apply sv_if.
  { unfold a_interrupt. apply sv_if; [apply sv_bind; intros a1 E; apply X; now apply sv_exit in E|].
    apply sv_if; [apply sv_sw; intros o x E; apply (fr_switch cf CharInterrupt o x); exact E|].
    apply sv_bind. intros b _. apply sv_bind. intros a1 E.
    assert (V : vp_of a1 = vp_of a).
    { destruct (negb _); [|now injection E as <-]. destruct (WriteRunes _ b); cbn [obind] in E; try discriminate. injection E as <-. apply vp_put. }
    unfold Reset. apply sv_bind. intros l _. apply X. exact V. }
  apply sv_if; [apply sv_sw; intros o; apply fr_switch|].
  apply sv_if.
  { apply sv_bind. intros a1 E. apply X. unfold a_SearchChar in E. apply sv_search in E. exact E. }
  apply sv_bind. intros a1 E. apply sv_bind. intros a2 E2. apply X. apply sv_complete in E2. rewrite E2. now apply sv_b in E.
Qed.

Lemma sv_after sp cf r a x : same_vp (vp_of a) (a_after_switch sp cf r (a, x)).
Proof.
  destruct x as [[[[o0 acts] ks] kc] upd]. unfold a_after_switch. set (a1 := match oc_listen cf with Some f => _ | None => a end).
  assert (V1 : vp_of a1 = vp_of a). { subst a1. destruct (oc_listen cf) as [f|]; [|reflexivity]. now destruct (f _ _ _) as [[l p]|]. }
  clearbody a1. apply sv_bind. intros a2 E2.
  assert (V2 : vp_of a2 = vp_of a).
  { destruct (negb ks && _); [apply sv_exit in E2; congruence|]. destruct (c_in _); [|now injection E2 as <-].
    destruct (negb kc); [injection E2 as <-; exact V1|]. destruct (CompleteRefresh _ _) as [o2| |] eqn:Em; cbn [obind] in E2; try discriminate.
    injection E2 as <-. apply fr_menu in Em. destruct Em as (_ & V & _). rewrite <- V1. exact V. }
  apply sv_bind. intros a3 E3. rewrite <- V2. destruct (upd && _).
  - destruct (Update _ _ _ _); cbn [obind] in E3; try discriminate. injection E3 as <-. intros a4 x E. injection E as <- _. reflexivity.
  - injection E3 as <-. intros a4 x E. injection E as <- _. reflexivity.
Qed.

Lemma sv_step sp cf r a : oc_vim cf = false -> vp_of a = None -> same_vp None (a_step sp cf r a).
Proof.
  intros Vi V. assert (X : forall a1 x, vp_of a1 = None -> same_vp None (Ok (a1, x) : outcome (aop * list act))) by (intros a1 x <-; apply sv_ok).
  assert (W : forall r a1, vp_of a1 = None -> same_vp None (a_vim_and_switch sp cf r a1)).
  { intros r0 a1 V1. unfold a_vim_and_switch. rewrite Vi. apply sv_bind. intros [a2 x] E. apply sv_switch in E. rewrite <- V1, <- E. apply sv_after. }
  assert (K : forall r, same_vp None (a_handle_key sp cf r a)).
  { intros r0. unfold a_handle_key. apply sv_if; [now apply X|]. apply sv_if; [|now apply W]. apply sv_bind. intros [o1 k] E.
    apply fr_handle in E. destruct E as (_ & E & _).
    assert (V1 : vp_of (put sp o1 a) = None) by (rewrite vp_put, E; exact V).
    apply sv_if; [now apply X|]. apply sv_if; [apply sv_bind; intros h _; now apply X|]. apply sv_if; [now apply X|]. apply sv_if; [now apply X|]. now apply W. }
  unfold a_step. apply sv_if; [now apply X|]. unfold vp_of in V. rewrite V. destruct (oc_filter cf) as [f|]; [|apply K].
  destruct (f r); [apply K|now apply X].
Qed.

(** ** Sessions *)
Lemma arun_hist file cf rs : 1 <= hc_limit (oc_h cf) -> oc_vim cf = false -> oc_nosave cf = false -> oc_filter cf = None ->
  forall R a a' l, o_vp (a_o a) = None -> akeeps file cf a R -> given_up cf rs a -> a_run cf rs a = Ok (a', l) -> cleans file l -> akeeps file cf a' (rec R l).
Proof.
  intros Hl Vi Ns Fi. induction rs as [|[r sp] rs IH]; intros R a a' l Vp K Se E Cl; cbn [a_run given_up] in *.
  - injection E as <- <-. exact K.
  - destruct (a_step sp cf r a) as [[a1 l1]| |] eqn:E1; cbn [obind fst snd] in E; try discriminate.
    destruct (a_run cf rs a1) as [[a2 l2]| |] eqn:E2; cbn [obind fst snd] in E; try discriminate. injection E as <- <-.
    assert (C1 : cleans file l1 /\ cleans file l2). { unfold cleans in *. rewrite lines_app in Cl. split; intros F; specialize (Cl F); now apply Forall_app in Cl. }
    pose proof (step_akeeps file cf Hl Vi Ns Fi sp r R a a1 l1 Vp K (proj1 Se) E1 (proj1 C1)) as K1.
    rewrite rec_app. apply (IH (rec R l1) a1 a2 l2); auto; [exact (sv_step sp cf r a Vi Vp a1 l1 E1)|exact (proj2 Se a1 l1 eq_refl)|apply C1].
Qed.

Lemma new_akeeps file cf h R : hwf h -> tracks file (oc_h cf) h R -> blank h -> akeeps file cf (a_new h) R.
Proof.
  intros W T B. pose proof (op_rests file cf h R W T) as K. pose proof (tracks_cur _ _ _ _ T) as (id & Bi & C).
  constructor; cbn; auto; try discriminate. intros _.
  apply (back_own file cf h R); [apply (ku_h _ _ _ _ K)|exact B|congruence].
Qed.

Lemma akeys_recorded cf h R rs a l : 1 <= hc_limit (oc_h cf) -> oc_vim cf = false -> oc_nosave cf = false -> oc_filter cf = None ->
  rests (oc_h cf) h R -> blank h -> given_up cf rs (a_new h) -> a_run cf rs (a_new h) = Ok (a, l) ->
  exists n, committed (o_h (a_o a)) = lastn n (recorded R (map Submit (lines_of l))) /\ (n <= keep (oc_h cf))%nat /\
    (Nat.min (length (recorded R (map Submit (lines_of l)))) (keep (oc_h cf) - 1) <= n)%nat.
Proof.
  intros Hl Vi Ns Fi T B Se E. assert (W : hwf h) by (destruct T as (? & ? & (X & _) & _); exact X).
  pose proof (arun_hist false cf rs Hl Vi Ns Fi R (a_new h) a l eq_refl (new_akeeps false cf h R W T B) Se E ltac:(intros X; discriminate)) as K.
  destruct (ak_k _ _ _ _ K) as [(W' & (com & e & (_ & I & _) & _ & K')) _ _].
  change (h_items (to_back (o_h (a_o a)))) with (h_items (o_h (a_o a))) in I. destruct K' as (K1 & K2 & K3). exists (length com).
  unfold committed. rewrite I, removelast_last. auto.
Qed.

Lemma open_blank c ls : hc_file c = true -> Forall clean_line ls -> blank (openf c (flat_map file_line ls)).
Proof.
  intros F Cl. destruct (open_spec c ls [] F Cl (fun x => x)) as (_ & _ & _ & (com & e & (_ & I & _) & _ & S) & _). rewrite app_nil_r in I.
  intros x E. unfold back in E. rewrite I, rev_unit in E. injection E as <-. exact S.
Qed.

Lemma akeys_saved cf c' ls rs a l : 1 <= hc_limit (oc_h cf) -> oc_vim cf = false -> oc_nosave cf = false -> oc_filter cf = None ->
  hc_file (oc_h cf) = true -> hc_file c' = true -> hc_limit c' <= hc_limit (oc_h cf) -> Forall clean_line ls ->
  let h := openf (oc_h cf) (flat_map file_line ls) in
  given_up cf rs (a_new h) -> a_run cf rs (a_new h) = Ok (a, l) -> Forall (fun l => l = [] \/ clean_line l) (lines_of l) ->
  committed (openf c' (h_disk (HClose (o_h (a_o a))))) = lastn (keep c') (recorded (lastn (keep (oc_h cf)) ls) (map Submit (lines_of l))).
Proof.
  intros Hl Vi Ns Fi Hf Hf' Le Cl h Se E Ca. destruct (open_persisted (oc_h cf) ls Hl Hf Cl) as (F & P).
  assert (W : hwf h) by (destruct P as ((? & ? & (X & _) & _) & _); exact X).
  pose proof (arun_hist true cf rs Hl Vi Ns Fi _ (a_new h) a l eq_refl (new_akeeps true cf h _ W (ex_intro _ F P) (open_blank _ ls Hf Cl)) Se E ltac:(intros _; exact Ca)) as K.
  destruct (ak_k _ _ _ _ K) as [(W' & (F' & _ & P2 & P3 & P4 & P5)) _ _].
  change (h_fd (to_back (o_h (a_o a)))) with (h_fd (o_h (a_o a))) in P2. change (h_disk (to_back (o_h (a_o a)))) with (h_disk (o_h (a_o a))) in P3.
  unfold HClose. rewrite P2. cbn [set_file h_disk]. rewrite P3. rewrite <- (app_nil_r (flat_map file_line F')).
  rewrite open_committed by (auto; intros []).
  assert (X : Nat.min (keep c') (keep (oc_h cf)) = keep c') by (unfold keep; lia).
  rewrite <- X, <- !lastn_lastn. unfold rec in P5. rewrite P5. reflexivity.
Qed.
