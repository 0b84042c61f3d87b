(** Without the search keys nothing is shared, and the editor of OpModel.v is the one of OpAliasModel.v. *)
From Verif Require Import Base ListAux RunesModel RunesProofs RuneBufModel RuneBufSpec RuneBufProofs HistoryModel HistorySpec HistoryProofs HistoryFileProofs
  RenderModel OpModel OpSpec OpProofs OpStep OpKeys OpModes OpHist OpAliasModel.
From Coq Require Import ZifyBool.
Open Scope Z_scope.

Lemma put_none sp o a : a_al a = None -> a_o (put sp o a) = o /\ a_al (put sp o a) = None.
Proof.
  intros N. unfold put. destruct (_ <=? _)%nat; [|split; reflexivity]. cbn. rewrite N. cbn. split; [destruct o; reflexivity|reflexivity].
Qed.

Definition fst4 (x : swres) : op := fst (fst (fst (fst x))).

(** results agree, with nothing shared *)
Definition same1 (e : outcome op) (ea : outcome aop) : Prop :=
  match e with
  | Ok o => exists a, ea = Ok a /\ a_o a = o /\ a_al a = None
  | Panic => ea = Panic
  | Hang => ea = Hang
  end.
Definition sames (e : outcome swres) (ea : outcome (aop * swres)) : Prop :=
  match e with
  | Ok x => exists a, ea = Ok (a, x) /\ a_o a = fst4 x /\ a_al a = None
  | Panic => ea = Panic
  | Hang => ea = Hang
  end.
Definition samea (e : outcome (op * list act)) (ea : outcome (aop * list act)) : Prop :=
  match e with
  | Ok x => exists a, ea = Ok (a, snd x) /\ a_o a = fst x /\ a_al a = None
  | Panic => ea = Panic
  | Hang => ea = Hang
  end.

Section same.
Variable sp : list Z -> list Z.
Variable cf : ocfg.

Lemma lift_same f a : a_al a = None -> same1 (f (a_o a)) (lift sp f a).
Proof. intros N. unfold lift, same1. destruct (f (a_o a)) as [o| |]; cbn [obind]; auto. exists (put sp o a). split; [reflexivity|now apply put_none]. Qed.

Lemma lift_sw_same f a : a_al a = None -> sames (f (a_o a)) (lift_sw sp f a).
Proof.
  intros N. unfold lift_sw, sames. destruct (f (a_o a)) as [x| |]; cbn [obind]; auto.
  exists (put sp (fst4 x) a). split; [reflexivity|now apply put_none].
Qed.

Lemma sames_ret e ea acts ks kc : same1 e ea ->
  sames (o <- e ;; Ok (o, acts, ks, kc, true)) (a <- ea ;; Ok (a, (a_o a, acts, ks, kc, true))).
Proof.
  unfold same1, sames. destruct e as [o| |]; cbn [obind]; [|intros ->; reflexivity|intros ->; reflexivity].
  intros (a & -> & E & N). cbn [obind]. exists a. split; [now rewrite E|split; [exact E|exact N]].
Qed.

Lemma same1_bind e ea f fa : same1 e ea -> (forall o a, e = Ok o -> a_o a = o -> a_al a = None -> same1 (f o) (fa a)) ->
  same1 (o <- e ;; f o) (a <- ea ;; fa a).
Proof.
  intros S H. unfold same1 in S. destruct e as [o| |]; cbn [obind]; [|subst ea; reflexivity|subst ea; reflexivity].
  destruct S as (a & -> & E & N). cbn [obind]. now apply (H o a).
Qed.

Lemma sames_bind e ea f fa : same1 e ea -> (forall o a, e = Ok o -> a_o a = o -> a_al a = None -> sames (f o) (fa a)) ->
  sames (o <- e ;; f o) (a <- ea ;; fa a).
Proof.
  intros S H. unfold same1 in S. destruct e as [o| |]; cbn [obind]; [|subst ea; reflexivity|subst ea; reflexivity].
  destruct S as (a & -> & E & N). cbn [obind]. now apply (H o a).
Qed.

Lemma enter_same a : a_al a = None -> s_in (o_s (a_o a)) = false -> sames (key_enter cf (a_o a)) (a_enter sp cf a).
Proof.
  intros N S. unfold key_enter, a_enter. rewrite S. cbn [obind].
  destruct (MoveToLineEnd (o_b (a_o a))) as [b| |]; cbn [obind]; try reflexivity.
  destruct (negb (oc_unique cf)).
  - destruct (WriteRunes [10] b) as [b1| |]; cbn [obind]; try reflexivity. cbn [Reset].
    destruct (put_none sp (with_b b1 (a_o a)) a N) as (P1 & P2). destruct (slice 0 _ _) as [d| |]; cbn [obind]; try reflexivity.
    set (a2 := put sp (with_b b1 (a_o a)) a) in *. clearbody a2. cbn [put_rest a_o with_b]. rewrite P1. cbn [o_h with_b o_s o_c o_vn o_vp o_end].
    destruct (negb (oc_nosave cf)).
    + destruct (New (oc_h cf) d (o_h (a_o a))) as [h| |]; cbn [obind]; try reflexivity. eexists. split; [reflexivity|]. split; [reflexivity|].
      cbn [a_al put_rest]. rewrite P2. reflexivity.
    + eexists. split; [reflexivity|]. split; [reflexivity|exact P2].
  - cbn [Reset obind put_rest a_o o_h with_b]. destruct (negb (oc_nosave cf)).
    + destruct (New (oc_h cf) _ (o_h (a_o a))) as [h| |]; cbn [obind]; try reflexivity. eexists. split; [reflexivity|]. split; [reflexivity|].
      cbn [a_al put_rest]. rewrite N. reflexivity.
    + eexists. split; [reflexivity|]. split; [reflexivity|exact N].
Qed.

Lemma delete_same a : a_al a = None -> sames (key_delete cf (a_o a)) (a_delete sp cf a).
Proof.
  intros N. unfold a_delete. destruct ((0 <? _)%nat || _) eqn:C; [now apply lift_sw_same|].
  unfold key_delete. rewrite C. destruct (negb (oc_unique cf)).
  - pose proof (lift_same (fun o => b <- WriteRunes (oc_eofp cf ++ [10]) (o_b o) ;; Ok (with_b b o)) a N) as L. cbv beta in L.
    destruct (WriteRunes _ _) as [b| |]; cbn [obind] in *; [|unfold same1 in L; rewrite L; reflexivity|unfold same1 in L; rewrite L; reflexivity].
    destruct L as (a1 & -> & E & N1). cbn [obind]. rewrite E. cbn [Reset snd o_b with_b o_h]. eexists. split; [reflexivity|]. split; [reflexivity|exact N1].
  - cbn [obind]. eexists. split; [reflexivity|]. split; [reflexivity|exact N].
Qed.

Lemma interrupt_same a : a_al a = None -> s_in (o_s (a_o a)) = false -> sames (key_interrupt cf (a_o a)) (a_interrupt sp cf a).
Proof.
  intros N S. unfold a_interrupt. rewrite S. destruct (c_in (o_c (a_o a))) eqn:C; [now apply lift_sw_same|].
  unfold key_interrupt. rewrite S, C. destruct (MoveToLineEnd (o_b (a_o a))) as [b| |]; cbn [obind]; try reflexivity.
  destruct (negb (oc_unique cf)).
  - destruct (WriteRunes _ b) as [b1| |]; cbn [obind]; try reflexivity. destruct (put_none sp (with_b b1 (a_o a)) a N) as (P1 & P2).
    set (a2 := put sp (with_b b1 (a_o a)) a) in *. clearbody a2. rewrite P1. cbn [Reset o_b with_b].
    destruct (_ <? _)%nat; [reflexivity|]. destruct (slice _ _ _) as [d| |]; cbn [obind]; try reflexivity.
    eexists. split; [reflexivity|]. split; [reflexivity|exact P2].
  - cbn [obind put_rest a_o with_b Reset o_b]. eexists. split; [reflexivity|]. split; [reflexivity|exact N].
Qed.

Lemma complete_same a : a_al a = None -> same1 (if c_in (o_c (a_o a)) then match oc_auto cf with Some Do => OnComplete cf Do (a_o a) | None => Panic end else Ok (a_o a))
  (a_complete sp cf a).
Proof.
  intros N. unfold a_complete. destruct (c_in _); [|exists a; auto]. destruct (oc_auto cf); [now apply lift_same|reflexivity].
Qed.

Lemma yank_same a : a_al a = None -> sames (edit_buf (Yank (o_b (a_o a))) (a_o a))
  (a1 <- a_yank sp a ;; Ok (a1, (a_o a1, [], false, false, true))).
Proof.
  intros N. unfold edit_buf, a_yank. destruct (Yank _) as [b| |]; cbn [obind]; try reflexivity.
  destruct (rb_kill (o_b (a_o a))); eexists; (split; [reflexivity|]); (split; [reflexivity|auto]).
Qed.

Ltac keys := unfold CharBell, CharTab, CharBckSearch, CharFwdSearch, CharCtrlU, CharKill, MetaForward, CharTranspose, MetaBackward, MetaDelete,
  CharLineStart, CharLineEnd, CharBackspace, CharCtrlH, CharCtrlZ, CharCtrlL, MetaBackspace, CharCtrlW, CharCtrlY, CharEnter, CharCtrlJ, CharBackward,
  CharForward, CharPrev, CharNext, CharDelete, CharInterrupt in *.
Ltac key k := match goal with |- sames (key_switch _ ?r _) _ => destruct (Z.eqb_spec r k);
  [subst r; unfold a_key_switch; keys; cbn [Z.eqb Pos.eqb orb]|] end.
Ltac open := unfold key_switch; keys; cbn [Z.eqb Pos.eqb orb].

Lemma switch_same r a : r <> 18 -> r <> 19 -> a_al a = None -> s_in (o_s (a_o a)) = false ->
  sames (key_switch cf r (a_o a)) (a_key_switch sp cf r a).
Proof.
  intros N1 N2 N S.
  key 7. { open. rewrite S. cbn [obind]. eexists. split; [reflexivity|]. split; [reflexivity|exact N]. }
  key 127. { open. rewrite S. destruct (_ =? _)%nat; [eexists; split; [reflexivity|]; split; [reflexivity|exact N]|].
    pose proof (lift_same (fun o => b <- BufBackspace (o_b o) ;; Ok (with_b b o)) a N) as L. cbv beta in L.
    destruct (BufBackspace _) as [b| |]; cbn [obind] in *; [|unfold same1 in L; rewrite L; reflexivity|unfold same1 in L; rewrite L; reflexivity].
    destruct L as (a1 & -> & E & N3). cbn [obind]. rewrite <- E. apply sames_ret. now apply complete_same. }
  key 8. { open. rewrite S. destruct (_ =? _)%nat; [eexists; split; [reflexivity|]; split; [reflexivity|exact N]|].
    pose proof (lift_same (fun o => b <- BufBackspace (o_b o) ;; Ok (with_b b o)) a N) as L. cbv beta in L.
    destruct (BufBackspace _) as [b| |]; cbn [obind] in *; [|unfold same1 in L; rewrite L; reflexivity|unfold same1 in L; rewrite L; reflexivity].
    destruct L as (a1 & -> & E & N3). cbn [obind]. rewrite <- E. apply sames_ret. now apply complete_same. }
  key 25. { open. now apply yank_same. }
  key 13. { open. now apply enter_same. }
  key 10. { open. now apply enter_same. }
  key 16. { open. destruct (Prev (o_h (a_o a))) as [[[l|] h]| |]; cbn [obind fst snd]; try reflexivity;
    (eexists; split; [reflexivity|]; split; [reflexivity|auto]). }
  key 14. { open. destruct (Next (o_h (a_o a))) as [[[l|] h]| |]; cbn [obind fst snd]; try reflexivity;
    (eexists; split; [reflexivity|]; split; [reflexivity|auto]). }
  key 4. { open. now apply delete_same. }
  key 3. { open. now apply interrupt_same. }
  key 9. { now apply lift_sw_same. } key 21. { now apply lift_sw_same. } key 11. { now apply lift_sw_same. }
  key (-2). { now apply lift_sw_same. } key 20. { now apply lift_sw_same. } key (-1). { now apply lift_sw_same. }
  key (-3). { now apply lift_sw_same. } key 1. { now apply lift_sw_same. } key 5. { now apply lift_sw_same. }
  key 26. { now apply lift_sw_same. } key 12. { now apply lift_sw_same. } key (-4). { now apply lift_sw_same. }
  key 23. { now apply lift_sw_same. } key 2. { now apply lift_sw_same. } key 6. { now apply lift_sw_same. }
  unfold key_switch, a_key_switch. keys.
  repeat match goal with H : r <> ?k |- _ => apply Z.eqb_neq in H; rewrite ?H; clear H end. cbn [orb].
  rewrite S.
  pose proof (lift_same (fun o => b <- WriteRunes [r] (o_b o) ;; Ok (with_b b o)) a N) as L. cbv beta in L.
  destruct (WriteRunes _ _) as [b| |]; cbn [obind] in *; [|unfold same1 in L; rewrite L; reflexivity|unfold same1 in L; rewrite L; reflexivity].
  destruct L as (a1 & -> & E & N3). cbn [obind]. rewrite <- E. pose proof (complete_same a1 N3) as C. destruct (c_in (o_c (a_o a1))) eqn:Ci.
  - destruct (oc_auto cf); [|unfold same1 in C; rewrite C; reflexivity]. now apply sames_ret.
  - unfold a_complete. rewrite Ci. cbn [obind]. eexists. split; [reflexivity|]. split; [reflexivity|exact N3].
Qed.

Lemma after_same r a x : a_o a = fst4 x -> a_al a = None -> samea (after_switch cf r x) (a_after_switch sp cf r (a, x)).
Proof.
  intros E N. destruct x as [[[[o acts] ks] kc] upd]. cbn [fst4 fst] in E. unfold after_switch, a_after_switch. rewrite E.
  set (o1 := match oc_listen cf with Some f => _ | None => o end).
  set (a1 := match oc_listen cf with Some f => _ | None => a end).
  assert (A : a_o a1 = o1 /\ a_al a1 = None).
  { subst o1 a1. destruct (oc_listen cf) as [f|]; [|auto]. destruct (f _ _ _) as [[l p]|]; auto. }
  destruct A as (A1 & A2). clearbody o1 a1. subst o1.
  set (e := if negb ks && s_in (o_s (a_o a1)) then ExitSearchMode false (a_o a1) else _).
  set (ea := if negb ks && s_in (o_s (a_o a1)) then a_ExitSearchMode sp false a1 else _).
  assert (S : same1 e ea).
  { subst e ea. destruct (negb ks && s_in (o_s (a_o a1))).
    - cbn [ExitSearchMode a_ExitSearchMode obind]. eexists. split; [reflexivity|]. split; [reflexivity|exact A2].
    - destruct (c_in _); [destruct (negb kc)|].
      + eexists. split; [reflexivity|]. split; [reflexivity|exact A2].
      + destruct (CompleteRefresh _ _) as [o2| |]; cbn [obind]; try reflexivity. eexists. split; [reflexivity|]. split; [reflexivity|exact A2].
      + eexists. split; [reflexivity|]. split; [reflexivity|exact A2]. }
  clearbody e ea. destruct e as [o2| |]; cbn [obind]; [|unfold same1 in S; rewrite S; reflexivity|unfold same1 in S; rewrite S; reflexivity].
  destruct S as (a2 & -> & B1 & B2). cbn [obind]. rewrite B1. destruct (upd && _).
  - destruct (Update _ _ _ _) as [h| |]; cbn [obind]; try reflexivity. eexists. split; [reflexivity|]. split; [reflexivity|exact B2].
  - cbn [obind]. eexists. split; [reflexivity|]. split; [exact B1|exact B2].
Qed.

Lemma sw_after_same r a : r <> 18 -> r <> 19 -> a_al a = None -> s_in (o_s (a_o a)) = false ->
  samea (y <- key_switch cf r (a_o a) ;; after_switch cf r y) (y <- a_key_switch sp cf r a ;; a_after_switch sp cf r y).
Proof.
  intros N1 N2 N S. pose proof (switch_same r a N1 N2 N S) as K. destruct (key_switch cf r (a_o a)) as [x| |]; cbn [obind] in *;
    [|unfold sames in K; rewrite K; reflexivity|unfold sames in K; rewrite K; reflexivity].
  destruct K as (a1 & -> & E & N3). cbn [obind]. now apply after_same.
Qed.

(** vim commands do not start or end a search *)
Lemma vim_s r o o1 v acts : HandleVim r o = Ok (o1, v, acts) -> o_s o1 = o_s o /\ (forall k, v = VKey k -> r <> 18 -> r <> 19 -> k <> 18 /\ k <> 19).
Proof.
  unfold HandleVim. destruct (o_vn o).
  2:{ destruct (r =? CharEsc); intros E; injection E as <- <- <-; split; [reflexivity|discriminate|reflexivity|]. intros k E. injection E as <-. auto. }
  unfold HandleVimNormal.
  repeat match goal with
  | |- (if ?c then _ else _) = _ -> _ => destruct c eqn:?
  | |- obind ?e _ = _ -> _ => destruct e; cbn [obind]; try discriminate
  | |- Ok _ = Ok _ -> _ => let E := fresh in intros E; injection E as <- <- <-; split; [reflexivity|];
       (discriminate || (intros k E; injection E as <-; intros; keys; unfold CharBackward, CharNext, CharPrev, CharForward; split; lia || assumption))
  end.
Qed.

Lemma vim_same r a : r <> 18 -> r <> 19 -> a_al a = None -> s_in (o_s (a_o a)) = false ->
  samea (vim_and_switch cf r (a_o a)) (a_vim_and_switch sp cf r a).
Proof.
  intros N1 N2 N S. unfold vim_and_switch, a_vim_and_switch. destruct (oc_vim cf); [|now apply sw_after_same].
  unfold a_HandleVim. destruct (HandleVim r (a_o a)) as [[[o1 v] acts]| |] eqn:H; cbn [obind]; try reflexivity.
  destruct (vim_s _ _ _ _ _ H) as (V1 & V2).
  set (a1 := if _ && _ && _ then _ else _). assert (A : a_o a1 = o1 /\ a_al a1 = None).
  { subst a1. destruct (_ && _ && _); [auto|now apply put_none]. }
  clearbody a1. destruct A as (A1 & A2). destruct v as [k| |p].
  - destruct (k =? 0); [eexists; split; [reflexivity|]; split; [exact A1|exact A2]|]. rewrite <- A1.
    destruct (V2 k eq_refl N1 N2). apply sw_after_same; auto. rewrite A1, V1. exact S.
  - eexists; split; [reflexivity|]; split; [exact A1|exact A2].
  - rewrite A1. eexists. split; [reflexivity|]. split; [reflexivity|exact A2].
Qed.

Lemma handle_same r a : r <> 18 -> r <> 19 -> a_al a = None -> s_in (o_s (a_o a)) = false ->
  samea (handle_key cf r (a_o a)) (a_handle_key sp cf r a).
Proof.
  intros N1 N2 N S. unfold handle_key, a_handle_key.
  destruct ((r =? 0) && _); [eexists; split; [reflexivity|]; split; [reflexivity|exact N]|].
  set (r1 := if r =? 0 then CharEnter else r).
  assert (R1 : r1 <> 18 /\ r1 <> 19) by (unfold r1; destruct (r =? 0); [unfold CharEnter|]; split; lia || assumption). destruct R1 as (R1 & R2).
  clearbody r1. destruct (c_sel (o_c (a_o a))); [|now apply vim_same].
  destruct (HandleCompleteSelect cf r1 (a_o a)) as [[o1 k]| |] eqn:H; cbn [obind]; try reflexivity.
  destruct (put_none sp o1 a N) as (P1 & P2). set (a1 := put sp o1 a) in *. clearbody a1. rewrite <- P1.
  destruct k; [eexists; split; [reflexivity|]; split; [reflexivity|exact P2]|].
  destruct (_ || _).
  { destruct (Update _ _ _ _) as [h| |]; cbn [obind]; try reflexivity. eexists. split; [reflexivity|]. split; [reflexivity|exact P2]. }
  destruct (r1 =? CharInterrupt); [eexists; split; [reflexivity|]; split; [reflexivity|exact P2]|].
  destruct (r1 =? CharBell); [eexists; split; [reflexivity|]; split; [reflexivity|exact P2]|].
  apply vim_same; auto. rewrite P1. destruct (hf_handle cf r1 _ _ _ H) as (_ & -> & _). exact S.
Qed.

(** what the filter lets through *)
Definition passed (r : Z) : option Z := match oc_filter cf with None => Some r | Some f => f r end.
Definition not_search (r : Z) : Prop := forall k, passed r = Some k -> k <> 18 /\ k <> 19.

Lemma step_same r a : not_search r -> a_al a = None -> s_in (o_s (a_o a)) = false ->
  samea (op_step cf r (a_o a)) (a_step sp cf r a).
Proof.
  intros Ns N S. unfold op_step, a_step. destruct (o_end (a_o a)); [eexists; split; [reflexivity|]; split; [reflexivity|exact N]|].
  destruct (o_vp (a_o a)) as [p|].
  - pose proof (lift_same (vim_next p r) a N) as L. destruct (vim_next p r (a_o a)) as [o1| |]; cbn [obind] in *;
      [|unfold same1 in L; rewrite L; reflexivity|unfold same1 in L; rewrite L; reflexivity].
    destruct L as (a1 & -> & E & N3). cbn [obind]. eexists. split; [reflexivity|]. split; [exact E|exact N3].
  - unfold not_search, passed in Ns. destruct (oc_filter cf) as [f|].
    + destruct (f r) as [k|]; [|eexists; split; [reflexivity|]; split; [reflexivity|exact N]].
      destruct (Ns k eq_refl). now apply handle_same.
    + destruct (Ns r eq_refl). now apply handle_same.
Qed.
End same.

(** ** Runs *)
Section runs.
Variable cf : ocfg.

Lemma next_s p r o o' : vim_next p r o = Ok o' -> o_s o' = o_s o.
Proof.
  unfold vim_next. destruct p.
  - destruct (Replace r (o_b o)); cbn [obind]; try discriminate. intros E. now injection E as <-.
  - match goal with |- obind ?e _ = _ -> _ => destruct e; cbn [obind]; try discriminate end. intros E. now injection E as <-.
  - match goal with |- obind ?e _ = _ -> _ => destruct e; cbn [obind]; try discriminate end. intros E. now injection E as <-.
  - match goal with |- obind ?e _ = _ -> _ => destruct e; cbn [obind]; try discriminate end. intros E. now injection E as <-.
Qed.

Lemma calm_any r o o' a : not_search cf r -> s_in (o_s o) = false -> op_step cf r o = Ok (o', a) -> s_in (o_s o') = false.
Proof.
  intros Ns S. unfold op_step. destruct (o_end o); [intros E; injection E as <- <-; exact S|].
  destruct (o_vp o) as [p|].
  { destruct (vim_next p r o) as [o1| |] eqn:E; cbn [obind]; try discriminate. intros X. injection X as <- <-. apply next_s in E. now rewrite E. }
  assert (H : forall k, k <> 18 /\ k <> 19 -> handle_key cf k o = Ok (o', a) -> s_in (o_s o') = false).
  { clear Ns r. intros r (N1 & N2). unfold handle_key.
    destruct ((r =? 0) && _); [intros E; injection E as <- <-; exact S|].
    set (r1 := if r =? 0 then CharEnter else r).
    assert (R1 : r1 <> 18 /\ r1 <> 19) by (unfold r1; destruct (r =? 0); [unfold CharEnter|]; split; lia || assumption). destruct R1 as (R1 & R2).
    assert (K : forall k o1, k <> 18 -> k <> 19 -> s_in (o_s o1) = false -> (y <- key_switch cf k o1 ;; after_switch cf k y) = Ok (o', a) -> s_in (o_s o') = false).
    { intros k o1 M1 M2 S1 E. destruct (key_switch cf k o1) as [x| |] eqn:Ek; cbn [obind] in E; try discriminate.
      apply (calm_after cf k x o' a); [|exact E]. now apply (calm_switch cf k o1). }
    assert (Q : forall o1, s_in (o_s o1) = false -> vim_and_switch cf r1 o1 = Ok (o', a) -> s_in (o_s o') = false).
    { intros o1 S1. unfold vim_and_switch. destruct (oc_vim cf); [|now apply K].
      destruct (HandleVim r1 o1) as [[[o2 v] acts]| |] eqn:Hv; cbn [obind]; try discriminate. destruct (vim_s _ _ _ _ _ Hv) as (V1 & V2).
      destruct v as [k| |p].
      - destruct (k =? 0); [intros E; injection E as <- <-; now rewrite V1|]. destruct (V2 k eq_refl R1 R2). apply K; auto. now rewrite V1.
      - intros E; injection E as <- <-; now rewrite V1.
      - intros E; injection E as <- <-; cbn; now rewrite V1. }
    destruct (c_sel (o_c o)) eqn:Sl; [|now apply Q].
    destruct (HandleCompleteSelect cf r1 o) as [[o1 k]| |] eqn:H; cbn [obind]; try discriminate.
    destruct (hf_handle cf r1 o o1 k H) as (A1 & A2 & _).
    destruct k; [intros E; injection E as <- <-; now rewrite A2|].
    destruct ((r1 =? CharEnter) || (r1 =? CharCtrlJ)).
    { destruct (Update _ _ _ _); cbn [obind]; try discriminate. intros E. injection E as <- <-. cbn. now rewrite A2. }
    destruct (r1 =? CharInterrupt); [intros E; injection E as <- <-; now rewrite A2|].
    destruct (r1 =? CharBell); [intros E; injection E as <- <-; now rewrite A2|]. apply Q. now rewrite A2. }
  unfold not_search, passed in Ns. destruct (oc_filter cf) as [f|]; [|now apply H, Ns].
  destruct (f r) as [k|]; [now apply H, Ns|]. intros E. injection E as <- <-. exact S.
Qed.

Lemma run_same rs : forall a, Forall (fun p => not_search cf (fst p)) rs -> a_al a = None -> s_in (o_s (a_o a)) = false ->
  samea (op_run cf (map fst rs) (a_o a)) (a_run cf rs a).
Proof.
  induction rs as [|[r sp] rs IH]; intros a F N S; cbn [map fst op_run a_run].
  - exists a. split; [reflexivity|]. split; [reflexivity|exact N].
  - inversion F; subst. pose proof (step_same sp cf r a H1 N S) as St.
    destruct (op_step cf r (a_o a)) as [[o1 l1]| |] eqn:E; cbn [obind fst snd] in *; [|rewrite St; reflexivity|rewrite St; reflexivity].
    destruct St as (a1 & -> & E1 & N1). cbn [obind fst snd] in *. subst o1.
    pose proof (IH a1 H2 N1 (calm_any r (a_o a) (a_o a1) l1 H1 S E)) as R.
    destruct (op_run cf (map fst rs) (a_o a1)) as [[o2 l2]| |]; cbn [obind fst snd] in *; [|rewrite R; reflexivity|rewrite R; reflexivity].
    destruct R as (a2 & -> & E2 & N2). cbn [obind fst snd]. exists a2. auto.
Qed.
End runs.
