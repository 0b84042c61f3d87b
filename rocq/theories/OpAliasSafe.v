(** The editor with shared memory does not panic either. *)
From Verif Require Import Base ListAux RunesModel RunesSpec RuneBufModel RuneBufSpec RuneBufProofs HistoryModel HistoryProofs
  RenderModel RenderSpec OpModel OpSpec OpProofs OpStep OpModes OpAliasModel OpAliasSpec.
From Coq Require Import ZifyBool.
Open Scope Z_scope.

(** ** States that differ in the texts of the history only *)
Definition texts (h h' : hist) : Prop :=
  h' = h \/ exists id f, (forall x, it_id (f x) = it_id x /\ it_ver (f x) = it_ver x) /\ h' = modify id f h.
Definition tw (o o' : op) : Prop := exists h, o' = with_h h o /\ texts (o_h o) h.

Lemma tw_refl o : tw o o.
Proof. exists (o_h o). split; [now destruct o|now left]. Qed.
Lemma texts_ids h h' : texts h h' -> map it_id (elems h') = map it_id (elems h) /\ (h_items h <> [] -> h_items h' <> []).
Proof.
  intros [->|(id & f & F & ->)]; [auto|]. split.
  - rewrite elems_modify. unfold map_item. rewrite map_map. apply map_ext. intros x. destruct (_ =? _)%nat; [apply F|reflexivity].
  - unfold modify. cbn [set_lists h_items]. unfold map_item. intros N E. apply map_eq_nil in E. contradiction.
Qed.
Lemma texts_hwf h h' : texts h h' -> hwf h -> hwf h'.
Proof.
  intros [->|(id & f & F & ->)] W; [exact W|]. apply hwf_modify; [exact W|intros x; apply F|].
  intros x V. destruct (F x) as (_ & ->). exact V.
Qed.
Lemma tw_good o o' : tw o o' -> hgood (o_h o) -> hgood (o_h o').
Proof.
  intros (h & -> & T) (W & N). cbn [o_h with_h]. split; [now apply (texts_hwf (o_h o))|now apply (texts_ids (o_h o))].
Qed.
Lemma tw_sgood o o' : tw o o' -> sgood o -> sgood o'.
Proof.
  intros (h & -> & T) ((id & E & I) & M). split; [|exact M]. exists id. split; [exact E|]. cbn [o_h with_h]. now rewrite (proj1 (texts_ids _ _ T)).
Qed.
Lemma tw_put sp o a : tw o (a_o (put sp o a)).
Proof.
  unfold put. destruct (_ <=? _)%nat; [|apply tw_refl]. cbn [a_o]. eexists. split; [reflexivity|]. unfold scribble.
  destruct (a_al a) as [[id [|]]|]; [right|right|now left]; exists id; eexists; (split; [|reflexivity]); intros x; split; reflexivity.
Qed.

Section safe.
Variable cf : ocfg.
Hypothesis G : good_config cf.

Lemma tw_mid o o' : tw o o' -> mid cf o -> mid cf o'.
Proof.
  intros T M. pose proof (tw_good _ _ T (m_h _ _ M)) as Hg. pose proof (tw_sgood _ _ T) as Sg. destruct T as (h & -> & T).
  destruct M. constructor; cbn in *; auto.
Qed.
Lemma tw_resting o o' : tw o o' -> resting cf o -> resting cf o'.
Proof.
  intros T M. pose proof (tw_good _ _ T (r_h _ _ M)) as Hg. pose proof (tw_sgood _ _ T) as Sg. destruct T as (h & -> & T).
  destruct M. constructor; cbn in *; auto. intros S. destruct (r_s S). auto.
Qed.
Definition apost_ok (a : aop) (x : swres) : Prop := post cf (a_o a, snd (fst (fst (fst x))), snd (fst (fst x)), snd (fst x), snd x).
Lemma tw_post o o' acts ks kc upd : tw o o' -> post cf (o, acts, ks, kc, upd) -> post cf (o', acts, ks, kc, upd).
Proof.
  intros T M. pose proof (tw_good _ _ T (p_h _ _ M)) as Hg. pose proof (tw_sgood _ _ T) as Sg. cbn in Hg. destruct T as (h & -> & T).
  destruct M. constructor; cbn in *; auto.
Qed.

(** ** After the switch *)
Lemma a_after_ok sp r a x : apost_ok a x -> exists a' l, a_after_switch sp cf r (a, x) = Ok (a', l) /\ resting cf (a_o a').
Proof.
  intros P. destruct (after_ok cf G r _ P) as (o' & l & E & R). destruct x as [[[[o0 acts] ks] kc] upd].
  unfold apost_ok in P. cbn [fst snd] in *. unfold after_switch in E. unfold a_after_switch. rewrite (gc_listen _ G) in *.
  assert (Q : exists a2, (if negb ks && s_in (o_s (a_o a)) then a_ExitSearchMode sp false a
     else if c_in (o_c (a_o a)) then
           if negb kc then Ok (put_rest (with_c (ExitCompleteMode (o_c (a_o a))) (a_o a)) a)
           else o2 <- CompleteRefresh cf (a_o a) ;; Ok (put_rest o2 a)
         else Ok a) = Ok a2 /\
     (if negb ks && s_in (o_s (a_o a)) then ExitSearchMode false (a_o a)
     else if c_in (o_c (a_o a)) then if negb kc then Ok (with_c (ExitCompleteMode (o_c (a_o a))) (a_o a)) else CompleteRefresh cf (a_o a)
     else Ok (a_o a)) = Ok (a_o a2)).
  { destruct (negb ks && s_in (o_s (a_o a))).
    - unfold a_ExitSearchMode. destruct (ExitSearchMode false (a_o a)) as [o2| |]; cbn [obind] in *; try discriminate. eexists. split; reflexivity.
    - destruct (c_in (o_c (a_o a))); [destruct (negb kc)|].
      + eexists. split; reflexivity.
      + destruct (CompleteRefresh cf (a_o a)) as [o2| |]; cbn [obind] in *; try discriminate. eexists. split; reflexivity.
      + eexists. split; reflexivity. }
  destruct Q as (a2 & -> & Q). rewrite Q in E. cbn [obind] in *.
  destruct (upd && negb (s_in (o_s (a_o a2)))).
  - destruct (Update _ _ _ _) as [h| |]; cbn [obind] in *; try discriminate. injection E as <- <-. do 2 eexists. split; [reflexivity|exact R].
  - cbn [obind] in *. injection E as <- <-. do 2 eexists. split; [reflexivity|exact R].
Qed.

(** ** The switch *)
Definition aok (e : outcome (aop * swres)) : Prop := exists a x, e = Ok (a, x) /\ apost_ok a x.
Lemma apick (c : bool) (A B : outcome (aop * swres)) : (c = true -> aok A) -> (c = false -> aok B) -> aok (if c then A else B).
Proof. intros H1 H2. destruct c; auto. Qed.

(** the editor's own function gives [x]; the line and the modes are those of [x] *)
Lemma aok_exact a x : post cf x -> a_o a = fst (fst (fst (fst x))) -> aok (Ok (a, x)).
Proof. intros P E. exists a, x. split; [reflexivity|]. unfold apost_ok. rewrite E. destruct x as [[[[? ?] ?] ?] ?]. exact P. Qed.
Lemma aok_sw sp f a : (exists x, f (a_o a) = Ok x /\ post cf x) -> aok (lift_sw sp f a).
Proof.
  intros (x & E & P). unfold lift_sw. rewrite E. cbn [obind]. do 2 eexists. split; [reflexivity|]. unfold apost_ok.
  destruct x as [[[[o acts] ks] kc] upd]. cbn [fst snd]. apply (tw_post o); [apply tw_put|exact P].
Qed.
Lemma aok_ret a acts ks kc : post cf (a_o a, acts, ks, kc, true) -> aok (Ok (a, (a_o a, acts, ks, kc, true))).
Proof. intros P. do 2 eexists. split; [reflexivity|exact P]. Qed.

Lemma a_search_ok sp new a : hwf (o_h (a_o a)) -> (exists o1, search cf new (a_o a) = Ok o1) -> exists a1, a_search sp cf new a = Ok a1 /\ search cf new (a_o a) = Ok (a_o a1).
Proof.
  intros W (o1 & E). unfold a_search. rewrite E. cbn [obind]. destruct (s_data (o_s (a_o a))) eqn:D; [eexists; split; reflexivity|].
  assert (Q : exists r, (if s_bck (o_s (a_o a)) then FindBck (oc_h cf) new (z :: l) (rb_idx (o_b (a_o a))) (o_h (a_o a))
            else FindFwd (oc_h cf) new (z :: l) (rb_idx (o_b (a_o a))) (o_h (a_o a))) = Ok r /\
            match r with Some (_, id) => In id (map it_id (elems (o_h (a_o a)))) | None => True end).
  { destruct (s_bck _).
    - destruct (FindBck_ok (oc_h cf) new (z :: l) (rb_idx (o_b (a_o a))) (o_h (a_o a)) W) as (r & Er & H). exists r. split; [exact Er|].
      destruct r as [[n id]|]; [|exact I]. destruct (H n id eq_refl) as (x & Ix & <- & _). now apply in_map.
    - destruct (FindFwd_ok (oc_h cf) new (z :: l) (rb_idx (o_b (a_o a))) (o_h (a_o a)) W) as (r & Er & H). exists r. split; [exact Er|].
      destruct r as [[n id]|]; [|exact I]. destruct (H n id eq_refl) as (x & Ix & <- & _). now apply in_map. }
  destruct Q as (r & -> & H). cbn [obind]. destruct r as [[n id]|]; [|eexists; split; reflexivity].
  destruct (deref_ok (o_h (a_o a)) id H) as (x & -> & _). cbn [obind]. eexists. split; reflexivity.
Qed.
Lemma a_exit_ok sp a : mid cf a.(a_o) -> s_in (o_s (a_o a)) = true -> exists a1, a_ExitSearchMode sp true a = Ok a1 /\ ExitSearchMode true (a_o a) = Ok (a_o a1).
Proof.
  intros M S. destruct (exit_search_true cf (a_o a) M S) as (o1 & id & x & E & Es & Ix & Ei & _). unfold a_ExitSearchMode. rewrite E, Es. cbn [obind].
  destruct (deref_ok (o_h (a_o a)) id) as (y & -> & _); [rewrite <- Ei; now apply in_map|]. cbn [obind]. eexists. split; reflexivity.
Qed.

Lemma a_complete_ok sp o a acts kc : mid cf o -> s_in (o_s o) = false -> oc_vim cf && o_vn o = false -> 
  (exists b, inside b /\ tw (with_b b o) (a_o a) /\ post cf (with_b b o, [], false, false, true) /\
    (c_in (o_c o) = true -> c_src (o_c o) = Some (rb_buf b) -> rb_idx b = rb_idx (o_b o) /\ rb_buf b = rb_buf (o_b o))) ->
  (kc = true -> c_in (o_c o) = true) ->
  exists a2, a_complete sp cf a = Ok a2 /\ post cf (a_o a2, acts, false, kc, true).
Proof.
  intros M S Vn (b & I & T & P & Src) Kc. unfold a_complete.
  assert (Ec : o_c (a_o a) = o_c o) by (destruct T as (h & -> & _); reflexivity). rewrite Ec.
  destruct (c_in (o_c o)) eqn:C.
  - destruct (m_c _ _ M C) as (A & _). destruct (oc_auto cf) as [Do|] eqn:Au; [|congruence].
    assert (I' : inside (o_b (a_o a))) by (destruct T as (h & -> & _); exact I).
    destruct (OnComplete_ok cf G Do (a_o a)) as (o1 & E & Ck); [exact I'|rewrite Ec; apply (m_sel _ _ M)| |exact Au|].
    { rewrite Ec. intros _ Sr. assert (Eb : o_b (a_o a) = b) by (destruct T as (h & -> & _); reflexivity). rewrite Eb in Sr.
      destruct (m_c _ _ M C) as (_ & [(_ & X)|F]); [congruence|]. destruct (Src eq_refl Sr) as (Q1 & Q2). 
      destruct F as (F1 & F2). split; rewrite ?Ec, ?Eb, ?Q1, ?Q2; assumption. }
    unfold lift. rewrite E. cbn [obind]. eexists. split; [reflexivity|]. apply (tw_post o1); [apply tw_put|].
    pose proof (tw_good _ _ T (m_h _ _ M)) as Hg. destruct T as (h & Ea & _). rewrite Ea in *. cbn [with_h with_b o_h] in *.
    apply (ckeep_post cf (with_h h (with_b b o))); cbn; [exact Hg|apply (m_s0 _ _ M)|apply (m_vp _ _ M)|apply (m_end _ _ M)|congruence|exact Vn|exact Ck|auto].
  - eexists. split; [reflexivity|]. assert (kc = false) by (destruct kc; [now discriminate Kc|reflexivity]). subst kc.
    apply (tw_post (with_b b o)); [exact T|]. destruct P. constructor; assumption.
Qed.

Lemma a_enter_ok sp a : mid cf (a_o a) -> oc_vim cf && o_vn (a_o a) = false -> aok (a_enter sp cf a).
Proof.
  intros M V. unfold a_enter.
  assert (Q : exists a1, (if s_in (o_s (a_o a)) then a_ExitSearchMode sp false a else Ok a) = Ok a1 /\ o_b (a_o a1) = o_b (a_o a) /\ o_h (a_o a1) = o_h (a_o a) /\
     o_c (a_o a1) = o_c (a_o a) /\ o_vn (a_o a1) = o_vn (a_o a) /\ o_vp (a_o a1) = o_vp (a_o a) /\ o_end (a_o a1) = o_end (a_o a) /\ s_in (o_s (a_o a1)) = false /\ sclear (a_o a1)).
  { destruct (s_in (o_s (a_o a))) eqn:S.
    - eexists. split; [reflexivity|]. cbn. repeat (split; [reflexivity|]). split; reflexivity.
    - eexists. split; [reflexivity|]. repeat (split; [first [reflexivity|assumption]|]). now apply (m_s0 _ _ M). }
  destruct Q as (a1 & -> & B & Hh & C & Vn & Vp & En & S & Cl). cbn [obind MoveToLineEnd].
  match goal with |- aok (obind ?e _) => assert (R : exists d a2 b', e = Ok (d, a2) /\
        inside b' /\ tw (with_b b' (a_o a1)) (a_o a2)) end.
  { destruct (negb (oc_unique cf)).
    - destruct (write_ok [10] (with_idx (length (rb_buf (o_b (a_o a1)))) (o_b (a_o a1)))) as (b & -> & I); [unfold inside; cbn; lia|].
      cbn [obind Reset]. rewrite slice_to by lia. cbn [obind]. do 3 eexists. split; [reflexivity|]. split; [|].
      + instantiate (1 := {| rb_buf := []; rb_idx := 0; rb_kill := rb_kill b |}). unfold inside. cbn. lia.
      + destruct (tw_put sp (with_b b (a_o a1)) a1) as (h & Eh & T). cbn [put_rest a_o]. exists h. rewrite Eh. split; [reflexivity|exact T].
    - cbn [Reset]. do 3 eexists. split; [reflexivity|]. split; [|cbn [put_rest a_o]; apply tw_refl]. unfold inside. cbn. lia. }
  destruct R as (d & a2 & b' & -> & I & T). cbn [obind].
  assert (Hg : hgood (o_h (a_o a2))) by (apply (tw_good _ _ T); cbn [o_h with_b]; rewrite Hh; apply M).
  destruct (negb (oc_nosave cf)).
  - destruct (New_good cf d (o_h (a_o a2)) Hg) as (h & -> & Hg2). cbn [obind].
    do 2 eexists. split; [reflexivity|]. unfold apost_ok. cbn [fst snd a_o]. destruct T as (h2 & E2 & T). rewrite E2 in *. cbn in *.
    destruct M. constructor; cbn; try assumption; try discriminate; try congruence. intros _. exact Cl.
  - do 2 eexists. split; [reflexivity|]. unfold apost_ok. cbn [fst snd a_o]. destruct T as (h2 & E2 & T). rewrite E2 in *. cbn in *.
    destruct M. constructor; cbn; try assumption; try discriminate; try congruence. intros _. exact Cl.
Qed.

Lemma a_delete_ok sp a : mid cf (a_o a) -> aok (a_delete sp cf a).
Proof.
  intros M. unfold a_delete. apply apick; intros E; [apply aok_sw, (delete_post cf _ M)|].
  apply orb_false_iff in E. destruct E as (_ & E). apply negb_false_iff in E. unfold IsNormalMode in E.
  apply andb_true_iff in E. destruct E as (E1 & E2). apply negb_true_iff in E1, E2.
  assert (Q : exists b a1, (if negb (oc_unique cf) then lift sp (fun o => b <- WriteRunes (oc_eofp cf ++ [10]) (o_b o) ;; Ok (with_b b o)) a else Ok a) = Ok a1 /\
     tw (with_b b (a_o a)) (a_o a1)).
  { destruct (negb (oc_unique cf)).
    - unfold lift. destruct (write_ok (oc_eofp cf ++ [10]) (o_b (a_o a)) (m_in _ _ M)) as (b & -> & _). cbn [obind]. exists b. eexists. split; [reflexivity|apply tw_put].
    - exists (o_b (a_o a)), a. split; [reflexivity|]. assert (X : with_b (o_b (a_o a)) (a_o a) = a_o a) by now destruct (a_o a). rewrite X. apply tw_refl. }
  destruct Q as (b & a1 & -> & T). cbn [obind]. do 2 eexists. split; [reflexivity|]. unfold apost_ok. cbn [fst snd a_o put_rest].
  assert (Hg : hgood (o_h (a_o a1))) by (apply (tw_good _ _ T); apply M). apply (Revert_good cf) in Hg.
  destruct T as (h & Ea & _). rewrite Ea in *. cbn in *.
  destruct M. constructor; cbn; try assumption; try discriminate; try congruence. unfold inside. cbn. lia.
Qed.

Lemma a_interrupt_ok sp a : mid cf (a_o a) -> oc_vim cf && o_vn (a_o a) = false -> aok (a_interrupt sp cf a).
Proof.
  intros M V. unfold a_interrupt. destruct (interrupt_post cf (a_o a) M V) as (x & Ex & P). apply apick; intros S.
  { destruct (a_exit_ok sp a M S) as (a1 & -> & E). cbn [obind]. apply aok_ret. unfold key_interrupt in Ex. rewrite S, E in Ex. cbn [obind] in Ex. injection Ex as <-. exact P. }
  apply apick; intros C; [apply aok_sw; eauto|]. cbn [MoveToLineEnd obind].
  assert (Q : exists b a1, (if negb (oc_unique cf) then b <- WriteRunes (oc_intp cf ++ [10]) (with_idx (length (rb_buf (o_b (a_o a)))) (o_b (a_o a))) ;;
        Ok (put sp (with_b b (a_o a)) a)
      else Ok (put_rest (with_b (with_idx (length (rb_buf (o_b (a_o a)))) (o_b (a_o a))) (a_o a)) a)) = Ok a1 /\ tw (with_b b (a_o a)) (a_o a1) /\
      (negb (oc_unique cf) = true -> (length (oc_intp cf ++ [10%Z]) <= length (rb_buf b))%nat)).
  { destruct (negb (oc_unique cf)).
    - unfold WriteRunes. cbn [rb_idx rb_buf with_idx]. rewrite slice_ok, slice_to by lia. cbn [obind]. eexists. eexists. split; [reflexivity|].
      split; [apply tw_put|]. intros _. cbn [rb_buf]. rewrite !app_length. lia.
    - eexists. eexists. split; [reflexivity|]. split; [apply tw_refl|discriminate]. }
  destruct Q as (b & a1 & -> & T & L). cbn [obind Reset].
  assert (Eb : o_b (a_o a1) = b) by (destruct T as (h & -> & _); reflexivity). rewrite Eb.
  assert (R : exists d, (if negb (oc_unique cf) then if (length (rb_buf b) <? length (oc_intp cf ++ [10%Z]))%nat then Panic
      else slice 0 (length (rb_buf b) - length (oc_intp cf ++ [10%Z])) (rb_buf b) else Ok (rb_buf b)) = Ok d).
  { destruct (negb (oc_unique cf)); [|eauto]. specialize (L eq_refl).
    replace (length (rb_buf b) <? length (oc_intp cf ++ [10%Z]))%nat with false by lia. rewrite slice_to by lia. eauto. }
  destruct R as (d & ->). cbn [obind]. do 2 eexists. split; [reflexivity|]. unfold apost_ok. cbn [fst snd a_o put_rest].
  assert (Hg : hgood (o_h (a_o a1))) by (apply (tw_good _ _ T); apply M). apply (Revert_good cf) in Hg.
  destruct T as (h & Ea & _). rewrite Ea in *. cbn in *.
  destruct M. constructor; cbn; try assumption; try discriminate; try congruence; auto. unfold inside. cbn. lia.
Qed.

Lemma a_switch_ok sp r a : mid cf (a_o a) -> (oc_vim cf && o_vn (a_o a) = true -> r = 2 \/ r = 6 \/ r = 14 \/ r = 16) ->
  (r = 20 -> length (rb_buf (o_b (a_o a))) <> 1%nat) ->
  (r = 11 -> c_in (o_c (a_o a)) = true -> c_cand (o_c (a_o a)) <> [] /\ rb_idx (o_b (a_o a)) = length (rb_buf (o_b (a_o a)))) ->
  aok (a_key_switch sp cf r a).
Proof.
  intros M V T K. destruct (switch_ok cf G r (a_o a) M V T K) as (x & Ex & P).
  assert (Vf : ~ (r = 2 \/ r = 6 \/ r = 14 \/ r = 16) -> oc_vim cf && o_vn (a_o a) = false).
  { intros H. destruct (oc_vim cf && o_vn (a_o a)); [|reflexivity]. elim H. now apply V. }
  unfold a_key_switch. apply apick; intros K1.
  { assert (E : r = 7) by (clear - K1; unfold CharBell in K1; lia). subst r. unfold key_switch in Ex. cbn [Z.eqb Pos.eqb CharBell] in Ex.
    destruct (s_in (o_s (a_o a))) eqn:S.
    - destruct (a_exit_ok sp a M S) as (a1 & -> & E). rewrite E in Ex. cbn [obind] in *. injection Ex as <-. apply aok_ret. exact P.
    - cbn [obind] in *. injection Ex as <-. apply aok_ret. exact P. }
  apply apick; intros K2.
  { assert (E : r = 18 \/ r = 19) by (clear - K2; unfold CharBckSearch, CharFwdSearch in K2; lia).
    assert (E' : (y <- SearchMode cf (r =? CharBckSearch) (a_o a) ;; Ok (fst y, if snd y then [] else [ABell], snd y, false, true)) = Ok x).
    { rewrite <- Ex. destruct E as [-> | ->]; reflexivity. }
    unfold a_SearchMode. unfold SearchMode in E'. destruct (oc_w cf =? 0).
    - cbn [obind fst snd] in *. injection E' as <-. apply aok_ret. exact P.
    - set (s' := Build_srch _ _ _ _ _ _ _) in *. destruct (s_in (o_s (a_o a))) eqn:S.
      + destruct (search cf false (with_s s' (a_o a))) as [o1| |] eqn:Es; cbn [obind] in E'; try discriminate.
        destruct (a_search_ok sp false (put_rest (with_s s' (a_o a)) a)) as (a1 & E1 & E2); [apply (m_h _ _ M)|cbn [put_rest a_o]; eauto|].
        rewrite E1. cbn [obind fst snd] in *. injection E' as <-. apply aok_ret. cbn [put_rest a_o] in E2. rewrite Es in E2. injection E2 as <-. exact P.
      + destruct (SearchRefresh cf (-1) (with_s s' (a_o a))) as [o1| |]; cbn [obind fst snd] in *; try discriminate. injection E' as <-. apply aok_ret. exact P. }
  apply apick; intros K3.
  { assert (E : r = 127 \/ r = 8) by (clear - K3; unfold CharBackspace, CharCtrlH in K3; lia).
    specialize (Vf ltac:(clear - E; lia)) as Vn.
    apply apick; intros S.
    - unfold a_SearchBackspace. destruct (s_data (o_s (a_o a))) as [|d0 dd] eqn:D.
      + cbn [obind]. apply aok_ret. now apply keep_post.
      + destruct (search_post cf G true (firstn (length (d0 :: dd) - 1) (d0 :: dd)) (a_o a) M S) as (o1 & Es & Po).
        destruct (a_search_ok sp true (put_rest (with_s (set_data (firstn (length (d0 :: dd) - 1) (d0 :: dd)) (o_s (a_o a))) (a_o a)) a)) as (a1 & E1 & E2);
          [apply (m_h _ _ M)|cbn [put_rest a_o]; eauto|].
        rewrite E1. cbn [obind]. apply aok_ret. cbn [put_rest a_o] in E2. rewrite Es in E2. injection E2 as <-. exact Po.
    - apply apick; intros L; [apply aok_ret; now apply bell_post|].
      destruct (edit_post cf EBackspace (a_o a) M) as (b & Eb & I & Pb); [cbn; tauto|discriminate|]. cbn [run_edit] in Eb.
      unfold lift. rewrite Eb. cbn [obind].
      destruct (a_complete_ok sp (a_o a) (put sp (with_b b (a_o a)) a) [] false M S Vn) as (a2 & -> & P2); [|discriminate|cbn [obind]; now apply aok_ret].
      exists b. split; [exact I|]. split; [apply tw_put|]. split; [exact Pb|]. intros C Sr.
      destruct (rb_idx (o_b (a_o a)) =? 0)%nat eqn:Z0; [unfold BufBackspace in Eb; rewrite Z0 in Eb; injection Eb as <-; auto|exfalso].
      destruct (m_c _ _ M C) as (_ & [(_ & X)|(_ & X)]); [congruence|].
      rewrite X in Sr. injection Sr as Sr. apply (f_equal (@length Z)) in Sr.
      pose proof (backspace_len _ _ (m_in _ _ M) Z0 Eb) as Lb. clear - Sr Lb. lia. }
  apply apick; intros K4.
  { destruct (edit_post cf EYank (a_o a) M) as (b & Eb & I & Pb); [cbn; tauto|discriminate|]. cbn [run_edit] in Eb. unfold a_yank. rewrite Eb. cbn [obind].
    apply aok_ret. destruct (rb_kill _); exact Pb. }
  apply apick; intros K5; [apply a_enter_ok; [exact M|]; apply Vf; clear - K5; unfold CharEnter, CharCtrlJ in K5; lia|].
  apply apick; intros K6.
  { rewrite Ex. cbn [obind]. destruct (m_h _ _ M) as (W & N).
    assert (Y : exists y, (if r =? CharPrev then Prev (o_h (a_o a)) else Next (o_h (a_o a))) = Ok y).
    { destruct (r =? CharPrev); [destruct (Prev_good _ (m_h _ _ M)) as (y & Ey & _)|destruct (Next_good _ (m_h _ _ M)) as (y & Ey & _)]; eauto. }
    destruct Y as (y & ->). cbn [obind]. apply aok_exact; [exact P|]. destruct (fst y); reflexivity. }
  apply apick; intros K7; [now apply a_delete_ok|].
  apply apick; intros K8; [apply a_interrupt_ok; [exact M|]; apply Vf; clear - K8; unfold CharInterrupt in K8; lia|].
  apply apick; intros K9; [apply aok_sw; eauto|].
  assert (Vn : oc_vim cf && o_vn (a_o a) = false).
  { apply Vf. clear - K9 K6. unfold CharBackward, CharForward, CharPrev, CharNext in *. lia. }
  apply apick; intros S.
  { destruct (search_post cf G true (s_data (o_s (a_o a)) ++ [r]) (a_o a) M S) as (o1 & Es & Po). unfold a_SearchChar.
    destruct (a_search_ok sp true (put_rest (with_s (set_data (s_data (o_s (a_o a)) ++ [r]) (o_s (a_o a))) (a_o a)) a)) as (a1 & E1 & E2);
      [apply (m_h _ _ M)|cbn [put_rest a_o]; eauto|].
    rewrite E1. cbn [obind]. apply aok_ret. cbn [put_rest a_o] in E2. rewrite Es in E2. injection E2 as <-. exact Po. }
  destruct (edit_post cf (EWrite [r]) (a_o a) M) as (b & Eb & I & Pb); [cbn; tauto|discriminate|]. cbn [run_edit] in Eb.
  unfold lift. rewrite Eb. cbn [obind].
  assert (Ec : o_c (a_o (put sp (with_b b (a_o a)) a)) = o_c (a_o a)) by (unfold put; destruct (_ <=? _)%nat; reflexivity).
  destruct (a_complete_ok sp (a_o a) (put sp (with_b b (a_o a)) a) [] (c_in (o_c (a_o a))) M S Vn) as (a2 & E2 & P2); [|auto|rewrite Ec, E2; cbn [obind]; now apply aok_ret].
  exists b. split; [exact I|]. split; [apply tw_put|]. split; [exact Pb|]. intros C Sr. exfalso.
  destruct (m_c _ _ M C) as (_ & [(_ & X)|(_ & X)]); [congruence|]. rewrite X in Sr. injection Sr as Sr. apply (f_equal (@length Z)) in Sr.
  pose proof (write_len _ _ _ (m_in _ _ M) Eb) as Lb. clear - Sr Lb. cbn in Lb. lia.
Qed.

(** ** Vim mode, one key *)
Definition key_fine (q : Z) (o : op) : Prop :=
  (oc_vim cf && o_vn o = true -> q = 2 \/ q = 6 \/ q = 14 \/ q = 16) /\ (q = 20 -> length (rb_buf (o_b o)) <> 1%nat) /\
  (q = 11 -> c_in (o_c o) = true -> c_cand (o_c o) <> [] /\ rb_idx (o_b o) = length (rb_buf (o_b o))).

Lemma a_rest_ok sp r a : mid cf (a_o a) -> r <> 0 ->
  (oc_vim cf && o_vn (a_o a) = true -> ~ ((r = 101 \/ r = 69) /\ (rb_idx (o_b (a_o a)) + 1 = length (rb_buf (o_b (a_o a))))%nat /\
           alnum_at (rb_buf (o_b (a_o a))) (rb_idx (o_b (a_o a))))) ->
  (oc_vim cf && o_vn (a_o a) = false ->
    (r = 20 -> length (rb_buf (o_b (a_o a))) <> 1%nat) /\
    (r = 11 -> c_in (o_c (a_o a)) = true -> c_cand (o_c (a_o a)) <> [] /\ rb_idx (o_b (a_o a)) = length (rb_buf (o_b (a_o a)))) /\
    (r = 27 -> oc_vim cf = true -> s_in (o_s (a_o a)) = false /\ c_in (o_c (a_o a)) = false)) ->
  exists a' l, a_vim_and_switch sp cf r a = Ok (a', l) /\ resting cf (a_o a').
Proof.
  intros M N0 T1 T2. unfold a_vim_and_switch.
  assert (Sw : forall q a1, mid cf (a_o a1) -> key_fine q (a_o a1) ->
     exists a' l, (y <- a_key_switch sp cf q a1 ;; a_after_switch sp cf q y) = Ok (a', l) /\ resting cf (a_o a')).
  { intros q a1 M1 (A & B & D). destruct (a_switch_ok sp q a1 M1 A B D) as (a2 & x & -> & Po). cbn [obind]. now apply a_after_ok. }
  destruct (oc_vim cf) eqn:Vi; cbn [andb] in *.
  - unfold a_HandleVim, HandleVim. destruct (o_vn (a_o a)) eqn:V.
    + assert (C : c_in (o_c (a_o a)) = false).
      { destruct (c_in (o_c (a_o a))) eqn:C; [|reflexivity]. exfalso. pose proof (m_v _ _ M (or_intror C)) as X. rewrite Vi, V in X. discriminate. }
      pose proof (mid_resting cf (a_o a) M C) as R.
      destruct (normal_ok cf r (a_o a) R Vi V (m_vp _ _ M) (T1 eq_refl)) as ([[o1 v] l] & -> & Okx). cbn [obind]. unfold vokay in Okx. cbn [fst snd] in Okx.
      set (a1 := if true && (r =? 112) && _ then put_new sp o1 else put sp o1 a).
      assert (T : tw o1 (a_o a1)) by (subst a1; destruct (_ && _); [apply tw_refl|apply tw_put]). clearbody a1.
      destruct v as [q| |p].
      * destruct Okx as (M1 & A & B & D). destruct (q =? 0) eqn:Z0; [exfalso; clear - D Z0; lia|].
        apply Sw; [now apply (tw_mid o1)|]. split; [|split; [intros X; contradiction|intros X; elim (proj1 D X)]].
        destruct T as (h & -> & _). rewrite Vi. exact A.
      * do 2 eexists. split; [reflexivity|]. now apply (tw_resting o1).
      * do 2 eexists. split; [reflexivity|]. cbn [put_rest a_o]. refine (tw_resting _ _ _ Okx). destruct T as (h & -> & T). exists h. split; [reflexivity|exact T].
    + destruct (T2 eq_refl) as (A & B & D). destruct (r =? CharEsc) eqn:Es.
      * cbn [obind andb]. do 2 eexists. split; [reflexivity|]. destruct (D ltac:(clear - Es; unfold CharEsc in Es; lia) eq_refl) as (S & C).
        pose proof (mid_resting cf (a_o a) M C) as R. eapply tw_resting; [apply tw_put|]. destruct R. constructor; cbn; try assumption; try congruence.
        -- rewrite S, C. intros [X|X]; discriminate.
      * cbn [obind andb]. replace (r =? 0) with false by (clear - N0; lia). pose proof (tw_put sp (a_o a) a) as T.
        apply Sw; [now apply (tw_mid (a_o a))|]. destruct T as (h & -> & _). split; [cbn; rewrite V, andb_false_r; discriminate|]. split; [exact A|exact B].
  - destruct (T2 eq_refl) as (A & B & D). apply Sw; [exact M|]. split; [rewrite Vi; discriminate|]. split; assumption.
Qed.

Lemma a_key_ok sp r a : resting cf (a_o a) -> o_vp (a_o a) = None -> ~ trips cf (a_o a) r ->
  exists a' l, a_handle_key sp cf r a = Ok (a', l) /\ owf cf (a_o a').
Proof.
  intros R P T. unfold a_handle_key.
  destruct ((r =? 0) && (length (rb_buf (o_b (a_o a))) =? 0)%nat) eqn:Z0.
  { do 2 eexists. split; [reflexivity|]. left. reflexivity. }
  set (q := if r =? 0 then CharEnter else r).
  assert (Q0 : q <> 0) by (unfold q, CharEnter; clear; destruct (r =? 0) eqn:E; lia).
  assert (Qr : q = 13 \/ q = r) by (unfold q, CharEnter; clear; destruct (r =? 0) eqn:E; auto).
  destruct (c_sel (o_c (a_o a))) eqn:Sel.
  - destruct (key_ok cf G r (a_o a) R P T) as (o' & l & E & W). unfold handle_key in E. rewrite Z0, Sel in E. cbv zeta in E. fold q in E.
    unfold trips in T. rewrite P in T.
    destruct (r_sel _ _ R Sel) as (C & Ch). pose proof (r_v _ _ R (or_intror C)) as Vf. rewrite Vf in T.
    assert (S : s_in (o_s (a_o a)) = false).
    { destruct (s_in (o_s (a_o a))) eqn:S; [|reflexivity]. destruct (r_s _ _ R S). congruence. }
    destruct (select_ok cf G q (a_o a) R Sel) as (o1 & k & E1 & K). cbv zeta. rewrite E1 in E |- *. cbn [obind] in E |- *. pose proof (tw_put sp o1 a) as Tw. destruct k.
    { injection E as <- <-. do 2 eexists. split; [reflexivity|]. destruct W as [W|W]; [left|right; now apply (tw_resting o1)]. destruct Tw as (h & -> & _). exact W. }
    destruct K as (Kh & Ks & Ki & Kv & Kp & Ke & K).
    assert (Ex : o_c o1 = ExitCompleteMode (o_c (a_o a)) -> resting cf (a_o (put sp o1 a))).
    { intros Ec. apply (tw_resting o1); [exact Tw|]. clear E. destruct R. constructor; rewrite ?Kh, ?Ks, ?Kv, ?Kp, ?Ke, ?Ec; cbn; try assumption; try congruence.
      intros _. unfold sclear in *. rewrite Ks. now apply r_s0. }
    destruct ((q =? CharEnter) || (q =? CharCtrlJ)) eqn:E2.
    { assert (Rs : resting cf (a_o (put sp o1 a))).
      { apply Ex. clear - E2 K. unfold CharEnter, CharCtrlJ in E2. destruct K as [(_ & K)|(_ & [(X & K)|K])]; [exact K|exact K|]. lia. }
      destruct (Update_good cf G (rb_buf (o_b (a_o (put sp o1 a)))) false _ (r_h _ _ Rs)) as (h & -> & Hg). cbn [obind].
      do 2 eexists. split; [reflexivity|]. right. cbn [put_rest a_o].
      assert (S1 : s_in (o_s (a_o (put sp o1 a))) = false) by (destruct Tw as (h1 & -> & _); cbn; congruence).
      destruct Rs. constructor; cbn [with_h o_b o_h o_s o_c o_vn o_vp o_end]; try assumption. intros X. exfalso. congruence. }
    destruct (q =? CharInterrupt) eqn:E3.
    { do 2 eexists. split; [reflexivity|]. right. apply Ex. clear - E3 K. unfold CharInterrupt in E3.
      destruct K as [(_ & K)|(_ & [(X & K)|K])]; [exact K|exact K|]. lia. }
    destruct (q =? CharBell) eqn:E4.
    { do 2 eexists. split; [reflexivity|]. right. apply Ex. clear - E4 K. unfold CharBell in E4.
      destruct K as [(_ & K)|(_ & [(X & K)|K])]; [exact K|exact K|]. lia. }
    assert (K' : o_b o1 = o_b (a_o a) /\ o_c o1 = ExitCompleteSelectMode (o_c (a_o a))).
    { clear - E2 E3 E4 K. unfold CharEnter, CharCtrlJ, CharInterrupt, CharBell in *.
      destruct K as [(X & _)|(B & [(X & _)|K])]; [lia|lia|]. split; [exact B|apply K]. }
    destruct K' as (Kb & Kc).
    assert (M : mid cf o1).
    { clear E. destruct R. constructor; rewrite ?Kh, ?Ks, ?Kv, ?Kp, ?Ke, ?Kc; cbn; try assumption; try congruence.
      - intros _. unfold sclear in *. rewrite Ks. now apply r_s0.
      - intros C1. split; [now apply r_c|]. now left. }
    pose proof (tw_mid _ _ Tw M) as M'. clear E.
    destruct (a_rest_ok sp q (put sp o1 a) M' Q0) as (a' & l' & -> & R').
    + destruct Tw as (h & -> & _). cbn [with_h o_vn]. rewrite Kv, Vf. discriminate.
    + intros _. destruct Tw as (h & -> & _). cbn [with_h o_b o_c o_s]. rewrite Kb. split; [|split].
      * intros E L. apply T. left. split; [|exact L]. clear - E Qr. lia.
      * intros E _. exfalso. apply T. right. left. split; [clear - E Qr; lia|]. now left.
      * intros E Vi. exfalso. apply T. right. right. split; [clear - E Qr; lia|]. split; [exact Vi|]. now right.
    + do 2 eexists. split; [reflexivity|]. now right.
  - pose proof (resting_mid cf (a_o a) R Sel P) as M. unfold trips in T. rewrite P in T.
    destruct (a_rest_ok sp q a M Q0) as (a' & l & -> & R').
    + intros V. rewrite V in T. intros (X & Y). apply T. split; [|exact Y]. clear - X Qr. lia.
    + intros V. rewrite V in T. split; [|split].
      * intros E L. apply T. left. split; [|exact L]. clear - E Qr. lia.
      * intros E C. destruct (r_c _ _ R C) as (_ & F). split.
        { pose proof (f_some _ _ _ _ _ (proj1 F)) as X. exact X. }
        destruct (Nat.eq_dec (rb_idx (o_b (a_o a))) (length (rb_buf (o_b (a_o a))))) as [X|X]; [exact X|exfalso].
        apply T. right. left. split; [clear - E Qr; lia|]. right. split; [exact C|]. pose proof (r_in _ _ R) as I. unfold inside in I.
        clear - I X. lia.
      * intros E Vi. destruct (s_in (o_s (a_o a))) eqn:S, (c_in (o_c (a_o a))) eqn:C; try (split; reflexivity); exfalso; apply T; right; right;
          (split; [clear - E Qr; lia|]); split; auto.
    + do 2 eexists. split; [reflexivity|]. now right.
Qed.

Lemma a_step_ok sp r a : owf cf (a_o a) -> ~ trips cf (a_o a) r -> exists a' l, a_step sp cf r a = Ok (a', l) /\ owf cf (a_o a').
Proof.
  intros W T. unfold a_step. destruct (o_end (a_o a)) eqn:E; [do 2 eexists; split; [reflexivity|left; exact E]|].
  destruct W as [W|R]; [congruence|]. destruct (o_vp (a_o a)) as [p|] eqn:P.
  - destruct (vim_next_ok cf p r (a_o a) R P T) as (o' & E' & R'). unfold lift. rewrite E'. cbn [obind]. do 2 eexists. split; [reflexivity|].
    right. eapply tw_resting; [apply tw_put|exact R'].
  - rewrite (gc_filter _ G). now apply a_key_ok.
Qed.

Lemma a_run_ok rs : forall a, owf cf (a_o a) -> asafe cf rs a -> exists a' l, a_run cf rs a = Ok (a', l) /\ owf cf (a_o a').
Proof.
  induction rs as [|[r sp] rs IH]; intros a W S; cbn [a_run].
  - do 2 eexists. split; [reflexivity|exact W].
  - destruct S as (T & S). destruct (a_step_ok sp r a W T) as (a1 & l1 & E & W1). rewrite E. cbn [obind fst snd].
    destruct (IH a1 W1 (S _ _ E)) as (a2 & l2 & -> & W2). cbn [obind fst snd]. eauto.
Qed.
End safe.

Lemma started_owf cf o : started o -> owf cf o.
Proof.
  intros S. right. destruct S as [[] ? ? ?].
  constructor; try assumption; try congruence.
  - unfold inside. rewrite ar_idx. lia.
  - now split.
  - now split.
  - intros [X|X]; congruence.
Qed.
