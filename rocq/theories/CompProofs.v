(** Proofs about the screen while completing: the keys. *)
From Verif Require Import Base ListAux RunesModel RunesSpec RunesProofs RuneBufModel RuneBufSpec HistoryModel HistoryProofs ScreenModel RenderModel RenderSpec RenderProofs RenderDraw RenderSession RenderMore MenuSpec MenuProofs MenuMore OpModel OpSpec OpProofs OpStep OutModel OutSpec OutProofs SeekModel SeekSpec SeekProofs CompModel CompSpec CompDraw.
Open Scope Z_scope.

(** the state with the completion ended *)
Definition cstrip (o : op) : op := with_c (ExitCompleteMode (o_c o)) o.

Section Key.
Variable cf : ocfg.
Variable ps : list piece.
Hypothesis CS : comp_session cf ps.
Let v := visible ps.
Notation u := (oc_u cf).
Notation w := (oc_w cf).
Let S : seek_session cf ps := cs_seek _ _ CS.
Let G : good_config cf := ss_good _ _ S.

Definition mg (c : comp) (b : rbuf) : Prop :=
  fits cf (rb_buf b) (rb_idx b) (c_cand c) (c_off c) /\ Forall (Forall (plainr u)) (c_cand c) /\
  Z.of_nat (length v) + Z.of_nat (length (rb_buf b)) + Z.of_nat (length (c_cand c)) <= 9223372036854775807.
Definition narrow (o : op) : Prop := Z.of_nat (length v) + Z.of_nat (rb_idx (o_b o)) < w.
Definition mid (o : op) : Prop := at_prompt cf (cstrip o) /\ o_vp o = None /\ (c_in (o_c o) = false -> c_sel (o_c o) = false).
Record completing (o : op) : Prop := {
  cp_in : c_in (o_c o) = true;
  cp_mid : mid o;
  cp_good : mg (o_c o) (o_b o);
  cp_col : exists out, menu_out cf (o_c o) (o_b o) = Ok (out, c_col (o_c o))
}.
Definition at_comp (o : op) : Prop := at_seek cf o \/ completing o.

Lemma mid_s o : mid o -> s_in (o_s o) = false.
Proof. intros (A & _). exact (ap_s _ _ A). Qed.
Lemma mid_c o c : mid o -> (c_in c = false -> c_sel c = false) -> mid (with_c c o).
Proof. intros ([] & V & _) X. split; [constructor; assumption|]. split; [exact V|exact X]. Qed.
Lemma mid_in o c : mid o -> c_in c = true -> mid (with_c c o).
Proof. intros M X. apply mid_c; [exact M|congruence]. Qed.
Lemma prompt_pos : 0 < Z.of_nat (length v).
Proof. pose proof (cs_prompt _ _ CS) as X. fold v in X. destruct v; [contradiction|cbn; lia]. Qed.
Lemma w_nonzero : (w =? 0) = false.
Proof. pose proof (gc_w _ G). lia. Qed.

Lemma under_menu o : s_in (o_s o) = false -> c_in (o_c o) = true -> under_of o = UMenu (c_col (o_c o)) (words (o_c o) (o_b o)).
Proof. intros A B. unfold under_of, status_of. now rewrite A, B. Qed.
Lemma under_none o : s_in (o_s o) = false -> c_in (o_c o) = false -> under_of o = UNone.
Proof. intros A B. unfold under_of, status_of. now rewrite A, B. Qed.

(** the line is drawn over anything *)
Lemma line_case o done a : at_prompt cf (cstrip o) -> forall k, k_done k = done -> k_reading k = true ->
  clooks cf v (k, a) (cline o) (look_of done o [], UNone).
Proof.
  intros A k <- K. apply over_any. pose proof (LLine u v k (rb_buf (o_b o)) (rb_idx (o_b o)) K (ap_buf _ _ A) (ap_inside _ _ A)) as L.
  exact L.
Qed.

Lemma menu_case o done a : completing o -> narrow o -> clooks_all cf v (look_of done o [], a) (cmenu o) (look_of done o [], under_of o).
Proof.
  intros [Ci M (F & Fp & Mx) (out & E)] N. unfold cmenu. rewrite Ci, (under_menu o (mid_s o M) Ci). apply clooks_one.
  apply (CLMenu cf v (look_of done o []) a (o_c o) (o_b o) out (c_col (o_c o))); try assumption; try reflexivity.
  cbn. unfold narrow in N. pose proof prompt_pos. lia.
Qed.

Lemma refresh_case o o' : c_in (o_c o) = true -> mid o -> mg (o_c o) (o_b o) -> CompleteRefresh cf o = Ok o' ->
  completing o' /\ o_b o' = o_b o /\ c_sel (o_c o') = c_sel (o_c o) /\ c_cand (o_c o') = c_cand (o_c o).
Proof.
  intros Ci M Mg E. unfold CompleteRefresh in E. rewrite Ci in E. cbn [negb] in E. apply obind_ok in E. destruct E as ([out col] & Em & E).
  injection E as <-. split; [|repeat split]. constructor; [exact Ci|now apply mid_in|exact Mg|]. exists out. exact Em.
Qed.

(** complete.go:49-57 *)
Lemma pick_case o o' : c_in (o_c o) = true -> mid o -> mg (o_c o) (o_b o) -> narrow o -> doSelect cf o = Ok o' ->
  mid o' /\ (c_in (o_c o') = true -> completing o' /\ o_b o' = o_b o) /\
  exists es, pick_draws cf o = Ok es /\ forall done a, clooks_all cf v (look_of done o [], a) es (look_of done o' [], under_of o').
Proof.
  intros Ci M Mg N E. unfold pick_draws. rewrite E. cbn [obind].
  assert (Multi : (c <- nextCandidate 1 (o_c o) ;; CompleteRefresh cf (with_c c o)) = Ok o' ->
    completing o' /\ o_b o' = o_b o).
  { intros X. apply obind_ok in X. destruct X as (c & X1 & X2). unfold nextCandidate in X1. cbn zeta in X1.
    destruct (Z.of_nat (length (c_cand (o_c o))) =? 0); [discriminate|]. injection X1 as <-.
    match type of X2 with CompleteRefresh cf ?x = _ => destruct (refresh_case x o') as (Q1 & Q2 & _); [exact Ci|now apply mid_in|exact Mg|exact X2|split; [exact Q1|exact Q2]] end. }
  assert (Fin : completing o' /\ o_b o' = o_b o -> mid o' /\ (c_in (o_c o') = true -> completing o' /\ o_b o' = o_b o) /\
    exists es, Ok (cmenu o') = Ok es /\ forall done a, clooks_all cf v (look_of done o [], a) es (look_of done o' [], under_of o')).
  { intros (Q1 & Q2). split; [apply Q1|]. split; [auto|]. eexists. split; [reflexivity|]. intros done a.
    replace (look_of done o []) with (look_of done o' []) by (unfold look_of; now rewrite Q2). apply menu_case; [exact Q1|]. unfold narrow. rewrite Q2. exact N. }
  unfold doSelect in E. destruct (c_cand (o_c o)) as [|x [|y l]] eqn:Ec.
  - apply Fin, Multi, E.
  - apply obind_ok in E. destruct E as (b & Wr & E). injection E as <-.
    assert (Px : Forall (plainr u) x) by (destruct Mg as (_ & F & _); rewrite Ec in F; now inversion F).
    destruct (once_case cf v (EWrite x) (cstrip o) b [] (proj1 M) Wr Px ltac:(discriminate) ltac:(discriminate)) as (A1 & _).
    split; [split; [exact A1|split; [apply M|reflexivity]]|]. split; [discriminate|]. eexists. split; [reflexivity|]. intros done a. apply clooks_one.
    rewrite under_none; [|exact (mid_s o M)|reflexivity]. apply line_case; [exact A1|reflexivity|reflexivity].
  - apply Fin, Multi, E.
Qed.

(** complete.go:67-111 *)
Lemma on_case Do o o' : oc_auto cf = Some Do -> mid o -> c_sel (o_c o) = false -> OnComplete cf Do o = Ok o' ->
  (c_in (o_c o) = true -> c_src (o_c o) = Some (rb_buf (o_b o)) -> mg (o_c o) (o_b o) /\ narrow o) ->
  (c_in (o_c o') = true -> narrow o') ->
  mid o' /\ (c_in (o_c o') = true -> completing o') /\ (c_in (o_c o) = true -> c_in (o_c o') = true -> o_b o' = o_b o) /\
  exists es, on_draws cf Do o = Ok es /\ forall done a, exists a', clooks_all cf v (look_of done o [], a) es (look_of done o' [], a') /\
    (c_in (o_c o') = true -> a' = under_of o') /\ (c_in (o_c o') = false -> a' = UNone \/ a' = a) /\
    (c_in (o_c o) = true -> c_src (o_c o) = Some (rb_buf (o_b o)) -> a' = under_of o').
Proof.
  intros Au M Se E Sel N. pose proof (proj1 M) as A.
  unfold on_draws. pose proof E as E0. unfold OnComplete in E. rewrite w_nonzero, Se in *. cbn zeta in *.
  destruct (c_in (o_c o) && _) eqn:Br.
  - apply andb_prop in Br. destruct Br as (Ci & Br). destruct (c_src (o_c o)) as [src|] eqn:Sr; [|discriminate]. apply Equal_spec in Br. subst src.
    destruct (Sel Ci eq_refl) as (Mg & Nr). apply obind_ok in E. destruct E as (o1 & E1 & E2).
    match type of E1 with CompleteRefresh cf ?x = _ => destruct (refresh_case x o1) as (Q1 & Q2 & _); [exact Ci|apply mid_in; [exact M|exact Ci]|exact Mg|exact E1|] end.
    rewrite E1. cbn [obind].
    assert (Nr1 : narrow o1) by (unfold narrow; rewrite Q2; exact Nr).
    destruct (pick_case o1 o' (cp_in _ Q1) (cp_mid _ Q1) (cp_good _ Q1) Nr1 E2) as (P1 & P2 & es & P3 & P4).
    split; [exact P1|]. split; [intros X; now apply P2|]. split; [intros _ X; destruct (P2 X) as (_ & ->); exact Q2|].
    rewrite P3. cbn [obind]. eexists. split; [reflexivity|]. intros done a. exists (under_of o').
    split; [|split; [auto|split; [|auto]]].
    + apply (clooks_app cf v _ _ _ (look_of done o1 [], under_of o1)); [|apply P4].
      replace (look_of done o []) with (look_of done o1 []) by (unfold look_of; now rewrite Q2). now apply menu_case.
    + intros X. left. apply under_none; [exact (mid_s _ P1)|exact X].
  - assert (NS : ~ (c_in (o_c o) = true /\ c_src (o_c o) = Some (rb_buf (o_b o)))).
    { intros (X1 & X2). rewrite X1, X2 in Br. cbn [andb] in Br. rewrite (proj2 (Equal_spec _ _) eq_refl) in Br. discriminate. }
    rewrite E0. cbn [obind]. destruct (Do (rb_buf (o_b o)) (rb_idx (o_b o))) as [cands off] eqn:Ed. cbn [fst].
    pose proof (gc_auto _ G _ _ _ _ _ Au (ap_inside _ _ A) Ed) as Gf. pose proof (cs_words _ _ CS _ _ _ _ _ Au (ap_inside _ _ A) Ed) as Gw.
    change (o_b (cstrip o)) with (o_b o) in *. fold v in Gw.
    destruct cands as [|x rest].
    { injection E as <-. split; [now apply mid_c|]. split; [discriminate|]. split; [discriminate|]. eexists. split; [reflexivity|]. intros done a. exists a.
      split; [constructor|]. split; [discriminate|]. split; [auto|]. intros X1 X2. exfalso. auto. }
    destruct Gf as [Gf|Gf]; [discriminate|]. destruct Gw as [Gw|(Gw & Gm)]; [discriminate|].
    apply obind_ok in E. destruct E as (r & Er & E). destruct r as [ins|].
    + (* one completion, or a common beginning *)
      assert (Ci : c_in (o_c o) = false).
      { destruct (c_in (o_c o)) eqn:Ci; [|reflexivity]. cbn in Er. rewrite Ci in Er. discriminate. }
      assert (Pi : Forall (plainr u) ins).
      { cbn [ExitCompleteSelectMode c_in] in Er. rewrite Ci in Er. destruct rest as [|y l]; [injection Er as <-; now inversion Gw|].
        apply obind_ok in Er. destruct Er as ([[same size] outc] & Ea & Er).
        destruct (Aggregate_correct (x :: y :: l) ltac:(discriminate)) as (same' & size' & outc' & Ea' & _ & _ & Eq). rewrite Ea in Ea'. injection Ea' as <- <- <-.
        destruct (0 <? size)%nat; [|discriminate]. injection Er as <-. destruct outc as [|z t]; [discriminate|]. cbn [map] in Eq. injection Eq as Eq _.
        inversion Gw as [|? ? Gx _]. subst. apply Forall_app in Gx. apply Gx. }
      apply obind_ok in E. destruct E as (b & Wr & E). injection E as <-.
      destruct (once_case cf v (EWrite ins) (cstrip o) b [] A Wr Pi ltac:(discriminate) ltac:(discriminate)) as (A1 & _).
      split; [split; [exact A1|split; [apply M|reflexivity]]|]. split; [discriminate|]. split; [intros; congruence|]. eexists. split; [reflexivity|]. intros done a. exists UNone.
      split; [|split; [discriminate|split; [auto|congruence]]]. apply clooks_one. apply line_case; [exact A1|reflexivity|reflexivity].
    + match type of E with CompleteRefresh cf ?x = _ => destruct (refresh_case x o') as (Q1 & Q2 & _); [reflexivity|now apply mid_in| |exact E|] end.
      { split; [exact Gf|]. split; [exact Gw|exact Gm]. }
      split; [apply Q1|]. split; [auto|]. split; [intros _ _; exact Q2|]. rewrite (cp_in _ Q1). eexists. split; [reflexivity|]. intros done a. exists (under_of o').
      split; [|split; [auto|split; [discriminate|auto]]].
      replace (look_of done o []) with (look_of done o' []) by (unfold look_of; rewrite Q2; reflexivity). apply menu_case; [exact Q1|]. apply N, Q1.
Qed.

(** operation.go:347-363 *)
Lemma after_comp r o1 acts kS kC upd o' acts' : mid o1 -> owf cf o' -> after_switch cf r (o1, acts, kS, kC, upd) = Ok (o', acts') ->
  (c_in (o_c o1) = true -> kC = true -> completing o1 /\ results acts = [] /\ (narrow o' -> narrow o1)) ->
  (c_in (o_c o') = true -> narrow o') ->
  acts' = acts /\ at_comp o' /\ forall done a, (c_in (o_c o1) = false \/ results acts <> [] -> a = UNone) ->
    clooks_all cf v (look_of done o1 acts, a) (after_draws (o1, acts, kS, kC, upd)) (look_of done o' acts, under_of o').
Proof.
  intros M R E Kc N. pose proof (proj1 M) as A. pose proof (mid_s _ M) as Si.
  assert (Plain : forall z a1, at_prompt cf z -> o_vp z = None -> after_switch cf r (z, acts, kS, kC, upd) = Ok (o', a1) ->
    a1 = acts /\ at_seek cf o' /\ under_of o' = UNone /\ look_of [] o' acts = look_of [] z acts /\ o_b o' = o_b z).
  { intros z a1 Az Vz X. destruct (after_plain cf ps S r z acts kS kC upd o' a1 Az X) as (-> & h & -> & A2).
    destruct (prompt_seek cf _ A2 R Vz) as (B1 & B2). split; [reflexivity|]. split; [exact B1|]. split; [apply under_none; [exact (ap_s _ _ A2)|exact (ap_in _ _ A2)]|]. split; reflexivity. }
  unfold after_draws. rewrite Si, andb_false_r. destruct (c_in (o_c o1)) eqn:Ci.
  - destruct kC.
    + destruct (Kc eq_refl eq_refl) as (Cp & Re & Nr). unfold after_switch in E. rewrite (gc_listen _ G), Si, andb_false_r, Ci in E. cbn [negb] in E.
      apply obind_ok in E. destruct E as (o2 & E2 & E). destruct (refresh_case o1 o2 Ci M (cp_good _ Cp) E2) as (Q1 & Q2 & Q3 & Q4).
      apply obind_ok in E. destruct E as (o3 & E3 & E). injection E as <- <-.
      assert (X : exists h, o3 = with_h h o2 /\ hist_of (plainr u) h).
      { destruct (upd && negb (s_in (o_s o2))).
        - apply obind_ok in E3. destruct E3 as (h & Eh & E3). injection E3 as <-. exists h. split; [reflexivity|].
          eapply update_of; [|exact (ap_hist _ _ (proj1 (cp_mid _ Q1)))|exact Eh]. exact (ap_buf _ _ (proj1 (cp_mid _ Q1))).
        - injection E3 as <-. exists (o_h o2). split; [now destruct o2|exact (ap_hist _ _ (proj1 (cp_mid _ Q1)))]. }
      destruct X as (h & -> & Hh). destruct Q1 as [C1 C2 C3 C4]. split; [reflexivity|].
      assert (Q : completing (with_h h o2)).
      { constructor; [exact C1| |exact C3|exact C4]. split; [|apply C2]. exact (prompt_h cf (cstrip o2) h (proj1 C2) Hh). }
      split; [right; exact Q|]. intros done a _. unfold look_of at 1 2. rewrite Re. change (o_b (with_h h o2)) with (o_b o2). rewrite Q2.
      econstructor; [apply (line_case o1 done a A); reflexivity|].
      pose proof (N (cp_in _ Q)) as Nr'.
      pose proof (menu_case o1 done UNone Cp (Nr Nr')) as L. replace (under_of (with_h h o2)) with (under_of o1); [exact L|].
      rewrite (under_menu o1 Si Ci), (under_menu (with_h h o2)); [|exact (mid_s _ C2)|exact C1].
      change (o_c (with_h h o2)) with (o_c o2). change (o_b (with_h h o2)) with (o_b o2). rewrite Q2.
      destruct (cp_col _ Cp) as (out & Em). unfold CompleteRefresh in E2. rewrite Ci in E2. cbn [negb] in E2. rewrite Em in E2. cbn [obind snd] in E2.
      injection E2 as <-. reflexivity.
    + assert (E' : after_switch cf r (cstrip o1, acts, kS, false, upd) = Ok (o', acts')).
      { unfold after_switch in *. rewrite (gc_listen _ G) in *. change (s_in (o_s (cstrip o1))) with (s_in (o_s o1)). rewrite Si, andb_false_r in *. rewrite Ci in E.
        cbn [negb obind] in E. change (c_in (o_c (cstrip o1))) with false. cbn [obind]. exact E. }
      destruct (Plain (cstrip o1) acts' A (proj1 (proj2 M)) E') as (-> & B1 & B2 & _ & B3). split; [reflexivity|]. split; [now left|]. intros done a Ha. rewrite B2.
      assert (El : look_of done o' acts = look_of done o1 acts) by (unfold look_of; rewrite B3; reflexivity). rewrite El.
      destruct (results acts) eqn:Re.
      * apply clooks_one. unfold look_of. rewrite Re. apply (line_case o1 done a A); reflexivity.
      * rewrite (Ha ltac:(right; discriminate)). constructor.
  - assert (A1 : at_prompt cf o1).
    { destruct A. constructor; try assumption. now apply M. }
    destruct (Plain o1 acts' A1 (proj1 (proj2 M)) E) as (-> & B1 & B2 & _ & B3). split; [reflexivity|]. split; [now left|]. intros done a Ha. rewrite B2, (Ha ltac:(now left)).
    assert (El : look_of done o' acts = look_of done o1 acts) by (unfold look_of; now rewrite B3). rewrite El. constructor.
Qed.

Lemma after_buf r o1 acts kS kC upd o' acts' : s_in (o_s o1) = false -> after_switch cf r (o1, acts, kS, kC, upd) = Ok (o', acts') ->
  o_b o' = o_b o1 /\ (c_in (o_c o1) = true -> kC = true -> c_in (o_c o') = true).
Proof.
  intros Si E. unfold after_switch in E. rewrite (gc_listen _ G), Si, andb_false_r in E. apply obind_ok in E. destruct E as (o2 & E2 & E).
  assert (X : o_b o2 = o_b o1 /\ (c_in (o_c o1) = true -> kC = true -> c_in (o_c o2) = true)).
  { destruct (c_in (o_c o1)) eqn:Ci.
    - destruct kC; cbn [negb] in E2.
      + unfold CompleteRefresh in E2. rewrite Ci in E2. cbn [negb] in E2. apply obind_ok in E2. destruct E2 as (? & _ & E2). injection E2 as <-. split; [reflexivity|auto].
      + injection E2 as <-. split; [reflexivity|discriminate].
    - injection E2 as <-. split; [reflexivity|congruence]. }
  apply obind_ok in E. destruct E as (o3 & E3 & E). injection E as <- _.
  assert (Y : o_b o3 = o_b o2 /\ o_c o3 = o_c o2).
  { destruct (upd && negb (s_in (o_s o2))); [apply obind_ok in E3; destruct E3 as (? & _ & E3)|]; injection E3 as <-; split; reflexivity. }
  destruct Y as (-> & ->). exact X.
Qed.

Lemma on_buf Do o o' : OnComplete cf Do o = Ok o' -> c_in (o_c o) = true -> c_in (o_c o') = true -> o_b o' = o_b o.
Proof.
  intros E Ci Ci'. unfold OnComplete in E. rewrite w_nonzero in E.
  assert (R : forall x, CompleteRefresh cf x = Ok o' -> o_b o' = o_b x).
  { intros x X. unfold CompleteRefresh in X. destruct (negb (c_in (o_c x))); [now injection X as <-|]. apply obind_ok in X. destruct X as (? & _ & X). now injection X as <-. }
  assert (D : forall x, doSelect cf x = Ok o' -> o_b o' = o_b x).
  { intros x X. unfold doSelect in X. destruct (c_cand (o_c x)) as [|? [|? ?]].
    - apply obind_ok in X. destruct X as (? & _ & X). apply R in X. exact X.
    - apply obind_ok in X. destruct X as (? & _ & X). injection X as <-. discriminate.
    - apply obind_ok in X. destruct X as (? & _ & X). apply R in X. exact X. }
  destruct (c_sel (o_c o)); [now apply D|]. cbn zeta in E. destruct (c_in (o_c o) && _).
  - apply obind_ok in E. destruct E as (o1 & E1 & E2). rewrite (D _ E2). clear - E1 Ci. unfold CompleteRefresh in E1. cbn [with_c o_c c_in] in E1. rewrite Ci in E1. cbn [negb] in E1.
    apply obind_ok in E1. destruct E1 as (? & _ & E1). now injection E1 as <-.
  - destruct (Do _ _) as [cands off]. destruct cands; [injection E as <-; reflexivity|]. cbn [ExitCompleteSelectMode c_in] in E. rewrite Ci in E. cbn [obind] in E. now apply R in E.
Qed.

Lemma on_s Do o o' : OnComplete cf Do o = Ok o' -> o_s o' = o_s o.
Proof.
  intros E. unfold OnComplete in E. destruct (w =? 0); [now injection E as <-|].
  assert (R : forall x z, CompleteRefresh cf x = Ok z -> o_s z = o_s x).
  { intros x z X. unfold CompleteRefresh in X. destruct (negb (c_in (o_c x))); [now injection X as <-|]. apply obind_ok in X. destruct X as (? & _ & X). now injection X as <-. }
  assert (D : forall x z, doSelect cf x = Ok z -> o_s z = o_s x).
  { intros x z X. unfold doSelect in X. destruct (c_cand (o_c x)) as [|? [|? ?]]; apply obind_ok in X; destruct X as (? & _ & X); [exact (R _ _ X)|now injection X as <-|exact (R _ _ X)]. }
  destruct (c_sel (o_c o)); [now apply D|]. cbn zeta in E. destruct (c_in (o_c o) && _).
  - apply obind_ok in E. destruct E as (o1 & E1 & E2). rewrite (D _ _ E2). exact (R _ _ E1).
  - destruct (Do _ _) as [cands off]. destruct cands; [now injection E as <-|]. apply obind_ok in E. destruct E as (r & _ & E). destruct r.
    + apply obind_ok in E. destruct E as (? & _ & E). now injection E as <-.
    + exact (R _ _ E).
Qed.

(** a key acting on the line does what it does without candidates *)
Definition line_key (r : Z) : bool :=
  (r =? CharCtrlU) || (r =? CharKill) || (r =? MetaForward) || (r =? CharTranspose) ||
          (r =? MetaBackward) || (r =? MetaDelete) || (r =? CharLineStart) || (r =? CharLineEnd) ||
          (r =? MetaBackspace) || (r =? CharCtrlW) || (r =? CharCtrlY) || (r =? CharEnter) || (r =? CharCtrlJ) ||
          (r =? CharBackward) || (r =? CharForward) || (r =? CharPrev) || (r =? CharNext) || (r =? CharDelete).

Lemma line_switch r o : s_in (o_s o) = false -> (r =? CharBell) = false -> (r =? CharTab) = false -> (r =? CharInterrupt) = false -> (r =? CharBckSearch) = false ->
  (r =? CharFwdSearch) = false -> ((r =? CharBackspace) || (r =? CharCtrlH)) = false ->
  (r =? CharCtrlZ) = false -> (r =? CharCtrlL) = false -> line_key r = true ->
  ((r =? CharDelete) && (length (rb_buf (o_b o)) =? 0)%nat) = false ->
  forall o1 acts kS kC upd, key_switch cf r o = Ok (o1, acts, kS, kC, upd) ->
    key_switch cf r (cstrip o) = Ok (cstrip o1, acts, kS, kC, upd) /\ o_c o1 = o_c o /\ o_vp o1 = o_vp o /\
    (results acts = [] \/ kC = false) /\ (kC = true -> r = CharKill /\ exists b, Kill (o_b o) = Ok b /\ o1 = with_b b o).
Proof.
  intros Si K1 KT K2 K3 K4 K5 K7 K8 KL KD o1 acts kS kC upd E.
  unfold key_switch in *. cbn zeta in *. rewrite K1, KT, K2, K3, K4, K5, K7, K8 in *. unfold edit_buf in *.
  change (o_b (cstrip o)) with (o_b o). change (o_h (cstrip o)) with (o_h o). change (s_in (o_s (cstrip o))) with (s_in (o_s o)).
  assert (O : forall x, (b' <- x ;; Ok (with_b b' o, [], false, false, true)) = Ok (o1, acts, kS, kC, upd) ->
    (b' <- x ;; Ok (with_b b' (cstrip o), [], false, false, true)) = Ok (cstrip o1, acts, kS, kC, upd) /\ o_c o1 = o_c o /\ o_vp o1 = o_vp o /\
    (results acts = [] \/ kC = false) /\ (kC = true -> r = CharKill /\ exists b, Kill (o_b o) = Ok b /\ o1 = with_b b o)).
  { intros x X. apply obind_ok in X. destruct X as (b & -> & X). injection X as <- <- <- <- <-. repeat split; auto; discriminate. }
  destruct (r =? CharCtrlU) eqn:?; [now apply O|].
  destruct (Z.eqb_spec r CharKill).
  { apply obind_ok in E. destruct E as (b & Ek & E). rewrite Ek. injection E as <- <- <- <- <-. repeat split; auto. exists b. auto. }
  destruct (r =? MetaForward) eqn:?; [now apply O|].
  destruct (r =? CharTranspose) eqn:?; [now apply O|].
  destruct (r =? MetaBackward) eqn:?; [now apply O|].
  destruct (r =? MetaDelete) eqn:?; [now apply O|].
  destruct (r =? CharLineStart) eqn:?; [now apply O|].
  destruct (r =? CharLineEnd) eqn:?; [now apply O|].
  destruct ((r =? MetaBackspace) || (r =? CharCtrlW)) eqn:?; [now apply O|].
  destruct (r =? CharCtrlY) eqn:?; [now apply O|].
  destruct ((r =? CharEnter) || (r =? CharCtrlJ)) eqn:?.
  { unfold key_enter in *. change (s_in (o_s (cstrip o))) with (s_in (o_s o)). rewrite Si in *. cbn [obind] in *. change (o_b (cstrip o)) with (o_b o).
    apply obind_ok in E. destruct E as (b & -> & E). cbn [obind]. apply obind_ok in E. destruct E as ([data b'] & -> & E). cbn [obind].
    change (o_h (with_b b' (cstrip o))) with (o_h (with_b b' o)). destruct (negb (oc_nosave cf)).
    - apply obind_ok in E. destruct E as (h & -> & E). cbn [obind]. injection E as <- <- <- <- <-. repeat split; auto; discriminate.
    - injection E as <- <- <- <- <-. repeat split; auto; discriminate. }
  destruct (r =? CharBackward) eqn:?; [now apply O|].
  destruct (r =? CharForward) eqn:?; [now apply O|].
  destruct (r =? CharPrev) eqn:?.
  { apply obind_ok in E. destruct E as (x & -> & E). cbn [obind]. destruct (fst x); injection E as <- <- <- <- <-; repeat split; auto; discriminate. }
  destruct (r =? CharNext) eqn:?.
  { apply obind_ok in E. destruct E as (x & -> & E). cbn [obind]. destruct (fst x); injection E as <- <- <- <- <-; repeat split; auto; discriminate. }
  destruct (r =? CharDelete) eqn:KX.
  { unfold key_delete in *. change (o_b (cstrip o)) with (o_b o). replace (0 <? length (rb_buf (o_b o)))%nat with true in *
      by (destruct (length (rb_buf (o_b o))); [discriminate|reflexivity]).
    cbn [orb] in *. apply obind_ok in E. destruct E as (x & -> & E). injection E as <- <- <- <- <-. repeat split; auto; discriminate. }
  exfalso. clear E O K1 KT K2 K3 K4 K5 K7 K8 KD. unfold line_key in KL. apply Z.eqb_neq in n.
  repeat match goal with H : (_ || _) = false |- _ => apply orb_false_iff in H; destruct H end.
  repeat match goal with H : (r =? _) = false |- _ => rewrite H in KL; clear H end. discriminate.
Qed.

Lemma no_text acts : results acts = [] -> flat_map (text_of cf v) acts = [].
Proof.
  induction acts as [|x l IH]; [reflexivity|]. intros Q. unfold results in Q. cbn [filter] in Q. cbn [flat_map].
  destruct x; cbn [is_result] in Q; try discriminate Q; cbn [text_of app]; now apply IH.
Qed.

(** operation.go:165-363 with candidates shown *)
Lemma switched_case o r o' acts done a : c_in (o_c o) = true -> mid o -> c_sel (o_c o) = false -> narrow o -> owf cf o' ->
  (completing o /\ c_src (o_c o) = Some (rb_buf (o_b o)) \/ c_src (o_c o) = None /\ r <> CharKill /\ r <> CharTab) ->
  prompt_key cf r \/ r = CharTab -> (r = CharTranspose -> length (rb_buf (o_b o)) <> 1%nat) ->
  (r = CharKill -> rb_idx (o_b o) = length (rb_buf (o_b o))) -> oc_auto cf <> None ->
  (y <- key_switch cf r o ;; after_switch cf r y) = Ok (o', acts) -> (c_in (o_c o') = true -> narrow o') ->
  at_comp o' /\ exists es, switched_draws cf r o = Ok es /\
    clooks_all cf v (look_of done o [], a) es (look_of (done ++ flat_map (text_of cf v) acts) o' acts, under_of o').
Proof.
  intros Ci M Se Nr R Kd K KT KK Au E N. pose proof (proj1 M) as A. pose proof (mid_s _ M) as Si.
  destruct (oc_auto cf) as [Do|] eqn:Ea; [clear Au|congruence].
  apply obind_ok in E. destruct E as (y & Ey & E). unfold switched_draws. rewrite Ci. cbn [orb]. rewrite Ey.
  destruct y as [[[[o1 a1] kS] kC] upd].
  (* the part after the switch *)
  assert (Fin : forall es a2, mid o1 -> (c_in (o_c o1) = true -> kC = true -> completing o1 /\ results a1 = []) ->
    (c_in (o_c o1) = false \/ results a1 <> [] -> a2 = UNone) -> comp_switch_draws cf r o = Ok es ->
    clooks_all cf v (look_of done o [], a) es (look_of (done ++ flat_map (text_of cf v) a1) o1 a1, a2) ->
    at_comp o' /\ exists es, (a <- comp_switch_draws cf r o ;; x <- Ok (o1, a1, kS, kC, upd) ;; Ok (a ++ after_draws x)) = Ok es /\
      clooks_all cf v (look_of done o [], a) es (look_of (done ++ flat_map (text_of cf v) acts) o' acts, under_of o')).
  { intros es a2 M1 Kc Ha D L. destruct (after_buf r o1 a1 kS kC upd o' acts (mid_s _ M1) E) as (Bf & _).
    destruct (after_comp r o1 a1 kS kC upd o' acts M1 R E) as (-> & B1 & B2).
    - intros X1 X2. destruct (Kc X1 X2). split; [assumption|]. split; [assumption|]. unfold narrow. now rewrite Bf.
    - exact N.
    - split; [exact B1|]. rewrite D. cbn [obind]. eexists. split; [reflexivity|]. eapply clooks_app; [exact L|]. now apply B2. }
  assert (Ln : forall x, at_prompt cf (cstrip x) -> clooks cf v (look_of done o [], a) (cline x) (look_of done x [], UNone)) by (intros x Ax; now apply line_case).
  pose proof Ey as Ey0. unfold key_switch in Ey. cbn zeta in Ey. rewrite Si in Ey.
  destruct (r =? CharBell) eqn:K1.
  { cbn [obind] in Ey. rewrite Ci in Ey. injection Ey as <- <- <- <- <-. apply (Fin [cline o] UNone).
    - now apply mid_c.
    - discriminate.
    - reflexivity.
    - unfold comp_switch_draws. now rewrite K1.
    - cbn [flat_map]. rewrite app_nil_r. apply clooks_one. exact (Ln o A). }
  destruct (r =? CharTab) eqn:K2.
  { destruct Kd as [(Cp & Src)|(_ & _ & X)]; [|apply Z.eqb_eq in K2; contradiction].
    rewrite Ea, w_nonzero in Ey. apply obind_ok in Ey. destruct Ey as (x & Ex & Ey). injection Ey as <- <- <- <- <-.
    assert (Six : s_in (o_s x) = false -> c_in (o_c x) = true -> narrow x).
    { intros X1 X2. destruct (after_buf _ _ _ _ _ _ _ _ X1 E) as (Y1 & Y2). specialize (N (Y2 X2 eq_refl)). unfold narrow in *. now rewrite <- Y1. }
    destruct (on_case Do o x Ea M Se Ex) as (Q1 & Q2 & _ & es & Q3 & Q4).
    - intros _ _. split; [exact (cp_good _ Cp)|exact Nr].
    - intros X. unfold narrow. rewrite (on_buf Do o x Ex Ci X). exact Nr.
    - destruct (Q4 done a) as (a2 & L1 & L2 & L3 & L4). apply (Fin es a2).
      + exact Q1.
      + intros X _. split; [now apply Q2|reflexivity].
      + intros [X|X]; [|contradiction]. rewrite (L4 Ci Src). apply under_none; [exact (mid_s _ Q1)|exact X].
      + unfold comp_switch_draws. now rewrite K1, K2, Ea.
      + cbn [flat_map]. rewrite app_nil_r. exact L1. }
  assert (K' : prompt_key cf r) by (apply Z.eqb_neq in K2; tauto).
  assert (X : (r =? CharBckSearch) = false /\ (r =? CharFwdSearch) = false /\ (r =? CharCtrlZ) = false /\ (r =? CharCtrlL) = false).
  { clear - K'. destruct K' as [(K & _)|[K|[K|(K & _)]]].
    - unfold CharBckSearch, CharFwdSearch, CharCtrlZ, CharCtrlL. lia.
    - unfold command_keys in K. cbn [In] in K. repeat (destruct K as [<-|K]; [repeat split; reflexivity|]). contradiction.
    - subst r. repeat split; reflexivity.
    - subst r. repeat split; reflexivity. }
  destruct X as (K3 & K4 & K5 & K6).
  destruct ((r =? CharBackspace) || (r =? CharCtrlH)) eqn:K7.
  { assert (Y : (if (length (rb_buf (o_b o)) =? 0)%nat then Ok (o, [ABell], false, false, true) else
       b' <- BufBackspace (o_b o) ;; o2 <- OnComplete cf Do (with_b b' o) ;; Ok (o2, [], false, false, true)) = Ok (o1, a1, kS, kC, upd)).
    { clear - Ey K7 Ea Ci. apply orb_prop in K7. rewrite !Z.eqb_eq in K7. rewrite Ea in Ey.
      destruct K7; subst r; cbn -[OnComplete BufBackspace] in Ey; destruct (length (rb_buf (o_b o)) =? 0)%nat; try exact Ey;
        destruct (BufBackspace (o_b o)); try exact Ey; cbn [obind] in Ey |- *; cbn [with_b o_c] in Ey; rewrite Ci in Ey; exact Ey. }
    clear Ey. assert (Dr : comp_switch_draws cf r o = (if (length (rb_buf (o_b o)) =? 0)%nat then Ok [CompModel.CS (SO OBell)]
       else b' <- BufBackspace (o_b o) ;; d <- on_draws cf Do (with_b b' o) ;; Ok (cline (with_b b' o) :: d))).
    { unfold comp_switch_draws. now rewrite K1, K2, K3, K4, K7, Ea. }
    destruct (length (rb_buf (o_b o)) =? 0)%nat.
    - injection Y as <- <- <- <- <-. apply (Fin _ a M) in Dr.
      + exact Dr.
      + discriminate.
      + intros [X|X]; [congruence|contradiction].
      + cbn [flat_map text_of app]. rewrite app_nil_r. apply clooks_one, CLBell.
    - apply obind_ok in Y. destruct Y as (b' & Eb & Y). apply obind_ok in Y. destruct Y as (o2 & Eo & Y). injection Y as <- <- <- <- <-.
      destruct (once_case cf v EBackspace (cstrip o) b' done A Eb ltac:(constructor) ltac:(discriminate) ltac:(discriminate)) as (A1 & _).
      assert (M1 : mid (with_b b' o)) by (split; [exact A1|apply M]).
      assert (Nb : narrow (with_b b' o) /\ (rb_buf b' = rb_buf (o_b o) -> b' = o_b o)).
      { clear - Eb Nr A. unfold BufBackspace in Eb. destruct (Nat.eqb_spec (rb_idx (o_b o)) 0) as [Z0|Z0]; [injection Eb as <-; split; [exact Nr|reflexivity]|].
        pose proof (ap_inside _ _ A) as I. unfold inside in I. change (o_b (cstrip o)) with (o_b o) in I.
        apply obind_ok in Eb. destruct Eb as (f & Ef & Eb). apply obind_ok in Eb. destruct Eb as (t & Et & Eb). injection Eb as <-. cbn [with_b o_b rb_idx rb_buf]. split.
        - unfold narrow in *. cbn [with_b o_b rb_idx]. lia.
        - intros X. exfalso. apply (f_equal (@length Z)) in X. rewrite app_length in X.
          unfold slice in Ef, Et. repeat match type of Ef with (if ?c then _ else _) = _ => destruct c; try discriminate end.
          repeat match type of Et with (if ?c then _ else _) = _ => destruct c; try discriminate end.
          injection Ef as <-. injection Et as <-. rewrite ?firstn_length, ?skipn_length in X. lia. }
      destruct Nb as (Nb & Bb).
      destruct (on_case Do (with_b b' o) o2 Ea M1 Se Eo) as (Q1 & Q2 & _ & es & Q3 & Q4).
      + intros _ Src. cbn [with_b o_c o_b] in Src |- *. destruct Kd as [(Cp & Src')|(Src' & _)]; [|congruence]. rewrite Src' in Src. injection Src as Src.
        rewrite (Bb (eq_sym Src)) in *. split; [exact (cp_good _ Cp)|exact Nb].
      + intros X. unfold narrow. rewrite (on_buf Do (with_b b' o) o2 Eo Ci X). exact Nb.
      + destruct (Q4 done UNone) as (a2 & L1 & L2 & L3 & L4). rewrite Eb in Dr. cbn [obind] in Dr. rewrite Q3 in Dr. cbn [obind] in Dr.
        apply (Fin _ a2 Q1) in Dr; [exact Dr| | |].
        * discriminate.
        * intros [X|X]; [|contradiction]. destruct (L3 X); assumption.
        * cbn [flat_map]. rewrite app_nil_r. econstructor; [exact (Ln (with_b b' o) A1)|exact L1]. }
  destruct (r =? CharInterrupt) eqn:K8.
  { assert (Y : (o1, a1, kS, kC, upd) = (cstrip o, [AKick], false, false, true)).
    { apply Z.eqb_eq in K8. subst r. cbn -[key_interrupt] in Ey. unfold key_interrupt in Ey. rewrite Si, Ci in Ey. now injection Ey as <- <- <- <- <-. }
    injection Y as -> -> -> -> ->. apply (Fin [cline o] UNone).
    - now apply mid_c.
    - discriminate.
    - reflexivity.
    - unfold comp_switch_draws. now rewrite K1, K2, K3, K4, K7, K8.
    - cbn [flat_map text_of app]. rewrite app_nil_r. apply clooks_one. exact (Ln o A). }
  destruct ((r =? CharDelete) && (length (rb_buf (o_b o)) =? 0)%nat) eqn:K9.
  { assert (Dr : comp_switch_draws cf r o = Ok [cline o; CompModel.CS (SO OBell)]) by (unfold comp_switch_draws; now rewrite K1, K2, K3, K4, K7, K8, K9).
    apply andb_prop in K9. destruct K9 as (D1 & D2). apply Z.eqb_eq in D1. apply Nat.eqb_eq in D2. subst r.
    assert (I0 : rb_idx (o_b o) = 0%nat) by (pose proof (ap_inside _ _ A) as X; unfold inside in X; change (o_b (cstrip o)) with (o_b o) in X; clear - X D2; lia).
    assert (Y : (o1, a1, kS, kC, upd) = (o, [AKick; ABell], false, false, true)).
    { cbn -[key_delete] in Ey. unfold key_delete in Ey. replace (negb (IsNormalMode o)) with true in Ey by (unfold IsNormalMode; rewrite Ci; reflexivity).
      rewrite orb_true_r in Ey. unfold Delete in Ey. rewrite I0, D2 in Ey. cbn in Ey. injection Ey as <- <- <- <- <-. now destruct o. }
    injection Y as -> -> -> -> ->. apply (Fin _ UNone M) in Dr; [exact Dr| | |].
    - discriminate.
    - reflexivity.
    - cbn [flat_map text_of app]. rewrite app_nil_r. econstructor; [exact (Ln o A)|]. apply clooks_one, CLBell. }
  destruct (line_key r) eqn:K10.
  - destruct (line_switch r o Si K1 K2 K8 K3 K4 K7 K5 K6 K10 K9 o1 a1 kS kC upd Ey0) as (Y & Q1 & Q2 & Q3 & Q4).
    destruct (switch_case cf (seek_plain cf ps S) v (cstrip o) r (cstrip o1) a1 kS kC upd done A K') as (A1 & _ & es & D & L).
    + exact KT.
    + intros _. now apply Z.eqb_neq.
    + exact Y.
    + change (switch_draws cf r (cstrip o)) with (switch_draws cf r o) in D.
      destruct (over_menu cf v es _ _ a (draws_drawing cf r o es D K8 K9) L) as (a2 & L1 & L2).
      assert (M1 : mid o1) by (split; [exact A1|split; [rewrite Q2; apply M|intros X; rewrite Q1 in X; congruence]]).
      apply (Fin _ a2 M1) with (4 := L1).
      * intros _ X. destruct (Q4 X) as (-> & b & Ek & ->). split; [|destruct Q3; [assumption|congruence]].
        destruct Kd as [(Cp & _)|(_ & X' & _)]; [|congruence]. specialize (KK eq_refl).
        assert (Eb : rb_buf b = rb_buf (o_b o) /\ rb_idx b = rb_idx (o_b o)).
        { clear - Ek KK. unfold Kill in Ek. apply obind_ok in Ek. destruct Ek as (k & _ & Ek). apply obind_ok in Ek. destruct Ek as (f & Ef & Ek). injection Ek as <-. cbn. split; [|reflexivity].
          unfold slice in Ef. repeat match type of Ef with (if ?c then _ else _) = _ => destruct c; try discriminate end. injection Ef as <-. cbn. rewrite KK, Nat.sub_0_r. apply firstn_all. }
        destruct Eb as (Eb1 & Eb2). destruct Cp as [C1 C2 C3 C4]. constructor; [exact C1|exact M1| |].
        -- unfold mg in *. cbn [with_b o_b o_c]. now rewrite Eb1, Eb2.
        -- destruct C4 as (out & C4). exists out. cbn [with_b o_b o_c]. rewrite <- C4. destruct b as [bb bi bk], (o_b o) as [cb cidx ck]. cbn in Eb1, Eb2. subst. reflexivity.
      * intros [X|X]; [rewrite Q1 in X; congruence|]. destruct L2 as [L2|(L2 & _)]; [exact L2|].
        exfalso. unfold look_of in L2. injection L2 as _ _ _ L2. destruct (results a1); [contradiction|discriminate].
      * unfold comp_switch_draws. rewrite K1, K2, K3, K4, K7, K8, K9. fold (line_key r). rewrite K10, D. reflexivity.
  - (* a character *)
    assert (Pr : plainr u r).
    { destruct K' as [X|[X|[X|(X & _)]]]; [exact X| |subst r; discriminate|subst r; discriminate].
      exfalso. clear - X K1 K2 K3 K4 K5 K6 K7 K8 K10. unfold line_key in K10. rewrite !orb_false_iff in *. rewrite !Z.eqb_neq in *. unfold command_keys in X. cbn [In] in X. intuition congruence. }
    assert (Y : (b' <- WriteRunes [r] (o_b o) ;; o2 <- OnComplete cf Do (with_b b' o) ;; Ok (o2, [], false, true, true)) = Ok (o1, a1, kS, kC, upd)).
    { clear - Ey K1 K2 K3 K4 K5 K6 K7 K8 K10 Ci Ea. unfold line_key in K10.
      repeat match goal with H : (_ || _) = false |- _ => apply orb_false_iff in H; destruct H end.
      repeat match goal with H : (r =? _) = false |- _ => rewrite H in Ey; clear H end. cbn [orb] in Ey.
      destruct (WriteRunes [r] (o_b o)); try exact Ey. cbn [obind] in *. cbn [with_b o_c] in Ey. rewrite Ci, Ea in Ey. exact Ey. }
    clear Ey. apply obind_ok in Y. destruct Y as (b' & Eb & Y). apply obind_ok in Y. destruct Y as (o2 & Eo & Y). injection Y as <- <- <- <- <-.
    destruct (once_case cf v (EWrite [r]) (cstrip o) b' done A Eb ltac:(repeat constructor; apply Pr) ltac:(discriminate) ltac:(discriminate)) as (A1 & _).
    assert (M1 : mid (with_b b' o)) by (split; [exact A1|apply M]).
    assert (So2 : s_in (o_s o2) = false).
    { rewrite (on_s Do _ _ Eo). exact Si. }
    destruct (on_case Do (with_b b' o) o2 Ea M1 Se Eo) as (Q1 & Q2 & _ & es & Q3 & Q4).
    + intros _ Src. exfalso. cbn [with_b o_c o_b] in Src. destruct Kd as [(_ & Src')|(Src' & _)]; [|congruence]. rewrite Src' in Src. injection Src as Src.
      clear - Src Eb A. unfold WriteRunes in Eb. apply obind_ok in Eb. destruct Eb as (f & Ef & Eb). apply obind_ok in Eb. destruct Eb as (t & Et & Eb). injection Eb as <-.
      cbn [rb_buf] in Src. apply (f_equal (@length Z)) in Src. rewrite !app_length in Src. pose proof (ap_inside _ _ A) as I. unfold inside in I. change (o_b (cstrip o)) with (o_b o) in I.
      unfold slice in Ef, Et. repeat match type of Ef with (if ?c then _ else _) = _ => destruct c; try discriminate end.
      repeat match type of Et with (if ?c then _ else _) = _ => destruct c; try discriminate end.
      injection Ef as <-. injection Et as <-. cbn [length app] in Src. rewrite ?firstn_length, ?skipn_length in Src. lia.
    + intros X. destruct (after_buf _ _ _ _ _ _ _ _ So2 E) as (Y1 & Y2). specialize (N (Y2 X eq_refl)). unfold narrow in *. now rewrite <- Y1.
    + destruct (Q4 done UNone) as (a2 & L1 & L2 & L3 & L4). apply (Fin (cline (with_b b' o) :: es) a2 Q1).
      * intros X _. split; [now apply Q2|reflexivity].
      * intros [X|X]; [|contradiction]. destruct (L3 X); assumption.
      * unfold comp_switch_draws. rewrite K1, K2, K3, K4, K7, K8, K9. fold (line_key r). rewrite K10, Eb, Ea. cbn [obind]. now rewrite Q3.
      * cbn [flat_map]. rewrite app_nil_r. econstructor; [exact (Ln (with_b b' o) A1)|exact L1].
Qed.

Lemma comp_key_nonzero o r : may_comp cf o r -> (r =? 0) = false.
Proof.
  intros (_ & _ & [K|[([K|K] & _)|(K & _)]]); [exact (prompt_nonzero cf r K)|subst r; reflexivity|subst r; reflexivity|subst r; reflexivity].
Qed.

Lemma prompt_comp o : mid o -> c_in (o_c o) = false -> owf cf o -> at_comp o /\ under_of o = UNone.
Proof.
  intros M Ci R. assert (A : at_prompt cf o) by (destruct M as (A & V & Q); destruct A; constructor; try assumption; now apply Q).
  split; [left; exact (proj1 (prompt_seek cf o A R (proj1 (proj2 M))))|]. apply under_none; [exact (mid_s _ M)|exact Ci].
Qed.

Lemma mid_h o h : mid o -> hist_of (plainr u) h -> mid (with_h h o).
Proof. intros (A & V & Q) H. split; [exact (prompt_h cf (cstrip o) h A H)|]. split; assumption. Qed.

Definition cfollowed (o : op) (done : list (list Z)) (x : outcome (list cev)) (o' : op) (acts : list act) : Prop :=
  at_comp o' /\ exists es, x = Ok es /\
    clooks_all cf v (look_of done o [], under_of o) es (look_of (done ++ flat_map (text_of cf v) acts) o' acts, under_of o').

(** a candidate is chosen *)
Lemma select_case o r o' acts done : completing o -> c_sel (o_c o) = true -> narrow o -> may_comp cf o r -> oc_auto cf <> None ->
  op_step cf r o = Ok (o', acts) -> owf cf o' -> menu_fits cf v o' -> cfollowed o done (comp_draws cf r o) o' acts.
Proof.
  intros Cp Se Nr K Au E R F. pose proof (cp_mid _ Cp) as M. pose proof (proj1 M) as A. pose proof (mid_s _ M) as Si. pose proof (cp_in _ Cp) as Ci.
  unfold op_step in E. change (o_end o) with (o_end (cstrip o)) in E. rewrite (ap_end _ _ A), (proj1 (proj2 M)), (gc_filter _ G) in E.
  unfold handle_key in E. rewrite (comp_key_nonzero o r K), Se in E. cbn [andb] in E.
  unfold comp_draws, chosen_draws. rewrite Se. apply obind_ok in E. destruct E as ([o1 keep] & Eh & E). rewrite Eh. cbn [obind fst snd].
  (* the menu again, with another choice *)
  assert (Next : forall c' : outcome comp, (forall c, c' = Ok c -> exists n, c = set_choice n (o_c o)) ->
    (x <- c' ;; o' <- CompleteRefresh cf (with_c x o) ;; Ok (o', true)) = Ok (o1, keep) ->
    completing o1 /\ o_b o1 = o_b o /\ keep = true).
  { intros c' Hc X. apply obind_ok in X. destruct X as (c & Ec & X). destruct (Hc c Ec) as (n & ->). apply obind_ok in X. destruct X as (z & Ez & X). injection X as <- <-.
    match type of Ez with CompleteRefresh cf ?x = _ => destruct (refresh_case x z) as (Q1 & Q2 & _) end.
    - exact Ci.
    - apply mid_in; [exact M|exact Ci].
    - exact (cp_good _ Cp).
    - exact Ez.
    - split; [exact Q1|]. split; [exact Q2|reflexivity]. }
  assert (Keep : completing o1 /\ o_b o1 = o_b o /\ keep = true -> ((r =? CharEnter) || (r =? CharCtrlJ)) = false -> ((r =? CharTab) || (r =? CharForward)) = false ->
    cfollowed o done (a <- (if (r =? CharEnter) || (r =? CharCtrlJ) then Ok [cline o1] else if (r =? CharTab) || (r =? CharForward) then d <- pick_draws cf o ;; Ok (d ++ cmenu o1)
      else if keep then Ok (cmenu o1) else Ok []) ;; (if keep then Ok a
      else if (r =? CharEnter) || (r =? CharCtrlJ) || (r =? CharInterrupt) || (r =? CharBell) then Ok (a ++ [cline o1])
      else d <- switched_draws cf r o1 ;; Ok (a ++ cline o1 :: d))) o' acts).
  { intros (Q1 & Q2 & ->) X1 X2. injection E as <- <-. split; [now right|]. rewrite X1, X2. cbn [obind]. eexists. split; [reflexivity|]. cbn [flat_map]. rewrite app_nil_r.
    replace (look_of done o []) with (look_of done o1 []) by (unfold look_of; now rewrite Q2). apply menu_case; [exact Q1|]. unfold narrow. now rewrite Q2. }
  unfold HandleCompleteSelect in Eh. cbn zeta in Eh.
  destruct ((r =? CharEnter) || (r =? CharCtrlJ)) eqn:K1.
  { clear Keep. destruct (c_choice (o_c o) <? 0); [discriminate|]. apply obind_ok in Eh. destruct Eh as (x & Ex & Eh). apply obind_ok in Eh. destruct Eh as (b & Eb & Eh). injection Eh as <- <-.
    assert (Px : Forall (plainr u) x).
    { destruct (cp_good _ Cp) as (_ & Fp & _). unfold get in Ex. destruct (nth_error (c_cand (o_c o)) (Z.to_nat (c_choice (o_c o)))) eqn:En; [|discriminate]. injection Ex as ->. rewrite Forall_forall in Fp. apply Fp. eapply nth_error_In, En. }
    destruct (once_case cf v (EWrite x) (cstrip o) b done A Eb Px ltac:(discriminate) ltac:(discriminate)) as (A1 & _).
    apply obind_ok in E. destruct E as (h & Eu & E). injection E as <- <-.
    set (o1 := with_c (ExitCompleteMode (o_c o)) (with_b b o)) in *.
    assert (M1 : mid o1) by (split; [exact A1|split; [apply M|reflexivity]]).
    assert (Hh : hist_of (plainr u) h) by (eapply update_of; [|exact (ap_hist _ _ A)|exact Eu]; exact (ap_buf _ _ A1)).
    destruct (prompt_comp (with_h h o1) (mid_h _ _ M1 Hh) eq_refl R) as (B1 & B2). split; [exact B1|]. rewrite B2. cbn [obind orb app].
    eexists. split; [reflexivity|]. cbn [flat_map text_of app]. rewrite app_nil_r. change (look_of done (with_h h o1) [AKick]) with (look_of done o1 []).
    econstructor; [apply (line_case o1 done _ A1); reflexivity|]. apply clooks_one. apply (line_case o1 done _ A1); reflexivity. }
  destruct (r =? CharLineStart) eqn:K2.
  { assert (X : ((r =? CharTab) || (r =? CharForward)) = false) by (apply Z.eqb_eq in K2; subst r; reflexivity). apply Keep; [|reflexivity|exact X].
    eapply Next; [|exact Eh]. intros c X'. destruct (c_col (o_c o) =? 0); [discriminate|]. unfold nextCandidate in X'. cbn zeta in X'.
    destruct (Z.of_nat (length (c_cand (o_c o))) =? 0); [discriminate|]. injection X' as <-. eauto. }
  destruct (r =? CharLineEnd) eqn:K3.
  { assert (X : ((r =? CharTab) || (r =? CharForward)) = false) by (apply Z.eqb_eq in K3; subst r; reflexivity). apply Keep; [|reflexivity|exact X].
    eapply Next; [|exact Eh]. intros c X'. destruct (c_col (o_c o) =? 0); [discriminate|]. injection X' as <-. eauto. }
  (* the choice is over, the key acts *)
  assert (Other : o1 = with_c (ExitCompleteSelectMode (o_c o)) o -> keep = false -> (r =? CharInterrupt) = false -> (r =? CharBell) = false ->
    ((r =? CharTab) || (r =? CharForward)) = false ->
    cfollowed o done (a <- (if (r =? CharTab) || (r =? CharForward) then d <- pick_draws cf o ;; Ok (d ++ cmenu o1)
      else if keep then Ok (cmenu o1) else Ok []) ;; (if keep then Ok a
      else if false || (r =? CharInterrupt) || (r =? CharBell) then Ok (a ++ [cline o1])
      else d <- switched_draws cf r o1 ;; Ok (a ++ cline o1 :: d))) o' acts).
  { intros -> -> X1 X2 X3. rewrite X1, X2 in *. rewrite X3. cbn [orb obind app].
    set (o1 := with_c (ExitCompleteSelectMode (o_c o)) o) in *.
    assert (M1 : mid o1) by (apply mid_in; [exact M|exact Ci]). unfold vim_and_switch in E. rewrite (ss_vim _ _ S) in E.
    destruct K as (Tr & _ & K).
    assert (Tr' : r <> CharKill /\ (r = CharTranspose -> length (rb_buf (o_b o)) <> 1%nat)).
    { clear - Tr M Se CS. unfold trips in Tr. rewrite (proj1 (proj2 M)) in Tr. destruct (oc_vim cf && o_vn o) eqn:Ov.
      - exfalso. rewrite (ss_vim _ _ (cs_seek _ _ CS)) in Ov. discriminate.
      - split; [intros ->|intros -> L]; apply Tr; unfold CharKill, CharTranspose; auto. }
    destruct (switched_case o1 r o' acts done UNone Ci M1 eq_refl Nr R) as (B1 & es & D & L).
    - right. split; [reflexivity|]. split; [apply Tr'|]. intros ->. discriminate.
    - destruct K as [K|[(_ & K)|(K & _)]]; [now left|congruence|now right].
    - apply Tr'.
    - intros X. now destruct Tr'.
    - exact Au.
    - exact E.
    - exact F.
    - split; [exact B1|]. rewrite D. cbn [obind]. eexists. split; [reflexivity|]. econstructor; [|exact L].
      change (look_of done o []) with (look_of done o1 []). apply (line_case o1 done _ (proj1 M1)); reflexivity. }
  destruct (r =? CharBackspace) eqn:K4.
  { injection Eh as <- <-. apply Other; try reflexivity; apply Z.eqb_eq in K4; subst r; reflexivity. }
  destruct ((r =? CharTab) || (r =? CharForward)) eqn:K5.
  { clear Keep Other. apply obind_ok in Eh. destruct Eh as (z & Ez & Eh). apply obind_ok in Eh. destruct Eh as (z2 & Ez2 & Eh). injection Eh as <- <-. injection E as <- <-.
    destruct (pick_case o z Ci M (cp_good _ Cp) Nr Ez) as (P1 & P2 & es & P3 & P4). rewrite P3. cbn [obind].
    destruct (c_in (o_c z)) eqn:Cz.
    - destruct (P2 eq_refl) as (P5 & P6). destruct (refresh_case z z2 Cz P1 (cp_good _ P5) Ez2) as (Q1 & Q2 & _). split; [now right|].
      eexists. split; [reflexivity|]. cbn [flat_map]. rewrite app_nil_r. eapply clooks_app; [apply P4|].
      replace (look_of done z []) with (look_of done z2 []) by (unfold look_of; now rewrite Q2). apply menu_case; [exact Q1|]. unfold narrow. now rewrite Q2, P6.
    - unfold CompleteRefresh in Ez2. rewrite Cz in Ez2. injection Ez2 as <-. destruct (prompt_comp z P1 Cz R) as (B1 & B2). split; [exact B1|].
      eexists. split; [reflexivity|]. cbn [flat_map]. unfold cmenu. rewrite Cz, !app_nil_r. apply P4. }
  destruct ((r =? CharBell) || (r =? CharInterrupt)) eqn:K6.
  { clear Keep Other. injection Eh as <- <-.
    assert (X : acts = (if r =? CharInterrupt then [AKick] else []) /\ o' = cstrip o).
    { apply orb_prop in K6. destruct (r =? CharInterrupt); [now injection E as <- <-|]. destruct K6 as [X|X]; [rewrite X in E; now injection E as <- <-|discriminate]. }
    destruct X as (-> & ->). destruct (prompt_comp (cstrip o)) as (B1 & B2); [now apply mid_c|reflexivity|exact R|]. split; [exact B1|]. rewrite B2. cbn [obind orb app].
    replace ((r =? CharInterrupt) || (r =? CharBell)) with true by (clear - K6; destruct (r =? CharBell), (r =? CharInterrupt); auto).
    eexists. split; [reflexivity|]. replace (flat_map (text_of cf v) (if r =? CharInterrupt then [AKick] else [])) with (@nil (list Z)) by (destruct (r =? CharInterrupt); reflexivity).
    rewrite app_nil_r. replace (look_of done (cstrip o) (if r =? CharInterrupt then [AKick] else [])) with (look_of done o []) by (destruct (r =? CharInterrupt); reflexivity).
    apply clooks_one. exact (line_case o done _ A (look_of done o []) eq_refl eq_refl). }
  destruct (r =? CharNext) eqn:K7.
  { apply Keep; [|reflexivity|reflexivity]. eapply Next; [|exact Eh]. intros c X'. apply obind_ok in X'. destruct X' as (m & _ & X'). injection X' as <-. eauto. }
  destruct (r =? CharBackward) eqn:K8.
  { apply Keep; [|reflexivity|reflexivity]. eapply Next; [|exact Eh]. intros c X'. unfold nextCandidate in X'. cbn zeta in X'.
    destruct (Z.of_nat (length (c_cand (o_c o))) =? 0); [discriminate|]. injection X' as <-. eauto. }
  destruct (r =? CharPrev) eqn:K9.
  { apply Keep; [|reflexivity|reflexivity]. eapply Next; [|exact Eh]. intros c X'. cbn zeta in X'. destruct (_ <? 0).
    - apply obind_ok in X'. destruct X' as (m & _ & X'). injection X' as <-. eauto.
    - injection X' as <-. eauto. }
  injection Eh as <- <-. apply orb_false_iff in K6. apply Other; try reflexivity; apply K6.
Qed.

Lemma comp_case o r o' acts done : owf cf o -> at_comp o -> menu_fits cf v o -> may_comp cf o r -> op_step cf r o = Ok (o', acts) -> owf cf o' ->
  status_fits cf v o' -> menu_fits cf v o' -> cfollowed o done (comp_draws cf r o) o' acts.
Proof.
  intros Ro [A|Cp] Fo K E R F F'.
  - pose proof (as_ap _ _ A) as P. assert (Ci : c_in (o_c o) = false) by exact (ap_in _ _ P). assert (Se : c_sel (o_c o) = false) by exact (ap_sel _ _ P).
    unfold comp_draws. rewrite Se. unfold switched_draws. rewrite Ci. cbn [orb].
    destruct ((r =? CharTab) && _) eqn:T.
    + apply andb_prop in T. destruct T as (T & Ta). apply Z.eqb_eq in T. subst r. destruct (oc_auto cf) as [Do|] eqn:Ea; [clear Ta|discriminate].
      assert (Si : s_in (o_s o) = false).
      { destruct K as (_ & _ & [K|[([K|K] & _)|(_ & K)]]); try discriminate K; [|exact K]. exfalso. destruct K as [(K & _)|[K|[K|(_ & K)]]]; [unfold CharTab in K; lia| |discriminate|congruence].
        unfold command_keys in K. cbn [In] in K. repeat (destruct K as [K|K]; [discriminate K|]). contradiction. }
      assert (M : mid o).
      { split; [|split; [exact (as_vp _ _ A)|auto]]. destruct P. constructor; try assumption; reflexivity. }
      unfold op_step in E. change (o_end o) with (o_end (strip o)) in E. rewrite (ap_end _ _ P), (as_vp _ _ A), (gc_filter _ G) in E.
      unfold handle_key in E. rewrite Se in E. cbn [Z.eqb andb CharTab] in E. unfold vim_and_switch in E. rewrite (ss_vim _ _ S) in E.
      apply obind_ok in E. destruct E as (y & Ey & E). fold CharTab in E. assert (Ey' : key_switch cf CharTab o = Ok y) by exact Ey. rewrite Ey'.
      unfold key_switch in Ey. cbn -[OnComplete] in Ey. rewrite Ea, w_nonzero in Ey. apply obind_ok in Ey. destruct Ey as (x & Ex & Ey). injection Ey as <-.
      assert (Sx : s_in (o_s x) = false) by (rewrite (on_s Do o x Ex); exact Si).
      destruct (after_buf CharTab _ _ _ _ _ _ _ Sx E) as (Y1 & Y2).
      assert (Nx : c_in (o_c x) = true -> narrow x).
      { intros X. specialize (F' (Y2 X eq_refl)). unfold narrow. now rewrite <- Y1. }
      destruct (on_case Do o x Ea M Se Ex ltac:(congruence) Nx) as (Q1 & Q2 & _ & es & Q3 & Q4).
      unfold comp_switch_draws. cbn -[on_draws after_draws]. rewrite Ea, Q3. cbn [obind].
      destruct (after_comp CharTab x [] false true true o' acts Q1 R E) as (-> & B1 & B2).
      * intros X _. split; [now apply Q2|]. split; [reflexivity|]. intros _. now apply Nx.
      * exact F'.
      * split; [exact B1|]. eexists. split; [reflexivity|]. cbn [flat_map]. rewrite app_nil_r.
        destruct (Q4 done (under_of o)) as (a2 & L1 & L2 & L3 & _). eapply clooks_app; [exact L1|]. apply B2.
        intros [X|X]; [|contradiction]. destruct (L3 X) as [->| ->]; [reflexivity|]. now apply under_none.
    + destruct (seek_case cf ps S o r o' acts done Ro A) as (B1 & es & D & L).
      * destruct K as (K1 & K2 & K3). split; [exact K1|]. split.
        -- intros X Y. destruct (K2 X Y); [assumption|congruence].
        -- destruct K3 as [K3|[(K3 & _)|(-> & _)]]; [auto|auto|]. left. right. right. right. split; [reflexivity|].
           cbn in T. destruct (oc_auto cf); [discriminate|reflexivity].
      * exact E.
      * exact R.
      * exact F.
      * split; [now left|]. rewrite D. cbn [obind]. eexists. split; [reflexivity|].
        assert (X : forall z, c_in (o_c z) = false -> under_of z = of_opt (status_of z)).
        { intros z Z. unfold under_of. destruct (status_of z); [reflexivity|]. now rewrite Z. }
        rewrite (X o Ci), (X o' (ap_in _ _ (as_ap _ _ B1))). now apply seek_events.
  - assert (Au : oc_auto cf <> None /\ c_src (o_c o) = Some (rb_buf (o_b o))).
    { destruct Ro as [Ro|Ro]; [pose proof (ap_end _ _ (proj1 (cp_mid _ Cp))) as X; change (o_end (cstrip o)) with (o_end o) in X; congruence|].
      destruct (r_c _ _ Ro (cp_in _ Cp)) as (X & Y). split; [exact X|apply Y]. }
    destruct Au as (Au & Src). pose proof (Fo (cp_in _ Cp)) as Nr. change (narrow o) in Nr.
    destruct (c_sel (o_c o)) eqn:Se; [now apply select_case|].
    pose proof (cp_mid _ Cp) as M. pose proof (proj1 M) as A. pose proof (cp_in _ Cp) as Ci.
    unfold op_step in E. change (o_end o) with (o_end (cstrip o)) in E. rewrite (ap_end _ _ A), (proj1 (proj2 M)), (gc_filter _ G) in E.
    unfold handle_key in E. rewrite (comp_key_nonzero o r K), Se in E. cbn [andb] in E. unfold vim_and_switch in E. rewrite (ss_vim _ _ S) in E.
    unfold comp_draws. rewrite Se. destruct K as (Tr & _ & K).
    assert (Tr' : (r = CharKill -> rb_idx (o_b o) = length (rb_buf (o_b o))) /\ (r = CharTranspose -> length (rb_buf (o_b o)) <> 1%nat)).
    { clear - Tr M Ci A CS. unfold trips in Tr. rewrite (proj1 (proj2 M)) in Tr. destruct (oc_vim cf && o_vn o) eqn:Ov.
      - exfalso. rewrite (ss_vim _ _ (cs_seek _ _ CS)) in Ov. discriminate.
      - pose proof (ap_inside _ _ A) as I. unfold inside in I. change (o_b (cstrip o)) with (o_b o) in I.
        split; [intros ->|intros -> L]; [|apply Tr; unfold CharTranspose; auto].
        destruct (Nat.eq_dec (rb_idx (o_b o)) (length (rb_buf (o_b o)))) as [X|X]; [exact X|]. exfalso. apply Tr. right. left. unfold CharKill. split; [reflexivity|]. right. split; [exact Ci|lia]. }
    unfold cfollowed. apply switched_case; try assumption; try tauto. destruct K as [K|[(_ & K)|(K & _)]]; [now left|congruence|now right].
Qed.
End Key.

(** ** Sessions *)
Section Sess.
Variable cf : ocfg.
Variable ps : list piece.
Hypothesis C : comp_session cf ps.
Hypothesis W : 0 < oc_w cf <= 9223372036854775807.
Hypothesis U : uenv_ok (oc_u cf).
Let v := visible ps.
Hypothesis PD : Forall sgr_digits ps.
Hypothesis PV : Forall (plainr (oc_u cf)) v.
Hypothesis PS : Z.of_nat (length v) + 1 < oc_w cf.
Notation cagrees := (cagrees cf ps).
Notation u := (oc_u cf).
Notation w := (oc_w cf).

Lemma comp_agrees is : forall o reading done st y0 s0 s, owf cf o -> at_comp cf ps o -> status_fits cf v o -> menu_fits cf v o -> comp_turn cf v is o reading ->
  cagrees y0 {| k_done := done; k_line := rb_buf (o_b o); k_idx := rb_idx (o_b o); k_reading := reading |} (under_of o) st s0 s ->
  exists st' out t o' acts, comp_run cf (o, st) is = Ok ((o', st'), out, acts) /\ leaves cf v is o t o' acts /\ at_comp cf ps o' /\
    cagrees y0 {| k_done := done ++ t; k_line := rb_buf (o_b o'); k_idx := rb_idx (o_b o'); k_reading := fst st' |} (under_of o') st' s0 (sexecs u w s out).
Proof.
  pose proof (cs_seek _ _ C) as Cs.
  pose proof (crun_agrees cf W U (ss_ascii _ _ Cs) ps PD PV PS (ss_prompt _ _ Cs)) as Run.
  induction is as [|i is IH]; intros o reading done st y0 s0 s R A F Fm T Gr; pose proof (cagrees_reading cf ps _ _ _ _ _ _ Gr) as Rd; cbn [k_reading] in Rd.
  - exists st, [], [], o, []. split; [reflexivity|]. split; [constructor|]. split; [exact A|]. rewrite app_nil_r, Rd. exact Gr.
  - destruct i as [|txt|r]; cbn [comp_turn] in T.
    + destruct T as (-> & T).
      assert (Sn : under_of o = UNone).
      { destruct (under_of o); [reflexivity|destruct Gr as (_ & _ & _ & _ & Y & _); discriminate|destruct Gr as ((_ & _ & _ & _ & Y & _) & _); discriminate]. }
      rewrite Sn in Gr.
      destruct (Run [CompModel.CS (SO (ODraw VRead))] y0 _ UNone st s0 s {| k_done := done; k_line := rb_buf (o_b o); k_idx := rb_idx (o_b o); k_reading := true |} UNone Gr) as (st1 & o1 & E1 & G1).
      { apply clooks_one, over_any, LRead. }
      rewrite <- Sn in G1 at 1. destruct (IH o true done st1 y0 s0 _ R A F Fm T G1) as (st' & out & t & o' & acts & E2 & L2 & A2 & G2).
      exists st', (o1 ++ out), t, o', acts. cbn [comp_run comp_step]. rewrite E1. cbn [obind fst snd]. rewrite E2. cbn [obind app].
      split; [reflexivity|]. split; [now constructor|]. split; [exact A2|]. now rewrite sexecs_app.
    + destruct T as ((ls & Fl & ->) & T).
      set (es := CompModel.CS (SO (ODraw (VOut (flat_map (fun l => l ++ [10]) ls)))) ::
        if fst st then (if s_in (o_s o) then [CompModel.CS (SStatus (-1) (set_fail (-1) (o_s o)) (o_b o))] else []) ++ cmenu o else []).
      destruct (Run es y0 _ (under_of o) st s0 s {| k_done := done ++ ls; k_line := rb_buf (o_b o); k_idx := rb_idx (o_b o); k_reading := reading |} (under_of o) Gr) as (st1 & o1 & E1 & G1).
      { unfold es. pose proof (LOut u v {| k_done := done; k_line := rb_buf (o_b o); k_idx := rb_idx (o_b o); k_reading := reading |} ls Fl) as L.
        econstructor; [apply over_any; exact L|]. cbn [k_done k_line k_idx k_reading]. rewrite Rd.
        destruct A as [A|Cp].
        - assert (Ci : c_in (o_c o) = false) by exact (ap_in _ _ (as_ap _ _ A)). unfold cmenu. rewrite Ci, app_nil_r.
          unfold under_of. destruct (s_in (o_s o)) eqn:Si.
          + assert (So : exists x, status_of o = Some x) by (unfold status_of; rewrite Si; eauto). destruct So as (x & So).
            assert (Rt : reading = true). { unfold under_of in Gr. rewrite So in Gr. destruct Gr as (_ & _ & _ & _ & Y & _). exact Y. }
            rewrite Rt. apply clooks_one. replace (set_fail (-1) (o_s o)) with (o_s o) by (destruct (o_s o); reflexivity). rewrite So.
            apply (CLSeek cf v _ None _ _ (Some x)). rewrite <- So. apply (status_case cf ps); try reflexivity; try assumption.
            * left; lia.
            * exact (ap_end _ _ (as_ap _ _ A)).
            * exact (as_data _ _ A).
          + unfold status_of. rewrite Si, Ci. destruct reading; constructor.
        - pose proof (cp_mid _ _ _ Cp) as M. rewrite (mid_s cf o M). cbn [app].
          assert (Rt : reading = true).
          { rewrite (under_menu o) in Gr; [|exact (mid_s cf o M)|exact (cp_in _ _ _ Cp)]. destruct Gr as ((_ & _ & _ & _ & Y & _) & _). exact Y. }
          rewrite Rt. apply (menu_case cf ps C o (done ++ ls) UNone Cp). exact (Fm (cp_in _ _ _ Cp)). }
      destruct (IH o reading (done ++ ls) st1 y0 s0 _ R A F Fm T G1) as (st' & out & t & o' & acts & E2 & L2 & A2 & G2).
      exists st', (o1 ++ out), (ls ++ t), o', acts. cbn [comp_run comp_step]. fold es. rewrite E1. cbn [obind fst snd]. rewrite E2. cbn [obind app].
      split; [reflexivity|]. split; [now constructor|]. split; [exact A2|]. rewrite sexecs_app, app_assoc. exact G2.
    + destruct T as (-> & K & T).
      destruct (step_ok cf (ss_good _ _ Cs) r o R (proj1 K)) as (o1 & a1 & E & R1). destruct (T o1 a1 E) as (F1 & F1' & T1).
      destruct (comp_case cf ps C o r o1 a1 done R A Fm K E R1 F1 F1') as (A1 & es & D & L).
      destruct (Run es y0 _ _ st s0 s _ _ Gr L) as (st1 & out1 & E1 & G1).
      destruct (IH o1 _ _ st1 y0 s0 _ R1 A1 F1 F1' T1 G1) as (st' & out & t & o' & acts & E2 & L2 & A2 & G2).
      exists st', (out1 ++ out), (flat_map (text_of cf v) a1 ++ t), o', (a1 ++ acts). cbn [comp_run comp_step]. rewrite D. cbn [obind].
      rewrite E1. cbn [obind fst snd]. rewrite E. cbn [obind fst snd]. rewrite E2. cbn [obind].
      split; [reflexivity|]. split; [econstructor; eassumption|]. split; [exact A2|]. rewrite sexecs_app, app_assoc. exact G2.
Qed.
End Sess.
