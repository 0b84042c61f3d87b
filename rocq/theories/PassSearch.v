From Verif Require Import Base ListAux RunesModel RunesSpec RuneBufModel RuneBufSpec RuneBufProofs HistoryModel HistoryProofs HideProofs
  RenderModel OpModel OpSpec OpProofs PassSpec PassProofs.
From Coq Require Import List ZArith Lia Bool ZifyBool.
Import ListNotations.
Open Scope Z_scope.

Section ask.
Variable cf : ocfg.
Hypothesis AW : asking_wide cf.
Let A : asking cf := aw_ask cf AW.

(** the same configuration with a history that keeps lines: searching does not look at the limit *)
Definition twin : ocfg := {| oc_u := oc_u cf; oc_h := {| hc_limit := 500; hc_fold := hc_fold (oc_h cf); hc_file := hc_file (oc_h cf) |};
  oc_w := oc_w cf; oc_prompt := oc_prompt cf; oc_auto := None; oc_vim := false; oc_unique := oc_unique cf; oc_nosave := oc_nosave cf;
  oc_listen := None; oc_filter := None; oc_eofp := oc_eofp cf; oc_intp := oc_intp cf |}.
Lemma twin_good : good_config twin.
Proof. constructor; cbn; try reflexivity; try lia; [apply (aw_w _ AW)|apply (aw_prompt _ AW)|]. unfold good_completer. cbn. exact I || (intros; discriminate). Qed.

(** line, history, no completion, no vim command *)
Record still' (o : op) : Prop := { st_idx : inside (o_b o); st_h : hwf (o_h o); st_c : c_in (o_c o) = false; st_sel : c_sel (o_c o) = false; st_vp : o_vp o = None }.
Record poised (o : op) : Prop := { po_still : still' o; po_s : s_in (o_s o) = true -> sgood o /\ h_cur (o_h o) <> None; po_s0 : s_in (o_s o) = false -> sclear o }.
Definition fine2 (x : swres) : Prop :=
  let '(o, a, ks, kc, upd) := x in still' o /\ (ks = true -> s_in (o_s o) = true -> sgood o /\ h_cur (o_h o) <> None) /\ (s_in (o_s o) = false -> sclear o) /\ (upd = false -> results a <> []).

Lemma qpick (c : bool) (X Y : outcome swres) :
  (c = true -> exists x, X = Ok x /\ fine2 x) -> (c = false -> exists x, Y = Ok x /\ fine2 x) ->
  exists x, (if c then X else Y) = Ok x /\ fine2 x.
Proof. intros H1 H2. destruct c; auto. Qed.

Lemma still_b o b : still' o -> inside b -> still' (with_b b o).
Proof. intros [] I. constructor; cbn; assumption. Qed.
Lemma still_h o h : still' o -> hwf h -> still' (with_h h o).
Proof. intros [] I. constructor; cbn; assumption. Qed.
Lemma fine_b o b a kc upd : poised o -> (upd = false -> results a <> []) -> inside b -> fine2 (with_b b o, a, false, kc, upd).
Proof. intros [S _ S0] U I. split; [now apply still_b|]. split; [discriminate|split; [exact S0|exact U]]. Qed.
Lemma fine_o o a kc upd : poised o -> (upd = false -> results a <> []) -> fine2 (o, a, false, kc, upd).
Proof. intros [S _ S0] U. split; [exact S|]. split; [discriminate|split; [exact S0|exact U]]. Qed.
Lemma fine_h o h a kc upd : poised o -> (upd = false -> results a <> []) -> hwf h -> fine2 (with_h h o, a, false, kc, upd).
Proof. intros [S _ S0] U I. split; [now apply still_h|]. split; [discriminate|split; [exact S0|exact U]]. Qed.
Lemma fine_bh o b h a kc upd : poised o -> (upd = false -> results a <> []) -> inside b -> hwf h -> fine2 (with_b b (with_h h o), a, false, kc, upd).
Proof. intros [S _ S0] U I W. split; [apply still_b; [now apply still_h|exact I]|]. split; [discriminate|split; [exact S0|exact U]]. Qed.
Lemma fine_hb o b h a kc upd : poised o -> (upd = false -> results a <> []) -> inside b -> hwf h -> fine2 (with_h h (with_b b o), a, false, kc, upd).
Proof. intros [S _ S0] U I W. split; [apply still_h; [now apply still_b|exact W]|]. split; [discriminate|split; [exact S0|exact U]]. Qed.

Lemma exit_true o : poised o -> s_in (o_s o) = true -> exists o', ExitSearchMode true o = Ok o' /\ poised o' /\ s_in (o_s o') = false.
Proof.
  intros P S. destruct (po_s _ P S) as (((id & E & I) & _) & _). unfold ExitSearchMode. rewrite E. destruct P as [St _ _]. destruct St.
  destruct (deref_ok (set_cur (Some id) (o_h o)) id I) as (x & -> & X & Xi). cbn [obind]. eexists. split; [reflexivity|]. split; [|reflexivity].
  constructor; cbn; try discriminate; [|intros _; split; reflexivity].
  constructor; cbn; try assumption; [unfold inside; cbn; lia|now apply hwf_set_cur].
Qed.
Lemma exit_false o : still' o -> exists o', ExitSearchMode false o = Ok o' /\ poised o' /\ s_in (o_s o') = false.
Proof.
  intros P. cbn [ExitSearchMode obind]. eexists. split; [reflexivity|]. split; [|reflexivity].
  constructor; cbn; try discriminate; [|intros _; split; reflexivity]. destruct P. constructor; cbn; assumption.
Qed.

Lemma enter_poised o : poised o -> exists x, key_enter cf o = Ok x /\ fine2 x.
Proof.
  intros P. unfold key_enter.
  assert (Q : exists o1, (if s_in (o_s o) then ExitSearchMode false o else Ok o) = Ok o1 /\ poised o1).
  { destruct (s_in (o_s o)); [|eauto]. destruct (exit_false o (po_still _ P)) as (o1 & E & P1 & _). eauto. }
  destruct Q as (o1 & -> & P1). cbn [obind MoveToLineEnd]. clear P. clear o. rename o1 into o.
  assert (R : exists d b', (if negb (oc_unique cf) then b <- WriteRunes [10] (with_idx (length (rb_buf (o_b o))) (o_b o)) ;;
       let '(data, b') := Reset b in d <- slice 0 (length data - 1) data ;; Ok (d, b')
       else Ok (Reset (with_idx (length (rb_buf (o_b o))) (o_b o)))) = Ok (d, b') /\ inside b').
  { destruct (negb (oc_unique cf)).
    - destruct (write_ok [10] (with_idx (length (rb_buf (o_b o))) (o_b o))) as (b & -> & I); [unfold inside; cbn; lia|].
      cbn [obind Reset]. rewrite slice_to by lia. cbn [obind]. do 2 eexists. split; [reflexivity|]. unfold inside. cbn. lia.
    - cbn [Reset]. do 2 eexists. split; [reflexivity|]. unfold inside. cbn. lia. }
  destruct R as (d & b' & -> & I). cbn [obind]. destruct (negb (oc_nosave cf)).
  - cbn [o_h with_b]. destruct (New_ok (oc_h cf) d (o_h o) (st_h _ (po_still _ P1))) as (h & -> & Hg). cbn [obind].
    eexists. split; [reflexivity|]. apply fine_hb; [assumption|discriminate|assumption|assumption].
  - eexists. split; [reflexivity|]. apply fine_b; [assumption|discriminate|assumption].
Qed.

Lemma delete_poised o : poised o -> exists x, key_delete cf o = Ok x /\ fine2 x.
Proof.
  intros P. unfold key_delete. pose proof (st_idx _ (po_still _ P)) as In0. destruct ((0 <? length (rb_buf (o_b o)))%nat || negb (IsNormalMode o)) eqn:E.
  - destruct (edit_ok EDelete (o_b o) In0) as (b & D & [I|(F & _)]); [cbn; tauto| |discriminate]. cbn [run_edit] in D.
    destruct (Delete (o_b o)) as [[b1 ok]| |]; try discriminate. cbn [obind fst snd] in *. injection D as ->.
    eexists. split; [reflexivity|]. apply fine_b; [assumption|discriminate|assumption].
  - assert (Q : exists b, (if negb (oc_unique cf) then WriteRunes (oc_eofp cf ++ [10]) (o_b o) else Ok (o_b o)) = Ok b).
    { destruct (negb (oc_unique cf)); [|eauto]. destruct (write_ok (oc_eofp cf ++ [10]) (o_b o) In0) as (b & -> & _). eauto. }
    destruct Q as (b & ->). cbn [obind]. eexists. split; [reflexivity|].
    apply fine_hb; [exact P|discriminate|unfold inside; cbn; lia|apply revert_hwf, (st_h _ (po_still _ P))].
Qed.

Lemma interrupt_poised o : poised o -> exists x, key_interrupt cf o = Ok x /\ fine2 x.
Proof.
  intros P. destruct (s_in (o_s o)) eqn:S.
  - unfold key_interrupt. rewrite S. destruct (exit_true o P S) as (o1 & -> & P1 & _). cbn [obind]. eexists. split; [reflexivity|]. apply fine_o; [assumption|discriminate].
  - assert (C : calm o) by (destruct P as [[] _ _]; constructor; assumption).
    destruct (interrupt_calm cf o C) as (x & E & F). exists x. split; [exact E|]. unfold fine in F. unfold key_interrupt in E. rewrite S, (cm_c _ C) in E. cbn [MoveToLineEnd obind] in E.
    destruct (if negb (oc_unique cf) then WriteRunes (oc_intp cf ++ [10]) (with_idx (length (rb_buf (o_b o))) (o_b o)) else Ok (with_idx (length (rb_buf (o_b o))) (o_b o))) as [b| |]; try discriminate.
    cbn [obind Reset] in E.
    destruct (if negb (oc_unique cf) then if (length (rb_buf b) <? length (oc_intp cf ++ [10%Z]))%nat then Panic
      else slice 0 (length (rb_buf b) - length (oc_intp cf ++ [10%Z])) (rb_buf b) else Ok (rb_buf b)) as [d| |]; try discriminate.
    cbn [obind] in E. injection E as <-. cbn [fst] in F.
    apply fine_hb; [exact P|discriminate|unfold inside; cbn; lia|apply revert_hwf, (st_h _ (po_still _ P))].
Qed.

Lemma refresh_cur x o o' : h_cur (o_h o) <> None -> SearchRefresh cf x o = Ok o' -> h_cur (o_h o') <> None.
Proof. unfold SearchRefresh. intros H E. destruct (search_out cf x (set_fail x (o_s o)) (o_b o)); try discriminate. cbn [obind] in E. injection E as <-. exact H. Qed.
Lemma search_cur new o o' : h_cur (o_h o) <> None -> search cf new o = Ok o' -> h_cur (o_h o') <> None.
Proof.
  unfold search. intros H E. destruct (s_data (o_s o)); [eapply refresh_cur; [|exact E]; exact H|].
  destruct (if s_bck (o_s o) then _ else _) as [x| |]; try discriminate. cbn [obind] in E. destruct x as [[i id]|].
  - destruct (deref (o_h o) id) as [y| |]; try discriminate. cbn [obind] in E. eapply refresh_cur; [|exact E]. cbn. discriminate.
  - eapply refresh_cur; [|exact E]. exact H.
Qed.
Lemma SearchMode_cur bck o o' : h_cur (o_h o) <> None -> SearchMode cf bck o = Ok (o', true) -> h_cur (o_h o') <> None.
Proof.
  unfold SearchMode. intros H E. destruct (oc_w cf =? 0); [discriminate|]. destruct (s_in (o_s o)).
  - destruct (search _ _ _) as [y| |] eqn:F; try discriminate. cbn [obind] in E. injection E as <-. eapply search_cur; [|exact F]. exact H.
  - destruct (SearchRefresh _ _ _) as [y| |] eqn:F; try discriminate. cbn [obind] in E. injection E as <-. eapply refresh_cur; [|exact F]. exact H.
Qed.

Lemma searching_ok new d o : poised o -> s_in (o_s o) = true -> exists o1,
  search cf new (with_s (set_data d (o_s o)) o) = Ok o1 /\ fine2 (o1, [], true, false, true).
Proof.
  intros P S. destruct (po_s _ P S) as (((id & E & Ii) & Mk) & Cu). destruct P as [[I W C Sl Vp] _ _].
  destruct (search_ok twin twin_good new (with_s (set_data d (o_s o)) o) I W Mk) as (o1 & X & Sk).
  change (search cf new (with_s (set_data d (o_s o)) o) = Ok o1) in X. pose proof (search_cur new (with_s (set_data d (o_s o)) o) o1 Cu X) as Cu1.
  exists o1. split; [exact X|]. destruct Sk. cbn in *. split; [constructor; congruence|]. split; [|split; [congruence|discriminate]].
  intros _ _. split; [|exact Cu1]. split; [|assumption]. exists id. split; [congruence|]. unfold elems. rewrite sk_items, sk_dead. exact Ii.
Qed.

Lemma SearchMode_poised bck o : poised o -> h_cur (o_h o) <> None -> exists x, (x <- SearchMode cf bck o ;;
    Ok (fst x, if snd x then [] else [ABell], snd x, false, true)) = Ok x /\ fine2 x.
Proof.
  intros P H. assert (K : marks_ok (o_s o) (o_b o)).
  { destruct (s_in (o_s o)) eqn:S; [apply (po_s _ P S)|]. destruct (po_s0 _ P S) as (B & _). unfold marks_ok. rewrite B. lia. }
  destruct P as [[I W C Sl Vp] _ _].
  destruct (SearchMode_ok twin twin_good bck o I W K) as (o' & X & I' & W' & It & De & _ & S & Src & Mk & Cc & Vn & Vp' & En & _).
  change (SearchMode cf bck o = Ok (o', true)) in X. rewrite X.
  cbn [obind fst snd]. eexists. split; [reflexivity|]. split; [constructor; congruence|]. split; [|split; [congruence|discriminate]].
  intros _ _. split; [|exact (SearchMode_cur bck _ _ H X)]. split; [|exact Mk]. pose proof (w_cur _ W) as Cu. destruct (h_cur (o_h o)) as [id|]; [|congruence].
  exists id. split; [exact Src|]. unfold elems. rewrite It, De. exact Cu.
Qed.

Lemma nav_poised o (x : option (list Z) * hist) : poised o -> hwf (snd x) -> exists y,
  (match fst x with
   | Some l => Ok (with_b (Set_ l (o_b o)) (with_h (snd x) o), [], false, false, true)
   | None => Ok (with_h (snd x) o, [ABell], false, false, true)
   end : outcome swres) = Ok y /\ fine2 y.
Proof.
  intros P W. destruct (fst x) as [l|]; (eexists; split; [reflexivity|]).
  - apply fine_bh; [exact P|discriminate| |exact W]. unfold inside. cbn. lia.
  - apply fine_h; [assumption|discriminate|assumption].
Qed.

Lemma switch_poised first r o : poised o -> (first = false -> h_cur (o_h o) <> None) -> ~ tripping first r o -> exists x, key_switch cf r o = Ok x /\ fine2 x.
Proof.
  intros P Fi T. pose proof (st_idx _ (po_still _ P)) as In0. pose proof (st_c _ (po_still _ P)) as C0. unfold key_switch.
  assert (Ed : forall e, (~ edit_panics e (o_b o)) -> (e = ETranspose -> length (rb_buf (o_b o)) <> 1%nat) ->
     exists x, edit_buf (run_edit e (o_b o)) o = Ok x /\ fine2 x).
  { intros e N1 N2. destruct (edit_ok e (o_b o) In0 N1) as (b & E & I).
    assert (B : inside b) by (destruct I as [I|(-> & L)]; [exact I|now elim N2]).
    unfold edit_buf. rewrite E. cbn [obind]. eexists. split; [reflexivity|]. apply fine_b; [assumption|discriminate|assumption]. }
  assert (Z0 : forall a k, exists x, (Ok (o, a, false, k, true) : outcome swres) = Ok x /\ fine2 x) by (intros; eexists; split; [reflexivity|apply fine_o; [assumption|discriminate]]).
  rewrite (as_auto _ A).
  apply qpick; intros K1.
  { destruct (s_in (o_s o)) eqn:S; cbn [obind]; [|rewrite C0; apply Z0].
    destruct (exit_true o P S) as (o1 & -> & P1 & _). cbn [obind]. rewrite (st_c _ (po_still _ P1)). eexists. split; [reflexivity|]. apply fine_o; [assumption|discriminate]. }
  apply qpick; intros K2; [apply Z0|].
  apply qpick; intros K3.
  { apply SearchMode_poised; [exact P|]. apply Fi. destruct first; [|reflexivity]. elim T. left. split; [left; unfold CharBckSearch in K3; lia|reflexivity]. }
  apply qpick; intros K4; [apply (Ed EKillFront); [cbn; tauto|discriminate]|].
  apply qpick; intros K5.
  { apply SearchMode_poised; [exact P|]. apply Fi. destruct first; [|reflexivity]. elim T. left. split; [right; unfold CharFwdSearch in K5; lia|reflexivity]. }
  apply qpick; intros K6.
  { destruct (edit_ok EKill (o_b o) In0) as (b & E & [I|(F & _)]); [cbn; tauto| |discriminate]. cbn [run_edit] in E. rewrite E. cbn [obind].
    eexists. split; [reflexivity|]. apply fine_b; [assumption|discriminate|assumption]. }
  apply qpick; intros K7; [apply (Ed ENextWord); [cbn; tauto|discriminate]|].
  apply qpick; intros K8.
  { apply (Ed ETranspose); [cbn; tauto|]. intros _ L. apply T. right. unfold CharTranspose in K8. split; [lia|exact L]. }
  apply qpick; intros K9; [apply (Ed EPrevWord); [cbn; tauto|discriminate]|].
  apply qpick; intros K10; [apply (Ed EDeleteWord); [cbn; tauto|discriminate]|].
  apply qpick; intros K11; [apply (Ed ELineStart); [cbn; tauto|discriminate]|].
  apply qpick; intros K12; [apply (Ed ELineEnd); [cbn; tauto|discriminate]|].
  apply qpick; intros K13.
  { destruct (s_in (o_s o)) eqn:S.
    { unfold SearchBackspace. destruct (s_data (o_s o)) as [|d0 dd] eqn:D; cbn [obind].
      - eexists. split; [reflexivity|]. destruct P as [St Sg Sc]. split; [exact St|]. split; [intros _; exact Sg|split; [exact Sc|discriminate]].
      - destruct (searching_ok true (firstn (length (d0 :: dd) - 1) (d0 :: dd)) o P S) as (o1 & -> & F). cbn [obind]. eauto. }
    apply qpick; intros L; [apply Z0|].
    destruct (edit_ok EBackspace (o_b o) In0) as (b & E & [I|(F & _)]); [cbn; tauto| |discriminate]. cbn [run_edit] in E. rewrite E. cbn [obind].
    cbn [o_c with_b]. rewrite C0. cbn [obind]. eexists. split; [reflexivity|]. apply fine_b; [assumption|discriminate|assumption]. }
  apply qpick; intros K14; [apply Z0|].
  apply qpick; intros K15; [apply Z0|].
  apply qpick; intros K16; [apply (Ed EBackEscapeWord); [cbn; tauto|discriminate]|].
  apply qpick; intros K17; [apply (Ed EYank); [cbn; tauto|discriminate]|].
  apply qpick; intros K18; [now apply enter_poised|].
  apply qpick; intros K19; [apply (Ed EBackward); [cbn; tauto|discriminate]|].
  apply qpick; intros K20; [apply (Ed EForward); [cbn; tauto|discriminate]|].
  apply qpick; intros K21.
  { destruct (prev_calm (o_h o) (st_h _ (po_still _ P))) as (x & -> & W). cbn [obind]. now apply nav_poised. }
  apply qpick; intros K22.
  { destruct (next_calm (o_h o) (st_h _ (po_still _ P))) as (x & -> & W). cbn [obind]. now apply nav_poised. }
  apply qpick; intros K23; [now apply delete_poised|].
  apply qpick; intros K24; [now apply interrupt_poised|].
  destruct (s_in (o_s o)) eqn:S.
  { destruct (searching_ok true (s_data (o_s o) ++ [r]) o P S) as (o1 & E & F). unfold SearchChar. rewrite E. cbn [obind]. eauto. }
  destruct (write_ok [r] (o_b o) In0) as (b & -> & I). cbn [obind o_c with_b]. rewrite C0.
  eexists. split; [reflexivity|]. apply fine_b; [assumption|discriminate|assumption].
Qed.

Lemma after_poised r x : fine2 x -> exists o' a, after_switch cf r x = Ok (o', a) /\ poised o' /\ (results a = [] -> h_cur (o_h o') <> None).
Proof.
  destruct x as [[[[o a] ks] kc] upd]. intros (St & Sg & Sc & U). unfold after_switch. rewrite (aw_listen _ AW).
  assert (Q : exists o2, (if negb ks && s_in (o_s o) then ExitSearchMode false o
         else if c_in (o_c o) then
           if negb kc then Ok (with_c (ExitCompleteMode (o_c o)) o) else CompleteRefresh cf o
         else Ok o) = Ok o2 /\ poised o2).
  { destruct (negb ks && s_in (o_s o)) eqn:E.
    - destruct (exit_false o St) as (o2 & X & P & _). eauto.
    - rewrite (st_c _ St). exists o. split; [reflexivity|]. constructor; [exact St| |exact Sc].
      intros S. apply Sg; [|exact S]. rewrite S in E. destruct ks; [reflexivity|discriminate]. }
  destruct Q as (o2 & -> & P). cbn [obind snd]. destruct (s_in (o_s o2)) eqn:S; cbn [negb]; [rewrite andb_false_r|rewrite andb_true_r]; cbn [obind].
  - do 2 eexists. split; [reflexivity|]. split; [exact P|]. intros _. apply (po_s _ P S).
  - destruct upd; cbn [obind].
    + destruct (Update_ok (oc_h cf) (rb_buf (o_b o2)) false (o_h o2) (st_h _ (po_still _ P))) as (h & -> & W & Nn). cbn [obind].
      do 2 eexists. split; [reflexivity|]. split; [|intros _; exact Nn]. destruct P as [St2 Sg2 Sc2]. constructor; [now apply still_h| |exact Sc2].
      cbn. congruence.
    + do 2 eexists. split; [reflexivity|]. split; [exact P|]. intros R. now elim (U eq_refl).
Qed.

Lemma step_poised first r o : poised o -> (first = false -> h_cur (o_h o) <> None \/ o_end o = true) -> ~ tripping first r o ->
  exists o' a, op_step cf r o = Ok (o', a) /\ poised o' /\ (results a = [] -> h_cur (o_h o') <> None \/ o_end o' = true).
Proof.
  intros P Fi T. unfold op_step. destruct (o_end o) eqn:En; [eexists; eexists; split; [reflexivity|]; split; [exact P|auto]|]. rewrite (st_vp _ (po_still _ P)), (as_filter _ A).
  unfold handle_key. destruct ((r =? 0) && (length (rb_buf (o_b o)) =? 0)%nat) eqn:E.
  { do 2 eexists. split; [reflexivity|]. split; [|intros _; right; reflexivity]. destruct P as [[] Sg Sc]. constructor; [constructor; cbn; assumption|exact Sg|exact Sc]. }
  rewrite (st_sel _ (po_still _ P)). unfold vim_and_switch. rewrite (as_vim _ A).
  destruct (switch_poised first (if r =? 0 then CharEnter else r) o P) as (x & -> & F).
  { intros F. destruct (Fi F) as [?|?]; [assumption|congruence]. }
  { destruct (r =? 0); [|exact T]. unfold tripping, CharEnter. lia. }
  cbn [obind]. destruct (after_poised (if r =? 0 then CharEnter else r) x F) as (o' & a & E' & P' & H). exists o', a. auto.
Qed.

Lemma run_poised rs : forall first o, poised o -> (first = false -> h_cur (o_h o) <> None \/ o_end o = true) -> steady cf first rs o ->
  exists o' a, op_run cf rs o = Ok (o', a) /\ poised o'.
Proof.
  induction rs as [|r rs IH]; intros first o C Fi T; cbn [op_run]; [eauto|]. destruct T as (T & N).
  destruct (step_poised first r o C Fi T) as (o1 & a1 & E & C1 & H). rewrite E. cbn [obind fst snd].
  destruct (IH (match results a1 with [] => false | _ => true end) o1 C1) as (o2 & a2 & -> & C2); [|exact (N _ _ E)|cbn [obind fst snd]; eauto].
  intros F. apply H. destruct (results a1); [reflexivity|discriminate].
Qed.

Lemma unasked_poised o : unasked o -> poised o.
Proof. intros (C & M). destruct C. constructor; [constructor; assumption|congruence|intros _; exact M]. Qed.
End ask.
