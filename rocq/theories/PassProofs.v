From Verif Require Import Base ListAux RunesModel RunesSpec RuneBufModel RuneBufSpec RuneBufProofs HistoryModel HistoryProofs HideProofs
  RenderModel OpModel OpSpec OpProofs PassSpec.
From Coq Require Import List ZArith Lia Bool ZifyBool.
Import ListNotations.
Open Scope Z_scope.

Section ask.
Variable cf : ocfg.
Hypothesis A : asking cf.

(** after the switch: nothing entered, line and history in order *)
Definition fine (x : swres) : Prop := calm (fst (fst (fst (fst x)))).

Lemma ppick (c : bool) (X Y : outcome swres) :
  (c = true -> exists x, X = Ok x /\ fine x) -> (c = false -> exists x, Y = Ok x /\ fine x) ->
  exists x, (if c then X else Y) = Ok x /\ fine x.
Proof. intros H1 H2. destruct c; auto. Qed.

Lemma calm_b o b : calm o -> inside b -> calm (with_b b o).
Proof. intros [] I. constructor; cbn; assumption. Qed.
Lemma calm_h o h : calm o -> hwf h -> calm (with_h h o).
Proof. intros [] I. constructor; cbn; assumption. Qed.

Lemma prev_calm h : hwf h -> exists x, Prev h = Ok x /\ hwf (snd x).
Proof.
  intros W. unfold Prev. destruct (h_cur h) as [id|] eqn:C; [|eexists; split; [reflexivity|assumption]].
  destruct (older id h) as [|y l] eqn:O; (eexists; split; [reflexivity|]); [assumption|].
  apply hwf_set_cur; [exact W|]. now apply older_in in O.
Qed.
Lemma next_calm h : hwf h -> exists x, Next h = Ok x /\ hwf (snd x).
Proof.
  intros W. unfold Next. destruct (h_cur h) as [id|] eqn:C; [|eexists; split; [reflexivity|assumption]].
  destruct (newer id h) as [|y l] eqn:O; (eexists; split; [reflexivity|]); [assumption|].
  apply hwf_set_cur; [exact W|]. now apply newer_in in O.
Qed.

Lemma nav_calm o (x : option (list Z) * hist) : calm o -> hwf (snd x) -> exists y,
  (match fst x with
   | Some l => Ok (with_b (Set_ l (o_b o)) (with_h (snd x) o), [], false, false, true)
   | None => Ok (with_h (snd x) o, [ABell], false, false, true)
   end : outcome swres) = Ok y /\ fine y.
Proof.
  intros C W. destruct (fst x) as [l|]; (eexists; split; [reflexivity|]); unfold fine; cbn [fst].
  - apply calm_b; [now apply calm_h|]. unfold inside. cbn. lia.
  - now apply calm_h.
Qed.

Lemma enter_calm o : calm o -> exists x, key_enter cf o = Ok x /\ fine x.
Proof.
  intros C. unfold key_enter. rewrite (cm_s _ C). cbn [obind MoveToLineEnd].
  assert (R : exists d b', (if negb (oc_unique cf) then b <- WriteRunes [10] (with_idx (length (rb_buf (o_b o))) (o_b o)) ;;
       let '(data, b') := Reset b in d <- slice 0 (length data - 1) data ;; Ok (d, b')
       else Ok (Reset (with_idx (length (rb_buf (o_b o))) (o_b o)))) = Ok (d, b') /\ inside b').
  { destruct (negb (oc_unique cf)).
    - destruct (write_ok [10] (with_idx (length (rb_buf (o_b o))) (o_b o))) as (b & -> & I); [unfold inside; cbn; lia|].
      cbn [obind Reset]. rewrite slice_to by lia. cbn [obind]. do 2 eexists. split; [reflexivity|]. unfold inside. cbn. lia.
    - cbn [Reset]. do 2 eexists. split; [reflexivity|]. unfold inside. cbn. lia. }
  destruct R as (d & b' & -> & I). cbn [obind]. destruct (negb (oc_nosave cf)).
  - cbn [o_h with_b]. destruct (New_ok (oc_h cf) d (o_h o) (cm_h _ C)) as (h & -> & Hg). cbn [obind].
    eexists. split; [reflexivity|]. unfold fine. cbn [fst]. apply calm_h; [now apply calm_b|exact Hg].
  - eexists. split; [reflexivity|]. now apply calm_b.
Qed.

Lemma delete_calm o : calm o -> exists x, key_delete cf o = Ok x /\ fine x.
Proof.
  intros C. unfold key_delete. destruct ((0 <? length (rb_buf (o_b o)))%nat || negb (IsNormalMode o)) eqn:E.
  - destruct (edit_ok EDelete (o_b o) (cm_idx _ C)) as (b & D & [I|(F & _)]); [cbn; tauto| |discriminate]. cbn [run_edit] in D.
    destruct (Delete (o_b o)) as [[b1 ok]| |]; try discriminate. cbn [obind fst snd] in *. injection D as ->.
    eexists. split; [reflexivity|]. now apply calm_b.
  - assert (Q : exists b, (if negb (oc_unique cf) then WriteRunes (oc_eofp cf ++ [10]) (o_b o) else Ok (o_b o)) = Ok b).
    { destruct (negb (oc_unique cf)); [|eauto]. destruct (write_ok (oc_eofp cf ++ [10]) (o_b o) (cm_idx _ C)) as (b & -> & _). eauto. }
    destruct Q as (b & ->). cbn [obind]. eexists. split; [reflexivity|]. unfold fine. cbn [fst].
    apply calm_h; [apply calm_b; [exact C|unfold inside; cbn; lia]|apply revert_hwf, (cm_h _ C)].
Qed.

Lemma interrupt_calm o : calm o -> exists x, key_interrupt cf o = Ok x /\ fine x.
Proof.
  intros C. unfold key_interrupt. rewrite (cm_s _ C), (cm_c _ C). cbn [MoveToLineEnd obind].
  assert (Q : exists b, (if negb (oc_unique cf) then WriteRunes (oc_intp cf ++ [10]) (with_idx (length (rb_buf (o_b o))) (o_b o))
      else Ok (with_idx (length (rb_buf (o_b o))) (o_b o))) = Ok b /\
      (negb (oc_unique cf) = true -> (length (oc_intp cf ++ [10%Z]) <= length (rb_buf b))%nat)).
  { destruct (negb (oc_unique cf)); [|eexists; split; [reflexivity|discriminate]].
    unfold WriteRunes. cbn [rb_idx rb_buf with_idx]. rewrite slice_ok, slice_to by lia. cbn [obind].
    eexists. split; [reflexivity|]. intros _. cbn [rb_buf]. rewrite !app_length. lia. }
  destruct Q as (b & -> & L). cbn [obind Reset].
  assert (R : exists d, (if negb (oc_unique cf) then if (length (rb_buf b) <? length (oc_intp cf ++ [10%Z]))%nat then Panic
      else slice 0 (length (rb_buf b) - length (oc_intp cf ++ [10%Z])) (rb_buf b) else Ok (rb_buf b)) = Ok d).
  { destruct (negb (oc_unique cf)); [|eauto]. specialize (L eq_refl).
    replace (length (rb_buf b) <? length (oc_intp cf ++ [10%Z]))%nat with false by lia. rewrite slice_to by lia. eauto. }
  destruct R as (d & ->). cbn [obind]. eexists. split; [reflexivity|]. unfold fine. cbn [fst].
  apply calm_h; [apply calm_b; [exact C|unfold inside; cbn; lia]|apply revert_hwf, (cm_h _ C)].
Qed.

Lemma switch_calm r o : calm o -> ~ touchy r o -> exists x, key_switch cf r o = Ok x /\ fine x.
Proof.
  intros C T. unfold key_switch.
  assert (Ed : forall e, (~ edit_panics e (o_b o)) -> (e = ETranspose -> length (rb_buf (o_b o)) <> 1%nat) ->
     exists x, edit_buf (run_edit e (o_b o)) o = Ok x /\ fine x).
  { intros e N1 N2. destruct (edit_ok e (o_b o) (cm_idx _ C) N1) as (b & E & I).
    assert (B : inside b) by (destruct I as [I|(-> & L)]; [exact I|now elim N2]).
    unfold edit_buf. rewrite E. cbn [obind]. eexists. split; [reflexivity|]. now apply calm_b. }
  assert (Z0 : forall a k u, exists x, (Ok (o, a, false, k, u) : outcome swres) = Ok x /\ fine x) by (intros; eexists; split; [reflexivity|exact C]).
  rewrite (cm_s _ C), (as_auto _ A), ?(cm_c _ C). cbn [obind]. rewrite ?(cm_c _ C).
  apply ppick; intros K1; [apply Z0|].
  apply ppick; intros K2; [apply Z0|].
  apply ppick; intros K3; [elim T; left; unfold CharBckSearch in K3; lia|].
  apply ppick; intros K4; [apply (Ed EKillFront); [cbn; tauto|discriminate]|].
  apply ppick; intros K5; [elim T; right; left; unfold CharFwdSearch in K5; lia|].
  apply ppick; intros K6.
  { destruct (edit_ok EKill (o_b o) (cm_idx _ C)) as (b & E & [I|(F & _)]); [cbn; tauto| |discriminate]. cbn [run_edit] in E. rewrite E. cbn [obind].
    eexists. split; [reflexivity|]. now apply calm_b. }
  apply ppick; intros K7; [apply (Ed ENextWord); [cbn; tauto|discriminate]|].
  apply ppick; intros K8.
  { apply (Ed ETranspose); [cbn; tauto|]. intros _ L. apply T. right. right. unfold CharTranspose in K8. split; [lia|exact L]. }
  apply ppick; intros K9; [apply (Ed EPrevWord); [cbn; tauto|discriminate]|].
  apply ppick; intros K10; [apply (Ed EDeleteWord); [cbn; tauto|discriminate]|].
  apply ppick; intros K11; [apply (Ed ELineStart); [cbn; tauto|discriminate]|].
  apply ppick; intros K12; [apply (Ed ELineEnd); [cbn; tauto|discriminate]|].
  apply ppick; intros K13.
  { apply ppick; intros L; [apply Z0|].
    destruct (edit_ok EBackspace (o_b o) (cm_idx _ C)) as (b & E & [I|(F & _)]); [cbn; tauto| |discriminate]. cbn [run_edit] in E. rewrite E. cbn [obind].
    cbn [o_c with_b]. rewrite (cm_c _ C). cbn [obind]. eexists. split; [reflexivity|]. now apply calm_b. }
  apply ppick; intros K14; [apply Z0|].
  apply ppick; intros K15; [apply Z0|].
  apply ppick; intros K16; [apply (Ed EBackEscapeWord); [cbn; tauto|discriminate]|].
  apply ppick; intros K17; [apply (Ed EYank); [cbn; tauto|discriminate]|].
  apply ppick; intros K18; [now apply enter_calm|].
  apply ppick; intros K19; [apply (Ed EBackward); [cbn; tauto|discriminate]|].
  apply ppick; intros K20; [apply (Ed EForward); [cbn; tauto|discriminate]|].
  apply ppick; intros K21.
  { destruct (prev_calm (o_h o) (cm_h _ C)) as (x & -> & W). cbn [obind]. now apply nav_calm. }
  apply ppick; intros K22.
  { destruct (next_calm (o_h o) (cm_h _ C)) as (x & -> & W). cbn [obind]. now apply nav_calm. }
  apply ppick; intros K23; [now apply delete_calm|].
  apply ppick; intros K24; [now apply interrupt_calm|].
  destruct (write_ok [r] (o_b o) (cm_idx _ C)) as (b & -> & I). cbn [obind o_c with_b]. rewrite (cm_c _ C).
  eexists. split; [reflexivity|]. now apply calm_b.
Qed.

Lemma after_calm r x : fine x -> exists o' a, after_switch cf r x = Ok (o', a) /\ calm o'.
Proof.
  destruct x as [[[[o a] ks] kc] upd]. unfold fine. cbn [fst]. intros C. unfold after_switch.
  assert (Q : exists o1, (match oc_listen cf with
            | Some f =>
                match f (rb_buf (o_b o)) (rb_idx (o_b o)) r with
                | Some (l, pos) => with_b (SetWithIdx pos l (o_b o)) o
                | None => o
                end
            | None => o
            end) = o1 /\ calm o1).
  { eexists. split; [reflexivity|]. destruct (oc_listen cf) as [f|] eqn:F; [|exact C].
    destruct (f (rb_buf (o_b o)) (rb_idx (o_b o)) r) as [[l j]|] eqn:E; [|exact C].
    apply calm_b; [exact C|]. unfold inside. cbn. exact (as_listen _ A _ _ _ _ _ _ F E). }
  destruct Q as (o1 & -> & C1). rewrite (cm_s _ C1), (cm_c _ C1), andb_false_r. cbn [obind].
  rewrite (cm_s _ C1). destruct upd; cbn [andb negb obind].
  - destruct (Update_ok (oc_h cf) (rb_buf (o_b o1)) false (o_h o1) (cm_h _ C1)) as (h & -> & W & _). cbn [obind].
    do 2 eexists. split; [reflexivity|]. now apply calm_h.
  - do 2 eexists. split; [reflexivity|]. exact C1.
Qed.

Lemma step_calm r o : calm o -> ~ touchy r o -> exists o' a, op_step cf r o = Ok (o', a) /\ calm o'.
Proof.
  intros C T. unfold op_step. destruct (o_end o); [eauto|]. rewrite (cm_vp _ C), (as_filter _ A).
  unfold handle_key. destruct ((r =? 0) && (length (rb_buf (o_b o)) =? 0)%nat) eqn:E.
  { do 2 eexists. split; [reflexivity|]. destruct C. constructor; cbn; assumption. }
  rewrite (cm_sel _ C). unfold vim_and_switch. rewrite (as_vim _ A).
  destruct (switch_calm (if r =? 0 then CharEnter else r) o C) as (x & -> & F).
  { destruct (r =? 0); [|exact T]. unfold touchy, CharEnter. lia. }
  cbn [obind]. now apply after_calm.
Qed.

Lemma run_calm rs : forall o, calm o -> untouchy cf rs o -> exists o' a, op_run cf rs o = Ok (o', a) /\ calm o'.
Proof.
  induction rs as [|r rs IH]; intros o C T; cbn [op_run]; [eauto|]. destruct T as (T & N).
  destruct (step_calm r o C T) as (o1 & a1 & E & C1). rewrite E. cbn [obind fst snd].
  destruct (IH o1 C1 (N _ _ E)) as (o2 & a2 & -> & C2). cbn [obind fst snd]. eauto.
Qed.
End ask.
