From Verif Require Import Base RunesModel RunesSpec RuneBufModel RuneBufSpec RuneBufProofs HistoryModel HistoryProofs
  RenderModel RenderSpec OpModel OpSpec OpProofs.
From Coq Require Import List ZArith Lia Bool.
Import ListNotations.
Open Scope Z_scope.

(** * One key and whole sessions: the editor never panics unless a key trips it *)

Section good.
Variable cf : ocfg.
Hypothesis G : good_config cf.

Lemma quiet o : resting cf o -> oc_vim cf = true -> o_vn o = true ->
  s_in (o_s o) = false /\ c_in (o_c o) = false /\ c_sel (o_c o) = false.
Proof.
  intros R Vi V. assert (S : s_in (o_s o) = false).
  { destruct (s_in (o_s o)) eqn:S; [|reflexivity]. pose proof (r_v _ _ R (or_introl S)) as X. rewrite Vi, V in X. discriminate. }
  assert (C : c_in (o_c o) = false).
  { destruct (c_in (o_c o)) eqn:C; [|reflexivity]. pose proof (r_v _ _ R (or_intror C)) as X. rewrite Vi, V in X. discriminate. }
  split; [exact S|]. split; [exact C|]. destruct (c_sel (o_c o)) eqn:L; [|reflexivity].
  destruct (r_sel _ _ R L). congruence.
Qed.

Lemma quiet_any o b v p : resting cf o -> oc_vim cf = true -> o_vn o = true -> inside b ->
  (p <> None -> v = true) -> resting cf (with_v v p (with_b b o)).
Proof.
  intros R Vi V I P. destruct (quiet o R Vi V) as (S & C & L). destruct R.
  constructor; cbn; try assumption; rewrite ?S, ?C, ?L; try discriminate; auto.
  - intros [X|X]; discriminate.
  - intros X. rewrite Vi, (P X). reflexivity.
Qed.

Lemma quiet_b o b : resting cf o -> oc_vim cf = true -> o_vn o = true -> o_vp o = None -> inside b ->
  resting cf (with_b b o).
Proof.
  intros R Vi V P I. pose proof (quiet_any o b true None R Vi V I ltac:(congruence)) as Q.
  destruct o; cbn in *; subst; exact Q.
Qed.

Lemma quiet_next o b v : resting cf o -> oc_vim cf = true -> o_vn o = true -> inside b ->
  resting cf (with_b b (with_v v None o)).
Proof. intros R Vi V I. exact (quiet_any o b v None R Vi V I ltac:(congruence)). Qed.

Lemma edit_in e b : inside b -> ~ edit_panics e b -> e <> ETranspose -> exists b', run_edit e b = Ok b' /\ inside b'.
Proof.
  intros I N T. destruct (edit_ok e b I N) as (b' & E & [J|(F & _)]); [eauto|contradiction].
Qed.

Lemma vim_del_ok n b : inside b -> exists b', vim_del n b = Ok b' /\ inside b'.
Proof.
  intros I. unfold vim_del.
  destruct (n =? 119); [apply (edit_in EDeleteWord); cbn; auto; discriminate|].
  destruct (n =? 104); [apply (edit_in EBackspace); cbn; auto; discriminate|].
  destruct (n =? 108); [apply (edit_in EDelete); cbn; auto; discriminate|]. eauto.
Qed.

Lemma vim_next_ok p n o : resting cf o -> o_vp o = Some p -> ~ trips cf o n ->
  exists o', vim_next p n o = Ok o' /\ resting cf o'.
Proof.
  intros R P T. unfold trips in T. rewrite P in T.
  assert (X : oc_vim cf && o_vn o = true) by (apply (r_vp _ _ R); rewrite P; discriminate).
  apply andb_true_iff in X. destruct X as (Vi & V). pose proof (r_in _ _ R) as I. unfold vim_next.
  assert (Q : forall x v, (exists b', x = Ok b' /\ inside b') -> exists o', (b <- x ;; Ok (with_b b (with_v v None o))) = Ok o' /\ resting cf o').
  { intros x v (b' & -> & J). cbn [obind]. eexists. split; [reflexivity|]. now apply quiet_next. }
  destruct p as [| | |pv rv]; apply Q.
  - apply (edit_in (EReplace n)); [exact I|exact T|discriminate].
  - destruct (n =? 100); [apply (edit_in EErase); cbn; auto; discriminate|now apply vim_del_ok].
  - destruct (n =? 99); [apply (edit_in EErase); cbn; auto; discriminate|now apply vim_del_ok].
  - destruct (n =? CharEsc); [eauto|]. apply (edit_in (EMoveTo n pv rv)); cbn; auto; discriminate.
Qed.

Definition vokay (x : op * vres * list act) : Prop :=
  match snd (fst x) with
  | VDone => resting cf (fst (fst x))
  | VWait p => resting cf (with_v (o_vn (fst (fst x))) (Some p) (fst (fst x)))
  | VKey r => mid cf (fst (fst x)) /\ (o_vn (fst (fst x)) = true -> r = 2 \/ r = 6 \/ r = 14 \/ r = 16) /\ r <> 20 /\ r <> 11 /\ r <> 0
  end.

Lemma vpick (c : bool) (A B : outcome (op * vres * list act)) :
  (c = true -> exists x, A = Ok x /\ vokay x) -> (c = false -> exists x, B = Ok x /\ vokay x) ->
  exists x, (if c then A else B) = Ok x /\ vokay x.
Proof. intros H1 H2. destruct c; auto. Qed.

Lemma normal_ok r o : resting cf o -> oc_vim cf = true -> o_vn o = true -> o_vp o = None ->
  ~ ((r = 101 \/ r = 69) /\ (rb_idx (o_b o) + 1 = length (rb_buf (o_b o)))%nat /\
           alnum_at (rb_buf (o_b o)) (rb_idx (o_b o))) ->
  exists x, HandleVimNormal r o = Ok x /\ vokay x.
Proof.
  intros R Vi V P T. pose proof (r_in _ _ R) as I. destruct (quiet o R Vi V) as (S & C & L).
  pose proof (resting_mid cf o R L P) as M.
  assert (Mv : forall x, (exists b', x = Ok b' /\ inside b') -> exists y, (b <- x ;; Ok (with_b b o, VDone, [])) = Ok y /\ vokay y).
  { intros x (b' & -> & J). cbn [obind]. eexists. split; [reflexivity|]. cbn. now apply quiet_b. }
  assert (In : forall x, (exists b', x = Ok b' /\ inside b') ->
     exists y, (b <- x ;; Ok (with_v false None (with_b b o), VDone, [])) = Ok y /\ vokay y).
  { intros x (b' & -> & J). cbn [obind]. eexists. split; [reflexivity|]. cbn. apply quiet_any; auto. }
  assert (Ks : forall k, k = 2 \/ k = 6 \/ k = 14 \/ k = 16 -> exists y, Ok (o, VKey k, []) = Ok y /\ vokay y).
  { intros k K. eexists. split; [reflexivity|]. cbn. split; [exact M|]. split; [auto|]. clear - K. lia. }
  assert (Wt : forall p, exists y, Ok (o, VWait p, []) = Ok y /\ vokay y).
  { intros p. eexists. split; [reflexivity|]. cbn. 
    pose proof (quiet_any o (o_b o) true (Some p) R Vi V I ltac:(reflexivity)) as Q. destruct o; cbn in *; subst; exact Q. }
  unfold HandleVimNormal.
  apply vpick; intros K1.
  { eexists. split; [reflexivity|]. cbn. split; [|split; [discriminate|]].
    - destruct M. constructor; cbn; try assumption; try discriminate; auto. intros _. apply andb_false_r.
    - clear - K1. unfold CharEnter, CharInterrupt in K1. lia. }
  apply vpick; intros K2; [apply Ks; unfold CharBackward; auto|].
  apply vpick; intros K3; [apply Ks; unfold CharNext; auto|].
  apply vpick; intros K4; [apply Ks; unfold CharPrev; auto|].
  apply vpick; intros K5; [apply Ks; unfold CharForward; auto|].
  apply vpick; intros K6; [apply Mv, (edit_in ELineStart); cbn; auto; discriminate|].
  apply vpick; intros K7; [apply Mv, (edit_in ELineEnd); cbn; auto; discriminate|].
  apply vpick; intros K8.
  { apply Mv. destruct (edit_in EDelete (o_b o) I) as (b1 & E & J); [cbn; tauto|discriminate|]. cbn [run_edit] in E.
    destruct (Delete (o_b o)) as [[b2 ok]| |]; try discriminate. cbn [obind fst] in *. injection E as ->.
    destruct (IsCursorInEnd b1); [apply (edit_in EBackward); cbn; auto; discriminate|eauto]. }
  apply vpick; intros K9; [apply Wt|].
  apply vpick; intros K10; [apply Wt|].
  apply vpick; intros K11; [apply Mv, (edit_in EYank); cbn; auto; discriminate|].
  apply vpick; intros K12; [apply Mv, (edit_in EPrevWord); cbn; auto; discriminate|].
  apply vpick; intros K13; [apply Mv, (edit_in ENextWord); cbn; auto; discriminate|].
  apply vpick; intros K14.
  { apply Mv, (edit_in EEndWord); [exact I| |discriminate]. cbn. intros H. apply T. split; [|exact H]. clear - K14. lia. }
  apply vpick; intros K15; [apply Wt|].
  apply vpick; intros K16; [apply In; eauto|].
  apply vpick; intros K17; [apply In, (edit_in ELineStart); cbn; auto; discriminate|].
  apply vpick; intros K18; [apply In, (edit_in EForward); cbn; auto; discriminate|].
  apply vpick; intros K19; [apply In, (edit_in ELineEnd); cbn; auto; discriminate|].
  apply vpick; intros K20; [apply In, (edit_in EDelete); cbn; auto; discriminate|].
  apply vpick; intros K21; [apply In, (edit_in EErase); cbn; auto; discriminate|].
  apply vpick; intros K22; [apply Wt|].
  eexists. split; [reflexivity|]. exact R.
Qed.

Lemma mid_resting o : mid cf o -> c_in (o_c o) = false -> resting cf o.
Proof.
  intros M C. destruct M. constructor; try assumption; try congruence.
  intros S. split; auto.
Qed.

(** everything after the choice of a candidate *)
Lemma rest_ok r o : mid cf o -> r <> 0 ->
  (oc_vim cf && o_vn o = true -> ~ ((r = 101 \/ r = 69) /\ (rb_idx (o_b o) + 1 = length (rb_buf (o_b o)))%nat /\
           alnum_at (rb_buf (o_b o)) (rb_idx (o_b o)))) ->
  (oc_vim cf && o_vn o = false ->
    (r = 20 -> length (rb_buf (o_b o)) <> 1%nat) /\
    (r = 11 -> c_in (o_c o) = true -> c_cand (o_c o) <> [] /\ rb_idx (o_b o) = length (rb_buf (o_b o))) /\
    (r = 27 -> oc_vim cf = true -> s_in (o_s o) = false /\ c_in (o_c o) = false)) ->
  exists o' a, vim_and_switch cf r o = Ok (o', a) /\ resting cf o'.
Proof.
  intros M N0 T1 T2. unfold vim_and_switch.
  assert (Sw : forall q o1, mid cf o1 -> (oc_vim cf && o_vn o1 = true -> q = 2 \/ q = 6 \/ q = 14 \/ q = 16) ->
     (q = 20 -> length (rb_buf (o_b o1)) <> 1%nat) ->
     (q = 11 -> c_in (o_c o1) = true -> c_cand (o_c o1) <> [] /\ rb_idx (o_b o1) = length (rb_buf (o_b o1))) ->
     exists o' a, (y <- key_switch cf q o1 ;; after_switch cf q y) = Ok (o', a) /\ resting cf o').
  { intros q o1 M1 A B D. destruct (switch_ok cf G q o1 M1 A B D) as (x & -> & Po). cbn [obind]. now apply after_ok. }
  destruct (oc_vim cf) eqn:Vi; cbn [andb] in *.
  - unfold HandleVim. destruct (o_vn o) eqn:V.
    + assert (C : c_in (o_c o) = false /\ s_in (o_s o) = false).
      { split; [destruct (c_in (o_c o)) eqn:C|destruct (s_in (o_s o)) eqn:C]; try reflexivity; exfalso.
        - pose proof (m_v _ _ M (or_intror C)) as X. rewrite Vi, V in X. discriminate.
        - pose proof (m_v _ _ M (or_introl C)) as X. rewrite Vi, V in X. discriminate. }
      destruct C as (C & S). pose proof (mid_resting o M C) as R.
      destruct (normal_ok r o R Vi V (m_vp _ _ M) (T1 eq_refl)) as ([[o1 v] a] & -> & Ok). cbn [obind]. unfold vokay in Ok. cbn [fst snd] in Ok.
      destruct v as [q| |p].
      * destruct Ok as (M1 & A & B & D). destruct (q =? 0) eqn:Z0.
        { exfalso. destruct D as (_ & D). clear - D Z0. lia. }
        apply Sw; try assumption; try (intros; contradiction); tauto.
      * eauto.
      * eauto.
    + destruct (T2 eq_refl) as (A & B & D). destruct (r =? CharEsc) eqn:Es.
      * cbn [obind]. do 2 eexists. split; [reflexivity|]. destruct (D ltac:(clear - Es; unfold CharEsc in Es; lia) eq_refl) as (S & C).
        pose proof (mid_resting o M C) as R. destruct R. constructor; cbn; try assumption; try congruence.
        rewrite S, C. intros [X|X]; discriminate.
      * cbn [obind]. replace (r =? 0) with false by (clear - N0; lia). apply Sw; try assumption; rewrite V; discriminate.
  - destruct (T2 eq_refl) as (A & B & D). apply Sw; try assumption. discriminate.
Qed.
Lemma key_ok r o : resting cf o -> o_vp o = None -> ~ trips cf o r ->
  exists o' a, handle_key cf r o = Ok (o', a) /\ owf cf o'.
Proof.
  intros R P T. unfold handle_key.
  destruct ((r =? 0) && (length (rb_buf (o_b o)) =? 0)%nat) eqn:Z0.
  { do 2 eexists. split; [reflexivity|]. left. reflexivity. }
  set (q := if r =? 0 then CharEnter else r).
  assert (Q0 : q <> 0) by (unfold q, CharEnter; clear; destruct (r =? 0) eqn:E; lia).
  assert (Qr : q = 13 \/ q = r) by (unfold q, CharEnter; clear; destruct (r =? 0) eqn:E; auto).
  unfold trips in T. rewrite P in T. cbv zeta.
  destruct (c_sel (o_c o)) eqn:Sel.
  - destruct (r_sel _ _ R Sel) as (C & Ch). pose proof (r_v _ _ R (or_intror C)) as Vf. rewrite Vf in T.
    assert (S : s_in (o_s o) = false).
    { destruct (s_in (o_s o)) eqn:S; [|reflexivity]. destruct (r_s _ _ R S). congruence. }
    destruct (select_ok cf G q o R Sel) as (o1 & k & -> & K). cbn [obind]. destruct k.
    { do 2 eexists. split; [reflexivity|]. right. destruct K, R.
      constructor; rewrite ?ck_h, ?ck_s, ?ck_vn, ?ck_vp, ?ck_end; try assumption.
      - congruence.
      - intros _. unfold sclear in *. rewrite ck_s. now apply r_s0.
      - intros C1. split; [now apply r_c|]. now apply ck_c.
      - intros L. destruct (c_in (o_c o1)) eqn:C1; [|rewrite ck_sel in L by reflexivity; discriminate].
        split; [reflexivity|]. now apply ck_c.
      - intros _. apply r_v. now right. }
    destruct K as (Kh & Ks & Ki & Kv & Kp & Ke & K).
    assert (Ex : o_c o1 = ExitCompleteMode (o_c o) -> resting cf o1).
    { intros Ec. destruct R. constructor; rewrite ?Kh, ?Ks, ?Kv, ?Kp, ?Ke, ?Ec; cbn; try assumption; try congruence.
      intros _. unfold sclear in *. rewrite Ks. now apply r_s0. }
    destruct ((q =? CharEnter) || (q =? CharCtrlJ)) eqn:E1.
    { assert (E : q = 13 \/ q = 10) by (clear - E1; unfold CharEnter, CharCtrlJ in E1; lia).
      assert (Rs : resting cf o1).
      { apply Ex. clear - E K. destruct K as [(_ & K)|(_ & [(X & K)|K])]; [exact K|exact K|]. lia. }
      destruct (Update_good cf G (rb_buf (o_b o1)) false (o_h o1) (r_h _ _ Rs)) as (h & -> & Hg). cbn [obind].
      do 2 eexists. split; [reflexivity|]. right. destruct Rs. constructor; cbn; try assumption.
      intros X. exfalso. congruence. }
    destruct (q =? CharInterrupt) eqn:E2.
    { do 2 eexists. split; [reflexivity|]. right. apply Ex. clear - E2 K. unfold CharInterrupt in E2.
      destruct K as [(_ & K)|(_ & [(X & K)|K])]; [exact K|exact K|]. lia. }
    destruct (q =? CharBell) eqn:E3.
    { do 2 eexists. split; [reflexivity|]. right. apply Ex. clear - E3 K. unfold CharBell in E3.
      destruct K as [(_ & K)|(_ & [(X & K)|K])]; [exact K|exact K|]. lia. }
    assert (K' : o_b o1 = o_b o /\ o_c o1 = ExitCompleteSelectMode (o_c o)).
    { clear - E1 E2 E3 K. unfold CharEnter, CharCtrlJ, CharInterrupt, CharBell in *.
      destruct K as [(X & _)|(B & [(X & _)|K])]; [lia|lia|]. split; [exact B|apply K]. }
    destruct K' as (Kb & Kc).
    assert (M : mid cf o1).
    { destruct R. constructor; rewrite ?Kh, ?Ks, ?Kv, ?Kp, ?Ke, ?Kc; cbn; try assumption; try congruence.
      - intros _. unfold sclear in *. rewrite Ks. now apply r_s0.
      - intros C1. split; [now apply r_c|]. now left. }
    destruct (rest_ok q o1 M Q0) as (o' & a & -> & R').
    + rewrite Kv, Vf. discriminate.
    + intros _. rewrite Kb. split; [|split].
      * intros E L. apply T. left. split; [|exact L]. clear - E Qr. lia.
      * intros E _. exfalso. apply T. right. left. split; [clear - E Qr; lia|]. now left.
      * intros E Vi. exfalso. apply T. right. right. split; [clear - E Qr; lia|]. split; [exact Vi|]. now right.
    + do 2 eexists. split; [reflexivity|]. now right.
  - pose proof (resting_mid cf o R Sel P) as M.
    destruct (rest_ok q o M Q0) as (o' & a & -> & R').
    + intros V. rewrite V in T. intros (X & Y). apply T. split; [|exact Y]. clear - X Qr. lia.
    + intros V. rewrite V in T. split; [|split].
      * intros E L. apply T. left. split; [|exact L]. clear - E Qr. lia.
      * intros E C. destruct (r_c _ _ R C) as (_ & F). split.
        { pose proof (f_some _ _ _ _ _ (proj1 F)) as X. exact X. }
        destruct (Nat.eq_dec (rb_idx (o_b o)) (length (rb_buf (o_b o)))) as [X|X]; [exact X|exfalso].
        apply T. right. left. split; [clear - E Qr; lia|]. right. split; [exact C|]. pose proof (r_in _ _ R) as I. unfold inside in I.
        clear - I X. lia.
      * intros E Vi. destruct (s_in (o_s o)) eqn:S, (c_in (o_c o)) eqn:C; try (split; reflexivity); exfalso; apply T; right; right;
          (split; [clear - E Qr; lia|]); split; auto.
    + do 2 eexists. split; [reflexivity|]. now right.
Qed.

Lemma step_ok r o : owf cf o -> ~ trips cf o r -> exists o' a, op_step cf r o = Ok (o', a) /\ owf cf o'.
Proof.
  intros W T. unfold op_step. destruct (o_end o) eqn:E; [do 2 eexists; split; [reflexivity|left; exact E]|].
  destruct W as [W|R]; [congruence|]. destruct (o_vp o) as [p|] eqn:P.
  - destruct (vim_next_ok p r o R P T) as (o' & -> & R'). cbn [obind]. do 2 eexists. split; [reflexivity|now right].
  - rewrite (gc_filter _ G). now apply key_ok.
Qed.

Lemma run_ok rs : forall o, owf cf o -> safe cf rs o -> exists o' a, op_run cf rs o = Ok (o', a) /\ owf cf o'.
Proof.
  induction rs as [|r rs IH]; intros o W S; cbn [op_run].
  - do 2 eexists. split; [reflexivity|exact W].
  - destruct S as (T & S). destruct (step_ok r o W T) as (o1 & a1 & E & W1). rewrite E. cbn [obind fst snd].
    destruct (IH o1 W1 (S _ _ E)) as (o2 & a2 & -> & W2). cbn [obind fst snd]. eauto.
Qed.
End good.
