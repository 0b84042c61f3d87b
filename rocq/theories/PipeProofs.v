(** Proofs about input from a pipe. *)
From Verif Require Import Base ListAux RunesModel RuneBufModel HistoryModel RenderModel RenderMore OpModel OutModel PipeModel PipeSpec.
Open Scope Z_scope.

(** ** Drawing without a terminal *)
Definition own_text (e : oev) : list Z := match e with OBell => [7] | ODraw (VOut t) => t | _ => [] end.
Record piped (p : list Z) (d : rdr) : Prop := { pi_i : d_inter d = false; pi_p : d_prompt d = p }.

Lemma clean_piped u p v d : ColorFilter p = Ok v -> piped p d -> (d_idx d <= length (d_buf d))%nat -> clean u d = Ok (d, []).
Proof.
  intros V [I P] L. unfold clean, idxLine. rewrite I. cbn [negb]. rewrite orb_true_r. destruct (d_width d =? 0); cbn [obind]; [reflexivity|].
  unfold slice. replace (d_idx d <=? length (d_buf d))%nat with true by lia. cbn [andb obind Nat.leb]. unfold getSplitByLine, promptLen. rewrite P, V. reflexivity.
Qed.

Lemma ostep_piped u p v rd d e : ColorFilter p = Ok v -> piped p d -> exists rd' d', ostep u (rd, d) e = Ok ((rd', d'), own_text e) /\ piped p d'.
Proof.
  intros V [I P].
  destruct e as [[|b i|hint| |t]| |hint| |]; cbn [ostep dstep snd own_text]; unfold submit, submit_unique, eof_draw, refresh; rewrite ?I; cbn [negb obind fst snd with_line d_inter]; rewrite ?I; cbn [negb obind fst snd app].
  - eexists _, _. split; [reflexivity|]. split; assumption.
  - eexists _, _. split; [reflexivity|]. split; assumption.
  - eexists _, _. split; [reflexivity|]. split; assumption.
  - rewrite (clean_piped u p v _ V); [|split; assumption|cbn; lia]. cbn. eexists _, _. split; [reflexivity|]. split; assumption.
  - destruct rd; eexists _, _; (split; [reflexivity|]); split; assumption.
  - eexists _, _. split; [reflexivity|]. split; assumption.
  - eexists _, _. split; [reflexivity|]. split; assumption.
  - rewrite (clean_piped u p v _ V); [|split; assumption|cbn; lia]. cbn. eexists _, _. split; [reflexivity|]. split; assumption.
  - eexists _, _. split; [reflexivity|]. split; assumption.
Qed.

Lemma orun_piped u p v es : ColorFilter p = Ok v -> forall rd d, piped p d -> exists rd' d', orun u (rd, d) es = Ok ((rd', d'), flat_map own_text es) /\ piped p d'.
Proof.
  intros V. induction es as [|e es IH]; intros rd d P; cbn [orun flat_map]; [eauto|].
  destruct (ostep_piped u p v rd d e V P) as (rd1 & d1 & -> & P1). cbn [obind fst snd]. destruct (IH rd1 d1 P1) as (rd2 & d2 & -> & P2). cbn. eauto.
Qed.

(** ** Keys *)
Section Key.
Variable cf : ocfg.
Hypothesis Vi : oc_vim cf = false.

Definition rings (x : outcome (list oev)) (acts : list act) : Prop := exists es, x = Ok es /\ flat_map own_text es = bells acts.

Lemma once_rings x b acts : x = Ok b -> bells acts = [] -> rings (once x) acts.
Proof. intros -> B. eexists. split; [reflexivity|]. now rewrite B. Qed.

Definition plain_key (r : Z) : Prop := ~ In r [CharBckSearch; CharFwdSearch; CharCtrlL; CharCtrlZ] /\ (r = CharTab -> oc_auto cf = None).

Lemma switch_rings r o o1 acts kS kC upd : idle o -> plain_key r -> key_switch cf r o = Ok (o1, acts, kS, kC, upd) ->
  rings (switch_draws cf r o) acts /\ idle o1.
Proof.
  intros D (K1 & K2) E. destruct D as [D1 D2 D3 D4].
  assert (Bk : forall b, idle (with_b b o)) by (intros; constructor; assumption).
  assert (Bh : forall b h, idle (with_b b (with_h h o))) by (intros; constructor; assumption).
  assert (Hb : forall b h, idle (with_h h (with_b b o))) by (intros; constructor; assumption).
  assert (Hk : forall h, idle (with_h h o)) by (intros; constructor; assumption).
  assert (Do : idle o) by (constructor; assumption).
  unfold key_switch in E. unfold switch_draws. rewrite D1 in E. cbn [obind] in E.
  destruct (r =? CharBell) eqn:X1; [rewrite D2 in E; injection E as <- <- <- <- <-; split; [eexists; split; reflexivity|assumption]|].
  destruct (r =? CharTab) eqn:X2.
  { apply Z.eqb_eq in X2. rewrite (K2 X2) in E. injection E as <- <- <- <- <-. split; [eexists; split; reflexivity|assumption]. }
  assert (Y : (r =? CharBckSearch) = false /\ (r =? CharFwdSearch) = false /\ (r =? CharCtrlL) = false /\ (r =? CharCtrlZ) = false).
  { cbn [In] in K1. repeat split; apply Z.eqb_neq; intros ->; tauto. }
  destruct Y as (Y1 & Y2 & Y3 & Y4). rewrite Y1, Y2, Y3, Y4 in E.
  assert (Ed : forall x, edit_buf x o = Ok (o1, acts, kS, kC, upd) -> rings (once x) acts /\ idle o1).
  { intros x Ex. unfold edit_buf in Ex. apply obind_ok in Ex. destruct Ex as (b & -> & Ex). injection Ex as <- <- <- <- <-. split; [now apply (once_rings _ b)|apply Bk]. }
  destruct (r =? CharCtrlU); [now apply Ed|].
  destruct (r =? CharKill).
  { apply obind_ok in E. destruct E as (b & E1 & E). injection E as <- <- <- <- <-. split; [now apply (once_rings _ b)|apply Bk]. }
  destruct (r =? MetaForward); [now apply Ed|]. destruct (r =? CharTranspose); [now apply Ed|]. destruct (r =? MetaBackward); [now apply Ed|].
  destruct (r =? MetaDelete).
  { destruct (Ed _ E) as (R & I). split; [|exact I]. destruct (_ =? _)%nat; [|exact R]. destruct R as (es & _ & R). exists []. split; [reflexivity|].
    unfold edit_buf in E. apply obind_ok in E. destruct E as (b & _ & E). injection E as <- <- <- <- <-. reflexivity. }
  destruct (r =? CharLineStart); [now apply Ed|]. destruct (r =? CharLineEnd); [now apply Ed|].
  destruct ((r =? CharBackspace) || (r =? CharCtrlH)).
  { destruct (_ =? _)%nat; [injection E as <- <- <- <- <-; split; [eexists; split; reflexivity|assumption]|].
    apply obind_ok in E. destruct E as (b & E1 & E). cbn in E. rewrite D2 in E. cbn in E. injection E as <- <- <- <- <-. split; [now apply (once_rings _ b)|apply Bk]. }
  destruct ((r =? MetaBackspace) || (r =? CharCtrlW)); [now apply Ed|].
  destruct (r =? CharCtrlY).
  { destruct (Ed _ E) as (R & I). split; [|exact I]. destruct (rb_kill (o_b o)); [|exact R]. exists []. split; [reflexivity|].
    unfold edit_buf in E. apply obind_ok in E. destruct E as (b & _ & E). injection E as <- <- <- <- <-. reflexivity. }
  destruct ((r =? CharEnter) || (r =? CharCtrlJ)).
  { unfold key_enter in E. rewrite D1 in E. cbn [obind] in E. apply obind_ok in E. destruct E as (b & _ & E). apply obind_ok in E. destruct E as ((dd & bb) & _ & E).
    destruct (negb (oc_nosave cf)).
    - apply obind_ok in E. destruct E as (h & _ & E). injection E as <- <- <- <- <-. split; [|apply Hb]. eexists. split; [reflexivity|]. now destruct (oc_unique cf).
    - injection E as <- <- <- <- <-. split; [|apply Bk]. eexists. split; [reflexivity|]. now destruct (oc_unique cf). }
  destruct (r =? CharBackward); [now apply Ed|]. destruct (r =? CharForward); [now apply Ed|].
  destruct (r =? CharPrev).
  { apply obind_ok in E. destruct E as (x & -> & E). cbn [obind]. destruct (fst x); injection E as <- <- <- <- <-; (split; [eexists; split; reflexivity|auto]). }
  destruct (r =? CharNext).
  { apply obind_ok in E. destruct E as (x & -> & E). cbn [obind]. destruct (fst x); injection E as <- <- <- <- <-; (split; [eexists; split; reflexivity|auto]). }
  destruct (r =? CharDelete).
  { unfold key_delete, IsNormalMode in E. rewrite D1, D2 in E. cbn [negb andb] in E. rewrite orb_false_r in E. destruct (0 <? length (rb_buf (o_b o)))%nat.
    - apply obind_ok in E. destruct E as (x & -> & E). injection E as <- <- <- <- <-. split; [|apply Bk]. cbn [obind]. eexists. split; [reflexivity|]. now destruct (snd x).
    - apply obind_ok in E. destruct E as (b & _ & E). injection E as <- <- <- <- <-. split; [|apply Hb]. eexists. split; [reflexivity|]. now destruct (oc_unique cf). }
  destruct (r =? CharInterrupt).
  { unfold key_interrupt in E. rewrite D1, D2 in E. apply obind_ok in E. destruct E as (b & _ & E). apply obind_ok in E. destruct E as (b1 & _ & E).
    destruct (Reset b1) as [rem b']. apply obind_ok in E. destruct E as (rem' & _ & E). injection E as <- <- <- <- <-. split; [|apply Hb].
    destruct (oc_unique cf); (eexists; split; reflexivity). }
  apply obind_ok in E. destruct E as (b & E1 & E). cbn in E. rewrite D2 in E. injection E as <- <- <- <- <-. split; [now apply (once_rings _ b)|apply Bk].
Qed.

Lemma after_idle r o1 acts kS kC upd o' acts' : idle o1 -> after_switch cf r (o1, acts, kS, kC, upd) = Ok (o', acts') -> idle o' /\ acts' = acts.
Proof.
  intros [D1 D2 D3 D4] E. unfold after_switch in E. set (o2 := match oc_listen cf with Some _ => _ | None => _ end) in E.
  assert (X : idle o2). { unfold o2. destruct (oc_listen cf) as [f|]; [destruct (f _ _ _) as [[l p]|]|]; constructor; assumption. }
  destruct X as [X1 X2 X3 X4]. rewrite X1, X2, andb_false_r in E. cbn [obind] in E. rewrite X1 in E. destruct upd; cbn [andb negb] in E.
  - apply obind_ok in E. destruct E as (o3 & E & E2). apply obind_ok in E. destruct E as (h & _ & E). injection E as <-. injection E2 as <- <-. split; [|reflexivity]. constructor; assumption.
  - injection E as <- <-. split; [|reflexivity]. constructor; assumption.
Qed.

Lemma listener_silent r o1 : flat_map own_text (listener_draws cf r o1) = [].
Proof. unfold listener_draws. destruct (oc_listen cf) as [f|]; [destruct (f _ _ _) as [[l p]|]|]; reflexivity. Qed.

Lemma switched_rings r o o' acts : idle o -> plain_key r -> vim_and_switch cf r o = Ok (o', acts) -> rings (after_vim cf r o) acts /\ idle o'.
Proof.
  intros D K E. unfold vim_and_switch in E. rewrite Vi in E. apply obind_ok in E. destruct E as ([[[[o1 a1] kS] kC] upd] & E1 & E).
  destruct (switch_rings r o _ _ _ _ _ D K E1) as ((es & X & Y) & D1). destruct (after_idle _ _ _ _ _ _ _ _ D1 E) as (D2 & ->). split; [|exact D2].
  unfold after_vim. rewrite X, E1. cbn [obind]. eexists. split; [reflexivity|]. now rewrite flat_map_app, listener_silent, app_nil_r.
Qed.

Lemma enter_plain : plain_key CharEnter.
Proof. split; [vm_compute; intuition discriminate|discriminate]. Qed.

Lemma key_rings r o o' acts : idle o -> pipe_key cf r -> op_step cf r o = Ok (o', acts) -> rings (pipe_draws cf r o) acts /\ idle o'.
Proof.
  intros D K E. pose proof (id_vp _ D) as V. unfold op_step in E. unfold pipe_draws, pipe_key in *. destruct (o_end o).
  { injection E as <- <-. split; [eexists; split; reflexivity|exact D]. }
  rewrite V in E.
  assert (H : forall r', (~ In r' [CharBckSearch; CharFwdSearch; CharCtrlL; CharCtrlZ] /\ (r' = CharTab -> oc_auto cf = None)) -> handle_key cf r' o = Ok (o', acts) ->
    rings (if r' =? 0 then if (length (rb_buf (o_b o)) =? 0)%nat then Ok [OClean] else after_vim cf CharEnter o else after_vim cf r' o) acts /\ idle o').
  { intros r' K' E'. unfold handle_key in E'. rewrite (id_sel _ D) in E'. destruct (r' =? 0); cbn [andb] in E'.
    - destruct (length (rb_buf (o_b o)) =? 0)%nat.
      + injection E' as <- <-. split; [eexists; split; reflexivity|]. destruct D. constructor; assumption.
      + now apply switched_rings; [|apply enter_plain|].
    - now apply switched_rings. }
  destruct (oc_filter cf) as [f|]; [destruct (f r) as [r'|]|].
  - now apply H; [apply K|].
  - injection E as <- <-. split; [eexists; split; reflexivity|exact D].
  - now apply H; [apply K|].
Qed.

Lemma session_rings p v is : ColorFilter p = Ok v -> Forall (pipe_inp cf) is -> forall o rd d o' out acts, idle o -> piped p d -> writes cf is o out o' acts ->
  exists rd' d', pipe_run cf (o, (rd, d)) is = Ok ((o', (rd', d')), out, acts).
Proof.
  intros Pv. induction 1 as [|i is K _ IH]; intros o rd d o' out acts D P W; [inversion W; subst; cbn; eauto|].
  destruct i as [|t|r]; inversion W; subst; cbn [pipe_run pipe_step].
  - destruct (ostep_piped (oc_u cf) p v rd d (ODraw VRead) Pv P) as (rd1 & d1 & -> & P1). cbn [obind fst snd].
    match goal with X : writes _ is _ _ _ _ |- _ => destruct (IH _ rd1 d1 _ _ _ D P1 X) as (rd2 & d2 & ->) end. cbn. eauto.
  - destruct (ostep_piped (oc_u cf) p v rd d (ODraw (VOut t)) Pv P) as (rd1 & d1 & -> & P1). cbn [obind fst snd].
    match goal with X : writes _ is _ _ _ _ |- _ => destruct (IH _ rd1 d1 _ _ _ D P1 X) as (rd2 & d2 & ->) end. cbn. eauto.
  - match goal with X : op_step cf r o = Ok (?x, ?y) |- _ => destruct (key_rings r o x y D K X) as ((es & E1 & E2) & D1); rewrite E1, X end. cbn [obind].
    destruct (orun_piped (oc_u cf) p v es Pv rd d P) as (rd1 & d1 & -> & P1). cbn [obind fst snd].
    match goal with X : writes _ is _ _ _ _ |- _ => destruct (IH _ rd1 d1 _ _ _ D1 P1 X) as (rd2 & d2 & ->) end. cbn. rewrite E2. eauto.
Qed.
End Key.

(** ** The width *)
Section Width.
Variable cf : ocfg.
Hypothesis Vi : oc_vim cf = false.
Variable w : Z.
Notation cf' := (set_width w cf).

Lemma switch_width r o : idle o -> plain_key cf r -> key_switch cf' r o = key_switch cf r o.
Proof.
  intros [D1 D2 D3 D4] (K1 & K2). unfold key_switch.
  assert (Y : (r =? CharBckSearch) = false /\ (r =? CharFwdSearch) = false).
  { cbn [In] in K1. split; apply Z.eqb_neq; intros ->; tauto. }
  destruct Y as (-> & ->). rewrite D1. cbn [oc_auto oc_w set_width].
  destruct (r =? CharTab) eqn:T; [apply Z.eqb_eq in T; rewrite (K2 T); reflexivity|].
  repeat (match goal with |- (if ?b then _ else _) = (if ?b then _ else _) => destruct b end; [solve [reflexivity | destruct (length (rb_buf (o_b o)) =? 0)%nat; [reflexivity|];
    destruct (BufBackspace (o_b o)); [|reflexivity|reflexivity]; cbn [obind with_b o_c]; rewrite D2; reflexivity]|]).
  destruct (WriteRunes [r] (o_b o)); [|reflexivity|reflexivity]. cbn [obind with_b o_c]. rewrite D2. reflexivity.
Qed.

Lemma after_width r x : idle (fst (fst (fst (fst x)))) -> after_switch cf' r x = after_switch cf r x.
Proof.
  destruct x as [[[[o1 a] kS] kC] upd]. intros [D1 D2 D3 D4]. cbn [fst] in *. unfold after_switch. cbn [oc_listen set_width].
  set (o2 := match oc_listen cf with Some _ => _ | None => _ end).
  assert (X : idle o2). { unfold o2. destruct (oc_listen cf) as [f|]; [destruct (f _ _ _) as [[l p]|]|]; constructor; assumption. }
  destruct X as [X1 X2 X3 X4]. rewrite X1, X2, andb_false_r. reflexivity.
Qed.

Lemma vim_width r o : idle o -> plain_key cf r -> vim_and_switch cf' r o = vim_and_switch cf r o.
Proof.
  intros D K. unfold vim_and_switch. cbn [oc_vim set_width]. rewrite Vi, (switch_width r o D K).
  destruct (key_switch cf r o) as [[[[[o1 a] kS] kC] upd]| |] eqn:E; try reflexivity. cbn [obind]. apply after_width. apply (switch_rings cf r o _ _ _ _ _ D K E).
Qed.

Lemma step_width r o : idle o -> pipe_key cf r -> op_step cf' r o = op_step cf r o.
Proof.
  intros D K. unfold op_step. cbn [oc_filter set_width]. destruct (o_end o); [reflexivity|]. rewrite (id_vp _ D).
  assert (H : forall r', plain_key cf r' -> handle_key cf' r' o = handle_key cf r' o).
  { intros r' K'. unfold handle_key. rewrite (id_sel _ D). destruct (r' =? 0); [|now apply vim_width].
    destruct (_ && _); [reflexivity|]. apply vim_width; [exact D|apply enter_plain]. }
  unfold pipe_key in K. destruct (oc_filter cf) as [f|]; [destruct (f r) as [r'|]|]; [now apply H, K|reflexivity|now apply H, K].
Qed.

Lemma run_width rs : Forall (pipe_key cf) rs -> forall o, idle o -> op_run cf' rs o = op_run cf rs o.
Proof.
  induction 1 as [|r rs K _ IH]; intros o D; [reflexivity|]. cbn [op_run]. rewrite (step_width r o D K).
  destruct (op_step cf r o) as [[o1 a]| |] eqn:E; try reflexivity. cbn [obind fst snd]. rewrite IH; [reflexivity|].
  apply (key_rings cf Vi r o o1 a D K E).
Qed.
End Width.

(** ** A session exists whenever the editor runs *)
Lemma writes_exists cf is : forall o o' acts, op_run cf (keys_of is) o = Ok (o', acts) -> exists out, writes cf is o out o' acts.
Proof.
  induction is as [|[|t|r] is IH]; intros o o' acts E; cbn [keys_of flat_map app] in E.
  - injection E as <- <-. eexists. constructor.
  - destruct (IH _ _ _ E) as (out & W). eexists. econstructor; eassumption.
  - destruct (IH _ _ _ E) as (out & W). eexists. econstructor; eassumption.
  - cbn [op_run] in E. apply obind_ok in E. destruct E as ([o1 a1] & E1 & E). apply obind_ok in E. destruct E as ([o2 a2] & E2 & E). cbn [fst snd] in *. injection E as <- <-.
    destruct (IH _ _ _ E2) as (out & W). eexists. econstructor; eassumption.
Qed.

Lemma writes_silent cf is o out o' acts : writes cf is o out o' acts -> ~ In ABell acts -> out = flat_map (fun i => match i with IPrint t => t | _ => [] end) is.
Proof.
  induction 1 as [| | |r is o o1 a1 out o' acts E W IH]; intros N; cbn [flat_map]; auto.
  - now rewrite IHwrites.
  - rewrite IH by (intros X; apply N, in_or_app; auto). cbn [app].
    assert (B : bells a1 = []).
    { assert (M : ~ In ABell a1) by (intros X; apply N, in_or_app; auto). clear - M. induction a1 as [|a l IH]; [reflexivity|]. cbn [bells flat_map]. cbn [In] in M. fold (bells l). rewrite IH by tauto. destruct a; try reflexivity. tauto. }
    now rewrite B.
Qed.

Lemma keys_of_keys rs : keys_of (IRead :: map IKey rs) = rs.
Proof. cbn. induction rs as [|r rs IH]; [reflexivity|]. cbn. now f_equal. Qed.
