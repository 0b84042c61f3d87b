(** Proofs about the goroutines of an instance. *)
From Verif Require Import Base ListAux RunesModel RuneBufModel HistoryModel HistoryProofs RenderModel TerminalModel TerminalSpec TerminalProofs
  OpModel OpSpec OpProofs OpStep OpKeys OpModes FilterSpec SessionModel.
From Coq Require Import ZifyBool.
Open Scope Z_scope.

(** ** One iteration of the editor loop *)
Definition is_line (x : act) : bool := match x with ALine _ => true | _ => false end.
(** iterations on rune 0 that return nothing *)
Definition phi (o : op) : nat := ((match o_vp o with Some _ => 2 | None => 0 end) + (if c_sel (o_c o) then 1 else 0))%nat.

Lemma switch_le cf r o x : key_switch cf r o = Ok x -> (kicks (snd (fst (fst (fst x)))) <= if pauseb r then 1 else 0)%nat.
Proof. intros E. rewrite (switch_kicks cf r o x E). lia. Qed.

Lemma vim_kicks cf r o o' a : vim_and_switch cf r o = Ok (o', a) -> (kicks a <= if pauseb r then 1 else 0)%nat.
Proof.
  unfold vim_and_switch. destruct (oc_vim cf).
  - destruct (HandleVim r o) as [[[o1 v] va]| |] eqn:Hv; cbn [obind]; try discriminate.
    assert (Q : kicks va = 0%nat /\ (forall r', v = VKey r' -> r' = r \/ pauseb r' = false)).
    { unfold HandleVim in Hv. destruct (o_vn o); [unfold HandleVimNormal in Hv|].
      - repeat match type of Hv with
               | (if ?c then _ else _) = _ => destruct c
               | obind ?e _ = _ => destruct e; cbn [obind] in Hv; try discriminate
               end; injection Hv as <- <- <-; split; try reflexivity; intros r' X; try discriminate; injection X as <-; auto.
      - destruct (r =? CharEsc); injection Hv as <- <- <-; split; try reflexivity; intros r' X; try discriminate; injection X as <-; auto. }
    destruct Q as (Q1 & Q2). destruct v as [r'| |p].
    + destruct (r' =? 0); [intros E; injection E as <- <-; lia|].
      destruct (key_switch cf r' o1) as [x| |] eqn:K; cbn [obind]; try discriminate. intros E. apply after_acts in E. subst a.
      apply switch_le in K. destruct (Q2 r' eq_refl) as [-> | P]; [exact K|rewrite P in K; lia].
    + intros E. injection E as <- <-. lia.
    + intros E. injection E as <- <-. lia.
  - destruct (key_switch cf r o) as [x| |] eqn:K; cbn [obind]; try discriminate. intros E. apply after_acts in E. subst a. now apply switch_le in K.
Qed.

Lemma vim_end cf r o o' a : vim_and_switch cf r o = Ok (o', a) -> o_end o' = o_end o.
Proof.
  assert (S : forall r o o', (x <- key_switch cf r o ;; after_switch cf r x) = Ok (o', a) -> o_end o' = o_end o).
  { intros r1 o1 o2. destruct (key_switch cf r1 o1) as [x| |] eqn:K; cbn [obind]; try discriminate. intros E.
    apply fr_after in E. apply fr_switch in K. destruct E, K. congruence. }
  unfold vim_and_switch. destruct (oc_vim cf); [|apply S].
  destruct (HandleVim r o) as [[[o1 v] va]| |] eqn:Hv; cbn [obind]; try discriminate.
  assert (Q : o_end o1 = o_end o).
  { unfold HandleVim in Hv. destruct (o_vn o); [unfold HandleVimNormal in Hv|].
    - repeat match type of Hv with
             | (if ?c then _ else _) = _ => destruct c
             | obind ?e _ = _ => destruct e; cbn [obind] in Hv; try discriminate
             end; injection Hv as <- <- <-; reflexivity.
    - destruct (r =? CharEsc); injection Hv as <- <- <-; reflexivity. }
  destruct v as [r'| |p].
  - destruct (r' =? 0); [intros E; injection E as <- <-; exact Q|]. intros E. apply S in E. congruence.
  - intros E. injection E as <- <-. exact Q.
  - intros E. injection E as <- <-. exact Q.
Qed.

(** a rune from the terminal: at most one resumption, and only after a pause; the loop goes on *)
Lemma step_le0 cf r o o' a : oc_filter cf = None -> o_end o = false -> r <> 0 -> op_step cf r o = Ok (o', a) ->
  (kicks a <= if pauseb r then 1 else 0)%nat /\ o_end o' = false.
Proof.
  intros Fi En N0. unfold op_step. rewrite En. destruct (o_vp o) as [p|].
  { destruct (vim_next p r o) as [o1| |] eqn:E; cbn [obind]; try discriminate. intros X. injection X as <- <-. split; [unfold kicks; cbn; lia|].
    rewrite <- En. unfold vim_next in E. destruct p; match type of E with obind ?e _ = _ => destruct e; cbn [obind] in E; try discriminate end;
      injection E as <-; reflexivity. }
  rewrite Fi. unfold handle_key. replace (r =? 0) with false by lia. cbn [andb].
  assert (Q : forall o1, o_end o1 = false -> vim_and_switch cf r o1 = Ok (o', a) -> (kicks a <= if pauseb r then 1 else 0)%nat /\ o_end o' = false).
  { intros o1 E1 E. split; [now apply vim_kicks in E|]. apply vim_end in E. congruence. }
  destruct (c_sel (o_c o)); [|now apply Q].
  destruct (HandleCompleteSelect cf r o) as [[o1 k]| |] eqn:S; cbn [obind]; try discriminate. pose proof (fr_handle _ _ _ _ _ S) as (F1 & _).
  rewrite En in F1. destruct k.
  - intros E. injection E as <- <-. split; [unfold kicks; cbn; lia|exact F1].
  - destruct ((r =? CharEnter) || (r =? CharCtrlJ)) eqn:E1.
    { destruct (Update _ _ _ _); cbn [obind]; try discriminate. intros E. injection E as <- <-. split; [|exact F1].
      replace (pauseb r) with true; [unfold kicks; cbn; lia|]. clear - E1. unfold pauseb, CharEnter, CharCtrlJ in *. lia. }
    destruct (r =? CharInterrupt) eqn:E2.
    { intros E. injection E as <- <-. split; [|exact F1]. replace (pauseb r) with true; [unfold kicks; cbn; lia|]. clear - E2. unfold pauseb, CharInterrupt in *. lia. }
    destruct (r =? CharBell); [intros E; injection E as <- <-; split; [unfold kicks; cbn; lia|exact F1]|].
    now apply Q.
Qed.

(** rune 0, read from the closed channel *)
Lemma enter_acts cf o x : key_switch cf 13 o = Ok x -> exists l, snd (fst (fst (fst x))) = [ALine l].
Proof.
  change (key_switch cf 13 o) with (key_enter cf o). unfold key_enter.
  destruct (if s_in (o_s o) then _ else _) as [o1| |]; cbn [obind]; try discriminate.
  destruct (MoveToLineEnd _) as [b| |]; cbn [obind]; try discriminate.
  destruct (if negb (oc_unique cf) then _ else _) as [[d b']| |]; cbn [obind]; try discriminate.
  destruct (negb (oc_nosave cf)).
  - destruct (New _ _ _); cbn [obind]; try discriminate. intros E. injection E as <-. eexists; reflexivity.
  - intros E. injection E as <-. eexists; reflexivity.
Qed.

Lemma zero_step0 cf o o' a : oc_filter cf = None -> o_end o = false -> op_step cf 0 o = Ok (o', a) ->
  (a = [AEof] /\ o_end o' = true) \/
  (exists l, a = [ALine l] /\ o_end o' = false) \/
  ((a = [] \/ a = [AKick]) /\ o_end o' = false /\ (phi o' < phi o)%nat).
Proof.
  intros Fi En. unfold op_step. rewrite En. destruct (o_vp o) as [p|] eqn:Vp.
  { destruct (vim_next p 0 o) as [o1| |] eqn:E; cbn [obind]; try discriminate. intros X. injection X as <- <-. right. right.
    split; [now left|]. unfold phi. rewrite Vp.
    unfold vim_next in E. destruct p; match type of E with obind ?e _ = _ => destruct e; cbn [obind] in E; try discriminate end;
      injection E as <-; cbn; (split; [exact En|]); destruct (c_sel (o_c o)); lia. }
  rewrite Fi. unfold handle_key. change (0 =? 0) with true. cbn [andb]. destruct (length (rb_buf (o_b o)) =? 0)%nat eqn:L0.
  { intros E. injection E as <- <-. left. split; reflexivity. }
  assert (Q : forall o1, o_end o1 = false -> vim_and_switch cf CharEnter o1 = Ok (o', a) -> exists l, a = [ALine l] /\ o_end o' = false).
  { intros o1 E1 E. pose proof (vim_end _ _ _ _ _ E) as E2. rewrite E1 in E2. unfold vim_and_switch in E.
    assert (W : forall o2, (y <- key_switch cf 13 o2;; after_switch cf 13 y) = Ok (o', a) -> exists l, a = [ALine l]).
    { intros o2 W. destruct (key_switch cf 13 o2) as [x| |] eqn:K; cbn [obind] in W; try discriminate. apply after_acts in W. subst a.
      now apply enter_acts in K. }
    destruct (oc_vim cf).
    - unfold HandleVim in E. destruct (o_vn o1); cbn in E; apply W in E; destruct E as (l & ->); eauto.
    - apply W in E. destruct E as (l & ->). eauto. }
  destruct (c_sel (o_c o)) eqn:Sl; [|intros E; right; left; now apply (Q o)].
  destruct (HandleCompleteSelect cf CharEnter o) as [[o1 k]| |] eqn:S; cbn [obind]; try discriminate. pose proof (fr_handle _ _ _ _ _ S) as (F1 & F2 & _).
  unfold HandleCompleteSelect in S. cbn [Z.eqb orb Pos.eqb CharEnter CharCtrlJ] in S.
  destruct (c_choice (o_c o) <? 0); [discriminate|]. destruct (get _ _) as [x| |]; cbn [obind] in S; try discriminate.
  destruct (WriteRunes _ _) as [b| |]; cbn [obind] in S; try discriminate. injection S as <- <-. 
  change ((CharEnter =? CharEnter) || (CharEnter =? CharCtrlJ)) with true. cbn iota.
  destruct (Update _ _ _ _) as [h| |]; cbn [obind]; try discriminate. intros E. injection E as <- <-. right. right.
  split; [now right|]. split; [exact En|]. unfold phi. cbn. rewrite Sl, Vp. lia.
Qed.


(** ** With a filter *)
Lemma handle_free cf r o : handle_key (unfiltered cf) r o = handle_key cf r o.
Proof. destruct cf. reflexivity. Qed.

Lemma gentle_none cf : oc_filter cf = None -> gentle cf.
Proof. intros E. unfold gentle. now rewrite E. Qed.

Lemma gentle_step cf r o : gentle cf -> o_end o = false ->
  (exists r', op_step cf r o = op_step (unfiltered cf) r' o /\ pauseb r' = pauseb r /\ (r' = 0 <-> r = 0)) \/
  (pauseb r = true /\ r <> 0 /\ o_vp o = None /\ op_step cf r o = Ok (o, [AKick])).
Proof.
  intros G En. unfold op_step. rewrite En. cbn [oc_filter unfiltered]. destruct (o_vp o) as [p|]; [left; exists r; split; [reflexivity|]; split; [reflexivity|tauto]|].
  unfold gentle in G. destruct (oc_filter cf) as [f|]; [|left; exists r; split; [now rewrite handle_free|]; split; [reflexivity|tauto]].
  destruct G as (G0 & G). destruct (Z.eq_dec r 0) as [->|N].
  - rewrite G0. left. exists 0. split; [now rewrite handle_free|]. split; [reflexivity|tauto].
  - specialize (G r N). destruct (f r) as [r'|].
    + left. exists r'. split; [now rewrite handle_free|]. split; [|tauto]. destruct G as (_ & G). unfold pauseb, pause_key in *. lia.
    + right. unfold pauseb, pause_key in *. split; [lia|]. split; [exact N|]. split; reflexivity.
Qed.

Lemma step_le cf r o o' a : gentle cf -> o_end o = false -> r <> 0 -> op_step cf r o = Ok (o', a) ->
  (kicks a <= if pauseb r then 1 else 0)%nat /\ o_end o' = false.
Proof.
  intros G En N. destruct (gentle_step cf r o G En) as [(r' & -> & <- & Z)|(P & _ & _ & ->)].
  - intros E. apply (step_le0 (unfiltered cf) r' o o' a); auto. tauto.
  - rewrite P. intros E. injection E as <- <-. split; [unfold kicks; cbn; lia|exact En].
Qed.

Lemma zero_step cf o o' a : gentle cf -> o_end o = false -> op_step cf 0 o = Ok (o', a) ->
  (a = [AEof] /\ o_end o' = true) \/
  (exists l, a = [ALine l] /\ o_end o' = false) \/
  ((a = [] \/ a = [AKick]) /\ o_end o' = false /\ (phi o' < phi o)%nat).
Proof.
  intros G En. destruct (gentle_step cf 0 o G En) as [(r' & -> & _ & Z)|(_ & N & _)]; [|congruence].
  replace r' with 0 by (symmetry; tauto). now apply zero_step0.
Qed.

Lemma step_kicks_g cf r o o' a : oc_vim cf = false -> gentle cf -> o_end o = false -> o_vp o = None -> r <> 0 ->
  op_step cf r o = Ok (o', a) -> kicks a = if pauseb r then 1%nat else 0%nat.
Proof.
  intros Vi G En Vp N. destruct (gentle_step cf r o G En) as [(r' & -> & <- & Z)|(P & _ & _ & ->)].
  - intros E. apply (step_kicks (unfiltered cf) r' o o' a); auto. tauto.
  - rewrite P. intros E. injection E as <- <-. reflexivity.
Qed.

Lemma fr_step_g cf r o o' a : oc_vim cf = false -> gentle cf -> o_vp o = None -> r <> 0 -> op_step cf r o = Ok (o', a) -> fr o o'.
Proof.
  intros Vi G Vp N E. destruct (o_end o) eqn:En; [unfold op_step in E; rewrite En in E; injection E as <- <-; apply fr_refl|].
  destruct (gentle_step cf r o G En) as [(r' & X & _ & Z)|(_ & _ & _ & X)]; rewrite X in E.
  - apply (fr_step (unfiltered cf) r' o o' a); auto. tauto.
  - injection E as <- <-. apply fr_refl.
Qed.

Lemma run_kicks_g cf rs : oc_vim cf = false -> gentle cf -> Forall (fun r => r <> 0) rs ->
  forall o o' a, o_end o = false -> o_vp o = None -> op_run cf rs o = Ok (o', a) ->
    kicks a = length (filter pauseb rs) /\ o_end o' = false.
Proof.
  intros Vi Fi. induction rs as [|r rs IH]; intros F o o' a En Vp; cbn [op_run].
  - intros E. injection E as <- <-. auto.
  - inversion F as [|? ? R0 F']; subst. destruct (op_step cf r o) as [[o1 a1]| |] eqn:E1; cbn [obind fst snd]; try discriminate.
    destruct (op_run cf rs o1) as [[o2 a2]| |] eqn:E2; cbn [obind fst snd]; try discriminate. intros E. injection E as <- <-.
    pose proof (fr_step_g _ _ _ _ _ Vi Fi Vp R0 E1) as (F1 & F2 & F3).
    pose proof (step_kicks_g _ _ _ _ _ Vi Fi En Vp R0 E1) as K1.
    destruct (IH F' o1 o2 a2 ltac:(congruence) ltac:(congruence) E2) as (K2 & N2).
    rewrite kicks_app, K1, K2. cbn [filter]. split; [|exact N2]. destruct (pauseb r); reflexivity.
Qed.

(** ** The invariant *)
Definition pend (e : eproc) : list act := match e with EDo _ _ a => a | _ => [] end.
Definition cur (e : eproc) : option op := match e with ERecv o | EDo _ o _ | EDone o => Some o | ECrash => None end.
Definition opt {A} (x : option A) : list A := match x with Some a => [a] | None => [] end.
Definition reading (t : tproc) : nat := match t with TRead | TSend _ => 1 | _ => 0 end.
Definition b2n (b : bool) : nat := if b then 1 else 0.
Definition waiting (c : cproc) : bool := match c with CWait => true | _ => false end.
(** who may cause the next progress: the terminal reading, a kick, the editor about to resume, an error to be
    fetched, or the caller *)
Definition weight (s : sess) : nat :=
  (reading (ss_t s) + b2n (ss_kick s) + kicks (pend (ss_e s)) + length (opt (ss_err s)) + b2n (negb (waiting (ss_c s))))%nat.

Definition sending (t : tproc) : list Z := match t with TSend k => [k] | _ => [] end.
Definition to_come (u : uenv) (cf : ocfg) (s : sess) : list Z :=
  sending (ss_t s) ++ tkeys (trun u (oc_vim cf) (ss_ts s) (ss_in s)).

Definition live (s : sess) : Prop := ss_k s = K0 \/ ss_k s = K1.

Record inv (u : uenv) (cf : ocfg) (keys : list Z) (o0 : op) (s : sess) (ks : list Z) (a : list act) (o : op) : Prop := {
  i_run : op_run cf ks o0 = Ok (o, a);
  i_cur : cur (ss_e s) = Some o;
  i_res : results a = ss_res s ++ opt (ss_err s) ++ results (pend (ss_e s));
  i_err : Forall (fun x => is_err x = true) (opt (ss_err s));
  i_recv : (exists o1, ss_e s = ERecv o1) -> o_end o = false;
  i_done : (exists o1, ss_e s = EDone o1) -> o_end o = true;
  i_t : match ss_t s with
        | TDone => exists m, ks = keys ++ repeat 0 m /\
            (o_end o = true -> (exists l, results a = l ++ [AEof]) /\ existsb is_line (pend (ss_e s)) = false /\ (length (opt (ss_err s)) + kicks (pend (ss_e s)) <= 1)%nat) /\
            (o_end o = false -> ss_err s = None /\ existsb is_err (pend (ss_e s)) = false /\ (kicks (pend (ss_e s)) <= 1)%nat)
        | _ => ks ++ to_come u cf s = keys /\ o_end o = false /\ (weight s <= 1)%nat
        end
}.
(** dead: what was returned is part of what the editor had computed, and the next rune breaks it *)
Definition dead (cf : ocfg) (keys : list Z) (o0 : op) (s : sess) : Prop :=
  ss_e s = ECrash /\ exists ks m a o l, op_run cf ks o0 = Ok (o, a) /\
    (exists ks', ks ++ ks' = keys ++ repeat 0 m /\ exists r ks1, ks' = r :: ks1 /\ (op_step cf r o = Panic \/ op_step cf r o = Hang)) /\
    results a = ss_res s ++ opt (ss_err s) ++ l.

Lemma op_run_snoc cf ks r o0 o a o' b : op_run cf ks o0 = Ok (o, a) -> op_step cf r o = Ok (o', b) ->
  op_run cf (ks ++ [r]) o0 = Ok (o', a ++ b).
Proof.
  intros E1 E2. rewrite op_run_app, E1. cbn [obind fst snd op_run]. rewrite E2. cbn [obind fst snd]. rewrite app_nil_r. reflexivity.
Qed.

Lemma kick_pause k : pauseb k = pauses k.
Proof. unfold pauseb, pauses, CharInterrupt, CharEnter, CharCtrlJ, CharDelete. reflexivity. Qed.

Section run.
Variables (u : uenv) (cf : ocfg) (eof : bool) (keys : list Z) (o0 : op).
Hypothesis Fi : gentle cf.
Hypothesis Nz : Forall (fun k => k <> 0) keys.

Let Inv s := exists ks a o, inv u cf keys o0 s ks a o.

Lemma results_quiet x a : is_quiet x = true -> results (x :: a) = results a.
Proof. destruct x; intros E; try discriminate; reflexivity. Qed.
Lemma kicks_quiet x a : is_quiet x = true -> kicks (x :: a) = kicks a.
Proof. destruct x; intros E; try discriminate; reflexivity. Qed.
Lemma line_quiet x a : is_quiet x = true -> existsb is_line (x :: a) = existsb is_line a.
Proof. destruct x; intros E; try discriminate; reflexivity. Qed.
Lemma err_quiet x a : is_quiet x = true -> existsb is_err (x :: a) = existsb is_err a.
Proof. destruct x; intros E; try discriminate; reflexivity. Qed.
Lemma kicks_res a : kicks a = 0%nat -> results a = [].
Proof.
  unfold kicks, results. induction a as [|x a IH]; cbn; [reflexivity|]. unfold resumes at 1. destruct x; cbn; intros E; try discriminate; auto.
Qed.
Lemma kicks0_line a : kicks a = 0%nat -> existsb is_line a = false.
Proof. unfold kicks. induction a as [|x a IH]; cbn; [reflexivity|]. destruct x; cbn; intros E; try discriminate; auto. Qed.
Lemma kicks0_err a : kicks a = 0%nat -> existsb is_err a = false.
Proof. unfold kicks. induction a as [|x a IH]; cbn; [reflexivity|]. destruct x; cbn; intros E; try discriminate; auto. Qed.

Lemma kicks_err x a : is_err x = true -> kicks (x :: a) = S (kicks a).
Proof. destruct x; intros E; try discriminate; reflexivity. Qed.
Lemma results_err x a : is_err x = true -> results (x :: a) = x :: results a.
Proof. destruct x; intros E; try discriminate; reflexivity. Qed.

Ltac fields := cbn [ss_in ss_ts ss_t ss_kick ss_e ss_err ss_c ss_res ss_k ss_file pend cur opt length app] in *.

(** steps of the editor that only shorten its list of actions *)
Lemma inv_work s s' : Inv s -> live s' -> work u cf eof s s' -> Inv s' \/ dead cf keys o0 s'.
Proof.
  intros (ks & a & o & [Ir Ic Is Ie Ircv Idn It]) L W. destruct W; fields; unfold live in L; fields.
  - (* w_kick *) left. exists ks, a, o. constructor; fields; auto.
  - destruct H, L; congruence.
  - (* w_skip *) left. exists ks, a, o. constructor; fields; auto. destruct It as (K1 & K2 & K3). split; [|split; [exact K2|exact K3]].
    revert K1. unfold to_come. fields. cbn [sending trun]. rewrite H. cbn [tkeys flat_map]. destruct x; [destruct H0| |]; cbn [app]; auto.
  - (* w_key *) left. exists ks, a, o. constructor; fields; auto. destruct It as (K1 & K2 & K3). split; [|split; [exact K2|exact K3]].
    revert K1. unfold to_come. fields. cbn [sending trun]. rewrite H. cbn [tkeys flat_map app]. auto.
  - (* w_eof *) left. exists ks, a, o. constructor; fields; auto. destruct It as (K1 & K2 & K3). exists 0%nat. cbn [repeat].
    split; [revert K1; unfold to_come; fields; cbn; rewrite !app_nil_r; auto|].
    split; [congruence|]. intros _. revert K3. unfold weight. fields. cbn [reading]. intros K3. 
    assert (P0 : kicks (pend e) = 0%nat) by lia. split; [destruct er; [cbn in K3; lia|reflexivity]|]. split; [now apply kicks0_err|lia].
  - (* w_recv *) left. injection Ic as ->. destruct It as (K1 & K2 & K3).
    assert (Ny : y <> 0). { rewrite <- K1 in Nz. apply Forall_app in Nz. destruct Nz as (_ & N2). unfold to_come in N2. fields. cbn [sending app] in N2. now inversion N2. }
    destruct (step_le cf y o o' a0 Fi K2 Ny H) as (Kk & En').
    exists (ks ++ [y]), (a ++ a0), o'. constructor; fields; auto.
    + now apply (op_run_snoc cf ks y o0 o).
    + unfold results at 1. rewrite filter_app. change (filter is_result a) with (results a). rewrite Is. change (results []) with (@nil act).
      rewrite app_nil_r, <- !app_assoc. reflexivity.
    + intros (o1 & E1). discriminate.
    + revert K1 K3. unfold to_come, weight. fields. cbn [sending app reading pend]. rewrite kick_pause in Kk. intros K1 K3.
      destruct (pauses y); (split; [rewrite <- app_assoc; exact K1|]; split; [exact En'|]); cbn [reading];
        change (kicks []) with 0%nat in K3; lia.
  - (* w_crash *) right. split; [reflexivity|]. fields. destruct It as (K1 & _ & _). exists ks, 0%nat, a, o, (results []).
    injection Ic as ->. split; [exact Ir|]. split; [|exact Is]. exists (to_come u cf (mkS i d (TSend y) q (ERecv o) er c rs k f)).
    split; [cbn [repeat]; rewrite app_nil_r; exact K1|]. exists y. eexists. split; [reflexivity|exact H].
  - (* w_recv0 *) left. injection Ic as ->. destruct It as (m & K1 & _ & K2). pose proof (Ircv ltac:(eauto)) as En. destruct (K2 En) as (Er & _ & _). subst er. fields.
    exists (ks ++ [0]), (a ++ a0), o'. rewrite app_nil_r in Is.
    assert (R' : results (a ++ a0) = rs ++ results a0) by (unfold results at 1; rewrite filter_app; fold (results a); rewrite Is; reflexivity).
    constructor; fields; auto.
    + now apply (op_run_snoc cf ks 0 o0 o).
    + intros (o1 & E1). discriminate.
    + intros (o1 & E1). discriminate.
    + exists (S m). split; [rewrite K1, <- app_assoc; f_equal; clear; induction m; cbn; [reflexivity|now rewrite IHm]|].
      destruct (zero_step cf o o' a0 Fi En H) as [(-> & E')|[(l & -> & E')|(R0 & E' & _)]]; rewrite E'.
      * split; [|discriminate]. intros _. split; [eexists; rewrite R'; reflexivity|]. split; [reflexivity|cbn; lia].
      * split; [discriminate|]. intros _. split; [reflexivity|]. split; [reflexivity|cbn; lia].
      * split; [discriminate|]. intros _. split; [reflexivity|]. destruct R0 as [-> | ->]; (split; [reflexivity|cbn; lia]).
  - (* w_crash0 *) right. split; [reflexivity|]. fields. destruct It as (m & K1 & _ & _). exists ks, (S m), a, o, (results []).
    injection Ic as ->. split; [exact Ir|]. split; [|exact Is]. exists [0].
    split; [rewrite K1, <- app_assoc; f_equal; clear; induction m; cbn; [reflexivity|now rewrite IHm]|]. exists 0, []. auto.
  - (* w_quiet *) left. exists ks, a, o. rewrite (results_quiet x a0 H) in Is. constructor; fields; auto.
    + intros (o2 & E2). discriminate.
    + intros (o2 & E2). discriminate.
    + unfold weight, to_come in *. fields. rewrite (kicks_quiet x a0 H), ?(line_quiet x a0 H), ?(err_quiet x a0 H) in It. exact It.
  - (* w_ekick *) left. exists ks, a, o. constructor; fields; auto.
    + intros (o2 & E2). discriminate.
    + intros (o2 & E2). discriminate.
    + unfold weight, to_come in *. fields. change (kicks (AKick :: a0)) with (S (kicks a0)) in It. cbn [existsb is_line is_err orb] in It.
      destruct t; cbn [b2n] in *.
      1-3: destruct It as (T1 & T2 & T3); split; [exact T1|]; split; [exact T2|]; destruct q; cbn [b2n] in *; lia.
      destruct It as (m & T1 & T2 & T3). exists m. split; [exact T1|]. split.
      * intros En. destruct (T2 En) as (A1 & A2 & A3). split; [exact A1|]. split; [exact A2|]. lia.
      * intros En. destruct (T3 En) as (A1 & A2 & A3). split; [exact A1|]. split; [exact A2|]. lia.
  - (* w_line *) left. exists ks, a, o.
    assert (Er : er = None).
    { unfold weight in It. fields. change (kicks (ALine l :: a0)) with (S (kicks a0)) in It. destruct t.
      1-3: destruct It as (_ & _ & T3); destruct er; [cbn in T3; lia|reflexivity].
      destruct It as (m & _ & T2 & T3). destruct (o_end o); [destruct (T2 eq_refl) as (_ & X & _); discriminate|now apply T3]. }
    subst er. fields. constructor; fields; auto.
    + rewrite Is, <- app_assoc. reflexivity.
    + intros (o2 & E2). discriminate.
    + intros (o2 & E2). discriminate.
    + unfold weight, to_come in *. fields. change (kicks (ALine l :: a0)) with (S (kicks a0)) in It. cbn [existsb is_line is_err orb waiting b2n negb] in *.
      destruct t.
      1-3: destruct It as (T1 & T2 & T3); split; [exact T1|]; split; [exact T2|]; lia.
      destruct It as (m & T1 & T2 & T3). exists m. split; [exact T1|]. split.
      * intros En. destruct (T2 En) as (A1 & A2 & A3). discriminate.
      * intros En. destruct (T3 En) as (A1 & A2 & A3). split; [exact A1|]. split; [exact A2|]. lia.
  - (* w_err *) left. exists ks, a, o. fields. constructor; fields; auto.
    + rewrite Is. rewrite (results_err x a0 H). reflexivity.
    + intros (o2 & E2). discriminate.
    + intros (o2 & E2). discriminate.
    + unfold weight, to_come in *. fields. rewrite (kicks_err x a0 H) in It.
      destruct t.
      1-3: destruct It as (T1 & T2 & T3); split; [exact T1|]; split; [exact T2|]; lia.
      destruct It as (m & T1 & T2 & T3). exists m. split; [exact T1|]. split.
      * intros En. destruct (T2 En) as (A1 & A2 & A3). split; [exact A1|]. split; [cbn [existsb] in A2; apply orb_false_iff in A2; apply A2|lia].
      * intros En. destruct (T3 En) as (A1 & A2 & A3). cbn [existsb] in A2. rewrite H in A2. discriminate.
  - (* w_next *) left. exists ks, a, o. injection Ic as ->. fields. destruct (o_end o) eqn:En; (constructor; fields; auto); try (intros (o2 & E2); discriminate); rewrite ?En.
    all: try exact It. all: rewrite En in It; exact It.
  - (* w_ckick *) left. exists ks, a, o. constructor; fields; auto. unfold weight, to_come in *. fields. cbn [waiting negb b2n] in *. destruct t.
    1-3: destruct It as (T1 & T2 & T3); split; [exact T1|]; split; [exact T2|]; lia.
    exact It.
  - (* w_cerr *) left. exists ks, a, o. constructor; fields; auto.
    + rewrite Is, <- app_assoc. reflexivity.
    + unfold weight, to_come in *. fields. cbn [waiting negb b2n] in *. destruct t.
      1-3: destruct It as (T1 & T2 & T3); split; [exact T1|]; split; [exact T2|]; lia.
      destruct It as (m & T1 & T2 & T3). exists m. split; [exact T1|]. split.
      * intros En. destruct (T2 En) as (A1 & A2 & A3). split; [exact A1|]. split; [exact A2|]. lia.
      * intros En. destruct (T3 En) as (A1 & A2 & A3). discriminate.
  - destruct L; discriminate.
  - destruct L; discriminate.
  - destruct L; discriminate.
Qed.

Lemma dead_work s s' : dead cf keys o0 s -> work u cf eof s s' -> live s' -> dead cf keys o0 s'.
Proof.
  intros (E & ks & m & a & o & l & R & P & Q) W L. destruct W; cbn [ss_e] in E; try discriminate; subst; unfold live in L; cbn [ss_k] in L;
    try (destruct L; discriminate); (split; [reflexivity|]); exists ks, m, a, o, l; (split; [exact R|]; split; [exact P|]); try exact Q.
  cbn in *. rewrite Q, <- app_assoc. reflexivity.
Qed.

Definition good s := Inv s \/ dead cf keys o0 s.

Lemma good_step s s' : good s -> step u cf eof s s' -> live s' -> good s'.
Proof.
  intros G [W|[(C & ->)|(K & ->)]] L.
  - destruct G as [I|D]; [now apply (inv_work s)|right; now apply (dead_work s)].
  - destruct G as [(ks & a & o & [])|(D & X)]; [left|right; split; assumption].
    exists ks, a, o. constructor; auto. destruct s as [i d t q e er c rs k f]. unfold weight, to_come in *. fields. subst c. cbn [waiting] in *. exact i_t0.
  - destruct G as [(ks & a & o & [])|(D & X)]; [left|right; split; assumption].
    exists ks, a, o. constructor; auto.
Qed.

Lemma live_back s s' : step u cf eof s s' -> live s' -> live s.
Proof.
  intros [W|[(C & ->)|(K & ->)]] L; [|exact L|now left].
  destruct W; unfold live in *; cbn [ss_k] in *; auto; destruct L; discriminate.
Qed.

Lemma good_reach s0 s : good s0 -> reach u cf eof s0 s -> live s -> good s.
Proof. intros G R. induction R as [|s s' R IH S]; intros L; [exact G|]. eapply good_step; [apply IH; now apply (live_back _ _ S)|exact S|exact L]. Qed.

Lemma good_new i : keys = keys_of u (oc_vim cf) i -> o_end o0 = false -> good (sess_new i o0).
Proof.
  intros E En. left. exists [], [], o0. unfold sess_new. constructor; fields; auto.
  intros (o1 & E1). discriminate.
Qed.

(** ** Results *)
Lemma prefix_of s : good s -> exists n o a l, op_run cf (firstn n (keys ++ repeat 0 n)) o0 = Ok (o, a) /\ results a = ss_res s ++ l.
Proof.
  assert (P : forall ks ks' m o a, op_run cf ks o0 = Ok (o, a) -> ks ++ ks' = keys ++ repeat 0 m ->
     exists n, op_run cf (firstn n (keys ++ repeat 0 n)) o0 = Ok (o, a)).
  { intros ks ks' m o a R E. exists (length ks). replace (firstn (length ks) (keys ++ repeat 0 (length ks))) with ks; [exact R|].
    transitivity (firstn (length ks) (keys ++ repeat 0 m)); [rewrite <- E, firstn_app, Nat.sub_diag, firstn_all; cbn; now rewrite app_nil_r|].
    rewrite !firstn_app. f_equal. assert (M : (length ks - length keys <= m)%nat).
    { apply (f_equal (@length Z)) in E. rewrite !app_length, repeat_length in E. lia. }
    assert (Q : forall j k, (j <= k)%nat -> firstn j (repeat 0 k) = repeat 0 j).
    { clear. induction j; intros k L; [reflexivity|]. destruct k; [lia|]. cbn. f_equal. apply IHj. lia. }
    rewrite !Q; auto. lia. }
  intros [(ks & a & o & I)|(_ & ks & m & a & o & l & R & (ks' & E & _) & Q)].
  - destruct I as [Ir Ic Is Ie Ircv Idn It].
    assert (E : exists ks' m, ks ++ ks' = keys ++ repeat 0 m).
    { destruct (ss_t s).
      1-3: exists (to_come u cf s), 0%nat; cbn [repeat]; rewrite app_nil_r; apply It.
      destruct It as (m & -> & _). exists [], m. now rewrite app_nil_r. }
    destruct E as (ks' & m & E). destruct (P ks ks' m o a Ir E) as (n & Hn). exists n, o, a. eexists. split; [exact Hn|]. rewrite Is. reflexivity.
  - destruct (P ks ks' m o a R E) as (n & Hn). exists n, o, a. eexists. split; [exact Hn|]. rewrite Q. reflexivity.
Qed.

(** ** Without vim mode: exactly one *)
Hypothesis Vi : oc_vim cf = false.
Definition tight s := match cur (ss_e s) with
  | Some o => o_vp o = None /\ (o_end o = false -> ss_t s <> TDone -> weight s = 1%nat)
  | None => True end.

Lemma zero_vp o o' a : o_end o = false -> o_vp o = None -> op_step cf 0 o = Ok (o', a) -> o_vp o' = None.
Proof.
  intros En Vp. assert (H0 : op_step cf 0 o = handle_key cf 0 o).
  { unfold op_step. rewrite En, Vp. unfold gentle in Fi. destruct (oc_filter cf); [|reflexivity]. now rewrite (proj1 Fi). }
  rewrite H0. unfold handle_key. change (0 =? 0) with true. cbn [andb].
  destruct (_ =? 0)%nat; [intros E; injection E as <- <-; exact Vp|].
  assert (Q : forall r o1, o_vp o1 = None -> vim_and_switch cf r o1 = Ok (o', a) -> o_vp o' = None).
  { intros r o1 V1 E. apply fr_rest in E; [|exact Vi]. destruct E as (_ & E & _). congruence. }
  destruct (c_sel (o_c o)); [|now apply Q].
  destruct (HandleCompleteSelect cf CharEnter o) as [[o1 k]| |] eqn:S; cbn [obind]; try discriminate. apply fr_handle in S. destruct S as (_ & S & _).
  destruct k; [intros E; injection E as <- <-; congruence|].
  change ((CharEnter =? CharEnter) || (CharEnter =? CharCtrlJ)) with true. cbn iota.
  destruct (Update _ _ _ _) as [h| |]; cbn [obind]; try discriminate. intros E. injection E as <- <-. cbn. congruence.
Qed.

Lemma tight_work s s' : Inv s -> tight s -> live s' -> work u cf eof s s' -> tight s'.
Proof.
  intros (ks & a & o & [Ir Ic Is Ie Ircv Idn It]) T L W. destruct W; unfold tight, weight in *; fields; unfold live in L; fields; try exact T; try exact I;
    try (destruct L; discriminate).
  - (* kick *) rewrite Ic in *. split; [apply T|]. intros En _. apply T; [exact En|discriminate].
  - destruct H, L; congruence.
  - (* key *) rewrite Ic in *. split; [apply T|]. intros En _. apply T; [exact En|discriminate].
  - (* eof *) rewrite Ic in *. split; [apply T|congruence].
  - (* recv *) injection Ic as ->. destruct T as (Vp & T). destruct It as (K1 & K2 & K3).
    assert (Ny : y <> 0). { rewrite <- K1 in Nz. apply Forall_app in Nz. destruct Nz as (_ & N2). unfold to_come in N2. fields. cbn [sending app] in N2. now inversion N2. }
    split; [apply (fr_step_g cf y o o' a0) in H; auto; destruct H as (_ & H & _); congruence|]. intros En' _.
    pose proof (step_kicks_g cf y o o' a0 Vi Fi K2 Vp Ny H) as Kk. rewrite kick_pause in Kk.
    specialize (T K2 ltac:(discriminate)). cbn [reading] in T. change (kicks []) with 0%nat in T. destruct (pauses y); cbn [reading]; lia.
  - (* recv0 *) injection Ic as ->. destruct T as (Vp & T). split; [|congruence]. apply (zero_vp o o' a0); auto. apply Ircv. eauto.
  - rewrite (kicks_quiet x a0 H) in T. exact T.
  - change (kicks (AKick :: a0)) with (S (kicks a0)) in T. destruct T as (Vp & T). split; [exact Vp|]. intros En Nt. specialize (T En Nt).
    injection Ic as ->. destruct t; [..|congruence]; destruct It as (_ & _ & W); change (kicks (AKick :: a0)) with (S (kicks a0)) in W; destruct q; cbn [b2n] in *; lia.
  - change (kicks (ALine l :: a0)) with (S (kicks a0)) in T. destruct T as (Vp & T). split; [exact Vp|]. intros En Nt. specialize (T En Nt). cbn [waiting negb b2n] in *. lia.
  - rewrite (kicks_err x a0 H) in T. destruct T as (Vp & T). split; [exact Vp|]. intros En Nt. specialize (T En Nt). lia.
  - destruct (o_end o') eqn:En; cbn [cur pend]; rewrite En in *; [split; [apply T|discriminate]|exact T].
  - destruct (cur e) as [o1|]; [|exact I]. destruct T as (Vp & T). split; [exact Vp|]. intros En Nt. specialize (T En Nt). cbn [waiting negb b2n] in *.
    injection Ic as ->. destruct t; [..|congruence]; destruct It as (_ & _ & W); cbn [waiting negb b2n] in W; destruct q; cbn [b2n] in *; lia.
  - destruct (cur e) as [o1|]; [|exact I]. destruct T as (Vp & T). split; [exact Vp|]. intros En Nt. specialize (T En Nt). cbn [waiting negb b2n] in *. lia.
Qed.
End run.

(** ** Termination: without further calls the goroutines come to rest *)
Definition mT (t : tproc) : nat := match t with TSend _ => 3 | TWait => 2 | TRead => 1 | TDone => 0 end.
Definition mC (c : cproc) : nat := match c with CCalled => 2 | CWait => 1 | CIdle => 0 end.
Definition mK (k : kproc) : nat := match k with K1 => 3 | K2 => 2 | K3 => 1 | _ => 0 end.
Definition mE (t : tproc) (e : eproc) : nat :=
  match t with
  | TDone => match e with
             | ERecv o => 3 + 2 * phi o
             | EDo _ o' p => if existsb is_line p then 2 else if o_end o' then 1 else 4 + 2 * phi o'
             | _ => 0
             end
  | _ => 0
  end.
Definition mA (e : eproc) : nat := match e with EDo _ _ p => S (length p) | _ => 0 end.
Definition mM (s : sess) : nat := (((length (ss_in s) * 4 + mT (ss_t s)) * 3 + mC (ss_c s)) * 11 + mE (ss_t s) (ss_e s))%nat.
Definition mL (s : sess) : nat := (mA (ss_e s) + mK (ss_k s))%nat.
Definition on (s : sess) : Prop := forall o, ss_e s = ERecv o -> o_end o = false.

Lemma phi_le o : (phi o <= 3)%nat.
Proof. unfold phi. destruct (o_vp o), (c_sel (o_c o)); lia. Qed.

Lemma mE_le t e : (mE t e <= 10)%nat.
Proof.
  destruct t; cbn; try lia. destruct e; try lia; [pose proof (phi_le o); lia|].
  destruct (existsb is_line acts); [lia|]. destruct (o_end o'); [lia|]. pose proof (phi_le o'). lia.
Qed.

Lemma work_less u cf eof s s' : gentle cf -> on s -> work u cf eof s s' ->
  on s' /\ ((mM s' < mM s)%nat \/ (mM s' = mM s /\ mL s' < mL s)%nat).
Proof.
  intros Fi O W. unfold on in *. destruct W; unfold mM, mL; cbn [ss_in ss_t ss_c ss_e ss_k length mT mC] in *.
  - split; [exact O|]. left. pose proof (mE_le TRead e). pose proof (mE_le TWait e). lia.
  - split; [exact O|]. left. pose proof (mE_le TDone e). lia.
  - split; [exact O|]. left. pose proof (mE_le TRead e). pose proof (mE_le TWait e). lia.
  - split; [exact O|]. left. pose proof (mE_le TRead e). cbn [mE]. lia.
  - split; [exact O|]. left. pose proof (mE_le TDone e). lia.
  - split; [intros; discriminate|]. left. destruct (pauses y); cbn [mT mE]; lia.
  - split; [intros; discriminate|]. left. destruct (pauses y); cbn [mT mE]; lia.
  - split; [intros; discriminate|]. left. cbn [mE]. destruct (zero_step cf o o' a Fi (O o eq_refl) H) as [(-> & E)|[(l & -> & E)|(R & E & P)]].
    + rewrite E. cbn [existsb is_line orb]. lia.
    + cbn [existsb is_line orb]. lia.
    + rewrite E. replace (existsb is_line a) with false by (destruct R as [-> | ->]; reflexivity). lia.
  - split; [intros; discriminate|]. left. cbn [mE]. lia.
  - split; [intros; discriminate|]. right. cbn [mA length]. split; [|lia]. destruct t; cbn [mE]; rewrite ?(line_quiet x a H); reflexivity.
  - split; [intros; discriminate|]. right. cbn [mA length]. split; [|lia]. destruct t; reflexivity.
  - split; [intros; discriminate|]. left. pose proof (mE_le t (EDo o o' a)). lia.
  - split; [intros; discriminate|]. right. cbn [mA length]. split; [|lia]. destruct t; try reflexivity. cbn [mE existsb].
    destruct x; try discriminate; reflexivity.
  - split; [intros o1; destruct (o_end o') eqn:E; [discriminate|]; intros X; injection X as <-; exact E|].
    cbn [mA length]. destruct t.
    1-3: right; split; [reflexivity|destruct (o_end o'); cbn [mA]; lia].
    left. cbn [mE existsb]. destruct (o_end o'); cbn [mE]; lia.
  - split; [exact O|]. left. pose proof (mE_le t e). lia.
  - split; [exact O|]. left. pose proof (mE_le t e). lia.
  - split; [exact O|]. right. cbn [mK]. lia.
  - split; [exact O|]. right. cbn [mK]. lia.
  - split; [exact O|]. right. cbn [mK]. lia.
Qed.

Lemma rests u cf eof : gentle cf -> forall s, on s -> Acc (fun x y => work u cf eof y x) s.
Proof.
  intros Fi. assert (A : forall n m s, (mM s <= n)%nat -> (mL s <= m)%nat -> on s -> Acc (fun x y => work u cf eof y x) s).
  { induction n as [n IHn] using (well_founded_induction lt_wf). induction m as [m IHm] using (well_founded_induction lt_wf).
    intros s Hn Hm O. constructor. intros s' W. destruct (work_less u cf eof s s' Fi O W) as (O' & [L|(E & L)]).
    - apply (IHn (mM s') ltac:(lia) (mL s')); auto.
    - apply (IHm (mL s') ltac:(lia)); auto. lia. }
  intros s O. now apply (A (mM s) (mL s)).
Qed.

Lemma on_step u cf eof s s' : gentle cf -> on s -> step u cf eof s s' -> on s'.
Proof. intros Fi O [W|[(_ & ->)|(_ & ->)]]; [now apply (work_less u cf eof s s') in W|exact O|exact O]. Qed.
Lemma on_reach u cf eof s s' : gentle cf -> on s -> reach u cf eof s s' -> on s'.
Proof. intros Fi O R. induction R as [|x y R IH S]; [exact O|]. exact (on_step u cf eof x y Fi IH S). Qed.

(** ** Progress *)
Lemma editor_rest u cf eof i d t q e er c rs k f : at_a_stop u cf eof (mkS i d t q e er c rs k f) ->
  match e with EDo _ _ (ALine _ :: _) => c <> CWait | EDo _ _ (x :: _) => is_err x = true /\ er <> None | EDo _ _ [] => False | _ => True end.
Proof.
  intros W. destruct e as [o|o o' [|x a]|o|]; auto.
  - eapply W. apply w_next.
  - destruct x; try (exfalso; eapply W; apply w_quiet; reflexivity).
    + exfalso. eapply W. apply w_ekick.
    + intros ->. eapply W. apply w_line.
    + split; [reflexivity|]. intros ->. eapply W. apply w_err. reflexivity.
    + split; [reflexivity|]. intros ->. eapply W. apply w_err. reflexivity.
Qed.

Lemma stuck_call u cf eof keys o0 s : gentle cf -> oc_vim cf = false -> good u cf keys o0 s -> tight s -> live s ->
  at_a_stop u cf eof s -> ss_c s <> CIdle ->
  ss_e s = ECrash \/ (eof = false /\ ss_t s = TRead /\ ss_in s = []) \/
  (exists o, ss_e s = EDone o /\ exists l, ss_res s = l ++ [AEof]).
Proof.
  intros Fi Vi G T L W C. destruct s as [i d t q e er c rs k f]. cbn [ss_e ss_t ss_in ss_c ss_res] in *.
  pose proof (editor_rest _ _ _ _ _ _ _ _ _ _ _ _ _ W) as Er.
  destruct G as [(ks & a & o & [Ir Ic Is Ie Ircv Idn It])|(E & _)]; [|left; exact E].
  cbn [ss_in ss_ts ss_t ss_kick ss_e ss_err ss_c ss_res ss_k ss_file] in *.
  destruct c; [congruence|exfalso; eapply W; apply w_ckick|].
  destruct er as [x|]; [exfalso; eapply W; apply w_cerr|].
  assert (P : pend e = []).
  { destruct e as [?|? ? [|[] ?]|?|]; try reflexivity; cbn in Er; try tauto; try (destruct Er as (X & Y); try discriminate; congruence). }
  destruct t.
  - (* TWait *) exfalso. destruct It as (_ & En & _). unfold tight in T. cbn [ss_e ss_t] in T. rewrite Ic in T. destruct T as (_ & T).
    specialize (T En ltac:(discriminate)). unfold weight in T. cbn [ss_t ss_kick ss_e ss_err ss_c] in T. rewrite P in T. cbn in T.
    destruct q; [|cbn in T; lia]. eapply W. apply w_kick.
  - right. left. destruct i as [|r i].
    + destruct eof; [exfalso; eapply W; now apply w_eof|]. auto.
    + exfalso. destruct (tstep u (oc_vim cf) d r) as [d' x] eqn:Es. destruct x.
      * eapply W. apply (w_key _ _ _ _ _ _ _ _ _ _ _ _ _ _ _ Es).
      * eapply W. apply (w_skip _ _ _ _ _ _ _ _ _ _ _ _ _ _ _ Es). exact I.
      * eapply W. apply (w_skip _ _ _ _ _ _ _ _ _ _ _ _ _ _ _ Es). exact I.
  - exfalso. destruct It as (_ & En & _). destruct e as [o1|? ? p|o1|].
    + destruct (op_step cf k0 o1) as [[o2 a2]| |] eqn:Es.
      * eapply W. apply (w_recv _ _ _ _ _ _ _ _ _ _ _ _ _ _ _ Es).
      * eapply W. apply w_crash. auto.
      * eapply W. apply w_crash. auto.
    + cbn in P. subst p. exact Er.
    + rewrite Idn in En by eauto. discriminate.
    + discriminate.
  - destruct e as [o1|? ? p|o1|].
    + exfalso. destruct (op_step cf 0 o1) as [[o2 a2]| |] eqn:Es.
      * eapply W. apply (w_recv0 _ _ _ _ _ _ _ _ _ _ _ _ _ _ Es).
      * eapply W. apply w_crash0. auto.
      * eapply W. apply w_crash0. auto.
    + cbn in P. subst p. destruct Er.
    + right. right. exists o1. split; [reflexivity|]. destruct It as (m & _ & It & _). destruct (It (Idn ltac:(eauto))) as ((l & El) & _).
      exists l. rewrite <- El, Is. cbn. now rewrite app_nil_r.
    + discriminate.
Qed.

(** tightness along runs *)
Lemma tight_reach u cf eof keys o0 s0 s : gentle cf -> oc_vim cf = false -> Forall (fun k => k <> 0) keys ->
  good u cf keys o0 s0 -> tight s0 -> reach u cf eof s0 s -> live s -> good u cf keys o0 s /\ tight s.
Proof.
  intros Fi Vi Nz G T R. induction R as [|s s' R IH S]; intros L; [auto|].
  destruct (IH (live_back u cf eof s s' S L)) as (Gs & Ts).
  split; [now apply (good_step u cf eof keys o0 Fi Nz s)|].
  destruct S as [W|[(C & ->)|(K & ->)]].
  - destruct Gs as [I|(E & _)].
    + now apply (tight_work u cf eof keys o0 Fi Nz Vi s).
    + unfold tight. destruct W; cbn [ss_e] in *; try discriminate; subst; exact I.
  - unfold tight in *. cbn [ss_e ss_t]. destruct (cur (ss_e s)); [|exact I]. destruct Ts as (Vp & Ts). split; [exact Vp|]. intros En Nt.
    specialize (Ts En Nt). unfold weight in *. cbn. rewrite C in Ts. exact Ts.
  - exact Ts.
Qed.
