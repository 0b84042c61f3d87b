(** C37 and C41 in vim mode too. *)
From Verif Require Import Base ListAux RunesModel RuneBufModel HistoryModel HistoryProofs RenderModel TerminalModel TerminalSpec TerminalProofs
  OpModel OpSpec OpProofs OpStep OpKeys OpModes FilterSpec SessionModel SessionProofs.
From Coq Require Import ZifyBool.
Open Scope Z_scope.

(** The key is not one of those vim's command mode swallows although the terminal pauses after it: Ctrl-J and Ctrl-D in
    command mode, and any pausing key as the second key of a command (vim.go:133-151, 61-130). *)
Definition answered (cf : ocfg) (r : Z) (o : op) : Prop :=
  pause_key r -> o_vp o = None /\ (oc_vim cf = true -> o_vn o = true ->
    match (match oc_filter cf with None => Some r | Some f => f r end) with Some r' => r' = 13 \/ r' = 3 | None => True end).
Fixpoint answers (cf : ocfg) (rs : list Z) (o : op) : Prop :=
  match rs with
  | [] => True
  | r :: rs' => answered cf r o /\ forall o' a, op_step cf r o = Ok (o', a) -> answers cf rs' o'
  end.

Lemma pauseb_key r : pauseb r = true <-> pause_key r.
Proof. unfold pauseb, pause_key. lia. Qed.

Lemma vim_kick1 cf r o o' a : pause_key r -> (oc_vim cf = true -> o_vn o = true -> r = 13 \/ r = 3) -> vim_and_switch cf r o = Ok (o', a) -> kicks a = 1%nat.
Proof.
  intros P V E. assert (S : forall o1, (y <- key_switch cf r o1 ;; after_switch cf r y) = Ok (o', a) -> kicks a = 1%nat).
  { intros o1 X. pose proof (switch_kicks cf r o1) as K. unfold kick1 in K. destruct (key_switch cf r o1) as [x| |]; cbn [obind] in X; try discriminate. apply after_acts in X. subst a. rewrite (K x eq_refl).
    now rewrite (proj2 (pauseb_key r) P). }
  assert (N : (r =? 0) = false /\ (r =? CharEsc) = false) by (clear - P; unfold pause_key, CharEsc in *; lia).
  unfold vim_and_switch in E. destruct (oc_vim cf); [|now apply (S o)].
  unfold HandleVim in E. destruct (o_vn o) eqn:Vn.
  - unfold HandleVimNormal in E. replace ((r =? CharEnter) || (r =? CharInterrupt)) with true in E by (specialize (V eq_refl eq_refl); unfold CharEnter, CharInterrupt; lia).
    cbn [obind] in E. rewrite (proj1 N) in E. now apply S in E.
  - rewrite (proj2 N) in E. cbn [obind] in E. rewrite (proj1 N) in E. now apply S in E.
Qed.

Lemma step_kicks_v cf r o o' a : gentle cf -> o_end o = false -> r <> 0 -> answered cf r o -> op_step cf r o = Ok (o', a) ->
  kicks a = if pauseb r then 1%nat else 0%nat.
Proof.
  intros G En N A E. destruct (pauseb r) eqn:P; [|destruct (step_le cf r o o' a G En N E) as (X & _); rewrite P in X; lia].
  apply pauseb_key in P. destruct (A P) as (Vp & Vn). unfold op_step in E. rewrite En, Vp in E.
  assert (H : forall r', r' <> 0 -> pause_key r' -> (oc_vim cf = true -> o_vn o = true -> r' = 13 \/ r' = 3) -> handle_key cf r' o = Ok (o', a) -> kicks a = 1%nat).
  { clear - En. intros r N P V. unfold handle_key. replace (r =? 0) with false by lia. cbn [andb].
    destruct (c_sel (o_c o)); [|now apply vim_kick1].
    destruct (HandleCompleteSelect cf r o) as [[o1 k]| |] eqn:S; cbn [obind]; try discriminate. pose proof (fr_handle _ _ _ _ _ S) as (_ & _ & F3). destruct k.
    - exfalso. unfold HandleCompleteSelect in S. destruct P as [-> | [-> | [-> | ->]]]; cbn in S; try discriminate.
      + destruct (c_choice (o_c o) <? 0); [discriminate|]. destruct (get _ _); cbn in S; try discriminate. destruct (WriteRunes _ _); cbn in S; discriminate.
      + destruct (c_choice (o_c o) <? 0); [discriminate|]. destruct (get _ _); cbn in S; try discriminate. destruct (WriteRunes _ _); cbn in S; discriminate.
    - destruct ((r =? CharEnter) || (r =? CharCtrlJ)).
      { destruct (Update _ _ _ _); cbn [obind]; try discriminate. intros E. injection E as <- <-. reflexivity. }
      destruct (r =? CharInterrupt); [intros E; injection E as <- <-; reflexivity|].
      destruct (r =? CharBell) eqn:E3; [exfalso; clear - P E3; unfold pause_key, CharBell in *; lia|]. apply vim_kick1; [exact P|]. now rewrite F3. }
  unfold gentle in G. destruct (oc_filter cf) as [f|].
  - destruct G as (_ & G). specialize (G r N). destruct (f r) as [r'|]; [|injection E as <- <-; reflexivity]. apply (H r'); tauto.
  - now apply (H r).
Qed.

Lemma run_kicks_v cf rs : gentle cf -> Forall (fun r => r <> 0) rs -> forall o o' a, o_end o = false -> op_run cf rs o = Ok (o', a) ->
  o_end o' = false /\ (answers cf rs o -> kicks a = length (filter pauseb rs)).
Proof.
  intros Fi F. induction F as [|r rs R0 _ IH]; intros o o' a En; cbn [op_run].
  - intros E. injection E as <- <-. auto.
  - destruct (op_step cf r o) as [[o1 a1]| |] eqn:E1; cbn [obind fst snd]; try discriminate.
    destruct (op_run cf rs o1) as [[o2 a2]| |] eqn:E2; cbn [obind fst snd]; try discriminate. intros E. injection E as <- <-.
    destruct (step_le cf r o o1 a1 Fi En R0 E1) as (_ & En1). destruct (IH o1 o2 a2 En1 E2) as (N2 & K2). split; [exact N2|].
    cbn [answers]. intros (A & A'). specialize (K2 (A' _ _ E1)). pose proof (step_kicks_v cf r o o1 a1 Fi En R0 A E1) as K1.
    rewrite kicks_app, K1, K2. cbn [filter]. destruct (pauseb r); reflexivity.
Qed.

Lemma answers_after cf ks : forall ks' o0 o a, answers cf (ks ++ ks') o0 -> op_run cf ks o0 = Ok (o, a) -> answers cf ks' o.
Proof.
  induction ks as [|r ks IH]; intros ks' o0 o a A E; cbn [app op_run answers] in *; [injection E as <- <-; exact A|].
  destruct (op_step cf r o0) as [[o1 a1]| |] eqn:E1; cbn [obind fst snd] in E; try discriminate.
  destruct (op_run cf ks o1) as [[o2 a2]| |] eqn:E2; cbn [obind fst snd] in E; try discriminate. injection E as <- <-.
  apply (IH _ o1 o2 a2); [now apply (proj2 A _ a1)|exact E2].
Qed.


Ltac fields := cbn [ss_in ss_ts ss_t ss_kick ss_e ss_err ss_c ss_res ss_k ss_file pend cur opt length app sending] in *.

Section run.
Variables (u : uenv) (cf : ocfg) (eof : bool) (keys : list Z) (o0 : op).
Hypothesis Fi : gentle cf.
Hypothesis Nz : Forall (fun k => k <> 0) keys.
Hypothesis An : answers cf keys o0.

Definition tight_v s := match cur (ss_e s) with
  | Some o => o_end o = false -> ss_t s <> TDone -> weight s = 1%nat
  | None => True end.

Lemma tight_v_work s s' : (exists ks a o, inv u cf keys o0 s ks a o) -> tight_v s -> live s' -> work u cf eof s s' -> tight_v s'.
Proof.
  intros (ks & a & o & [Ir Ic Is Ie Ircv Idn It]) T L W. destruct W; unfold tight_v, weight in *; fields; unfold live in L; fields; try exact T; try exact I;
    try (destruct L; discriminate).
  - (* kick *) rewrite Ic in *. intros En _. apply T; [exact En|discriminate].
  - destruct H, L; congruence.
  - (* key *) rewrite Ic in *. intros En _. apply T; [exact En|discriminate].
  - (* eof *) rewrite Ic in *. congruence.
  - (* recv *) injection Ic as ->. destruct It as (K1 & K2 & K3).
    assert (Ny : y <> 0). { rewrite <- K1 in Nz. apply Forall_app in Nz. destruct Nz as (_ & N2). unfold to_come in N2. fields. cbn [sending app] in N2. now inversion N2. }
    assert (Ay : answered cf y o). { rewrite <- K1 in An. apply (answers_after cf ks _ o0 o a) in An; [|exact Ir]. unfold to_come in An. fields. cbn [app answers] in An. apply An. }
    intros En' _. pose proof (step_kicks_v cf y o o' a0 Fi K2 Ny Ay H) as Kk. rewrite kick_pause in Kk.
    specialize (T K2 ltac:(discriminate)). cbn [reading] in T. change (kicks []) with 0%nat in T. destruct (pauses y); cbn [reading]; lia.
  - (* recv0 *) injection Ic as ->. congruence.
  - rewrite (kicks_quiet x a0 H) in T. exact T.
  - change (kicks (AKick :: a0)) with (S (kicks a0)) in T. intros En Nt. specialize (T En Nt).
    injection Ic as ->. destruct t; [..|congruence]; destruct It as (_ & _ & W); change (kicks (AKick :: a0)) with (S (kicks a0)) in W; destruct q; cbn [b2n] in *; lia.
  - change (kicks (ALine l :: a0)) with (S (kicks a0)) in T. intros En Nt. specialize (T En Nt). cbn [waiting negb b2n] in *. lia.
  - rewrite (kicks_err x a0 H) in T. intros En Nt. specialize (T En Nt). cbn [opt length] in *. lia.
  - destruct (o_end o') eqn:En; cbn [cur pend]; rewrite En in *; [discriminate|exact T].
  - destruct (cur e) as [o1|]; [|exact I]. intros En Nt. specialize (T En Nt). cbn [waiting negb b2n] in *.
    injection Ic as ->. destruct t; [..|congruence]; destruct It as (_ & _ & W); cbn [waiting negb b2n] in W; destruct q; cbn [b2n] in *; lia.
  - destruct (cur e) as [o1|]; [|exact I]. intros En Nt. specialize (T En Nt). cbn [waiting negb b2n] in *. lia.
Qed.

Lemma tight_v_reach s0 s : good u cf keys o0 s0 -> tight_v s0 -> reach u cf eof s0 s -> live s -> good u cf keys o0 s /\ tight_v s.
Proof.
  intros G T R. induction R as [|s s' R IH S]; intros L; [auto|].
  destruct (IH (live_back u cf eof s s' S L)) as (Gs & Ts).
  split; [now apply (good_step u cf eof keys o0 Fi Nz s)|].
  destruct S as [W|[(C & ->)|(K & ->)]].
  - destruct Gs as [I|(E & _)].
    + now apply (tight_v_work s).
    + unfold tight_v. destruct W; cbn [ss_e] in *; try discriminate; subst; exact I.
  - unfold tight_v in *. cbn [ss_e ss_t]. destruct (cur (ss_e s)); [|exact I]. intros En Nt.
    specialize (Ts En Nt). unfold weight in *. cbn. rewrite C in Ts. exact Ts.
  - exact Ts.
Qed.

Lemma stuck_call_v s : good u cf keys o0 s -> tight_v s -> live s -> at_a_stop u cf eof s -> ss_c s <> CIdle ->
  ss_e s = ECrash \/ (eof = false /\ ss_t s = TRead /\ ss_in s = []) \/
  (exists o, ss_e s = EDone o /\ exists l, ss_res s = l ++ [AEof]).
Proof.
  intros G T L W C. destruct s as [i d t q e er c rs k f]. cbn [ss_e ss_t ss_in ss_c ss_res] in *.
  pose proof (editor_rest _ _ _ _ _ _ _ _ _ _ _ _ _ W) as Er.
  destruct G as [(ks & a & o & [Ir Ic Is Ie Ircv Idn It])|(E & _)]; [|left; exact E].
  cbn [ss_in ss_ts ss_t ss_kick ss_e ss_err ss_c ss_res ss_k ss_file] in *.
  destruct c; [congruence|exfalso; eapply W; apply w_ckick|].
  destruct er as [x|]; [exfalso; eapply W; apply w_cerr|].
  assert (P : pend e = []).
  { destruct e as [?|? ? [|[] ?]|?|]; try reflexivity; cbn in Er; try tauto; try (destruct Er as (X & Y); try discriminate; congruence). }
  destruct t.
  - (* TWait *) exfalso. destruct It as (_ & En & _). unfold tight_v in T. cbn [ss_e ss_t] in T. rewrite Ic in T.
    specialize (T En ltac:(discriminate)). unfold weight in T. cbn [ss_t ss_kick ss_e ss_err ss_c] in T. rewrite P in T. cbn in T.
    destruct q; [|cbn in T; lia]. eapply W. apply w_kick.
  - right. left. destruct i as [|r i].
    + destruct eof; [exfalso; eapply W; now apply w_eof|]. auto.
    + exfalso. destruct (tstep u (oc_vim cf) d r) as [d' x] eqn:Es. destruct x.
      * eapply W. apply (w_key _ _ _ _ _ _ _ _ _ _ _ _ _ _ _ Es).
      * eapply W. apply (w_skip _ _ _ _ _ _ _ _ _ _ _ _ _ _ _ Es). exact I.
      * eapply W. apply (w_skip _ _ _ _ _ _ _ _ _ _ _ _ _ _ _ Es). exact I.
  - exfalso. destruct It as (_ & En & _). destruct e as [o1|? ? p|o1|].
    + destruct (op_step cf k0 o1) as [[o2 a2]| |] eqn:Es.
      * eapply W. apply (w_recv _ _ _ _ _ _ _ _ _ _ _ _ _ _ _ Es).
      * eapply W. apply w_crash. auto.
      * eapply W. apply w_crash. auto.
    + cbn in P. subst p. exact Er.
    + rewrite Idn in En by eauto. discriminate.
    + discriminate.
  - destruct e as [o1|? ? p|o1|].
    + exfalso. destruct (op_step cf 0 o1) as [[o2 a2]| |] eqn:Es.
      * eapply W. apply (w_recv0 _ _ _ _ _ _ _ _ _ _ _ _ _ _ Es).
      * eapply W. apply w_crash0. auto.
      * eapply W. apply w_crash0. auto.
    + cbn in P. subst p. destruct Er.
    + right. right. exists o1. split; [reflexivity|]. destruct It as (m & _ & It & _). destruct (It (Idn ltac:(eauto))) as ((l & El) & _).
      exists l. rewrite <- El, Is. cbn. now rewrite app_nil_r.
    + discriminate.
Qed.
End run.
