(** Closing an instance: who returns, and what is in the history file. *)
From Verif Require Import Base FilterSpec ListAux RunesModel RuneBufModel HistoryModel HistorySpec HistoryProofs HistoryFileProofs RenderModel TerminalModel TerminalSpec
  TerminalProofs OpModel OpSpec OpProofs OpStep OpKeys OpModes OpHist SessionModel SessionProofs.
From Coq Require Import ZifyBool.
Open Scope Z_scope.

(** ** Close called by the goroutine that calls Readline *)
Definition closing (s : sess) : Prop := ss_k s <> K0 /\
  (ss_e s = ECrash \/ (ss_c s = CIdle /\ (ss_t s = TDone \/ (ss_t s = TWait /\ ss_kick s = false /\ kicks (pend (ss_e s)) = 0%nat)))).

Lemma closing_work u cf eof s s' : closing s -> work u cf eof s s' -> closing s'.
Proof.
  intros (K & D) W. split; [destruct W; cbn [ss_k] in *; congruence|].
  destruct W; cbn [ss_e ss_c ss_t ss_kick pend] in *; try (left; reflexivity);
    (destruct D as [D|(C & D)]; [try discriminate; left; exact D|]); try discriminate C; right; (split; [exact C|]);
    try (left; reflexivity).
  - destruct D as [D|(_ & D & _)]; discriminate.
  - destruct D as [D|(D & _)]; discriminate.
  - destruct D as [D|(D & _)]; discriminate.
  - destruct D as [D|(D & _)]; discriminate.
  - destruct D as [->|(-> & -> & D)]; [left; reflexivity|right]. rewrite (kicks_quiet x a H) in D. auto.
  - destruct D as [->|(-> & -> & D)]; [left; reflexivity|]. discriminate.
  - destruct D as [->|(-> & -> & D)]; [left; reflexivity|]. rewrite (kicks_err x a H) in D. discriminate.
  - destruct D as [->|(-> & -> & D)]; [left; reflexivity|right]. destruct (o_end o'); auto.
  - exact D.
  - exact D.
Qed.

Lemma closing_works u cf eof s s' : closing s -> works u cf eof s s' -> closing s'.
Proof. intros C R. induction R as [|x y R IH W]; [exact C|]. exact (closing_work u cf eof x y IH W). Qed.

Lemma closing_stop u cf eof s : closing s -> at_a_stop u cf eof s -> ss_k s = K4 \/ ss_e s = ECrash.
Proof.
  intros (K & D) W. destruct s as [i d t q e er c rs k f]. cbn [ss_e ss_c ss_t ss_kick ss_k] in *. destruct D as [D|(-> & D)]; [right; exact D|].
  destruct e as [o|o o' p|o|]; [| | |right; reflexivity]; left.
  all: destruct k; [congruence| | | |reflexivity]; exfalso.
  all: try (eapply W; apply w_opclose; cbn; auto; fail).
  all: try (eapply W; apply w_tclose; fail).
  all: destruct D as [->|(-> & -> & _)]; [eapply W; apply w_closed|eapply W; apply w_stop; auto].
Qed.

Lemma idle_closing u cf keys o0 s s' : good u cf keys o0 s -> ss_c s = CIdle -> close s s' -> closing s'.
Proof.
  intros G C (K & ->). split; [discriminate|]. cbn. destruct G as [(ks & a & o & [Ir Ic Is Ie Ircv Idn It])|(E & _)]; [|left; exact E].
  right. split; [exact C|]. unfold weight in It. rewrite C in It. cbn [waiting negb b2n] in It.
  destruct (ss_t s); [right|exfalso|exfalso|left; reflexivity]; destruct It as (_ & _ & It); cbn [reading] in It; [|lia|lia].
  split; [reflexivity|]. split; [destruct (ss_kick s); [cbn in It; lia|reflexivity]|lia].
Qed.

(** ** A pending Readline is woken by Close *)
Definition waking (s : sess) : Prop := ss_k s <> K0 /\
  (ss_e s = ECrash \/ ss_c s = CIdle \/ ss_k s = K1 \/ ss_err s <> None).

Lemma waking_work u cf eof s s' : waking s -> work u cf eof s s' -> waking s'.
Proof.
  intros (K & D) W. split; [destruct W; cbn [ss_k] in *; congruence|].
  destruct W; cbn [ss_e ss_c ss_k ss_err] in *; try (left; reflexivity); try (right; left; reflexivity);
    (destruct D as [D|[D|[D|D]]]; [try discriminate; left; exact D|try discriminate; right; left; exact D|try discriminate|]);
    try (right; right; left; exact D); try (right; right; right; exact D).
  - right. right. right. discriminate.
  - right. right. right. destruct er; discriminate.
  - right. right. right. destruct er; discriminate.
Qed.

Lemma waking_works u cf eof s s' : waking s -> works u cf eof s s' -> waking s'.
Proof. intros C R. induction R as [|x y R IH W]; [exact C|]. exact (waking_work u cf eof x y IH W). Qed.

Lemma waking_stop u cf eof s : waking s -> at_a_stop u cf eof s -> ss_c s = CIdle \/ ss_e s = ECrash.
Proof.
  intros (K & D) W. destruct s as [i d t q e er c rs k f]. cbn [ss_e ss_c ss_err ss_k] in *.
  destruct c; [left; reflexivity|exfalso; eapply W; apply w_ckick|].
  destruct e as [o|o o' p|o|]; [| | |right; reflexivity]; exfalso; (destruct er as [x|]; [eapply W; apply w_cerr|]);
    destruct D as [D|[D|[->|D]]]; try discriminate; try congruence; eapply W; apply w_opclose; cbn; auto.
Qed.

(** ** The history file *)
Section run.
Variables (u : uenv) (cf : ocfg) (eof : bool) (keys : list Z) (o0 : op).
Hypothesis Fi : gentle cf.
Hypothesis Nz : Forall (fun k => k <> 0) keys.

(** the iteration in progress: what had been computed before it, and what of it was delivered *)
Definition prev_ok (s : sess) : Prop :=
  match ss_e s with
  | EDo o o' p => exists ks ks' m a r b p0, ks ++ ks' = keys ++ repeat 0 m /\ op_run cf ks o0 = Ok (o, a) /\ op_step cf r o = Ok (o', b) /\ b = p0 ++ p /\
      results a ++ results p0 = ss_res s ++ opt (ss_err s) /\ (length (results b) <= 1)%nat
  | _ => True
  end.

Lemma results_kicks a : (length (results a) <= kicks a)%nat.
Proof.
  unfold results, kicks. induction a as [|x a IH]; [reflexivity|]. cbn [filter]. destruct x; cbn [is_result resumes length]; lia.
Qed.

Lemma results_app a b : results (a ++ b) = results a ++ results b.
Proof. unfold results. apply filter_app. Qed.

Lemma inv_prefix s ks a o : inv u cf keys o0 s ks a o -> exists ks' m, ks ++ ks' = keys ++ repeat 0 m.
Proof.
  intros [Ir Ic Is Ie Ircv Idn It]. destruct (ss_t s).
  1-3: exists (to_come u cf s), 0%nat; cbn [repeat]; rewrite app_nil_r; apply It.
  destruct It as (m & -> & _). exists [], m. now rewrite app_nil_r.
Qed.

Ltac fields := cbn [ss_in ss_ts ss_t ss_kick ss_e ss_err ss_c ss_res ss_k ss_file pend cur opt length app prev_ok] in *.

Lemma prev_work s s' : (exists ks a o, inv u cf keys o0 s ks a o) -> prev_ok s -> live s' -> work u cf eof s s' -> prev_ok s'.
Proof.
  intros (ks & a & o & I) P L W. pose proof (inv_prefix _ _ _ _ I) as (kx & mx & Ex). destruct I as [Ir Ic Is Ie Ircv Idn It].
  destruct W; unfold prev_ok in *; fields; unfold live in L; fields; try exact P; try exact Logic.I; try (destruct L; discriminate).
  - (* recv *) injection Ic as ->. destruct It as (K1 & K2 & K3).
    assert (Ny : y <> 0). { rewrite <- K1 in Nz. apply Forall_app in Nz. destruct Nz as (_ & N2). unfold to_come in N2. fields. cbn [sending app] in N2. now inversion N2. }
    destruct (step_le cf y o o' a0 Fi K2 Ny H) as (Kk & _).
    exists ks, kx, mx, a, y, a0, []. split; [exact Ex|]. split; [exact Ir|]. split; [exact H|]. split; [reflexivity|].
    split; [cbn [results filter]; rewrite app_nil_r; change (results []) with (@nil act) in Is; rewrite app_nil_r in Is; exact Is|].
    pose proof (results_kicks a0). destruct (pauseb y); lia.
  - (* recv0 *) injection Ic as ->. exists ks, kx, mx, a, 0, a0, []. split; [exact Ex|]. split; [exact Ir|]. split; [exact H|]. split; [reflexivity|].
    split; [cbn [results filter]; rewrite app_nil_r; change (results []) with (@nil act) in Is; rewrite app_nil_r in Is; exact Is|].
    destruct (zero_step cf o o' a0 Fi (Ircv ltac:(eauto)) H) as [(-> & _)|[(l & -> & _)|([-> | ->] & _)]]; cbn; lia.
  - (* quiet *) destruct P as (ks1 & k2 & m & a1 & r & b & p0 & P0 & P1 & P2 & P3 & P4 & P5). exists ks1, k2, m, a1, r, b, (p0 ++ [x]).
    repeat (split; [assumption|]). split; [rewrite P3, <- app_assoc; reflexivity|]. split; [|exact P5].
    rewrite results_app, (results_quiet x [] H). cbn. rewrite app_nil_r. exact P4.
  - (* ekick *) destruct P as (ks1 & k2 & m & a1 & r & b & p0 & P0 & P1 & P2 & P3 & P4 & P5). exists ks1, k2, m, a1, r, b, (p0 ++ [AKick]).
    repeat (split; [assumption|]). split; [rewrite P3, <- app_assoc; reflexivity|]. split; [|exact P5].
    rewrite results_app. cbn. rewrite app_nil_r. exact P4.
  - (* line *) assert (Er : er = None).
    { unfold weight in It. fields. change (kicks (ALine l :: a0)) with (S (kicks a0)) in It. destruct t.
      1-3: destruct It as (_ & _ & T3); destruct er; [cbn in T3; lia|reflexivity].
      destruct It as (m & _ & T2 & T3). destruct (o_end o); [destruct (T2 eq_refl) as (_ & X & _); discriminate|now apply T3]. }
    subst er. destruct P as (ks1 & k2 & m & a1 & r & b & p0 & P0 & P1 & P2 & P3 & P4 & P5). exists ks1, k2, m, a1, r, b, (p0 ++ [ALine l]).
    repeat (split; [assumption|]). split; [rewrite P3, <- app_assoc; reflexivity|]. split; [|exact P5].
    fields. rewrite results_app, app_assoc, P4. cbn. rewrite !app_nil_r. reflexivity.
  - (* err *) destruct P as (ks1 & k2 & m & a1 & r & b & p0 & P0 & P1 & P2 & P3 & P4 & P5). exists ks1, k2, m, a1, r, b, (p0 ++ [x]).
    repeat (split; [assumption|]). split; [rewrite P3, <- app_assoc; reflexivity|]. split; [|exact P5].
    fields. rewrite results_app, app_assoc, P4. rewrite (results_err x [] H). cbn. rewrite app_nil_r. reflexivity.
  - destruct (o_end o'); exact Logic.I.
  - (* cerr *) destruct e; auto. destruct P as (ks1 & k2 & m & a1 & r & b & p0 & P0 & P1 & P2 & P3 & P4 & P5). exists ks1, k2, m, a1, r, b, p0.
    repeat (split; [assumption|]). split; [|exact P5]. rewrite P4. fields. rewrite app_nil_r. reflexivity.
Qed.

Lemma prev_reach s0 s : good u cf keys o0 s0 -> prev_ok s0 -> reach u cf eof s0 s -> live s -> prev_ok s.
Proof.
  intros G P R. induction R as [|s s' R IH S]; intros L; [exact P|]. pose proof (live_back u cf eof s s' S L) as L0. specialize (IH L0).
  destruct S as [W|[(C & ->)|(K & ->)]]; [|exact IH|exact IH].
  destruct (good_reach u cf eof keys o0 Fi Nz s0 s G R L0) as [I|(E & _)].
  - exact (prev_work s s' I IH L W).
  - unfold prev_ok. destruct W; cbn [ss_e] in *; try discriminate; subst; exact Logic.I.
Qed.

(** the file left by Close *)
Lemma closed_file s s' : good u cf keys o0 s -> prev_ok s -> ss_k s = K1 -> work u cf eof s s' -> ss_k s' = K2 ->
  exists ks ks' m o a, ks ++ ks' = keys ++ repeat 0 m /\ op_run cf ks o0 = Ok (o, a) /\ ss_file s' = Some (h_disk (o_h o)) /\
    ((exists l, results a = ss_res s ++ l) \/ exists x, ss_res s = results a ++ [x]).
Proof.
  intros G P K W K2. destruct W; cbn [ss_k] in *; try congruence. cbn [ss_res ss_file] in *.
  destruct G as [(ks & a & o & I)|(E & _)]; [|cbn [ss_e] in E; subst e; destruct H].
  pose proof (inv_prefix _ _ _ _ I) as (kx & mx & Ex). destruct I as [Ir Ic Is Ie Ircv Idn It]. fields.
  assert (Now : h = o_h o -> exists ks ks' m o a, ks ++ ks' = keys ++ repeat 0 m /\ op_run cf ks o0 = Ok (o, a) /\ Some (h_disk h) = Some (h_disk (o_h o)) /\
    ((exists l, results a = rs ++ l) \/ exists x, rs = results a ++ [x])).
  { intros ->. exists ks, kx, mx, o, a. split; [exact Ex|]. split; [exact Ir|]. split; [reflexivity|]. left. eexists. exact Is. }
  destruct e as [o1|o1 o' p|o1|]; cbn [hist_at cur] in *; [injection Ic as ->; auto| |injection Ic as ->; auto|destruct H].
  injection Ic as ->. destruct H as [->|H]; [|auto]. clear Now.
  destruct P as (ks1 & k2 & m & a1 & r & b & p0 & P0 & P1 & P2 & P3 & P4 & P5). cbn [ss_res ss_err] in P4. exists ks1, k2, m, o1, a1. split; [exact P0|]. split; [exact P1|].
  split; [reflexivity|]. assert (L0 : (length (results p0) <= 1)%nat) by (rewrite P3, results_app, app_length in P5; lia).
  destruct (results p0) as [|x [|]] eqn:E0; [|..|cbn in L0; lia].
  - left. exists (opt er). rewrite app_nil_r in P4. exact P4.
  - destruct er as [y|]; cbn [opt] in P4.
    + apply app_inj_tail in P4. destruct P4 as (P4 & _). left. exists []. now rewrite app_nil_r.
    + rewrite app_nil_r in P4. right. exists x. now symmetry.
Qed.
End run.
