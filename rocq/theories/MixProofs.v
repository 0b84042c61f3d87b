(** Proofs for C134. *)
From Verif Require Import Base ListAux RunesModel RunesSpec RuneBufModel RuneBufSpec HistoryModel HistoryProofs ScreenModel RenderModel RenderSpec RenderProofs RenderSession RenderProps RenderMore OpModel OpSpec OpProofs OpStep OutModel OutSpec OutProofs PipeSpec WideSpec WideProps BroadSpec BroadProofs VeilSpec VeilProofs MixModel MixSpec.
Open Scope Z_scope.

(** C131 and C133 once more, with the state of the call at the end *)
Section Sess.
Variable cf : ocfg.
Notation u := (oc_u cf).
Notation w := (oc_w cf).
Hypothesis C : broad_session cf.
Hypothesis U : uenv_ok u.
Hypothesis T : (1 <= u_tab u)%nat.
Hypothesis W : 0 < w <= 9223372036854775807.
Variable ps : list piece.
Let v := visible ps.
Hypothesis PD : Forall sgr_digits ps.
Hypothesis PV : Forall (glyph u) v.
Hypothesis PS : columns u v + 1 < w.
Notation bagrees := (bagrees u w ps).

Lemma broad_ends is : forall o reading done st y0 s0 s t o' acts, broad_prompt cf o -> one_line cf (v ++ rb_buf (o_b o)) -> broad_turn cf v is o reading ->
  broad_leaves cf v is o t o' acts ->
  bagrees y0 {| k_done := done; k_line := rb_buf (o_b o); k_idx := rb_idx (o_b o); k_reading := reading |} st s0 s ->
  exists st' out, ses_run cf (o, st) is = Ok ((o', st'), out, acts) /\ broad_prompt cf o' /\ fst st' = still cf is o reading /\
    bagrees y0 {| k_done := done ++ t; k_line := rb_buf (o_b o'); k_idx := rb_idx (o_b o'); k_reading := fst st' |} st' s0 (sexecs u w s out).
Proof.
  induction is as [|i is IH]; intros o reading done st y0 s0 s t o' acts A F Tn L G; inversion L; subst; clear L.
  - exists st, []. cbn [ses_run]. split; [reflexivity|]. split; [exact A|]. rewrite app_nil_r.
    assert (R : fst st = reading) by apply G. split; [exact R|]. rewrite R. exact G.
  - match goal with H : broad_leaves _ _ is _ _ _ _ |- _ => rename H into HL end. destruct Tn as (-> & Tn).
    assert (Fd : Forall (fit u w) done) by apply G.
    destruct (bstep u U T w W ps PD PV PS y0 _ st s0 s (ODraw VRead) _ G (OLDraw _ _ _ _ _ (LRead _ _ _)) Fd ltac:(discriminate))
      as (st1 & o1 & E1 & G1). cbn [ses_run ses_step]. rewrite E1. cbn [obind fst snd].
    destruct (IH o true done st1 y0 s0 _ t o' acts A F Tn HL G1) as (st' & out & E2 & A2 & X2 & G2). rewrite E2. cbn [obind].
    eexists _, _. split; [reflexivity|]. split; [exact A2|]. split; [cbn [still]; try rewrite HS; exact X2|]. now rewrite sexecs_app.
  - match goal with H : broad_leaves _ _ is _ _ _ _ |- _ => rename H into HL end.
    match goal with H : Forall _ ls |- _ => rename H into HF end. destruct Tn as (_ & Tn).
    assert (Fd : Forall (fit u w) done) by apply G.
    assert (HF1 : Forall (Forall (RenderSpec.plain (narrow_u u))) ls) by (eapply Forall_impl; [|exact HF]; intros l (X & _); now apply narrow_all).
    assert (HF2 : Forall (fit u w) ls) by (eapply Forall_impl; [|exact HF]; intros l (_ & X); exact X).
    destruct (bstep u U T w W ps PD PV PS y0 _ st s0 s (ODraw (VOut (flat_map (fun l => l ++ [10]) ls))) _ G
      (OLDraw _ _ _ _ _ (LOut _ _ _ ls HF1))) as (st1 & o1 & E1 & G1); [cbn [k_done]; apply Forall_app; now split|discriminate|]. cbn [ses_run ses_step]. rewrite E1. cbn [obind fst snd].
    destruct (IH o reading (done ++ ls) st1 y0 s0 _ t0 o' acts A F Tn HL G1) as (st' & out & E2 & A2 & X2 & G2). rewrite E2. cbn [obind].
    eexists _, _. split; [reflexivity|]. split; [exact A2|]. split; [cbn [still]; try rewrite HS; exact X2|]. rewrite sexecs_app, app_assoc. exact G2.
  - match goal with H : broad_leaves _ _ is _ _ _ _ |- _ => rename H into HL end.
    match goal with H : op_step _ _ _ = _ |- _ => rename H into HS end. destruct Tn as (-> & K & N & Q & Tn). destruct (Tn o1 a1 HS) as (F1 & Ft & T1).
    destruct (broad_case cf C T W ps o r o1 a1 done A K N Q HS) as (A1 & es & D & Lk & Ln).
    assert (Fd : Forall (fit u w) done) by apply G.
    destruct (brun u U T w W ps PD PV PS es y0 _ st s0 s _ G Lk) as (st1 & out1 & E1 & G1).
    { cbn [look_of k_done]. apply Forall_app. split; [exact Fd|exact Ft]. }
    { intros b i I. destruct (Ln b i I) as [->| ->]; assumption. }
    cbn [ses_run ses_step]. rewrite D. cbn [obind]. rewrite E1. cbn [obind]. rewrite HS. cbn [obind fst snd].
    destruct (IH o1 _ _ st1 y0 s0 _ t0 o' acts0 A1 F1 T1 HL G1) as (st' & out & E2 & A2 & X2 & G2). rewrite E2. cbn [obind].
    eexists _, _. split; [reflexivity|]. split; [exact A2|]. split; [cbn [still]; try rewrite HS; exact X2|]. rewrite sexecs_app, app_assoc. exact G2.
Qed.

Variable m : Z.
Hypothesis M : mask_ok u m.
Lemma veil_ends is : forall o reading D st y0 s0 s t o' acts, broad_prompt cf o -> one_line cf (v ++ rb_buf (o_b o)) -> broad_turn cf v is o reading ->
  veil_leaves cf v m is o t o' acts ->
  vagrees u w ps m y0 D {| k_done := []; k_line := rb_buf (o_b o); k_idx := rb_idx (o_b o); k_reading := reading |} st s0 s ->
  exists st' out, ses_run cf (o, st) is = Ok ((o', st'), out, acts) /\ broad_prompt cf o' /\ fst st' = still cf is o reading /\
    vagrees u w ps m y0 (D ++ t) {| k_done := []; k_line := rb_buf (o_b o'); k_idx := rb_idx (o_b o'); k_reading := fst st' |} st' s0 (sexecs u w s out).
Proof.
  induction is as [|i is IH]; intros o reading D st y0 s0 s t o' acts A F Tn L G; inversion L; subst; clear L.
  - exists st, []. cbn [ses_run]. split; [reflexivity|]. split; [exact A|]. rewrite app_nil_r.
    assert (R : fst st = reading) by apply G. split; [exact R|]. rewrite R. exact G.
  - match goal with H : veil_leaves _ _ _ is _ _ _ _ |- _ => rename H into HL end. destruct Tn as (-> & Tn).
    destruct (vstep u U T w W ps PD PV PS m M y0 D _ st s0 s (ODraw VRead) _ [] G (OLDraw _ _ _ _ _ (LRead _ _ _)) I eq_refl (Forall_nil _) ltac:(discriminate))
      as (st1 & o1 & E1 & G1). cbn [map] in G1. rewrite app_nil_r in G1. cbn [ses_run ses_step]. rewrite E1. cbn [obind fst snd].
    destruct (IH o true D st1 y0 s0 _ t o' acts A F Tn HL G1) as (st' & out & E2 & A2 & X2 & G2). rewrite E2. cbn [obind].
    eexists _, _. split; [reflexivity|]. split; [exact A2|]. split; [cbn [still]; try rewrite HS; exact X2|]. now rewrite sexecs_app.
  - match goal with H : veil_leaves _ _ _ is _ _ _ _ |- _ => rename H into HL end.
    match goal with H : Forall _ ls |- _ => rename H into HF end. destruct Tn as (_ & Tn).
    destruct (vout u U T w W ps PD PV PS m M y0 D _ st s0 s ls G HF) as (st1 & o1 & E1 & G1). cbn [ses_run ses_step]. rewrite E1. cbn [obind fst snd].
    destruct (IH o reading (D ++ ls) st1 y0 s0 _ t0 o' acts A F Tn HL G1) as (st' & out & E2 & A2 & X2 & G2). rewrite E2. cbn [obind].
    eexists _, _. split; [reflexivity|]. split; [exact A2|]. split; [cbn [still]; try rewrite HS; exact X2|]. rewrite sexecs_app, app_assoc. exact G2.
  - match goal with H : veil_leaves _ _ _ is _ _ _ _ |- _ => rename H into HL end.
    match goal with H : op_step _ _ _ = _ |- _ => rename H into HS end. destruct Tn as (-> & K & N & Q & Tn). destruct (Tn o1 a1 HS) as (F1 & Ft & T1).
    destruct (broad_case cf C T W ps o r o1 a1 [] A K N Q HS) as (A1 & es & Dk & Lk & Ln).
    destruct (vrun u U T w W ps PD PV PS m M es y0 D _ st s0 s _ (flat_map (text_of cf v) a1) G Lk) as (st1 & out1 & E1 & G1).
    { apply (key_quiet cf r o es (bs_vim _ C) (bs_listen _ C) (bs_filter _ C) (bp_vp _ _ A) Dk). }
    { reflexivity. }
    { exact Ft. }
    { intros b i I0. destruct (Ln b i I0) as [->| ->]; assumption. }
    rewrite (hide_texts cf U T ps m) in G1.
    cbn [ses_run ses_step]. rewrite Dk. cbn [obind]. rewrite E1. cbn [obind]. rewrite HS. cbn [obind fst snd].
    destruct (IH o1 _ _ st1 y0 s0 _ t0 o' acts0 A1 F1 T1 HL G1) as (st' & out & E2 & A2 & X2 & G2). rewrite E2. cbn [obind].
    eexists _, _. split; [reflexivity|]. split; [exact A2|]. split; [cbn [still]; try rewrite HS; exact X2|]. rewrite sexecs_app, app_assoc. exact G2.
Qed.
End Sess.

(** between two calls *)
Definition between (u : uenv) (w y0 : Z) (D : list (list Z)) (st : bool * rdr) (s0 s : scr) : Prop :=
  fst st = false /\ d_width (snd st) = w /\ d_inter (snd st) = true /\ d_buf (snd st) = [] /\ d_idx (snd st) = 0%nat /\
  Forall (fit u w) D /\ stacked w y0 (map (cells_all u) D) s /\ free_from w (y0 + Z.of_nat (length D)) s /\ same_above y0 s0 s.

Definition ready (u : uenv) (o : op) : Prop :=
  o_end o = false /\ c_in (o_c o) = false /\ c_sel (o_c o) = false /\ s_in (o_s o) = false /\ o_vp o = None /\
  Forall (glyph u) (rb_kill (o_b o)) /\ rb_buf (o_b o) = [] /\ rb_idx (o_b o) = 0%nat.

Lemma ready_prompt u w c o : call_ok u w c -> ready u o -> broad_prompt (mc_cf c) (mix_op c o).
Proof.
  intros K (R1 & R2 & R3 & R4 & R5 & R6 & R7 & R8). constructor; try rewrite (co_u _ _ _ K); unfold mix_op, with_h; cbn [o_end o_c o_s o_vp o_b o_h]; try assumption.
  - unfold inside. rewrite R8. lia.
  - rewrite R7. constructor.
  - exact (co_hist _ _ _ K).
Qed.

Lemma call_runs u w c o t o' acts y0 D st s0 s : uenv_ok u -> (1 <= u_tab u)%nat -> 0 < w <= 9223372036854775807 -> call_ok u w c -> ready u o -> broad_turn (mc_cf c) (visible (mc_ps c)) (mc_in c) (mix_op c o) false ->
  call_leaves c (mix_op c o) t o' acts -> between u w y0 D st s0 s ->
  exists st' out, ses_run (mc_cf c) (mix_op c o, (fst st, mix_cfg c (snd st))) (mc_in c) = Ok ((o', st'), out, acts) /\
    fst st' = still (mc_cf c) (mc_in c) (mix_op c o) false /\
    let s' := sexecs u w s out in
    call_screen u w c y0 (D ++ t) (o_b o') (fst st') s' /\ same_above y0 s0 s' /\
    d_buf (snd st') = rb_buf (o_b o') /\ d_idx (snd st') = rb_idx (o_b o') /\
    (fst st' = false -> between u w y0 (D ++ t) st' s0 s' /\ ready u o').
Proof.
  intros U T W K R Tn L (B1 & B2 & B3 & B4 & B5 & B6 & B7 & B8 & B9). pose proof (ready_prompt u w c o K R) as A.
  destruct K. subst u w. destruct R as (_ & _ & _ & _ & _ & _ & Rb & Ri).
  assert (F0 : one_line (mc_cf c) (visible (mc_ps c) ++ [])) by (unfold one_line; rewrite app_nil_r; lia).
  assert (F1 : one_line (mc_cf c) (visible (mc_ps c) ++ rb_buf (o_b (mix_op c o)))) by (cbn; now rewrite Rb).
  assert (Rd : forall o1 b, broad_prompt (mc_cf c) o1 -> rb_buf (o_b o1) = [] -> b = rb_idx (o_b o1) -> (b <= length (rb_buf (o_b o1)))%nat -> ready (oc_u (mc_cf c)) o1).
  { intros o1 b [] Eb -> Li. rewrite Eb in Li. cbn in Li. unfold ready. repeat (split; [assumption|]). lia. }
  unfold call_leaves, call_screen in *. destruct (mc_mask c) as [m|] eqn:Em.
  - destruct (veil_ends (mc_cf c) co_ses U T W (mc_ps c) co_digits co_prompt co_room m (co_mask m eq_refl) (mc_in c) (mix_op c o) false D
      (fst st, mix_cfg c (snd st)) y0 s0 s t o' acts A F1 Tn L) as (st' & out & E & A' & X & G).
    { unfold vagrees. cbn. rewrite Rb, Ri. split; [split; [constructor; cbn; auto|exact Em]|].
      split; [exact B4|]. split; [exact B5|]. split; [exact B1|]. split; [constructor|]. split; [apply le_n|]. split; [exact F0|]. split; [exact B6|].
      split; [discriminate|]. split; [reflexivity|]. split; [|exact B9]. split; [exact B7|exact B8]. }
    exists st', out. split; [exact E|]. split; [exact X|]. cbn zeta.
    destruct G as ((G1 & _) & G2 & G3 & _ & G5 & G6 & _ & G7 & _ & G8 & G9 & G10). cbn [k_line k_idx k_reading k_done] in *.
    split; [exact G9|]. split; [exact G10|]. split; [exact G2|]. split; [exact G3|]. intros Nf. specialize (G8 Nf). split.
    + destruct G9 as (G11 & G12). cbn zeta in G12. rewrite Nf in G12. rewrite G8 in *. cbn in G6. unfold between. destruct G1. cbn in *.
      repeat (split; [assumption|]). split; [lia|]. auto.
    + eapply Rd; [exact A'|exact G8|reflexivity|exact G6].
  - destruct (broad_ends (mc_cf c) co_ses U T W (mc_ps c) co_digits co_prompt co_room (mc_in c) (mix_op c o) false D
      (fst st, mix_cfg c (snd st)) y0 s0 s t o' acts A F1 Tn L) as (st' & out & E & A' & X & G).
    { unfold bagrees. cbn. rewrite Rb, Ri. split; [constructor; cbn; auto|].
      split; [exact B4|]. split; [exact B5|]. split; [exact B1|]. split; [constructor|]. split; [apply le_n|]. split; [exact F0|]. split; [exact B6|].
      split; [discriminate|]. split; [reflexivity|]. split; [|exact B9]. split; [exact B7|exact B8]. }
    exists st', out. split; [exact E|]. split; [exact X|]. cbn zeta.
    destruct G as (G1 & G2 & G3 & _ & G5 & G6 & _ & G7 & _ & G8 & G9 & G10). cbn [k_line k_idx k_reading k_done] in *.
    split; [exact G9|]. split; [exact G10|]. split; [exact G2|]. split; [exact G3|]. intros Nf. specialize (G8 Nf). split.
    + destruct G9 as (G11 & G12). cbn [k_line k_idx k_reading k_done] in *. cbn zeta in G12. rewrite Nf in G12. rewrite G8 in *. cbn in G6. unfold between. destruct G1.
      repeat (split; [assumption|]). split; [lia|]. auto.
    + eapply Rd; [exact A'|exact G8|reflexivity|exact G6].
Qed.

Lemma mix_runs u w cs : uenv_ok u -> (1 <= u_tab u)%nat -> 0 < w <= 9223372036854775807 -> forall o t o' acts y0 D st s0 s, mix u w cs o t o' acts -> ready u o -> between u w y0 D st s0 s ->
  exists st' out, mix_run cs (o, st) = Ok ((o', st'), out, acts) /\ ready u o' /\ between u w y0 (D ++ t) st' s0 (sexecs u w s out).
Proof.
  intros U T W. induction cs as [|c cs IH]; intros o t o' acts y0 D st s0 s X R B; inversion X; subst; clear X.
  - exists st, []. split; [reflexivity|]. split; [exact R|]. rewrite app_nil_r. exact B.
  - match goal with K : call_ok _ _ c, Tn : broad_turn _ _ _ _ _, L : call_leaves _ _ _ _ _, S : still _ _ _ _ = _, Y : mix _ _ cs _ _ _ _ |- _ =>
      destruct (call_runs u w c o _ _ _ y0 D st s0 s U T W K R Tn L B) as (st1 & out1 & E1 & Q1 & _ & _ & _ & _ & Q2);
      rewrite S in Q1; destruct (Q2 Q1) as (B1 & R1);
      destruct (IH _ _ _ _ y0 _ st1 s0 _ Y R1 B1) as (st2 & out2 & E2 & R2 & B2) end.
    exists st2, (out1 ++ out2). cbn [mix_run]. destruct st as [rd d]. cbn [fst snd] in E1. rewrite E1. cbn [obind]. rewrite E2. cbn [obind].
    split; [reflexivity|]. split; [exact R2|]. rewrite sexecs_app, app_assoc. exact B2.
Qed.

Lemma mix_run_app cs c : forall o st o1 st1 out1 a1 o2 st2 out2 a2, mix_run cs (o, st) = Ok ((o1, st1), out1, a1) ->
  ses_run (mc_cf c) (mix_op c o1, (fst st1, mix_cfg c (snd st1))) (mc_in c) = Ok ((o2, st2), out2, a2) ->
  mix_run (cs ++ [c]) (o, st) = Ok ((o2, st2), out1 ++ out2, a1 ++ a2).
Proof.
  induction cs as [|c0 cs IH]; intros o st o1 st1 out1 a1 o2 st2 out2 a2 E1 E2; cbn [mix_run app] in *.
  - injection E1 as <- <- <- <-. destruct st as [rd d]. cbn [fst snd] in E2. rewrite E2. cbn [obind]. now rewrite !app_nil_r.
  - destruct st as [rd d]. destruct (ses_run _ _ _) as [[[[o3 st3] out3] a3]| |] in E1 |- *; try discriminate E1. cbn [obind] in *.
    destruct (mix_run cs (o3, st3)) as [[[[o4 st4] out4] a4]| |] eqn:E3 in E1; try discriminate E1. cbn [obind] in E1. injection E1 as <- <- <- <-.
    rewrite (IH _ _ _ _ _ _ _ _ _ _ E3 E2). cbn [obind]. now rewrite !app_assoc.
Qed.
