(** Proofs for RaceProps.v. *)
From Verif Require Import Base ListAux RunesModel RunesSpec RuneBufModel RuneBufSpec HistoryModel TerminalModel TerminalSpec ScreenModel RenderModel RenderSpec RenderProofs RenderSession RenderMore OpModel OpSpec OpProofs OpModes FilterSpec OutModel OutSpec OutProofs SessionModel SessionProofs RaceModel RaceSpec.
Open Scope Z_scope.

(** ** What a key draws does not depend on the flag *)
Definition no_out (e : oev) : Prop := match e with ODraw (VOut _) => False | _ => True end.

Lemma ostep_flag u b d e b1 d1 x : no_out e -> ostep u (b, d) e = Ok ((b1, d1), x) -> exists b2, ostep u (true, d) e = Ok ((b2, d1), x).
Proof.
  intros N E. destruct e as [[| | | |t]| | | |]; cbn [ostep dstep snd fst] in *; try contradiction;
    try (apply obind_ok in E; destruct E as (r & E1 & E); rewrite E1; cbn [obind]; injection E as <- <- <-; eauto);
    injection E as <- <- <-; eauto.
Qed.

Lemma once_no x es : once x = Ok es -> Forall no_out es.
Proof. unfold once. intros E. apply obind_ok in E. destruct E as (b & _ & E). injection E as <-. repeat constructor. Qed.

Ltac no1 := first
  [ match goal with E : once _ = Ok _ |- _ => exact (once_no _ _ E) end
  | match goal with E : Ok _ = Ok _ |- Forall no_out _ => injection E as <-; repeat constructor end
  | discriminate ].

Lemma switch_no cf r o es : switch_draws cf r o = Ok es -> Forall no_out es.
Proof.
  unfold switch_draws. intros E.
  repeat first
    [ no1
    | match type of E with (if ?c then _ else _) = _ => destruct c end
    | match type of E with (match rb_kill ?b with _ => _ end) = _ => destruct (rb_kill b) end
    | apply obind_ok in E; destruct E as (x & _ & E)
    | match type of E with (match fst ?x with _ => _ end) = _ => destruct (fst x) end
    | injection E as <-; constructor; [|try (destruct (snd x)); repeat constructor]
    | destruct (oc_unique cf); exact I ].
  destruct (snd x); repeat constructor.
Qed.

Lemma after_no cf r o es : after_vim cf r o = Ok es -> Forall no_out es.
Proof.
  unfold after_vim. intros E. apply obind_ok in E. destruct E as (a & E1 & E). apply obind_ok in E.
  destruct E as ([[[[o1 a1] a2] a3] a4] & _ & E). injection E as <-. apply Forall_app. split; [exact (switch_no _ _ _ _ E1)|].
  unfold listener_draws. destruct (oc_listen cf) as [f|]; [|constructor]. destruct (f _ _ _) as [[l p]|]; repeat constructor.
Qed.

Lemma vdel_no n b es : vim_del_draws n b = Ok es -> Forall no_out es.
Proof.
  unfold vim_del_draws, word_draws, delete_draws. intros E.
  repeat match type of E with (if ?c then _ else _) = _ => destruct c; [try no1|try no1] end; no1.
Qed.

Lemma key_no cf r o es : key_draws cf r o = Ok es -> Forall no_out es.
Proof.
  unfold key_draws. intros E. destruct (o_vp o) as [p|].
  { unfold vim_next_draws in E. destruct p; [no1| | |].
    - destruct (r =? 100); [no1|exact (vdel_no _ _ _ E)].
    - destruct (r =? 99); [no1|exact (vdel_no _ _ _ E)].
    - destruct (r =? CharEsc); no1. }
  destruct (match oc_filter cf with Some f => f r | None => Some r end) as [r'|]; [|no1].
  unfold handle_draws in E. destruct (oc_vim cf); [|exact (after_no _ _ _ _ E)].
  apply obind_ok in E. destruct E as ([[o1 res] a1] & _ & E).
  assert (V : (if o_vn o then vim_draws r' (o_b o) else Ok []) = Ok es -> Forall no_out es).
  { clear E. intros E. destruct (o_vn o); [|no1]. unfold vim_draws, yank_draws, delete_draws in E.
    repeat first
      [ no1
      | match type of E with (if ?c then _ else _) = _ => destruct c end
      | match type of E with (match rb_kill ?b with _ => _ end) = _ => destruct (rb_kill b) end
      | match type of E with obind (Delete _) _ = _ => apply obind_ok in E; destruct E as (x & _ & E) end
      | match type of E with obind (once _) _ = _ => let t := fresh "t" in let E1 := fresh "E" in
          apply obind_ok in E; destruct E as (t & E1 & E); injection E as <-; constructor; [exact I|exact (once_no _ _ E1)] end ]. }
  destruct res as [r2| |q]; [|exact (V E)|exact (V E)]. destruct (r2 =? 0); [no1|exact (after_no _ _ _ _ E)].
Qed.

(** ** Logs *)
Lemma above_app cf v a b : above cf v (a ++ b) = above cf v a ++ above cf v b.
Proof. unfold above. apply flat_map_app. Qed.
Lemma got_app a b : got (a ++ b) = got a ++ got b.
Proof. unfold got. apply flat_map_app. Qed.

Lemma one_write_init lg x : one_write (lg ++ [x]) -> one_write lg.
Proof.
  induction lg as [|y lg IH]; cbn; [auto|]. destruct y; auto. intros (A & B). split; [|auto].
  destruct lg as [|z lg]; [exact I|exact A].
Qed.
Lemma one_write_last lg ls x : one_write ((lg ++ [LWrite ls]) ++ [x]) -> x = LCall.
Proof.
  induction lg as [|y lg IH]; cbn.
  - intros (A & _). destruct x; try contradiction. reflexivity.
  - destruct y; auto. intros (_ & A). auto.
Qed.
Lemma printable_app u a b : printable_log u (a ++ b) <-> printable_log u a /\ printable_log u b.
Proof. apply Forall_app. Qed.

Lemma texts_results cf v a : flat_map (text_of cf v) (results a) = flat_map (text_of cf v) a.
Proof. unfold results. induction a as [|x a IH]; [reflexivity|]. destruct x; cbn; rewrite ?IH; reflexivity. Qed.

(** ** The invariant *)
Section R.
Variable cf : ocfg.
Notation u := (oc_u cf).
Notation w := (oc_w cf).
Hypothesis C : plain_session cf.
Hypothesis Gt : gentle cf.
Hypothesis W : 0 < w <= 9223372036854775807.
Hypothesis U : uenv_ok u.
Variable ps : list piece.
Let v := visible ps.
Hypothesis PD : Forall sgr_digits ps.
Hypothesis PV : Forall (plainr u) v.
Hypothesis PS : Z.of_nat (length v) + 1 < w.
Variables (i0 : list Z) (o0 : op).
Let keys := keys_of u (oc_vim cf) i0.
Hypothesis Nz : Forall (fun k => k <> 0) keys.
Hypothesis At : at_prompt cf o0.
Hypothesis Ty : typed cf keys o0.
Variables (y0 : Z) (s0 : scr).
Notation agrees := (agrees u w ps).

Lemma typed_run ks : forall rest o o' a, at_prompt cf o -> typed cf (ks ++ rest) o -> op_run cf ks o = Ok (o', a) ->
  at_prompt cf o' /\ typed cf rest o'.
Proof.
  induction ks as [|k ks IH]; intros rest o o' a A T E.
  - cbn in E. injection E as <- _. auto.
  - cbn [app typed] in T. destruct T as (M & o1 & a1 & E1 & T). cbn [op_run] in E. rewrite E1 in E. cbn [obind fst snd] in E.
    apply obind_ok in E. destruct E as ([o2 a2] & E2 & E). injection E as <- _.
    destruct (key_case cf C v o k o1 a1 [] A M E1) as (A1 & _). exact (IH rest o1 o2 a2 A1 T E2).
Qed.

Definition caller (p : cpc) : cproc := match p with PIdle | PWrite _ _ => CIdle | PCalled | PDrawn => CCalled | PWait => CWait end.
Definition under (s : sess) : list act := opt (ss_err s) ++ results (pend (ss_e s)).
Definition nil {A} (l : list A) : bool := match l with [] => true | _ => false end.
Definition goal (c : conc) (o : op) (stray : bool) : look :=
  {| k_done := above cf v (n_log c) ++ flat_map (text_of cf v) (under (n_s c)); k_line := rb_buf (o_b o); k_idx := rb_idx (o_b o);
     k_reading := match n_p c with PDrawn => true | PWait => nil (under (n_s c)) | _ => stray end |}.

Definition draws (c : conc) : Prop := exists k o stray, cur (ss_e (n_s c)) = Some o /\
  agrees y0 k (k_reading k, n_d c) s0 (sexecs u w s0 (n_out c)) /\ olooks_all u v k (n_es c) (goal c o stray) /\
  (stray = true -> caller (n_p c) = CIdle -> exists lg ls, n_log c = lg ++ [LWrite ls]).

Record J (c : conc) : Prop := {
  j_reach : reach u cf false (sess_new i0 o0) (n_s c);
  j_k : ss_k (n_s c) = K0;
  j_td : ss_t (n_s c) <> TDone;
  j_alive : ss_e (n_s c) <> ECrash;
  j_p : ss_c (n_s c) = caller (n_p c);
  j_es : n_es c <> [] -> n_p c = PWait /\ ss_err (n_s c) = None /\ exists o o' a, ss_e (n_s c) = EDo o o' a;
  j_no : Forall no_out (n_es c);
  j_got : ss_res (n_s c) = got (n_log c);
  j_b : forall r ls, n_b c = Some (r, ls) -> r = true;
  j_draw : draws c
}.

(** what SessionProofs.v gives *)
Lemma j_inv c : J c -> exists ks a o, op_run cf ks o0 = Ok (o, a) /\ cur (ss_e (n_s c)) = Some o /\ results a = ss_res (n_s c) ++ under (n_s c) /\
  ks ++ to_come u cf (n_s c) = keys /\ o_end o = false /\ (weight (n_s c) <= 1)%nat /\ at_prompt cf o /\ typed cf (to_come u cf (n_s c)) o.
Proof.
  intros I. destruct (good_reach u cf false keys o0 Gt Nz (sess_new i0 o0) (n_s c)) as [(ks & a & o & V)|D].
  - apply good_new; [reflexivity|apply (ap_end _ _ At)].
  - apply (j_reach _ I).
  - left. apply (j_k _ I).
  - destruct V as [Vr Vc Vs _ _ _ Vt]. pose proof (j_td _ I) as Td.
    assert (X : ks ++ to_come u cf (n_s c) = keys /\ o_end o = false /\ (weight (n_s c) <= 1)%nat) by (destruct (ss_t (n_s c)); [exact Vt..|congruence]).
    destruct X as (X1 & X2 & X3). exists ks, a, o. repeat (split; [assumption|]).
    pose proof Ty as T. rewrite <- X1 in T. exact (typed_run ks _ o0 o a At T Vr).
  - destruct D as (D & _). destruct (j_alive _ I D).
Qed.

Lemma j_quiet c : J c -> n_p c <> PWait -> under (n_s c) = [] /\ n_es c = [] /\ ss_err (n_s c) = None /\ kicks (pend (ss_e (n_s c))) = 0%nat.
Proof.
  intros I N. destruct (j_inv _ I) as (ks & a & o & _ & _ & _ & _ & _ & Wt & _ & _). unfold weight in Wt. rewrite (j_p _ I) in Wt.
  assert (Nw : waiting (caller (n_p c)) = false) by (destruct (n_p c); try reflexivity; now destruct N).
  rewrite Nw in Wt. cbn [negb b2n] in Wt. unfold under.
  assert (K0 : kicks (pend (ss_e (n_s c))) = 0%nat) by lia. rewrite (kicks_res _ K0).
  assert (E0 : ss_err (n_s c) = None) by (destruct (ss_err (n_s c)); [cbn in Wt; lia|reflexivity]). rewrite E0.
  repeat (split; [try reflexivity|]); auto. destruct (n_es c) eqn:E; [reflexivity|].
  destruct (j_es c I) as (P & _); [now rewrite E|contradiction].
Qed.

Lemma above_snoc lg x : above cf v (lg ++ [x]) = above cf v lg ++ above cf v [x].
Proof. apply above_app. Qed.

(** a redraw from outside the editor, when it draws nothing itself *)
Lemma still c k : olooks_all u v k [] c -> k = c.
Proof. intros X. now inversion X. Qed.

Lemma written k d s s' e k' : agrees y0 k (k_reading k, d) s0 s -> olooks u v k e k' -> no_out e ->
  forall r d' x, ostep u (true, d) e = Ok ((r, d'), x) -> s' = sexecs u w s x -> agrees y0 k' (k_reading k', d') s0 s'.
Proof.
  intros A L N r d' x E ->. destruct (ostep_agrees u w W U ps PD PV PS y0 k _ s0 s e k' A L) as ([b1 d1] & x1 & E1 & A1).
  destruct (ostep_flag _ _ _ _ _ _ _ N E1) as (b2 & E2). rewrite E in E2. injection E2 as _ -> ->.
  assert (Q : b1 = k_reading k') by apply A1. now rewrite <- Q.
Qed.

Lemma printed k d s ls : agrees y0 k (k_reading k, d) s0 s -> Forall (Forall (plainr u)) ls ->
  (k_reading k = false -> agrees y0 {| k_done := k_done k ++ ls; k_line := k_line k; k_idx := k_idx k; k_reading := false |} (false, d) s0 (sexecs u w s (lines ls))) /\
  (forall d' x, refresh u d (d_buf d) (d_idx d) (lines ls) = Ok (d', x) ->
    agrees y0 {| k_done := k_done k ++ ls; k_line := k_line k; k_idx := k_idx k; k_reading := true |} (true, d') s0 (sexecs u w s x)).
Proof.
  intros A F. split.
  - intros R. destruct (dstep_agrees u w W U ps PD PV PS y0 k _ s0 s _ _ A (LOut u v k ls F)) as (st & x & E & B).
    rewrite R in *. cbn [dstep] in E. injection E as <- <-. exact B.
  - intros d' x E. pose proof (agrees_ready u w ps _ _ _ _ _ A) as Rd. destruct A as (S & B & I & _ & Fl & L & H & N & (St & Sc) & Ab).
    cbn [fst snd] in *.
    set (k1 := {| k_done := k_done k; k_line := k_line k; k_idx := k_idx k; k_reading := true |}).
    destruct (dstep_ready u w W U ps PD PV PS y0 k1 (true, d) s0 s (VOut (lines ls))
      {| k_done := k_done k ++ ls; k_line := k_line k; k_idx := k_idx k; k_reading := true |}) as (st & x1 & E1 & A1); try assumption.
    + reflexivity.
    + discriminate.
    + discriminate.
    + exact (LOut u v k1 ls F).
    + cbn [dstep] in E1. rewrite E in E1. cbn [obind fst snd] in E1. injection E1 as <- <-. exact A1.
Qed.

Lemma J_new d : static u w ps d -> d_buf d = [] -> d_idx d = 0%nat -> rb_buf (o_b o0) = [] -> rb_idx (o_b o0) = 0%nat ->
  free_from w y0 s0 -> J (conc_new i0 o0 d).
Proof.
  intros S B I B0 I0 F. constructor; cbn; try reflexivity; try discriminate; try congruence.
  - apply reach_0.
  - constructor.
  - exists {| k_done := []; k_line := []; k_idx := 0; k_reading := false |}, o0, false. split; [reflexivity|]. split; [|split].
    + unfold RenderSession.agrees. cbn. split; [exact S|]. repeat (split; [first [reflexivity|assumption|apply Forall_nil|apply le_n|discriminate]|]).
      split; [|apply same_above_refl]. split; [exact Logic.I|]. cbn. rewrite Z.add_0_r. exact F.
    + cbn. unfold goal. cbn. rewrite B0, I0. apply OLNil.
    + discriminate.
Qed.

Ltac fld := cbn [n_s n_t n_flag n_es n_d n_out n_log n_p n_b ss_in ss_ts ss_t ss_kick ss_e ss_err ss_c ss_res ss_k ss_file pend cur opt length app caller under goal] in *.
Ltac wk := eapply reach_1; [eassumption|left; econstructor; eassumption].

Lemma J_move c c' : J c -> moves cf c c' -> printable_log u (n_log c') -> one_write (n_log c') -> J c'.
Proof.
  intros I M Pl Ow. pose proof (j_inv _ I) as (ks & a0 & oc & Vr & Vc & Vs & Vk & Ve & Vw & Vp & Vt). pose proof (j_quiet c I) as Q.
  destruct I as [Ir Ik Itd Ial Ip Ies Ino Ig Ib (k & oc' & stray & Dc & Da & Dl & Ds)].
  assert (oc' = oc) by congruence. subst oc'. destruct M; unfold goal, under in *; fld.
  - (* store0 *) constructor; fld; auto. exists k, oc, stray. auto.
  - (* kick *) constructor; fld; auto; try discriminate; [eapply reach_1; [exact Ir|left; constructor]|]. exists k, oc, stray. auto.
  - (* store1 *) constructor; fld; auto. exists k, oc, stray. auto.
  - (* skip *) constructor; fld; auto; try discriminate; [eapply reach_1; [exact Ir|left; econstructor; eassumption]|]. exists k, oc, stray. auto.
  - (* key *) constructor; fld; auto; try discriminate; [eapply reach_1; [exact Ir|left; econstructor; eassumption]|]. exists k, oc, stray. auto.
  - (* recv *) injection Vc as ->. unfold weight in Vw. fld. cbn [reading] in Vw.
    assert (Pw : p = PWait) by (destruct p; try reflexivity; rewrite Ip in Vw; cbn in Vw; lia). subst p.
    assert (Er : er = None) by (destruct er; [cbn in Vw; lia|reflexivity]). subst er.
    assert (Ty' : may_press cf oc y) by (unfold to_come in Vt; fld; cbn [sending app typed] in Vt; apply Vt).
    destruct (key_case cf C v oc y o' a (above cf v lg) Vp Ty' H) as (A' & es' & D' & L'). rewrite H0 in D'. injection D' as <-.
    constructor; fld; auto; try discriminate.
    + eapply reach_1; [exact Ir|left; constructor; assumption].
    + destruct (pauses y); discriminate.
    + intros _. split; [reflexivity|]. split; [reflexivity|eauto].
    + exact (key_no _ _ _ _ H0).
    + exists k, o', stray. split; [reflexivity|]. split; [exact Da|]. split; [|discriminate].
      apply still in Dl. subst k. cbn [results filter flat_map nil] in *. rewrite app_nil_r. unfold goal, under. fld. rewrite texts_results.
      unfold look_of in L'. cbn [results filter] in L'. exact L'.
  - (* crash *) exfalso. apply H. injection Vc as ->.
    unfold to_come in Vt. fld. cbn [sending app typed] in Vt. destruct Vt as (M' & o' & a' & E' & _).
    destruct (key_case cf C v oc y o' a' [] Vp M' E') as (_ & es' & D' & _). eauto.
  - (* draw *) inversion Dl as [|? ? k1 ? ? L1 L2]; subst. inversion Ino as [|? ? N1 N2]; subst.
    destruct (Ies ltac:(discriminate)) as (Pw & Er & Ed).
    constructor; fld; auto.
    exists k1, oc, stray. split; [exact Dc|]. split; [|split; [exact L2|exact Ds]].
    refine (written k d _ _ e k1 Da L1 N1 r d' x H _). fld. now rewrite sexecs_app.
  - (* break *) exfalso. apply H. inversion Dl as [|? ? k1 ? ? L1 L2]; subst. inversion Ino as [|? ? N1 N2]; subst.
    destruct (ostep_agrees u w W U ps PD PV PS y0 k _ s0 _ v0 k1 Da L1) as ([b1 d1] & x1 & E1 & _).
    destruct (ostep_flag _ _ _ _ _ _ _ N1 E1) as (b2 & E2). eauto.
  - (* quiet *) constructor; fld; auto; try discriminate.
    + eapply reach_1; [exact Ir|left; constructor; assumption].
    + intros X. destruct (Ies X) as (P1 & P2 & _). split; [exact P1|]. split; [exact P2|eauto].
    + exists k, oc, stray. rewrite (results_quiet _ _ H) in Dl. auto.
  - (* ekick *) constructor; fld; auto; try discriminate.
    + eapply reach_1; [exact Ir|left; constructor; assumption].
    + intros X. destruct (Ies X) as (P1 & P2 & _). split; [exact P1|]. split; [exact P2|eauto].
    + exists k, oc, stray. auto.
  - (* line *) unfold weight in Vw. fld. cbn [kicks filter resumes is_result length] in Vw.
    assert (Er : er = None) by (destruct er; [cbn in Vw; lia|reflexivity]). subst er.
    assert (K0 : kicks a = 0%nat) by (unfold kicks in *; lia).
    constructor; fld; auto; try discriminate; try contradiction.
    + eapply reach_1; [exact Ir|left; constructor; assumption].
    + rewrite Ig, got_app. reflexivity.
    + exists k, oc, false. split; [exact Dc|]. split; [exact Da|]. split; [|discriminate].
      unfold goal, under. fld. cbn [results filter is_result flat_map nil] in Dl. fold (results a) in Dl. rewrite (kicks_res _ K0) in *.
      cbn [flat_map] in *. rewrite app_nil_r in *. rewrite above_snoc. cbn [above flat_map]. rewrite app_nil_r. exact Dl.
  - (* err *) constructor; fld; auto; try discriminate.
    + eapply reach_1; [exact Ir|left; constructor; assumption].
    + contradiction.
    + exists k, oc, stray. rewrite (results_err _ _ H) in Dl. auto.
  - (* next *) injection Vc as ->. rewrite Ve in *. constructor; fld; auto; try discriminate.
    + eapply reach_1; [exact Ir|left]. pose proof (w_next u cf false i ts t q o oc er c rs k0 f) as X. rewrite Ve in X. exact X.
    + contradiction.
    + exists k, oc, stray. auto.
  - (* call *) constructor; fld; auto; try discriminate.
    + eapply reach_1; [exact Ir|right; left; split; reflexivity].
    + intros X. destruct (Ies X) as (P1 & _). discriminate.
    + rewrite Ig, got_app. cbn. now rewrite app_nil_r.
    + exists k, oc, stray. split; [exact Dc|]. split; [exact Da|]. split; [|discriminate].
      unfold goal, under. fld. rewrite above_snoc. cbn [above flat_map]. rewrite app_nil_r. exact Dl.
  - (* prompt *) destruct Q as (Q1 & Q2 & Q3 & Q4); [discriminate|]. subst es. constructor; fld; auto; try contradiction.
    apply still in Dl. subst k.
    eexists _, oc, false. split; [exact Dc|]. split; [|split; [|discriminate]].
    + fld. rewrite sexecs_app. refine (written _ d _ _ _ _ Da (OLDraw _ _ _ _ _ (LRead _ _ _)) I r d' x H eq_refl).
    + cbn. apply OLNil.
  - (* ckick *) destruct Q as (Q1 & Q2 & Q3 & Q4); [discriminate|]. subst es er. constructor; fld; auto; try discriminate; try contradiction.
    + eapply reach_1; [exact Ir|left; constructor; assumption].
    + exists k, oc, stray. split; [exact Dc|]. split; [exact Da|]. split; [|discriminate]. unfold goal, under. fld. rewrite Q1 in *. exact Dl.
  - (* cerr *) unfold weight in Vw. fld. cbn [length] in Vw.
    assert (K0 : kicks (pend e) = 0%nat) by lia.
    assert (Es : es = []) by (destruct es; [reflexivity|]; destruct Ies as (_ & X & _); [discriminate|discriminate X]). subst es.
    constructor; fld; auto; try discriminate; try contradiction.
    + eapply reach_1; [exact Ir|left; constructor; assumption].
    + rewrite Ig, got_app. reflexivity.
    + exists k, oc, false. split; [exact Dc|]. split; [exact Da|]. split; [|discriminate].
      unfold goal, under. fld. rewrite (kicks_res _ K0) in *. cbn [flat_map nil] in *. rewrite app_nil_r in *. rewrite above_snoc.
      cbn [above flat_map]. rewrite app_nil_r. exact Dl.
  - (* test *) constructor; fld; auto.
    + intros X. destruct (Ies X) as (P1 & _). discriminate.
    + exists k, oc, stray. auto.
  - (* write0 *) destruct Q as (Q1 & Q2 & Q3 & Q4); [discriminate|]. subst es. apply still in Dl. subst k.
    assert (St : stray = false).
    { destruct stray; [|reflexivity]. destruct (Ds eq_refl eq_refl) as (lg' & ls' & ->). apply one_write_last in Ow. discriminate. }
    subst stray. apply printable_app in Pl. destruct Pl as (_ & Pl). inversion Pl as [|? ? Pl1 _]; subst.
    destruct (printed _ _ _ _ Da Pl1) as (X & _). constructor; fld; auto; try contradiction.
    + rewrite Ig, got_app. cbn. now rewrite app_nil_r.
    + eexists _, oc, false. split; [exact Dc|]. split; [fld; rewrite sexecs_app; exact (X eq_refl)|]. split; [|discriminate].
      unfold goal, under. fld. rewrite above_snoc, Q1. cbn. rewrite !app_nil_r. apply OLNil.
  - (* write1 *) destruct Q as (Q1 & Q2 & Q3 & Q4); [discriminate|]. subst es. apply still in Dl. subst k.
    apply printable_app in Pl. destruct Pl as (_ & Pl). inversion Pl as [|? ? Pl1 _]; subst.
    destruct (printed _ _ _ _ Da Pl1) as (_ & X). constructor; fld; auto; try contradiction.
    + rewrite Ig, got_app. cbn. now rewrite app_nil_r.
    + eexists _, oc, true. split; [exact Dc|]. split; [fld; rewrite sexecs_app; exact (X _ _ H)|]. split; [|intros _ _; exists lg, ls; reflexivity].
      unfold goal, under. fld. rewrite above_snoc, Q1. cbn. rewrite !app_nil_r. apply OLNil.
  - (* direct *) destruct Q as (Q1 & Q2 & Q3 & Q4); [discriminate|]. subst es. apply still in Dl. subst k.
    assert (St : stray = false).
    { destruct stray; [|reflexivity]. destruct (Ds eq_refl eq_refl) as (lg' & ls' & ->). apply one_write_last in Ow. discriminate. }
    subst stray. apply printable_app in Pl. destruct Pl as (_ & Pl). inversion Pl as [|? ? Pl1 _]; subst.
    destruct (printed _ _ _ _ Da Pl1) as (X & _). constructor; fld; auto; try contradiction.
    + rewrite Ig, got_app. cbn. now rewrite app_nil_r.
    + eexists _, oc, false. split; [exact Dc|]. split; [fld; rewrite sexecs_app; exact (X eq_refl)|]. split; [|discriminate].
      unfold goal, under. fld. rewrite above_snoc, Q1. cbn. rewrite !app_nil_r. apply OLNil.
Qed.

Lemma J_back c c' : J c -> back cf c c' -> calm c -> printable_log u (n_log c') -> J c'.
Proof.
  intros I M (Cp & Cf & Ce & o & Co) Pl. 
  destruct I as [Ir Ik Itd Ial Ip Ies Ino Ig Ib (k & oc & stray & Dc & Da & Dl & Ds)].
  assert (Es : n_es c = []).
  { destruct (n_es c); [reflexivity|]. destruct Ies as (_ & _ & oa & ob & aa & X); [discriminate|congruence]. }
  destruct M; unfold goal, under in *; fld; subst.
  - constructor; fld; auto; [intros r ls' X; injection X as <- _; reflexivity|]. exists k, oc, stray. auto.
  - specialize (Ib _ _ eq_refl). discriminate.
  - rewrite Ce, Co in *. fld. cbn [results filter flat_map] in *. apply still in Dl. subst k.
    apply printable_app in Pl. destruct Pl as (_ & Pl). inversion Pl as [|? ? Pl1 _]; subst.
    destruct (printed _ _ _ _ Da Pl1) as (_ & X). constructor; fld; auto; try contradiction; try discriminate; try congruence.
    + rewrite Ig, got_app. cbn. now rewrite app_nil_r.
    + eexists _, oc, false. split; [fld; rewrite Co; exact Dc|]. split; [fld; rewrite sexecs_app; exact (X _ _ H)|]. split; [|discriminate].
      unfold goal, under. fld. rewrite above_snoc, Ce, Co. cbn. rewrite !app_nil_r. apply OLNil.
Qed.

Lemma J_reach c0 c : J c0 -> preach cf c0 c -> printable_log u (n_log c) -> one_write (n_log c) -> J c.
Proof.
  intros J0 R. induction R as [|c c' R IH M|c c' R IH M Cm]; intros Pl Ow; [exact J0| |].
  - assert (X : printable_log u (n_log c) /\ one_write (n_log c)).
    { destruct M; fld; auto; (split; [apply printable_app in Pl; apply Pl|exact (one_write_init _ _ Ow)]). }
    exact (J_move c c' (IH (proj1 X) (proj2 X)) M Pl Ow).
  - assert (X : printable_log u (n_log c) /\ one_write (n_log c)).
    { destruct M; fld; auto; (split; [apply printable_app in Pl; apply Pl|exact (one_write_init _ _ Ow)]). }
    exact (J_back c c' (IH (proj1 X) (proj2 X)) M Cm Pl).
Qed.
End R.

(** ** Running it *)
Inductive mv := MT | ME | MCall | MC | MWrite (ls : list (list Z)) | MDirect (ls : list (list Z)) | MBack (ls : list (list Z)) | MBackW.

Definition go (cf : ocfg) (m : mv) (c : conc) : option conc :=
  let 'mkC s tp fl es d out lg p b := c in
  let 'mkS i ts t q e er cc rs k f := s in
  match m with
  | MT =>
      match tp, t with
      | Store0, TWait => Some (mkC s Elsewhere false es d out lg p b)
      | Store1, TRead => Some (mkC s Elsewhere true es d out lg p b)
      | Elsewhere, TWait => if q then Some (mkC (mkS i ts TRead false e er cc rs k f) Store1 fl es d out lg p b) else None
      | Elsewhere, TRead =>
          match i with
          | [] => None
          | r :: i' =>
              let x := tstep (oc_u cf) (oc_vim cf) ts r in
              Some (mkC (mkS i' (fst x) (match snd x with TKey y => TSend y | _ => TRead end) q e er cc rs k f) Elsewhere fl es d out lg p b)
          end
      | _, _ => None
      end
  | ME =>
      match es with
      | v :: es' =>
          match ostep (oc_u cf) (true, d) v with
          | Ok ((r, d'), x) => Some (mkC s tp fl es' d' (out ++ x) lg p b)
          | _ => None
          end
      | [] =>
          match e with
          | ERecv o =>
              match tp, t with
              | Elsewhere, TSend y =>
                  match op_step cf y o, key_draws cf y o with
                  | Ok (o', a), Ok es' =>
                      Some (mkC (mkS i ts (if pauses y then TWait else TRead) q (EDo o o' a) er cc rs k f)
                                (if pauses y then Store0 else Elsewhere) fl es' d out lg p b)
                  | _, _ => None
                  end
              | _, _ => None
              end
          | EDo o o' [] => Some (mkC (mkS i ts t q (if o_end o' then EDone o' else ERecv o') er cc rs k f) tp fl [] d out lg p b)
          | EDo o o' (x :: a) =>
              match x with
              | AKick => Some (mkC (mkS i ts t true (EDo o o' a) er cc rs k f) tp fl es d out lg p b)
              | ALine l =>
                  match cc, p with
                  | CWait, PWait => Some (mkC (mkS i ts t q (EDo o o' a) er CIdle (rs ++ [ALine l]) k f) tp fl [] d out (lg ++ [LRes (ALine l)]) PIdle b)
                  | _, _ => None
                  end
              | _ => None
              end
          | _ => None
          end
      end
  | MCall =>
      match cc, p with
      | CIdle, PIdle => Some (mkC (mkS i ts t q e er CCalled rs k f) tp fl es d out (lg ++ [LCall]) PCalled b)
      | _, _ => None
      end
  | MC =>
      match p with
      | PCalled =>
          match ostep (oc_u cf) (true, d) (ODraw VRead) with
          | Ok ((r, d'), x) => Some (mkC s tp fl es d' (out ++ x) lg PDrawn b)
          | _ => None
          end
      | PDrawn => match cc with CCalled => Some (mkC (mkS i ts t true e er CWait rs k f) tp fl es d out lg PWait b) | _ => None end
      | PWrite false ls => Some (mkC s tp fl es d (out ++ lines ls) (lg ++ [LWrite ls]) PIdle b)
      | PWrite true ls =>
          match refresh (oc_u cf) d (d_buf d) (d_idx d) (lines ls) with
          | Ok (d', x) => Some (mkC s tp fl es d' (out ++ x) (lg ++ [LWrite ls]) PIdle b)
          | _ => None
          end
      | _ => None
      end
  | MWrite ls => match p with PIdle => Some (mkC s tp fl es d out lg (PWrite fl ls) b) | _ => None end
  | MDirect ls => match p with PIdle => Some (mkC s tp fl es d (out ++ lines ls) (lg ++ [LDirect ls]) PIdle b) | _ => None end
  | MBack ls => match b with None => Some (mkC s tp fl es d out lg p (Some (fl, ls))) | _ => None end
  | MBackW =>
      match b with
      | Some (false, ls) => Some (mkC s tp fl es d (out ++ lines ls) (lg ++ [LBack ls]) p None)
      | Some (true, ls) =>
          match refresh (oc_u cf) d (d_buf d) (d_idx d) (lines ls) with
          | Ok (d', x) => Some (mkC s tp fl es d' (out ++ x) (lg ++ [LBack ls]) p None)
          | _ => None
          end
      | None => None
      end
  end.

Definition is_back (m : mv) : bool := match m with MBack _ | MBackW => true | _ => false end.

Lemma go_sound cf m c c' : go cf m c = Some c' -> if is_back m then back cf c c' else moves cf c c'.
Proof.
  destruct c as [[i ts t q e er cc rs k f] tp fl es d out lg p b]. destruct m; cbn [go is_back]; intros E.
  - destruct tp, t; try discriminate; try (injection E as <-; constructor; reflexivity).
    + destruct q; [|discriminate]. injection E as <-. constructor.
    + destruct i as [|r i]; [discriminate|]. injection E as <-. destruct (tstep (oc_u cf) (oc_vim cf) ts r) as [ts' x] eqn:T. cbn [fst snd].
      destruct x; [now constructor|eapply m_skip; [exact T|exact I]..].
  - destruct es as [|v es].
    + destruct e as [o|o o' [|x a]| |]; try discriminate.
      * destruct tp; try discriminate. destruct t; try discriminate. destruct (op_step cf k0 o) as [[o' a]| |] eqn:E1; try discriminate.
        destruct (key_draws cf k0 o) eqn:E2; try discriminate. injection E as <-. now constructor.
      * injection E as <-. constructor.
      * destruct x; try discriminate.
        -- injection E as <-. constructor.
        -- destruct cc; try discriminate. destruct p; try discriminate. injection E as <-. constructor.
    + destruct (ostep _ _ _) as [[[r d'] x]| |] eqn:E1; try discriminate. injection E as <-. econstructor. exact E1.
  - destruct cc; try discriminate. destruct p; try discriminate. injection E as <-. constructor.
  - destruct p; try discriminate.
    + destruct r; [|injection E as <-; constructor]. destruct (refresh _ _ _ _ _) as [[d' x]| |] eqn:E1; try discriminate. injection E as <-. now constructor.
    + destruct (ostep _ _ _) as [[[r d'] x]| |] eqn:E1; try discriminate. injection E as <-. econstructor. exact E1.
    + destruct cc; try discriminate. injection E as <-. constructor.
  - destruct p; try discriminate. injection E as <-. constructor.
  - destruct p; try discriminate. injection E as <-. constructor.
  - destruct b; try discriminate. injection E as <-. constructor.
  - destruct b as [[[] ls]|]; try discriminate.
    + destruct (refresh _ _ _ _ _) as [[d' x]| |] eqn:E1; try discriminate. injection E as <-. now constructor.
    + injection E as <-. constructor.
Qed.

Fixpoint gos (cf : ocfg) (ms : list mv) (c : conc) : option conc :=
  match ms with [] => Some c | m :: ms' => match go cf m c with Some c1 => gos cf ms' c1 | None => None end end.

Lemma gos_creach cf c0 ms : forall c c', creach cf c0 c -> gos cf ms c = Some c' -> creach cf c0 c'.
Proof.
  induction ms as [|m ms IH]; intros c c' R E; cbn in E; [now injection E as <-|].
  destruct (go cf m c) as [c1|] eqn:E1; [|discriminate]. apply (IH c1); [|exact E]. eapply cr_1; [exact R|].
  apply go_sound in E1. destruct (is_back m); auto.
Qed.

Definition calmb (c : conc) : bool :=
  match n_p c with PWait => true | _ => false end && n_flag c && match ss_err (n_s c) with None => true | _ => false end &&
  match ss_e (n_s c) with ERecv _ => true | _ => false end.
Fixpoint polite (cf : ocfg) (ms : list mv) (c : conc) : bool :=
  match ms with
  | [] => true
  | m :: ms' => (negb (is_back m) || calmb c) && match go cf m c with Some c1 => polite cf ms' c1 | None => true end
  end.
Lemma gos_preach cf c0 ms : forall c c', preach cf c0 c -> polite cf ms c = true -> gos cf ms c = Some c' -> preach cf c0 c'.
Proof.
  induction ms as [|m ms IH]; intros c c' R P E; cbn in E, P; [now injection E as <-|].
  apply andb_prop in P. destruct P as (P1 & P2).
  destruct (go cf m c) as [c1|] eqn:E1; [|discriminate]. apply (IH c1); [|exact P2|exact E]. apply go_sound in E1.
  destruct (is_back m); [|now apply (pr_1 cf c0 c)]. apply (pr_2 cf c0 c); [exact R|exact E1|].
  cbn in P1. unfold calmb in P1. unfold calm. destruct (n_p c); try discriminate. destruct (n_flag c); try discriminate.
  destruct (ss_err (n_s c)); try discriminate. destruct (ss_e (n_s c)); try discriminate. eauto.
Qed.
