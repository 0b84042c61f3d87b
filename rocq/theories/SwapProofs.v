(** Proofs for C132. *)
From Verif Require Import Base ListAux RunesModel RunesSpec RuneBufModel RuneBufSpec HistoryModel ScreenModel RenderModel RenderSpec RenderProofs RenderDraw RenderSession OpModel OpSpec OpProofs OpStep OutModel OutSpec OutProofs SwapModel SwapSpec.
Open Scope Z_scope.

(** ** A redraw begins by erasing *)
Section Clean.
Variable u : uenv.
Variable d : rdr.
Variable o1 : list Z.
Hypothesis In_ : d_inter d = true.
Hypothesis Cl : clean u d = Ok (with_had true d, o1).
Let dc := with_had true d.

Lemma clean_done : clean u dc = Ok (dc, []).
Proof.
  revert Cl. unfold clean, dc. change (idxLine u (with_had true d) (d_width (with_had true d))) with (idxLine u d (d_width d)).
  destruct (idxLine u d (d_width d)); cbn [obind]; [reflexivity|discriminate..].
Qed.
Lemma refresh_clean b i own : refresh u d b i own = (x <- refresh u dc b i own ;; Ok (fst x, o1 ++ snd x)).
Proof.
  unfold refresh. change (d_inter dc) with (d_inter d). rewrite In_. cbn [negb]. rewrite Cl, clean_done. cbn [obind fst snd]. fold dc.
  destruct (print u (with_line b i dc)); reflexivity.
Qed.
Lemma dstep_clean e : dstep u (true, d) e = (x <- dstep u (true, dc) e ;; Ok (fst x, o1 ++ snd x)).
Proof.
  destruct e; cbn [dstep]; unfold submit, submit_unique; rewrite refresh_clean; change (d_buf dc) with (d_buf d); change (d_idx dc) with (d_idx d).
  1,2,5: destruct (refresh u dc _ _ _); reflexivity.
  all: destruct (refresh u dc _ _ _) as [x| |]; cbn [obind fst snd]; try reflexivity.
  - destruct (refresh u (fst x) _ _ _); cbn [obind fst snd]; try reflexivity. now rewrite app_assoc.
  - destruct (clean u (fst x)); cbn [obind fst snd]; try reflexivity. now rewrite app_assoc.
Qed.
End Clean.

Section Draw.
Variable u : uenv.
Variable w : Z.
Hypothesis W : 0 < w <= 9223372036854775807.
Hypothesis U : uenv_ok u.
Variable ps : list piece.
Let v := visible ps.
Hypothesis PD : Forall sgr_digits ps.
Hypothesis PV : Forall (plainr u) v.
Hypothesis PS : Z.of_nat (length v) + 1 < w.
Notation agrees := (agrees u w ps).

(** the prompt on the screen need not be the one set; erasing is all that can be said *)
Definition loose (y0 : Z) (k : look) (st : bool * rdr) (s0 s : scr) : Prop :=
  static u w ps (snd st) /\ d_buf (snd st) = k_line k /\ d_idx (snd st) = k_idx k /\ fst st = true /\ k_reading k = true /\
  Forall (plainr u) (k_line k) /\ (k_idx k <= length (k_line k))%nat /\ stacked w y0 (k_done k) s /\ same_above y0 s0 s /\
  s_par s = PGround /\
  exists o1, clean u (snd st) = Ok (with_had true (snd st), o1) /\ free_from w (y0 + height w (k_done k)) (sexecs u w s o1) /\
    same_above (y0 + height w (k_done k)) s (sexecs u w s o1).

Lemma agrees_loose y0 k st s0 s : agrees y0 k st s0 s -> k_reading k = true -> loose y0 k st s0 s.
Proof.
  intros A Rk. pose proof (agrees_ready u w ps _ _ _ _ _ A) as R.
  destruct A as (S & B & I & Rd & F & L & H & N & (St & Sc) & Ab).
  assert (D : drawable u ps (snd st)) by (apply (static_drawable0 u w W ps PD PV PS); [exact S|now rewrite B|now rewrite B, I]).
  destruct (clean_ready u ps (snd st) _ s D R) as (o2 & C1 & C2 & C3). rewrite (st_width _ _ _ _ S) in C2, C3.
  rewrite Rk in *. cbn zeta in Sc. repeat (split; [first [assumption|reflexivity]|]).
  split; [destruct Sc as (_ & Sc); unfold cursor_at in Sc; tauto|]. eauto.
Qed.

Lemma loose_step y0 k st s0 s e k' : loose y0 k st s0 s -> olooks u v k e k' ->
  exists st' o, ostep u st e = Ok (st', o) /\ (agrees y0 k' st' s0 (sexecs u w s o) \/ loose y0 k' st' s0 (sexecs u w s o)).
Proof.
  intros (S & B & I & Rd & Rk & F & L & St & Ab & Pg & o1 & C1 & C2 & C3) K. destruct st as [reading d]. cbn [fst snd] in *. subst reading.
  set (y1 := y0 + height w (k_done k)) in *. pose proof (height_nonneg w (k_done k)) as Hh.
  set (s1 := sexecs u w s o1) in *. set (dc := with_had true d) in *.
  assert (Sd : static u w ps dc) by (pose proof (static_line u w ps d (d_buf d) (d_idx d) true S) as X; destruct d; exact X).
  assert (St1 : stacked w y0 (k_done k) s1) by (apply (stacked_above w _ _ s); assumption).
  assert (Ab1 : same_above y0 s0 s1) by (eapply same_above_trans; [exact Ab|]; intros a b Q; apply C3; unfold y1; lia).
  assert (R : ready ps dc y1 s1) by (unfold ready; cbn; rewrite (st_width _ _ _ _ S); exact C2).
  assert (D : drawable u ps dc) by (apply (static_drawable0 u w W ps PD PV PS); [exact Sd|cbn; now rewrite B|cbn; now rewrite B, I]).
  inversion K as [? e0 ? Lk|?|? hint Rd' Fh|? Rd' Ln]; subst; clear K.
  - destruct (dstep_ready u w W U ps PD PV PS y0 k (true, dc) s0 s1 e0 k') as (st' & o2 & E & A); try assumption; cbn [fst snd]; try congruence.
    cbn [ostep]. rewrite (dstep_clean u d o1 (st_inter _ _ _ _ S) C1). fold dc. rewrite E. cbn [obind fst snd]. eexists _, _. split; [reflexivity|].
    left. rewrite sexecs_app. exact A.
  - eexists _, [7]. split; [reflexivity|]. right.
    assert (E : sexecs u w s [7] = s). { unfold sexecs. cbn [fold_left]. unfold sexec. rewrite Pg. reflexivity. }
    rewrite E. repeat (split; [first [assumption|reflexivity]|]). exists o1. auto.
  - cbn [ostep snd]. unfold eof_draw. rewrite (refresh_clean u d o1 (st_inter _ _ _ _ S) C1). fold dc.
    unfold refresh. change (d_inter dc) with (d_inter d). rewrite (st_inter _ _ _ _ S). cbn [negb].
    pose proof (clean_done u d o1 C1) as Cd. fold dc in Cd. rewrite Cd. cbn [obind fst snd].
    set (bb := d_buf d ++ hint ++ [10]).
    assert (Eb : bb = (d_buf d ++ hint) ++ [10]) by (unfold bb; now rewrite app_assoc).
    set (d2 := with_line bb (length bb) dc).
    assert (S2 : static u w ps d2) by apply (static_line u w ps d bb (length bb) true S).
    destruct (output_submits u w W U ps PD PV PS d2 (d_buf d ++ hint) y1 s1 S2) as (o3 & P1 & P2 & P3 & P4).
    { exact Eb. }
    { cbn. now rewrite Eb. }
    { apply Forall_app. split; [now rewrite B|assumption]. }
    { exact C2. }
    unfold print. rewrite P1. cbn [obind fst snd app]. eexists _, _. split; [reflexivity|]. left.
    rewrite !sexecs_app. fold s1. set (s3 := sexecs u w s1 o3) in *.
    assert (Ab3 : same_above y1 s s3) by (eapply same_above_trans; [exact C3|exact P4]).
    unfold RenderSession.agrees. cbn [fst snd k_line k_idx k_reading k_done].
    split; [apply (static_line u w ps (with_had false d2) [] 0 false); now apply (static_line u w ps d2 (d_buf d2) (d_idx d2) false)|].
    cbn. repeat (split; [first [reflexivity|apply Forall_nil|apply le_n|congruence]|]).
    split; [split|].
    + cbn [k_done]. apply stacked_app. split; [apply (stacked_above w _ _ s); assumption|].
      rewrite <- B. fold y1. exact P2.
    + cbn [k_done k_reading]. rewrite height_app. cbn [height fold_right]. rewrite Z.add_0_r, Z.add_assoc. fold y1.
      rewrite <- B. exact P3.
    + eapply same_above_trans; [exact Ab|]. intros a b C. apply Ab3. unfold y1. lia.
  - assert (Ed : with_line [] 0 d = d).
    { rewrite Ln in L, B. cbn in L. assert (I0 : d_idx d = 0%nat) by lia. clear - B I0. unfold with_line. destruct d; cbn in *. congruence. }
    cbn [ostep snd]. rewrite Ed, C1. cbn [obind fst snd]. eexists _, _. split; [reflexivity|]. left. fold s1 dc.
    unfold RenderSession.agrees. cbn [fst snd k_line k_idx k_reading k_done].
    split; [exact Sd|].
    split; [cbn; congruence|]. split; [cbn; rewrite I; rewrite Ln in L; cbn in L; lia|].
    repeat (split; [first [reflexivity|apply Forall_nil|apply le_n|congruence]|]).
    split; [split; [exact St1|exact C2]|exact Ab1].
Qed.

Lemma loose_run es : forall y0 k st s0 s k', agrees y0 k st s0 s \/ loose y0 k st s0 s -> olooks_all u v k es k' ->
  exists st' o, orun u st es = Ok (st', o) /\ (agrees y0 k' st' s0 (sexecs u w s o) \/ loose y0 k' st' s0 (sexecs u w s o)).
Proof.
  induction es as [|e es IH]; intros y0 k st s0 s k' A K; inversion K; subst; cbn [orun].
  - eexists _, _. split; [reflexivity|exact A].
  - assert (X : exists st' o, ostep u st e = Ok (st', o) /\ (agrees y0 k1 st' s0 (sexecs u w s o) \/ loose y0 k1 st' s0 (sexecs u w s o))).
    { destruct A as [A|A]; [|now apply (loose_step y0 k)].
      destruct (ostep_agrees u w W U ps PD PV PS _ _ _ _ _ _ _ A H2) as (st1 & o1 & E1 & A1). eauto. }
    destruct X as (st1 & o1 & E1 & A1). rewrite E1. cbn [obind fst snd].
    destruct (IH _ _ _ _ _ _ A1 H4) as (st2 & o2 & E2 & A2). rewrite E2. cbn [obind fst snd].
    eexists _, _. split; [reflexivity|]. now rewrite sexecs_app.
Qed.

(** what the application knows about the screen *)
Definition sagrees (h : shown) (y0 : Z) (k : look) (st : bool * rdr) (s0 s : scr) : Prop :=
  match h with
  | Shown => agrees y0 k st s0 s
  | Stale => loose y0 k st s0 s
  | Cleaned => loose y0 k st s0 s /\ d_had (snd st) = true
  end.
Lemma sagrees_or h y0 k st s0 s : sagrees h y0 k st s0 s -> agrees y0 k st s0 s \/ loose y0 k st s0 s.
Proof. destruct h; cbn; tauto. Qed.
Lemma sagrees_loose h y0 k st s0 s : sagrees h y0 k st s0 s -> k_reading k = true -> loose y0 k st s0 s.
Proof. destruct h; cbn; [apply agrees_loose|tauto..]. Qed.
Lemma loose_reads y0 k st s0 s : loose y0 k st s0 s -> k_reading k = true.
Proof. intros L. apply L. Qed.
Lemma sagrees_idle h y0 k st s0 s : sagrees h y0 k st s0 s -> k_reading k = false -> agrees y0 k st s0 s.
Proof. intros A R. destruct (sagrees_or _ _ _ _ _ _ A) as [A1|A1]; [exact A1|]. apply loose_reads in A1. congruence. Qed.
Lemma sagrees_reading h y0 k st s0 s : sagrees h y0 k st s0 s -> fst st = k_reading k.
Proof. intros A. destruct (sagrees_or _ _ _ _ _ _ A) as [X|X]; [apply X|]. destruct X as (_ & _ & _ & X & Y & _). congruence. Qed.

(** one redraw that must draw *)
Lemma draw_agrees h y0 k st s0 s e k' : sagrees h y0 k st s0 s -> looks u v k e k' ->
  exists st' o, dstep u st e = Ok (st', o) /\ agrees y0 k' st' s0 (sexecs u w s o).
Proof.
  intros A L. destruct (sagrees_or _ _ _ _ _ _ A) as [A1|A1]; [now apply (dstep_agrees u w W U ps PD PV PS y0 k)|].
  destruct (loose_step y0 k st s0 s (ODraw e) k' A1 (OLDraw _ _ _ _ _ L)) as (st' & o & E & X). exists st', o. split; [exact E|].
  destruct X as [X|X]; [exact X|].
  (* a redraw in [loose_step] always gives agreement *)
  destruct A1 as (S & B & I & Rd & Rk & F & Le & St & Ab & Pg & o1 & C1 & C2 & C3). destruct st as [reading d]. cbn [fst snd] in *. subst reading.
  pose proof (height_nonneg w (k_done k)) as Hh.
  destruct (dstep_ready u w W U ps PD PV PS y0 k (true, with_had true d) s0 (sexecs u w s o1) e k') as (st2 & o2 & E2 & A2); try assumption; cbn [fst snd]; try congruence.
  - pose proof (static_line u w ps d (d_buf d) (d_idx d) true S) as Y. destruct d; exact Y.
  - apply (stacked_above w _ _ s); assumption.
  - unfold ready. cbn. rewrite (st_width _ _ _ _ S). exact C2.
  - eapply same_above_trans; [exact Ab|]. intros a b Q. apply C3. lia.
  - cbn [ostep] in E. rewrite (dstep_clean u d o1 (st_inter _ _ _ _ S) C1), E2 in E. cbn [obind fst snd] in E. injection E as <- <-.
    rewrite sexecs_app. exact A2.
Qed.
Lemma clean_loose h y0 k st s0 s : sagrees h y0 k st s0 s ->
  exists d' o, clean u (snd st) = Ok (d', o) /\
    if k_reading k then sagrees Cleaned y0 k (fst st, d') s0 (sexecs u w s o) else agrees y0 k (fst st, d') s0 (sexecs u w s o).
Proof.
  intros A. destruct (k_reading k) eqn:R.
  - pose proof (sagrees_loose _ _ _ _ _ _ A R) as (S & B & I & Rd & Rk & F & L & St & Ab & Pg & o1 & C1 & C2 & C3).
    exists (with_had true (snd st)), o1. split; [exact C1|]. cbn [sagrees snd]. split; [|reflexivity].
    pose proof (height_nonneg w (k_done k)) as Hh. cbn [fst snd].
    split; [pose proof (static_line u w ps (snd st) (d_buf (snd st)) (d_idx (snd st)) true S) as Y; destruct (snd st); exact Y|].
    repeat (split; [assumption|]).
    split; [apply (stacked_above w _ _ s); assumption|].
    split; [eapply same_above_trans; [exact Ab|]; intros a b Q; apply C3; lia|].
    split; [destruct C2 as (_ & C2); unfold cursor_at in C2; tauto|].
    exists []. cbn [snd]. split; [apply (clean_done u (snd st) o1 C1)|]. split; [exact C2|apply same_above_refl].
  - pose proof (sagrees_idle _ _ _ _ _ _ A R) as A1. pose proof (agrees_ready u w ps _ _ _ _ _ A1) as Rr.
    destruct A1 as (S & B & I & Rd & F & L & H & N & (St & Sc) & Ab).
    assert (D : drawable u ps (snd st)) by (apply (static_drawable0 u w W ps PD PV PS); [exact S|now rewrite B|now rewrite B, I]).
    destruct (clean_ready u ps (snd st) _ s D Rr) as (o2 & C1 & C2 & C3). rewrite (st_width _ _ _ _ S) in C2, C3.
    exists (with_had true (snd st)), o2. split; [exact C1|]. pose proof (height_nonneg w (k_done k)) as Hh.
    unfold RenderSession.agrees. cbn [fst snd].
    split; [pose proof (static_line u w ps (snd st) (d_buf (snd st)) (d_idx (snd st)) true S) as Y; destruct (snd st); exact Y|].
    repeat (split; [first [assumption|congruence]|]).
    split; [split|].
    + apply (stacked_above w _ _ s); assumption.
    + cbn zeta. rewrite R. exact C2.
    + eapply same_above_trans; [exact Ab|]. intros a b Q. apply C3. lia.
Qed.
End Draw.

(** ** Another prompt *)
Section Swap.
Variable u : uenv.
Variable w : Z.
Hypothesis W : 0 < w <= 9223372036854775807.
Variables ps ps' : list piece.
Let v := visible ps.
Let v' := visible ps'.
Hypothesis PD : Forall sgr_digits ps.
Hypothesis PV : Forall (plainr u) v.
Hypothesis PS : Z.of_nat (length v) + 1 < w.
Hypothesis PD' : Forall sgr_digits ps'.
Hypothesis PV' : Forall (plainr u) v'.
Hypothesis PS' : Z.of_nat (length v') + 1 < w.

Lemma static_swap d : static u w ps d -> static u w ps' (with_prompt (prompt_runes ps') d).
Proof. intros []. constructor; try assumption. reflexivity. Qed.

Lemma clean_swap d : static u w ps d -> Forall (plainr u) (d_buf d) -> (d_idx d <= length (d_buf d))%nat ->
  d_had d = true \/ same_row w (d_idx d) v v' ->
  forall o1, clean u d = Ok (with_had true d, o1) ->
  clean u (with_prompt (prompt_runes ps') d) = Ok (with_had true (with_prompt (prompt_runes ps') d), o1).
Proof.
  intros S F I H o1. set (d' := with_prompt _ d).
  assert (D : drawable u ps d) by now apply (static_drawable0 u w W ps PD PV PS).
  assert (D' : drawable u ps' d') by (apply (static_drawable0 u w W ps' PD' PV' PS'); [now apply static_swap|exact F|exact I]).
  unfold clean. rewrite (idxLine_ok u ps d D), (idxLine_ok u ps' d' D'). cbn [obind].
  change (d_had d') with (d_had d). change (d_inter d') with (d_inter d). change (d_idx d') with (d_idx d). change (d_width d') with (d_width d).
  rewrite (st_inter _ _ _ _ S). cbn [negb]. rewrite orb_false_r. destruct (d_had d) eqn:Hd.
  - intros E. injection E as _ <-. f_equal. f_equal. unfold d'. clear - Hd. unfold with_had, with_prompt. destruct d; cbn in *; now subst.
  - destruct H as [H|H]; [discriminate|]. unfold cleanOutput. change (d_width d') with (d_width d). rewrite (st_width _ _ _ _ S) in *.
    destruct (Z.eqb_spec w 0); [lia|]. cbn [obind]. intros E. injection E as E1. rewrite <- E1. f_equal. f_equal.
    unfold same_row in H. rewrite !Nat2Z.inj_add in H. fold v v'. now rewrite H.
Qed.

Lemma swap_agrees h y0 k st s0 s : sagrees u w ps h y0 k st s0 s ->
  (k_reading k = true -> h <> Cleaned -> same_row w (k_idx k) v v') ->
  sagrees u w ps' (next_shown (SPrompt ps') (k_reading k) false h) y0 k (fst st, with_prompt (prompt_runes ps') (snd st)) s0 s.
Proof.
  intros A H. cbn [next_shown]. destruct (k_reading k) eqn:R.
  - pose proof (sagrees_loose u w W ps PD PV PS _ _ _ _ _ _ A R) as (S & B & I & Rd & Rk & F & L & St & Ab & Pg & o1 & C1 & C2 & C3).
    assert (Lo : loose u w ps' y0 k (fst st, with_prompt (prompt_runes ps') (snd st)) s0 s).
    { split; [now apply static_swap|]. repeat (split; [assumption|]). exists o1. cbn [snd]. split; [|now split].
      apply clean_swap; [exact S|now rewrite B|now rewrite B, I| |exact C1].
      destruct h; [right; rewrite I; now apply H|right; rewrite I; now apply H|left; apply A]. }
    destruct h; [exact Lo|exact Lo|]. split; [exact Lo|apply A].
  - apply (sagrees_idle u w W ps) in A; [|exact R]. destruct A as (S & B & I & Rd & F & L & Hh & N & (St & Sc) & Ab). cbn zeta in Sc. rewrite R in Sc.
    split; [now apply static_swap|]. cbn [fst snd]. change (d_buf (with_prompt (prompt_runes ps') (snd st))) with (d_buf (snd st)).
    repeat (split; [first [assumption|congruence]|]). split; [|exact Ab]. split; [exact St|]. cbn zeta. rewrite R. exact Sc.
Qed.
End Swap.

(** ** Sessions *)
Section Sess.
Variable cf : ocfg.
Hypothesis C : plain_session cf.
Hypothesis W : 0 < oc_w cf <= 9223372036854775807.
Hypothesis U : uenv_ok (oc_u cf).
Notation u := (oc_u cf).
Notation w := (oc_w cf).

Lemma swap_session is : forall ps o reading h done st y0 s0 s t o' acts v' h', good_prompt cf ps -> at_prompt cf o ->
  swap_turn cf (visible ps) is o reading h -> swap_leaves cf (visible ps) is o reading h t o' acts v' h' ->
  sagrees u w ps h y0 {| k_done := done; k_line := rb_buf (o_b o); k_idx := rb_idx (o_b o); k_reading := reading |} st s0 s ->
  exists ps' st' out, v' = visible ps' /\ good_prompt cf ps' /\ pses_run cf (o, st) (map calls is) = Ok ((o', st'), out, acts) /\ at_prompt cf o' /\
    sagrees u w ps' h' y0 {| k_done := done ++ t; k_line := rb_buf (o_b o'); k_idx := rb_idx (o_b o'); k_reading := fst st' |} st' s0 (sexecs u w s out).
Proof.
  induction is as [|i is IH]; intros ps o reading h done st y0 s0 s t o' acts v' h' P A T L G; inversion L; subst; clear L;
    pose proof P as (PD & PV & PS).
  - exists ps, st, []. cbn [map pses_run]. split; [reflexivity|]. split; [exact P|]. split; [reflexivity|]. split; [exact A|]. rewrite app_nil_r.
    pose proof (sagrees_reading u w W ps _ _ _ _ _ _ G) as R. cbn in R. rewrite R. exact G.
  - (* Readline *)
    match goal with H : swap_leaves _ _ is _ _ _ _ _ _ _ _ |- _ => rename H into HL end. destruct T as (_ & T).
    destruct (draw_agrees u w W U ps PD PV PS _ y0 _ st s0 s VRead _ G (LRead _ _ _)) as (st1 & o1 & E1 & G1).
    cbn [map calls pses_run pses_step ses_step ostep]. rewrite E1. cbn [obind fst snd].
    destruct (IH ps o true Shown done st1 y0 s0 _ t o' acts v' h' P A T HL G1) as (ps' & st' & out & V & P' & E2 & A2 & G2). rewrite E2. cbn [obind].
    eexists ps', _, _. repeat (split; [first [eassumption|reflexivity]|]). now rewrite sexecs_app.
  - (* output *)
    match goal with H : swap_leaves _ _ is _ _ _ _ _ _ _ _ |- _ => rename H into HL end.
    match goal with H : Forall (Forall _) ls |- _ => rename H into HF end. destruct T as (_ & T).
    destruct (draw_agrees u w W U ps PD PV PS _ y0 _ st s0 s (VOut (flat_map (fun l => l ++ [10]) ls)) _ G (LOut _ _ _ ls HF)) as (st1 & o1 & E1 & G1).
    cbn [map calls pses_run pses_step ses_step ostep]. rewrite E1. cbn [obind fst snd].
    destruct (IH ps o reading Shown (done ++ ls) st1 y0 s0 _ t0 o' acts v' h' P A T HL G1) as (ps' & st' & out & V & P' & E2 & A2 & G2). rewrite E2. cbn [obind].
    eexists ps', _, _. repeat (split; [first [eassumption|reflexivity]|]). rewrite sexecs_app, app_assoc. exact G2.
  - (* a key *)
    match goal with H : swap_leaves _ _ is _ _ _ _ _ _ _ _ |- _ => rename H into HL end.
    match goal with H : op_step _ _ _ = _ |- _ => rename H into HS end. destruct T as (_ & K & T).
    destruct (key_case cf C (visible ps) o r o1 a1 done A K HS) as (A1 & es & D & Lk).
    destruct (loose_run u w W U ps PD PV PS es y0 _ st s0 s _ (sagrees_or u w W ps _ _ _ _ _ _ G) Lk) as (st1 & out1 & E1 & G1).
    assert (G1' : sagrees u w ps (next_shown (SIn (IKey r)) true (match results a1 with [] => false | _ => true end) h) y0 (look_of (done ++ flat_map (text_of cf (visible ps)) a1) o1 a1) st1 s0 (sexecs u w s out1)).
    { destruct G1 as [G1|G1].
      - cbn [next_shown]. unfold look_of in *. destruct (results a1); [|exact G1].
        destruct h; [exact G1|apply (agrees_loose u w W ps PD PV PS); [exact G1|reflexivity]..].
      - pose proof (loose_reads u w ps _ _ _ _ _ G1) as R. unfold look_of in R, G1 |- *. cbn [k_reading] in R.
        destruct (results a1) eqn:Ra; [|discriminate]. cbn [next_shown].
        destruct h; [|exact G1..].
        destruct (orun_agrees u w W U ps PD PV PS es y0 _ st s0 s _ G Lk) as (st2 & out2 & E2 & G2). rewrite E1 in E2. injection E2 as <- <-.
        unfold look_of in G2. rewrite Ra in G2. exact G2. }
    cbn [map calls pses_run pses_step ses_step]. rewrite D. cbn [obind]. rewrite E1. cbn [obind]. rewrite HS. cbn [obind fst snd].
    specialize (T o1 a1 HS). cbn zeta in T. cbn zeta in HL.
    assert (Ek : (match results a1 with [] => true | _ => false end) = negb (match results a1 with [] => false | _ => true end)) by now destruct (results a1).
    unfold look_of in G1'. rewrite Ek in G1'.
    destruct (IH ps o1 _ _ _ st1 y0 s0 _ t0 o' acts0 v' h' P A1 T HL G1') as (ps' & st' & out & V & P' & E2 & A2 & G2). rewrite E2. cbn [obind].
    eexists ps', _, _. repeat (split; [first [eassumption|reflexivity]|]). rewrite sexecs_app, app_assoc. exact G2.
  - (* SetPrompt *)
    match goal with H : swap_leaves _ _ is _ _ _ _ _ _ _ _ |- _ => rename H into HL end. destruct T as (Pn & Sr & T).
    pose proof Pn as (PD' & PV' & PS').
    pose proof (swap_agrees u w W ps ps0 PD PV PS PD' PV' PS' h y0 _ st s0 s G Sr) as G1. cbn [k_reading] in G1.
    cbn [map calls pses_run pses_step]. cbn [obind fst snd].
    destruct (IH ps0 o reading _ done _ y0 s0 _ t o' acts v' h' Pn A T HL G1) as (ps' & st' & out & V & P' & E2 & A2 & G2). rewrite E2. cbn [obind].
    eexists ps', _, _. repeat (split; [first [eassumption|reflexivity]|]). exact G2.
  - (* Refresh *)
    match goal with H : swap_leaves _ _ is _ _ _ _ _ _ _ _ |- _ => rename H into HL end. cbn [swap_turn next_shown] in T.
    cbn [map calls pses_run pses_step]. pose proof (sagrees_reading u w W ps _ _ _ _ _ _ G) as R. cbn [k_reading] in R. rewrite R. destruct reading.
    + destruct (draw_agrees u w W U ps PD PV PS _ y0 _ st s0 s VRead _ G (LRead _ _ _)) as (st1 & o1 & E1 & G1).
      destruct st as [rd d]. cbn [fst snd] in *. subst rd. cbn [dstep] in E1.
      destruct (refresh u d (d_buf d) (d_idx d) []) as [x| |]; cbn [obind] in E1; try discriminate. injection E1 as <- <-. cbn [obind fst snd].
      destruct (IH ps o true Shown done _ y0 s0 _ t o' acts v' h' P A T HL G1) as (ps' & st' & out & V & P' & E2 & A2 & G2). rewrite E2. cbn [obind].
      eexists ps', _, _. repeat (split; [first [eassumption|reflexivity]|]). now rewrite sexecs_app.
    + apply (sagrees_idle u w W ps) in G; [|reflexivity]. cbn [obind].
      destruct (IH ps o false Shown done st y0 s0 _ t o' acts v' h' P A T HL G) as (ps' & st' & out & V & P' & E2 & A2 & G2). rewrite E2. cbn [obind].
      eexists ps', _, _. repeat (split; [first [eassumption|reflexivity]|]). exact G2.
  - (* Clean *)
    match goal with H : swap_leaves _ _ is _ _ _ _ _ _ _ _ |- _ => rename H into HL end. cbn [swap_turn] in T.
    cbn [map calls pses_run pses_step].
    destruct (clean_loose u w W ps PD PV PS h y0 _ st s0 s G) as (d1 & o1 & E1 & G1). cbn [k_reading] in G1. rewrite E1. cbn [obind fst snd].
    assert (G1' : sagrees u w ps (next_shown SClean reading false h) y0 {| k_done := done; k_line := rb_buf (o_b o); k_idx := rb_idx (o_b o); k_reading := reading |} (fst st, d1) s0 (sexecs u w s o1)).
    { cbn [next_shown]. destruct reading; exact G1. }
    destruct (IH ps o reading _ done _ y0 s0 _ t o' acts v' h' P A T HL G1') as (ps' & st' & out & V & P' & E2 & A2 & G2). rewrite E2. cbn [obind].
    eexists ps', _, _. repeat (split; [first [eassumption|reflexivity]|]). now rewrite sexecs_app.
Qed.
End Sess.
