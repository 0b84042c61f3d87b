(** Proofs about the screen during a history search. *)
From Verif Require Import Base ListAux RunesModel RunesSpec RuneBufModel RuneBufSpec HistoryModel HistoryProofs ScreenModel RenderModel RenderSpec RenderProofs RenderDraw RenderSession RenderMore MenuSpec MenuProofs MenuMore OpModel OpSpec OpProofs OpStep OutModel OutSpec OutProofs SeekModel SeekSpec.
Open Scope Z_scope.

(** ** Drawing over a status *)
Lemma clean_over u ps d y0 s : drawable u ps d -> d_had d = false ->
  cursor_at (d_width d) y0 (Z.of_nat (length (visible ps) + d_idx d)) s ->
  exists o, clean u d = Ok (with_had true d, o) /\ free_from (d_width d) y0 (sexecs u (d_width d) s o) /\ same_above y0 s (sexecs u (d_width d) s o).
Proof.
  intros D H (C1 & C2 & C3 & C4). pose proof (dr_width _ _ _ D) as W.
  unfold clean. rewrite (idxLine_ok u ps d D). cbn [obind]. rewrite H, (dr_inter _ _ _ D). cbn [orb negb].
  unfold cleanOutput. destruct (Z.eqb_spec (d_width d) 0); [lia|]. cbn [obind].
  eexists. split; [reflexivity|]. match goal with |- context [Z.to_nat ?l] => set (line := l) in * end.
  destruct (clean_all u (d_width d) s y0 line C4) as (A & B).
  - apply Z.div_pos; lia.
  - rewrite C1. unfold row_of, line. f_equal. f_equal. lia.
  - split; [apply (cleaned_free ps); [lia|exact A]|exact B].
Qed.

Lemma refresh_split u d o1 b i own x y : d_inter d = true -> clean u d = Ok (with_had true d, o1) ->
  refresh u (with_had true d) b i own = Ok (x, y) -> refresh u d b i own = Ok (x, o1 ++ y).
Proof.
  intros Di Cl R. unfold refresh in *. cbn [with_had d_inter] in R. rewrite Di in *. cbn [negb] in *. rewrite Cl. cbn [obind fst snd].
  assert (E : clean u (with_had true d) = Ok (with_had true d, [])).
  { unfold clean in *. apply obind_ok in Cl. destruct Cl as (l & Il & _).
    change (idxLine u (with_had true d) (d_width (with_had true d))) with (idxLine u d (d_width d)). rewrite Il. reflexivity. }
  rewrite E in R. cbn [obind fst snd app] in R. apply obind_ok in R. destruct R as (p & P & R). rewrite P. cbn [obind fst snd].
  injection R as <- <-. now rewrite app_assoc.
Qed.

Lemma dstep_split u d o1 e st' o2 : d_inter d = true -> clean u d = Ok (with_had true d, o1) ->
  dstep u (true, with_had true d) e = Ok (st', o2) -> dstep u (true, d) e = Ok (st', o1 ++ o2).
Proof.
  intros Di Cl R. destruct e as [|b i|hint| |text]; cbn [dstep] in *; apply obind_ok in R; destruct R as ([d' y] & R & E); injection E as <- <-.
  - change (d_buf (with_had true d)) with (d_buf d) in R. change (d_idx (with_had true d)) with (d_idx d) in R.
    rewrite (refresh_split u d o1 _ _ _ _ _ Di Cl R). reflexivity.
  - rewrite (refresh_split u d o1 _ _ _ _ _ Di Cl R). reflexivity.
  - unfold submit in *. change (d_buf (with_had true d)) with (d_buf d) in R. apply obind_ok in R. destruct R as ([a ya] & Ra & R).
    rewrite (refresh_split u d o1 _ _ _ _ _ Di Cl Ra). cbn [obind fst snd] in *. apply obind_ok in R. destruct R as ([c yc] & Rc & R).
    rewrite Rc. cbn [obind fst snd] in *. injection R as <- <-. now rewrite app_assoc.
  - unfold submit_unique in *. change (d_buf (with_had true d)) with (d_buf d) in R. apply obind_ok in R. destruct R as ([a ya] & Ra & R).
    rewrite (refresh_split u d o1 _ _ _ _ _ Di Cl Ra). cbn [obind fst snd] in *. apply obind_ok in R. destruct R as ([c yc] & Rc & R).
    rewrite Rc. cbn [obind fst snd] in *. injection R as <- <-. now rewrite app_assoc.
  - change (d_buf (with_had true d)) with (d_buf d) in R. change (d_idx (with_had true d)) with (d_idx d) in R.
    rewrite (refresh_split u d o1 _ _ _ _ _ Di Cl R). reflexivity.
Qed.

Lemma self_coloured b : coloured b b.
Proof.
  exists (map Vis b). induction b as [|x b (A & B & C)]; [repeat split; constructor|].
  unfold prompt_runes, visible in *. cbn. rewrite <- A, B. repeat split. constructor; [exact I|exact C].
Qed.

(** what each event does to the view *)
Inductive slooks (cf : ocfg) (v : list Z) : look * option (list Z) -> sev -> look * option (list Z) -> Prop :=
| SLDraw k e k' : olooks (oc_u cf) v k e k' -> slooks cf v (k, None) (SO e) (k', None)
| SLOver k t e k' : looks (oc_u cf) v k e k' -> slooks cf v (k, Some t) (SO (ODraw e)) (k', None)
| SLBell k t : slooks cf v (k, Some t) (SO OBell) (k, Some t)
| SLStatus k t x s b : k_reading k = true -> rb_buf b = k_line k -> rb_idx b = k_idx k ->
    x < 0 \/ x = Z.of_nat (k_idx k) ->
    (let w := oc_w cf in let P := Z.of_nat (length v) in let n := Z.of_nat (length (k_line k)) in let c := P + Z.of_nat (k_idx k) in
     0 < P + n <= 9223372036854775807 /\ ~ (k_idx k = length (k_line k) /\ (P + n) mod w = 0) /\
     (s_ms s = 0%nat \/ ((P + Z.of_nat (s_ms s)) / w = c / w /\ (P + Z.of_nat (s_me s)) / w = c / w)) /\
     Z.of_nat (length (status (s_fail s) (s_bck s) (s_data s))) + 1 < w) ->
    marks_ok s b -> Forall (plainr (oc_u cf)) (s_data s) ->
    slooks cf v (k, t) (SStatus x s b) (k, Some (status (s_fail s) (s_bck s) (s_data s))).
Inductive slooks_all (cf : ocfg) (v : list Z) : look * option (list Z) -> list sev -> look * option (list Z) -> Prop :=
| SLNil k : slooks_all cf v k [] k
| SLCons k e k1 es k2 : slooks cf v k e k1 -> slooks_all cf v k1 es k2 -> slooks_all cf v k (e :: es) k2.

Lemma slooks_app cf v a : forall b k k1 k2, slooks_all cf v k a k1 -> slooks_all cf v k1 b k2 -> slooks_all cf v k (a ++ b) k2.
Proof.
  induction a as [|e a IH]; intros b k k1 k2 A B; inversion A; subst; [exact B|]. cbn [app].
  econstructor; [eassumption|]. eapply IH; eassumption.
Qed.

Lemma plain_events cf v es : forall k k', olooks_all (oc_u cf) v k es k' -> slooks_all cf v (k, None) (map SO es) (k', None).
Proof.
  induction es as [|e es IH]; intros k k' L; inversion L; subst; [constructor|]. cbn [map]. econstructor; [apply SLDraw; eassumption|]. now apply IH.
Qed.

(** redraws and bells over a status: it is gone unless there was nothing but bells *)
Definition drawing (e : oev) : Prop := match e with ODraw _ | OBell => True | _ => False end.
Lemma over_events cf v es : forall k k' t, Forall drawing es -> olooks_all (oc_u cf) v k es k' ->
  exists t', slooks_all cf v (k, Some t) (map SO es) (k', t') /\ (t' = None \/ k' = k /\ t' = Some t).
Proof.
  induction es as [|e es IH]; intros k k' t D L; inversion L; subst.
  - exists (Some t). split; [constructor|auto].
  - inversion D; subst. cbn [map]. destruct e; cbn [drawing] in *; try contradiction.
    + exists None. split; [|now left]. match goal with H : olooks _ _ _ _ ?k1 |- _ => apply (SLCons cf v _ _ (k1, None)); [apply SLOver; inversion H; subst; assumption|now apply plain_events] end.
    + match goal with H : olooks _ _ _ _ _ |- _ => inversion H; subst end.
      destruct (IH k1 k' t) as (t' & A & B); [assumption|assumption|]. exists t'. split; [econstructor; [apply SLBell|exact A]|exact B].
Qed.

Section Draw.
Variable cf : ocfg.
Notation u := (oc_u cf).
Notation w := (oc_w cf).
Hypothesis W : 0 < w <= 9223372036854775807.
Hypothesis U : uenv_ok u.
Hypothesis As : forall r, 32 <= r < 127 -> Width u r = 1%nat.
Variable ps : list piece.
Let v := visible ps.
Hypothesis PD : Forall sgr_digits ps.
Hypothesis PV : Forall (plainr u) v.
Hypothesis PS : Z.of_nat (length v) + 1 < w.
Hypothesis Pr : oc_prompt cf = prompt_runes ps.
Notation agrees := (agrees u w ps).

Definition sagrees (y0 : Z) (k : look) (t : option (list Z)) (st : bool * rdr) (s0 s : scr) : Prop :=
  match t with
  | None => agrees y0 k st s0 s
  | Some text =>
      static u w ps (snd st) /\ d_buf (snd st) = k_line k /\ d_idx (snd st) = k_idx k /\ fst st = true /\ k_reading k = true /\
      Forall (plainr u) (k_line k) /\ (k_idx k <= length (k_line k))%nat /\ d_had (snd st) = false /\
      seek_screen w v y0 k t s /\ same_above y0 s0 s
  end.

(** line and cursor are on the screen, with anything below *)
Definition overlaid (y0 : Z) (k : look) (st : bool * rdr) (s0 s : scr) : Prop :=
  static u w ps (snd st) /\ d_buf (snd st) = k_line k /\ d_idx (snd st) = k_idx k /\ fst st = true /\ k_reading k = true /\
  Forall (plainr u) (k_line k) /\ (k_idx k <= length (k_line k))%nat /\ d_had (snd st) = false /\
  stacked w y0 (k_done k) s /\
  line_shown w (y0 + height w (k_done k)) (v ++ k_line k) (Z.of_nat (length v) + Z.of_nat (k_idx k)) s /\ same_above y0 s0 s.

Lemma agrees_overlaid y0 k t st s0 s : sagrees y0 k t st s0 s -> k_reading k = true -> overlaid y0 k st s0 s.
Proof.
  intros A Kr. destruct t; cbn [sagrees] in A.
  - destruct A as (A1 & A2 & A3 & A4 & A5 & A6 & A7 & A8 & (A9 & A10 & A11) & A12). unfold overlaid. tauto.
  - destruct A as (A1 & A2 & A3 & A4 & A5 & A6 & A7 & A8 & (A9 & A10) & A12). cbn zeta in A10. unfold overlaid. rewrite Kr in *.
    repeat (split; [first [assumption|reflexivity]|]). split; [now apply A7|]. split; [exact A9|]. split; [|exact A12].
    destruct A10 as (A10 & A11). split; [intros y z Hy Hz; apply A10; lia|]. now rewrite <- Nat2Z.inj_add.
Qed.

Lemma dstep_over y0 k st s0 s e k' : overlaid y0 k st s0 s -> looks u v k e k' ->
  exists st' o, dstep u st e = Ok (st', o) /\ agrees y0 k' st' s0 (sexecs u w s o).
Proof.
  intros (S & B & I & Rd & Kr & F & L & H & St & (_ & Cu) & Ab) K. destruct st as [reading d]. cbn [fst snd] in *. subst reading.
  assert (D : drawable u ps d) by (apply (static_drawable0 u w W ps PD PV PS); [exact S|now rewrite B|now rewrite B, I]).
  set (y1 := y0 + height w (k_done k)) in *. pose proof (height_nonneg w (k_done k)) as Hh.
  destruct (clean_over u ps d y1 s D H) as (o1 & C1 & C2 & C3).
  { rewrite (st_width _ _ _ _ S), I, Nat2Z.inj_add. exact Cu. }
  rewrite (st_width _ _ _ _ S) in C2, C3.
  destruct (dstep_ready u w W U ps PD PV PS y0 k (true, with_had true d) s0 (sexecs u w s o1) e k') as (st' & o2 & E & A).
  - pose proof (static_line u w ps d (d_buf d) (d_idx d) true S) as X. destruct d; exact X.
  - exact B.
  - exact I.
  - now rewrite Kr.
  - exact F.
  - exact L.
  - congruence.
  - apply (stacked_above w _ _ s); assumption.
  - unfold ready. cbn. rewrite (st_width _ _ _ _ S). exact C2.
  - intros X. congruence.
  - eapply same_above_trans; [exact Ab|]. intros a b C. apply C3. unfold y1. lia.
  - exact K.
  - exists st', (o1 ++ o2). split; [exact (dstep_split u d o1 e st' o2 (st_inter _ _ _ _ S) C1 E)|]. now rewrite sexecs_app.
Qed.

Lemma rdr_drawable b : Forall (plainr u) (rb_buf b) -> (rb_idx b <= length (rb_buf b))%nat -> drawable u ps (op_rdr cf b).
Proof.
  intros B I. constructor; cbn; try assumption; try reflexivity.
  - fold v. lia.
  - intros _. exact PS.
  - apply self_coloured.
Qed.

Lemma status_agrees y0 k st s0 s x sr b : overlaid y0 k st s0 s -> rb_buf b = k_line k -> rb_idx b = k_idx k ->
  x < 0 \/ x = Z.of_nat (k_idx k) ->
  (let P := Z.of_nat (length v) in let n := Z.of_nat (length (k_line k)) in let c := P + Z.of_nat (k_idx k) in
   0 < P + n <= 9223372036854775807 /\ ~ (k_idx k = length (k_line k) /\ (P + n) mod w = 0) /\
   (s_ms sr = 0%nat \/ ((P + Z.of_nat (s_ms sr)) / w = c / w /\ (P + Z.of_nat (s_me sr)) / w = c / w)) /\
   Z.of_nat (length (status (s_fail sr) (s_bck sr) (s_data sr))) + 1 < w) ->
  marks_ok sr b -> Forall (plainr u) (s_data sr) ->
  exists out, search_out cf x sr b = Ok out /\
    sagrees y0 k (Some (status (s_fail sr) (s_bck sr) (s_data sr))) st s0 (sexecs u w s out).
Proof.
  intros (S & B & I & Rd & Kr & F & L & H & St & Ls & Ab) Bb Bi Ex (Hn & He & Hm & Ht) M Fd.
  set (y1 := y0 + height w (k_done k)) in *. pose proof (height_nonneg w (k_done k)) as Hh.
  assert (D : drawable u ps (op_rdr cf b)) by (apply rdr_drawable; [now rewrite Bb|now rewrite Bb, Bi]).
  destruct (MenuProofs.search_ok cf ps x sr b y1 s U As D) as (out & E & Q1 & Q2 & Q3).
  - rewrite Bb, Bi. exact Ls.
  - rewrite Bi. exact Ex.
  - rewrite Bb. fold v. lia.
  - rewrite Bb, Bi. exact He.
  - rewrite Bb, Bi. fold v. destruct Hm as [Hm|Hm]; [now left|].
    destruct (Nat.eq_dec (s_ms sr) 0) as [Z0|Z0]; [now left|]. right. split; [|exact Hm]. rewrite <- Bb. apply M. lia.
  - exact Fd.
  - exact Ht.
  - rewrite Bb. fold v. lia.
  - exists out. split; [exact E|]. cbn [sagrees]. cbn zeta in Q1, Q2, Q3. rewrite Bb, Bi in Q1. rewrite Bb in Q3. fold v in Q1, Q3.
    repeat (split; [assumption|]). split; [|eapply same_above_trans; [exact Ab|]; intros a c C; apply Q2; unfold y1; lia].
    cbn [seek_screen]. fold y1. split; [apply (stacked_above w _ _ s); assumption|]. split; assumption.
Qed.

Lemma sstep_agrees y0 k t st s0 s e k' t' : sagrees y0 k t st s0 s -> slooks cf v (k, t) e (k', t') ->
  exists st' o, sstep cf st e = Ok (st', o) /\ sagrees y0 k' t' st' s0 (sexecs u w s o).
Proof.
  intros A K. inversion K; subst; clear K; cbn [sstep].
  - apply (ostep_agrees u w W U ps PD PV PS y0 k st s0 s e0 k'); assumption.
  - eapply dstep_over; [apply (agrees_overlaid _ _ _ _ _ _ A)|eassumption]. apply A.
  - cbn [ostep]. eexists _, _. split; [reflexivity|].
    assert (E : sexecs u w s [7] = s).
    { destruct A as (_ & _ & _ & _ & _ & _ & _ & _ & (_ & (_ & (_ & _ & _ & Pg)) & _) & _). unfold sexecs. cbn [fold_left]. unfold sexec. rewrite Pg. reflexivity. }
    rewrite E. exact A.
  - destruct (status_agrees y0 k' st s0 s x s1 b) as (out & E & G); try assumption; [now apply (agrees_overlaid _ _ t)|]. rewrite E. cbn [obind].
    eexists _, _. split; [reflexivity|exact G].
Qed.

Lemma srun_agrees es : forall y0 k t st s0 s k' t', sagrees y0 k t st s0 s -> slooks_all cf v (k, t) es (k', t') ->
  exists st' o, srun cf st es = Ok (st', o) /\ sagrees y0 k' t' st' s0 (sexecs u w s o).
Proof.
  induction es as [|e es IH]; intros y0 k t st s0 s k' t' A K; inversion K; subst; cbn [srun].
  - eexists _, _. split; [reflexivity|exact A].
  - match goal with H : slooks _ _ _ _ ?x, G : slooks_all _ _ ?x _ _ |- _ => destruct x as [k1 t1]; rename H into H1; rename G into H2 end.
    destruct (sstep_agrees _ _ _ _ _ _ _ _ _ A H1) as (st1 & o1 & E1 & A1). rewrite E1. cbn [obind fst snd].
    destruct (IH _ _ _ _ _ _ _ _ A1 H2) as (st2 & o2 & E2 & A2). rewrite E2. cbn [obind fst snd].
    eexists _, _. split; [reflexivity|]. now rewrite sexecs_app.
Qed.
End Draw.

(** ** One key *)
Definition s_exit (s : srch) : srch :=
  {| s_in := false; s_fail := false; s_bck := s_bck s; s_src := None; s_data := []; s_ms := 0; s_me := 0 |}.
(** the state with the search ended *)
Definition strip (o : op) : op := with_s (s_exit (o_s o)) o.
Lemma exit_strip o : ExitSearchMode false o = Ok (strip o).
Proof. reflexivity. Qed.

Record at_seek (cf : ocfg) (o : op) : Prop := {
  as_ap : at_prompt cf (strip o);
  as_data : Forall (plainr (oc_u cf)) (s_data (o_s o));
  as_vp : o_vp o = None
}.

Lemma prompt_s cf o s : at_prompt cf o -> s_in s = false -> at_prompt cf (with_s s o).
Proof. intros [] I. constructor; assumption. Qed.
Lemma strip_s cf o s : at_prompt cf (strip o) -> at_prompt cf (strip (with_s s o)).
Proof. intros []. constructor; assumption. Qed.
Lemma strip_id cf o : at_prompt cf (strip o) -> s_in (o_s o) = false -> at_prompt cf o.
Proof. intros [] I. constructor; assumption. Qed.
Lemma id_strip cf o : at_prompt cf o -> at_prompt cf (strip o).
Proof. intros []. constructor; try assumption. reflexivity. Qed.

Section Key.
Variable cf : ocfg.
Variable ps : list piece.
Hypothesis S : seek_session cf ps.
Let v := visible ps.
Notation u := (oc_u cf).

Lemma seek_plain : plain_session cf.
Proof. destruct S. constructor; try assumption. intros f l i r l' p X. rewrite (gc_listen _ ss_good) in X. discriminate. Qed.

Lemma draws_drawing r o es : switch_draws cf r o = Ok es -> (r =? CharInterrupt) = false ->
  ((r =? CharDelete) && (length (rb_buf (o_b o)) =? 0)%nat) = false -> Forall drawing es.
Proof.
  intros E I D. unfold switch_draws in E. cbn zeta in E.
  assert (O : forall x, once x = Ok es -> Forall drawing es).
  { intros x X. unfold once in X. apply obind_ok in X. destruct X as (b & _ & X). injection X as <-. repeat constructor. }
  rewrite I in E.
  destruct (r =? CharBell); [injection E as <-; constructor|].
  destruct (r =? CharTab); [injection E as <-; repeat constructor|].
  do 5 (match type of E with (if ?c then _ else _) = _ => destruct c end; [now apply O in E|]).
  destruct (r =? MetaDelete); [match type of E with (if ?c then _ else _) = _ => destruct c end; [injection E as <-; constructor|now apply O in E]|].
  do 2 (match type of E with (if ?c then _ else _) = _ => destruct c end; [now apply O in E|]).
  destruct ((r =? CharBackspace) || (r =? CharCtrlH)); [match type of E with (if ?c then _ else _) = _ => destruct c end; [injection E as <-; repeat constructor|now apply O in E]|].
  destruct ((r =? MetaBackspace) || (r =? CharCtrlW)); [now apply O in E|].
  destruct (r =? CharCtrlY); [destruct (rb_kill (o_b o)); [injection E as <-; constructor|now apply O in E]|].
  destruct ((r =? CharEnter) || (r =? CharCtrlJ)); [injection E as <-; repeat constructor|].
  do 2 (match type of E with (if ?c then _ else _) = _ => destruct c end; [now apply O in E|]).
  do 2 (match type of E with (if ?c then _ else _) = _ => destruct c end;
    [apply obind_ok in E; destruct E as (x & _ & E); destruct (fst x); [now apply O in E|injection E as <-; repeat constructor]|]).
  destruct (r =? CharDelete); [|now apply O in E].
  destruct (length (rb_buf (o_b o))); [discriminate|]. cbn [Nat.ltb Nat.leb] in E.
  apply obind_ok in E. destruct E as (x & _ & E). injection E as <-. constructor; [exact Logic.I|]. destruct (snd x); repeat constructor.
Qed.

(** the status is drawn under the line of [o'] *)
Lemma status_case k t x o' : k_reading k = true -> rb_buf (o_b o') = k_line k -> rb_idx (o_b o') = k_idx k ->
  x < 0 \/ x = Z.of_nat (k_idx k) -> s_in (o_s o') = true -> owf cf o' -> o_end o' = false -> status_fits cf v o' -> Forall (plainr u) (s_data (o_s o')) ->
  slooks cf v (k, t) (SStatus x (o_s o') (o_b o')) (k, status_of o').
Proof.
  intros Kr B I X Si R En F D. unfold status_of. rewrite Si. apply SLStatus; try assumption.
  - unfold status_fits in F. rewrite B, I in F. exact (F Si).
  - destruct R as [R|R]; [congruence|]. apply (r_s _ _ R Si).
Qed.

Lemma search_case isChange o o' done t : s_in (o_s o) = true -> at_seek cf o -> search cf isChange o = Ok o' ->
  owf cf o' -> status_fits cf v o' ->
  at_seek cf o' /\ s_in (o_s o') = true /\ exists es, search_draws cf isChange o = Ok es /\
    slooks_all cf v (look_of done o [], t) es (look_of done o' [], status_of o').
Proof.
  intros Si A E R F. pose proof (as_ap _ _ A) as P. assert (Eo : o_end o = false) by exact (ap_end _ _ P).
  unfold search_draws. rewrite E. cbn [obind]. unfold search in E.
  destruct (s_data (o_s o)) as [|d0 d] eqn:Da.
  - unfold SearchRefresh in E. apply obind_ok in E. destruct E as (? & _ & E). injection E as <-.
    assert (Si' : s_in (o_s (with_s (set_fail (-1) (set_found (o_s o))) o)) = true) by exact Si.
    split; [|split; [exact Si'|]].
    + constructor; [apply strip_s; exact P|cbn; rewrite Da; constructor|exact (as_vp _ _ A)].
    + eexists. split; [reflexivity|]. econstructor; [|constructor].
      apply status_case; try assumption; try reflexivity; [left; lia|]. cbn. rewrite Da. constructor.
  - apply obind_ok in E. destruct E as (r & Fd & E). rewrite Fd. cbn [obind]. destruct r as [[idx id]|].
    + apply obind_ok in E. destruct E as (x & Dx & E). unfold SearchRefresh in E. apply obind_ok in E. destruct E as (? & _ & E). injection E as <-.
      set (c := if s_bck (o_s o) then Z.to_nat idx else (Z.to_nat idx + length (d0 :: d))%nat) in *.
      match goal with |- context [status_of ?x] => set (o' := x) in * end.
      assert (Si' : s_in (o_s o') = true) by exact Si. assert (En : o_end o' = false) by exact Eo.
      assert (Pl : Forall (plainr u) (rb_buf (o_b o'))) by (apply show_of; exact (deref_of _ _ _ _ (ap_hist _ _ P) Dx)).
      assert (In' : inside (o_b o')) by (destruct R as [R|R]; [congruence|exact (r_in _ _ R)]).
      split; [|split; [exact Si'|]].
      * constructor; [|cbn; rewrite Da; rewrite <- Da; apply (as_data _ _ A)|exact (as_vp _ _ A)].
        destruct P. constructor; try assumption; try reflexivity.
      * eexists. split; [reflexivity|]. apply (SLCons cf v _ _ (look_of done o' [], None)).
        { unfold line_draw. pose proof (LLine u v (look_of done o []) (rb_buf (o_b o')) (rb_idx (o_b o')) eq_refl Pl In') as L.
          destruct t; [apply SLOver; exact L|apply SLDraw, OLDraw; exact L]. }
        econstructor; [|constructor]. apply status_case; try assumption; try reflexivity; [now right|]. cbn. rewrite Da. rewrite <- Da. apply (as_data _ _ A).
    + unfold SearchRefresh in E. apply obind_ok in E. destruct E as (? & _ & E). injection E as <-.
      assert (Si' : s_in (o_s (with_s (set_fail (-2) (o_s o)) o)) = true) by exact Si.
      split; [|split; [exact Si'|]].
      * constructor; [apply strip_s; exact P|exact (as_data _ _ A)|exact (as_vp _ _ A)].
      * eexists. split; [reflexivity|]. econstructor; [|constructor].
        apply status_case; try assumption; try reflexivity; [left; lia|]. exact (as_data _ _ A).
Qed.

(** leaving the search for the line it started from *)
Lemma revert_case o o1 done t : at_seek cf o -> ExitSearchMode true o = Ok o1 ->
  at_prompt cf o1 /\ s_data (o_s o1) = [] /\ o_vp o1 = None /\ slooks cf v (look_of done o [], t) (line_draw o1) (look_of done o1 [], None).
Proof.
  intros A E. pose proof (as_ap _ _ A) as P. unfold ExitSearchMode in E. cbn zeta in E. apply obind_ok in E. destruct E as (o0 & E & E').
  destruct (s_src (o_s o)) as [id|]; [|discriminate]. apply obind_ok in E. destruct E as (x & Dx & E). injection E as <-.
  assert (Pl : Forall (plainr u) (showItem (set_cur (Some id) (o_h o)) x)).
  { apply show_of. apply (deref_of _ (set_cur (Some id) (o_h o)) id); [|exact Dx]. exact (ap_hist _ _ P). }
  injection E' as <-. split; [|split; [reflexivity|split; [exact (as_vp _ _ A)|]]].
  - destruct P. constructor; try assumption; try reflexivity. unfold inside. cbn. lia.
  - unfold line_draw. pose proof (LLine u v (look_of done o []) (showItem (set_cur (Some id) (o_h o)) x) (length (showItem (set_cur (Some id) (o_h o)) x)) eq_refl Pl (le_n _)) as L.
    destruct t; [apply SLOver; exact L|apply SLDraw, OLDraw; exact L].
Qed.

(** after the switch with the search over *)
Lemma after_plain r o1 acts kS kC upd o' acts' : at_prompt cf o1 -> after_switch cf r (o1, acts, kS, kC, upd) = Ok (o', acts') ->
  acts' = acts /\ exists h, o' = with_h h o1 /\ at_prompt cf o'.
Proof.
  intros A E. destruct (after_case cf seek_plain r o1 acts kS kC upd o' acts' A E) as (-> & b & h & -> & Hh & B).
  unfold listener_draws in B. rewrite (gc_listen _ (ss_good _ _ S)) in B.
  destruct B as [(-> & _)|(l & p & _ & B & _)]; [|discriminate]. split; [reflexivity|]. exists h.
  replace (with_b (o_b o1) o1) with o1 by now destruct o1. split; [reflexivity|now apply prompt_h].
Qed.

Definition sfollowed (o : op) (done : list (list Z)) (x : outcome (list sev)) (o' : op) (acts : list act) : Prop :=
  at_seek cf o' /\ exists es, x = Ok es /\
    slooks_all cf v (look_of done o [], status_of o) es (look_of (done ++ flat_map (text_of cf v) acts) o' acts, status_of o').

Lemma prompt_seek o : at_prompt cf o -> owf cf o -> o_vp o = None -> at_seek cf o /\ status_of o = None.
Proof.
  intros A R V. split; [|unfold status_of; now rewrite (ap_s _ _ A)]. constructor; [now apply id_strip| |exact V].
  destruct R as [R|R]; [rewrite (ap_end _ _ A) in R; discriminate|]. destruct (r_s0 _ _ R (ap_s _ _ A)) as (_ & ->). constructor.
Qed.

(** a key acting on the line during a search does what it does without one *)
Lemma other_switch r o : s_in (o_s o) = true -> (r =? CharBell) = false -> (r =? CharInterrupt) = false -> (r =? CharBckSearch) = false ->
  (r =? CharFwdSearch) = false -> ((r =? CharBackspace) || (r =? CharCtrlH)) = false -> ((r =? CharEnter) || (r =? CharCtrlJ)) = false ->
  (r =? CharCtrlZ) = false -> (r =? CharCtrlL) = false -> (r = CharTab -> oc_auto cf = None) ->
  ((r =? CharTab) || (r =? CharCtrlU) || (r =? CharKill) || (r =? MetaForward) || (r =? CharTranspose) ||
          (r =? MetaBackward) || (r =? MetaDelete) || (r =? CharLineStart) || (r =? CharLineEnd) ||
          (r =? MetaBackspace) || (r =? CharCtrlW) || (r =? CharCtrlY) || (r =? CharBackward) || (r =? CharForward) ||
          (r =? CharPrev) || (r =? CharNext) || (r =? CharDelete)) = true ->
  ((r =? CharDelete) && (length (rb_buf (o_b o)) =? 0)%nat) = false ->
  forall o1 acts kS kC upd, key_switch cf r o = Ok (o1, acts, kS, kC, upd) ->
    key_switch cf r (strip o) = Ok (strip o1, acts, kS, kC, upd) /\ o_s o1 = o_s o /\ kS = false /\ results acts = [] /\ o_vp o1 = o_vp o.
Proof.
  intros Si K1 K2 K3 K4 K5 K6 K7 K8 KT KL KD o1 acts kS kC upd E.
  unfold key_switch in *. cbn zeta in *. rewrite K1, K2, K3, K4, K5, K6, K7, K8 in *. unfold edit_buf in *.
  change (o_b (strip o)) with (o_b o). change (o_h (strip o)) with (o_h o).
  assert (O : forall x, (b' <- x ;; Ok (with_b b' o, [], false, false, true)) = Ok (o1, acts, kS, kC, upd) ->
    (b' <- x ;; Ok (with_b b' (strip o), [], false, false, true)) = Ok (strip o1, acts, kS, kC, upd) /\ o_s o1 = o_s o /\ kS = false /\ results acts = [] /\ o_vp o1 = o_vp o).
  { intros x X. apply obind_ok in X. destruct X as (b & -> & X). injection X as <- <- <- <- <-. repeat split. }
  destruct (r =? CharTab) eqn:T1.
  { apply Z.eqb_eq in T1. rewrite (KT T1) in *. injection E as <- <- <- <- <-. repeat split. }
  destruct (r =? CharCtrlU); [now apply O|].
  destruct (r =? CharKill).
  { apply obind_ok in E. destruct E as (b & -> & E). injection E as <- <- <- <- <-. repeat split. }
  destruct (r =? MetaForward); [now apply O|].
  destruct (r =? CharTranspose); [now apply O|].
  destruct (r =? MetaBackward); [now apply O|].
  destruct (r =? MetaDelete); [now apply O|].
  destruct (r =? CharLineStart); [now apply O|].
  destruct (r =? CharLineEnd); [now apply O|].
  destruct (r =? MetaBackspace); [now apply O|].
  destruct (r =? CharCtrlW); [now apply O|].
  destruct (r =? CharCtrlY); [now apply O|].
  destruct (r =? CharBackward); [now apply O|].
  destruct (r =? CharForward); [now apply O|].
  destruct (r =? CharPrev).
  { apply obind_ok in E. destruct E as (x & -> & E). cbn [obind]. destruct (fst x); injection E as <- <- <- <- <-; repeat split. }
  destruct (r =? CharNext).
  { apply obind_ok in E. destruct E as (x & -> & E). cbn [obind]. destruct (fst x); injection E as <- <- <- <- <-; repeat split. }
  destruct (r =? CharDelete); [|discriminate].
  unfold key_delete in *. change (o_b (strip o)) with (o_b o). replace (0 <? length (rb_buf (o_b o)))%nat with true in *
    by (destruct (length (rb_buf (o_b o))); [discriminate|reflexivity]).
  cbn [orb] in *. apply obind_ok in E. destruct E as (x & -> & E). injection E as <- <- <- <- <-. repeat split. now destruct (snd x).
Qed.

Lemma seek_case o r o' acts done : owf cf o -> at_seek cf o -> may_seek cf o r -> op_step cf r o = Ok (o', acts) -> owf cf o' ->
  status_fits cf v o' -> sfollowed o done (seek_draws cf r o) o' acts.
Proof.
  intros R A (Tr & Ku & K) E R' F. pose proof (as_ap _ _ A) as P. pose proof (ss_good _ _ S) as G.
  assert (En : o_end o = false) by exact (ap_end _ _ P).
  assert (Ew : (oc_w cf =? 0) = false) by (pose proof (gc_w _ G); lia).
  destruct (s_in (o_s o)) eqn:Si; cycle 1.
  { pose proof (strip_id _ _ P Si) as A0. unfold sfollowed. unfold seek_draws. rewrite Si.
    assert (N : forall bck : bool, r = (if bck then CharBckSearch else CharFwdSearch) -> sfollowed o done (mode_draws cf bck o) o' acts).
    { intros bck ->. unfold op_step in E. rewrite En, (as_vp _ _ A), (gc_filter _ G) in E. unfold handle_key in E.
      replace ((if bck then CharBckSearch else CharFwdSearch) =? 0) with false in E by now destruct bck. cbn [andb] in E.
      change (c_sel (o_c o)) with (c_sel (o_c (strip o))) in E. rewrite (ap_sel _ _ P) in E. unfold vim_and_switch in E. rewrite (ss_vim _ _ S) in E.
      set (s' := {| s_in := true; s_fail := s_fail (o_s o); s_bck := bck; s_src := h_cur (o_h o); s_data := s_data (o_s o);
               s_ms := s_ms (o_s o); s_me := s_me (o_s o) |}).
      assert (X : o' = with_s s' o /\ acts = []).
      { apply obind_ok in E. destruct E as (y & Ey & E).
        assert (Y : exists z, SearchRefresh cf (-1) (with_s s' o) = Ok z /\ y = (z, [], true, false, true)).
        { destruct bck; unfold key_switch in Ey; cbn -[SearchMode] in Ey; unfold SearchMode in Ey; rewrite Ew, Si in Ey; fold s' in Ey;
            apply obind_ok in Ey; destruct Ey as (z & Ez & Ey); apply obind_ok in Ez; destruct Ez as (z' & Ez & Ez');
            injection Ez' as <-; injection Ey as <-; exists z'; split; [exact Ez|reflexivity|exact Ez|reflexivity]. }
        destruct Y as (z & Ez & ->). unfold SearchRefresh in Ez. apply obind_ok in Ez. destruct Ez as (? & _ & Ez). injection Ez as <-.
        unfold after_switch in E. rewrite (gc_listen _ G) in E. cbn -[Update] in E.
        change (c_in (o_c o)) with (c_in (o_c (strip o))) in E. rewrite (ap_in _ _ P) in E. cbn -[Update] in E. injection E as <- <-. auto. }
      destruct X as (-> & ->). unfold mode_draws. rewrite Si. fold s'. split.
      - constructor; [apply strip_s; exact P|exact (as_data _ _ A)|exact (as_vp _ _ A)].
      - eexists. split; [reflexivity|]. cbn [flat_map]. rewrite app_nil_r. econstructor; [|constructor].
        apply (status_case (look_of done o []) (status_of o) (-1) (with_s s' o)); try reflexivity; try assumption.
        + left; lia.
        + exact (as_data _ _ A). }
    destruct (r =? CharBckSearch) eqn:K1; [apply (N true); now apply Z.eqb_eq|].
    destruct (r =? CharFwdSearch) eqn:K2; [apply (N false); now apply Z.eqb_eq|]. clear N.
    apply Z.eqb_neq in K1, K2. assert (K' : prompt_key cf r) by tauto.
    destruct (key_case cf seek_plain v o r o' acts done A0) as (A1 & es & D & L).
    - unfold may_press. rewrite (as_vp _ _ A), (gc_filter _ G). intros r' X. injection X as <-. split; [exact Tr|]. split; [intros U I; specialize (Ku U I); congruence|].
      rewrite (ss_vim _ _ S). now left.
    - exact E.
    - assert (V : o_vp o' = None).
      { destruct R' as [R'|R']; [rewrite (ap_end _ _ A1) in R'; discriminate|]. destruct (o_vp o') eqn:V; [|reflexivity].
        pose proof (r_vp _ _ R' ltac:(congruence)) as X. rewrite (ss_vim _ _ S) in X. discriminate. }
      destruct (prompt_seek o' A1 R' V) as (B1 & B2). split; [exact B1|]. rewrite D. cbn [obind]. eexists. split; [reflexivity|].
      rewrite B2. unfold status_of. rewrite Si. now apply plain_events. }
  (* searching *)
  unfold sfollowed. assert (So : exists t, status_of o = Some t) by (unfold status_of; rewrite Si; eauto). destruct So as (t & So). rewrite So.
  unfold seek_draws. rewrite Si. unfold searching_draws.
  unfold op_step in E. rewrite En, (as_vp _ _ A), (gc_filter _ G) in E. unfold handle_key in E.
  assert (R0 : (r =? 0) = false).
  { destruct K as [K|[K|K]]; [now apply (prompt_nonzero cf)|subst r; reflexivity|subst r; reflexivity]. }
  rewrite R0 in E. cbn [andb] in E. change (c_sel (o_c o)) with (c_sel (o_c (strip o))) in E. rewrite (ap_sel _ _ P) in E.
  unfold vim_and_switch in E. rewrite (ss_vim _ _ S) in E. apply obind_ok in E. destruct E as (y & Ey & E).
  assert (Ci : c_in (o_c o) = false) by exact (ap_in _ _ P).
  (* the search stays *)
  assert (Keep : forall z, s_in (o_s z) = true -> c_in (o_c z) = false -> after_switch cf r (z, [], true, false, true) = Ok (o', acts) -> o' = z /\ acts = []).
  { intros z Z1 Z2 X. unfold after_switch in X. rewrite (gc_listen _ G) in X. cbn [negb andb] in X. rewrite Z2 in X. cbn [obind] in X.
    rewrite Z1 in X. cbn [negb andb obind] in X. injection X as <- <-. auto. }
  assert (Sk : forall isChange o0, s_in (o_s o0) = true -> at_seek cf o0 -> rb_buf (o_b o0) = rb_buf (o_b o) -> rb_idx (o_b o0) = rb_idx (o_b o) ->
    (exists z, search cf isChange o0 = Ok z /\ y = (z, [], true, false, true)) ->
    at_seek cf o' /\ exists es, search_draws cf isChange o0 = Ok es /\
      slooks_all cf v (look_of done o [], Some t) es (look_of (done ++ flat_map (text_of cf v) acts) o' acts, status_of o')).
  { intros ic o0 S0 A2 Eb Ei (z & Ez & ->).
    assert (Z2 : s_in (o_s z) = true /\ c_in (o_c z) = c_in (o_c o0)).
    { clear - Ez S0. unfold search in Ez. destruct (s_data (o_s o0)).
      - unfold SearchRefresh in Ez. apply obind_ok in Ez. destruct Ez as (? & _ & Ez). injection Ez as <-. auto.
      - apply obind_ok in Ez. destruct Ez as (r0 & _ & Ez). destruct r0 as [[idx id]|].
        + apply obind_ok in Ez. destruct Ez as (? & _ & Ez). unfold SearchRefresh in Ez. apply obind_ok in Ez. destruct Ez as (? & _ & Ez). injection Ez as <-. auto.
        + unfold SearchRefresh in Ez. apply obind_ok in Ez. destruct Ez as (? & _ & Ez). injection Ez as <-. auto. }
    destruct Z2 as (Z1 & Z2). change (c_in (o_c o0)) with (c_in (o_c (strip o0))) in Z2. rewrite (ap_in _ _ (as_ap _ _ A2)) in Z2.
    destruct (Keep z Z1 Z2 E) as (-> & ->). destruct (search_case ic o0 z done (Some t) S0 A2 Ez R' F) as (Q1 & _ & es & Q2 & Q3).
    split; [exact Q1|]. exists es. split; [exact Q2|]. cbn [flat_map]. rewrite app_nil_r.
    replace (look_of done o []) with (look_of done o0 []); [exact Q3|]. unfold look_of. now rewrite Eb, Ei. }
  assert (Md : forall bck : bool, (exists x, SearchMode cf bck o = Ok x /\ y = (fst x, if snd x then [] else [ABell], snd x, false, true)) ->
    at_seek cf o' /\ exists es, mode_draws cf bck o = Ok es /\
      slooks_all cf v (look_of done o [], Some t) es (look_of (done ++ flat_map (text_of cf v) acts) o' acts, status_of o')).
  { intros bck (x & Ex & Y). unfold SearchMode in Ex. rewrite Ew, Si in Ex. cbn zeta in Ex.
    apply obind_ok in Ex. destruct Ex as (z & Ez & Ex). injection Ex as <-. cbn [fst snd] in Y. unfold mode_draws. rewrite Si. apply Sk; try reflexivity.
    - constructor; [apply strip_s; exact P|exact (as_data _ _ A)|exact (as_vp _ _ A)].
    - exists z. auto. }
  pose proof Ey as Ey0. unfold key_switch in Ey. cbn zeta in Ey. rewrite Si in Ey.
  destruct (r =? CharBell) eqn:K1.
  { apply obind_ok in Ey. destruct Ey as (o1 & X & Ey). destruct (revert_case o o1 done (Some t) A X) as (A1 & D1 & V1 & L).
    rewrite (ap_in _ _ A1) in Ey. injection Ey as <-. destruct (after_plain r o1 [] false false true o' acts A1 E) as (-> & h & -> & A2).
    destruct (prompt_seek _ A2 R' V1) as (B1 & B2). split; [exact B1|]. rewrite X. cbn [obind]. eexists. split; [reflexivity|]. cbn [flat_map]. rewrite app_nil_r, B2.
    econstructor; [exact L|]. econstructor; [|constructor]. unfold line_draw. apply SLDraw, OLDraw.
    apply (LLine u v (look_of done o1 []) (rb_buf (o_b o1)) (rb_idx (o_b o1))); [reflexivity|apply (ap_buf _ _ A1)|apply (ap_inside _ _ A1)]. }
  destruct (r =? CharInterrupt) eqn:K2.
  { assert (Y : exists o1, ExitSearchMode true o = Ok o1 /\ y = (o1, [AKick], false, false, true)).
    { apply Z.eqb_eq in K2. subst r. cbn -[ExitSearchMode key_interrupt] in Ey. unfold key_interrupt in Ey. rewrite Si in Ey.
      apply obind_ok in Ey. destruct Ey as (o1 & X & Ey). injection Ey as <-. eauto. }
    destruct Y as (o1 & X & ->). destruct (revert_case o o1 done (Some t) A X) as (A1 & D1 & V1 & L).
    destruct (after_plain r o1 [AKick] false false true o' acts A1 E) as (-> & h & -> & A2).
    destruct (prompt_seek _ A2 R' V1) as (B1 & B2). split; [exact B1|]. rewrite X. cbn [obind]. eexists. split; [reflexivity|]. cbn [flat_map text_of app]. rewrite app_nil_r, B2.
    econstructor; [exact L|constructor]. }
  destruct (r =? CharBckSearch) eqn:K3.
  { apply Md. apply Z.eqb_eq in K3. subst r. cbn -[SearchMode] in Ey. apply obind_ok in Ey. destruct Ey as (x & X & Ey). injection Ey as <-. eauto. }
  destruct (r =? CharFwdSearch) eqn:K4.
  { apply Md. apply Z.eqb_eq in K4. subst r. cbn -[SearchMode] in Ey. apply obind_ok in Ey. destruct Ey as (x & X & Ey). injection Ey as <-. eauto. }
  assert (K' : prompt_key cf r) by (apply Z.eqb_neq in K3, K4; tauto).
  assert (X : (r =? CharCtrlZ) = false /\ (r =? CharCtrlL) = false).
  { clear - K'. destruct K' as [(K & _)|[K|[K|(K & _)]]].
    - unfold CharCtrlZ, CharCtrlL. lia.
    - unfold command_keys in K. cbn [In] in K. repeat (destruct K as [<-|K]; [split; reflexivity|]). contradiction.
    - subst r. split; reflexivity.
    - subst r. split; reflexivity. }
  destruct X as (K5 & K6).
  destruct ((r =? CharBackspace) || (r =? CharCtrlH)) eqn:K7.
  { assert (Y : exists o1, SearchBackspace cf o = Ok o1 /\ y = (o1, [], true, false, true)).
    { apply orb_prop in K7. rewrite !Z.eqb_eq in K7.
      destruct K7; subst r; cbn -[SearchBackspace] in Ey; apply obind_ok in Ey; destruct Ey as (o1 & X & Ey); injection Ey as <-; eauto. }
    destruct Y as (o1 & X & Y). unfold SearchBackspace in X. destruct (s_data (o_s o)) as [|d0 d] eqn:Da.
    - injection X as <-. subst y. destruct (Keep o Si Ci E) as (-> & ->). split; [exact A|]. eexists. split; [reflexivity|].
      cbn [flat_map]. rewrite app_nil_r, So. constructor.
    - apply Sk; try reflexivity; [exact Si| |exists o1; auto].
      constructor; [apply strip_s; exact P| |exact (as_vp _ _ A)].
      pose proof (as_data _ _ A) as Fd. rewrite Da in Fd. rewrite <- (firstn_skipn (length (d0 :: d) - 1) (d0 :: d)) in Fd. apply Forall_app in Fd. exact (proj1 Fd). }
  assert (KT : r = CharTranspose -> length (rb_buf (o_b (strip o))) <> 1%nat).
  { intros -> L. apply Tr. unfold trips. rewrite (as_vp _ _ A), (ss_vim _ _ S). cbn [andb]. left. auto. }
  assert (KU : oc_unique cf = true -> r <> CharInterrupt) by (intros _; now apply Z.eqb_neq).
  change (look_of done o []) with (look_of done (strip o) []).
  destruct ((r =? CharEnter) || (r =? CharCtrlJ)) eqn:K8.
  { assert (Y : key_switch cf r (strip o) = Ok y).
    { apply orb_prop in K8. rewrite !Z.eqb_eq in K8. destruct K8; subst r; cbn -[key_enter] in Ey |- *; unfold key_enter in *; rewrite Si, exit_strip in Ey; exact Ey. }
    destruct y as [[[[o1 a1] kS] kC] upd].
    destruct (switch_case cf seek_plain v (strip o) r o1 a1 kS kC upd done P K' KT KU Y) as (A1 & Q & es & D & L).
    destruct (after_plain r o1 a1 kS kC upd o' acts A1 E) as (-> & h & -> & A2).
    change (switch_draws cf r (strip o)) with (switch_draws cf r o) in D. rewrite D. cbn [obind].
    assert (V : o_vp o1 = None /\ results a1 <> []).
    { assert (Y' : key_enter cf (strip o) = Ok (o1, a1, kS, kC, upd)) by (clear - K8 Y; apply orb_prop in K8; rewrite !Z.eqb_eq in K8; destruct K8; subst r; exact Y).
      destruct (enter_case cf (strip o) o1 a1 kS kC upd P Y') as (h' & -> & _ & ->). split; [exact (as_vp _ _ A)|discriminate]. }
    destruct V as (V1 & V2). destruct (prompt_seek _ A2 R' V1) as (B1 & B2). split; [exact B1|]. eexists. split; [reflexivity|]. rewrite B2.
    destruct (over_events cf v es _ _ t (draws_drawing r o es D K2 ltac:(clear - K8; apply orb_prop in K8; rewrite !Z.eqb_eq in K8; destruct K8; subst r; reflexivity)) L)
      as (t' & L1 & [->|(L2 & _)]); [exact L1|].
    unfold look_of in L2. injection L2 as _ _ _ L2. destruct (results a1); [contradiction|discriminate]. }
  destruct (_ || (r =? CharDelete)) eqn:K9.
  - assert (T1 : r = CharTab -> oc_auto cf = None).
    { clear - K'. intros ->. destruct K' as [(K & _)|[K|[K|(_ & K)]]]; [unfold CharTab in K; lia| |discriminate|exact K].
      unfold command_keys in K. cbn [In] in K. repeat (destruct K as [K|K]; [discriminate K|]). contradiction. }
    destruct y as [[[[o1 a1] kS] kC] upd].
    pose proof Ey0 as Ey'.
    (* what the rest does *)
    assert (Fin : forall es t1, o_s o1 = o_s o -> kS = false -> results a1 = [] -> flat_map (text_of cf v) a1 = [] -> o_vp o1 = None -> at_prompt cf (strip o1) ->
      slooks_all cf v (look_of done (strip o) [], Some t) es (look_of done (strip o1) [], t1) ->
      at_seek cf o' /\ slooks_all cf v (look_of done (strip o) [], Some t) (es ++ [line_draw o1]) (look_of (done ++ flat_map (text_of cf v) acts) o' acts, status_of o')).
    { intros es t1 Q1 -> Q3 Q4 Q5 A1 L.
      assert (E' : after_switch cf r (strip o1, a1, false, kC, upd) = Ok (o', acts)).
      { unfold after_switch in *. rewrite (gc_listen _ G) in *. cbn [negb andb] in *. rewrite Q1, Si in E. rewrite exit_strip in E.
        change (s_in (o_s (strip o1))) with false in *. cbn [andb obind] in *. change (c_in (o_c o1)) with (c_in (o_c (strip o1))).
        rewrite (ap_in _ _ A1). exact E. }
      destruct (after_plain r (strip o1) a1 false kC upd o' acts A1 E') as (-> & h & -> & A2).
      destruct (prompt_seek _ A2 R' Q5) as (B1 & B2). split; [exact B1|]. rewrite B2, Q4, app_nil_r.
      apply (slooks_app cf v _ _ _ _ _ L). econstructor; [|constructor].
      pose proof (LLine u v (look_of done (strip o1) []) (rb_buf (o_b o1)) (rb_idx (o_b o1)) eq_refl (ap_buf _ _ A1) (ap_inside _ _ A1)) as LL.
      unfold look_of at 2. rewrite Q3. unfold line_draw. destruct t1; [apply SLOver; exact LL|apply SLDraw, OLDraw; exact LL]. }
    destruct ((r =? CharDelete) && (length (rb_buf (o_b o)) =? 0)%nat) eqn:Dl.
    + (* Ctrl-D on an empty line *)
      apply andb_prop in Dl. destruct Dl as (D1 & D2). apply Z.eqb_eq in D1. apply Nat.eqb_eq in D2. subst r.
      assert (Bn : rb_buf (o_b o) = []) by (destruct (rb_buf (o_b o)); [reflexivity|discriminate]).
      assert (I0 : rb_idx (o_b o) = 0%nat) by (pose proof (ap_inside _ _ P) as X; unfold inside in X; change (o_b (strip o)) with (o_b o) in X; clear - X D2; lia).
      assert (Y : o1 = o /\ a1 = [AKick; ABell] /\ kS = false).
      { cbn -[key_delete] in Ey. unfold key_delete in Ey. replace (negb (IsNormalMode o)) with true in Ey by (unfold IsNormalMode; rewrite Si; cbn [negb]; now rewrite andb_false_r).
        rewrite orb_true_r in Ey. unfold Delete in Ey. rewrite I0, D2 in Ey. cbn in Ey. injection Ey as <- <- <- _ _. split; [|auto]. now destruct o. }
      destruct Y as (-> & -> & ->). rewrite Ey'. cbn [obind].
      destruct (Fin (map SO [ODraw (VLine (rb_buf (o_b o)) (rb_idx (o_b o))); OBell]) None) as (Q1 & Q2); try reflexivity; try assumption.
      { exact (as_vp _ _ A). }
      { cbn [map]. apply (SLCons cf v _ _ (look_of done (strip o) [], None)).
        - apply SLOver. apply (LLine u v (look_of done (strip o) []) (rb_buf (o_b o)) (rb_idx (o_b o)) eq_refl (ap_buf _ _ P) (ap_inside _ _ P)).
        - econstructor; [apply SLDraw, OLBell|constructor]. }
      split; [exact Q1|]. eexists. split; [reflexivity|exact Q2].
    + destruct (other_switch r o Si K1 K2 K3 K4 K7 K8 K5 K6 T1 K9 Dl o1 a1 kS kC upd Ey') as (Y & Q1 & Q2 & Q3 & Q5).
      destruct (switch_case cf seek_plain v (strip o) r (strip o1) a1 kS kC upd done P K' KT KU Y) as (A1 & _ & es & D & L).
      change (switch_draws cf r (strip o)) with (switch_draws cf r o) in D. rewrite D, Ey'. cbn [obind].
      assert (Q4 : flat_map (text_of cf v) a1 = []).
      { clear - Q3. induction a1 as [|a l IH]; [reflexivity|]. unfold results in Q3. cbn [filter] in Q3. cbn [flat_map].
        destruct a; cbn [is_result] in Q3; try discriminate Q3; cbn [text_of app]; now apply IH. }
      rewrite (as_vp _ _ A) in Q5.
      rewrite Q4, app_nil_r in L.
      assert (Lk : look_of done (strip o1) a1 = look_of done (strip o1) []) by (unfold look_of; now rewrite Q3). rewrite Lk in L.
      destruct (over_events cf v es _ _ t (draws_drawing r o es D K2 Dl) L) as (t' & L1 & _).
      destruct (Fin _ t' Q1 Q2 Q3 Q4 Q5 A1 L1) as (B1 & B2). split; [exact B1|]. eexists. split; [reflexivity|exact B2].
  - (* a character of the search *)
    assert (Pr : plainr u r).
    { destruct K' as [X|[X|[X|(X & _)]]]; [exact X| |subst r; discriminate|subst r; discriminate].
      exfalso. clear - X K1 K2 K3 K4 K5 K6 K7 K8 K9. rewrite !orb_false_iff in *. rewrite !Z.eqb_neq in *. unfold command_keys in X. cbn [In] in X. intuition congruence. }
    assert (Y : exists z, SearchChar cf r o = Ok z /\ y = (z, [], true, false, true)).
    { repeat match goal with H : (_ || _) = false |- _ => apply orb_false_iff in H; destruct H end.
      repeat match goal with H : (r =? _) = false |- _ => rewrite H in Ey; clear H end. cbn [orb] in Ey.
      apply obind_ok in Ey. destruct Ey as (z & Ez & Ey). injection Ey as <-. eauto. }
    destruct Y as (z & Ez & Y). unfold SearchChar in Ez. apply Sk; try reflexivity; [exact Si| |exists z; auto].
    constructor; [apply strip_s; exact P| |exact (as_vp _ _ A)]. cbn. apply Forall_app. split; [exact (as_data _ _ A)|]. repeat constructor; apply Pr.
Qed.
End Key.

(** ** Sessions *)
Section Sess.
Variable cf : ocfg.
Variable ps : list piece.
Hypothesis C : seek_session cf ps.
Hypothesis W : 0 < oc_w cf <= 9223372036854775807.
Hypothesis U : uenv_ok (oc_u cf).
Let v := visible ps.
Hypothesis PD : Forall sgr_digits ps.
Hypothesis PV : Forall (plainr (oc_u cf)) v.
Hypothesis PS : Z.of_nat (length v) + 1 < oc_w cf.
Notation sagrees := (sagrees cf ps).
Notation u := (oc_u cf).
Notation w := (oc_w cf).

Lemma seek_agrees is : forall o reading done st y0 s0 s, owf cf o -> at_seek cf o -> status_fits cf v o -> seek_turn cf v is o reading ->
  sagrees y0 {| k_done := done; k_line := rb_buf (o_b o); k_idx := rb_idx (o_b o); k_reading := reading |} (status_of o) st s0 s ->
  exists st' out t o' acts, seek_run cf (o, st) is = Ok ((o', st'), out, acts) /\ leaves cf v is o t o' acts /\ at_seek cf o' /\
    sagrees y0 {| k_done := done ++ t; k_line := rb_buf (o_b o'); k_idx := rb_idx (o_b o'); k_reading := fst st' |} (status_of o') st' s0 (sexecs u w s out).
Proof.
  pose proof (srun_agrees cf W U (ss_ascii _ _ C) ps PD PV PS (ss_prompt _ _ C)) as Run.
  induction is as [|i is IH]; intros o reading done st y0 s0 s R A F T G.
  - exists st, [], [], o, []. split; [reflexivity|]. split; [constructor|]. split; [exact A|]. rewrite app_nil_r. cbn [sexecs fold_left].
    assert (Rd : fst st = reading) by (unfold SeekProofs.sagrees in G; destruct (status_of o); [destruct G as (_ & _ & _ & X & Y & _); cbn in Y; congruence|apply G]).
    rewrite Rd. exact G.
  - assert (Rd : fst st = reading) by (unfold SeekProofs.sagrees in G; destruct (status_of o); [destruct G as (_ & _ & _ & X & Y & _); cbn in Y; congruence|apply G]).
    destruct i as [|txt|r]; cbn [seek_turn] in T.
    + destruct T as (-> & T).
      assert (Sn : status_of o = None) by (destruct (status_of o); [destruct G as (_ & _ & _ & _ & Y & _); discriminate|reflexivity]).
      rewrite Sn in G.
      destruct (Run [SO (ODraw VRead)] y0 _ None st s0 s {| k_done := done; k_line := rb_buf (o_b o); k_idx := rb_idx (o_b o); k_reading := true |} None G) as (st1 & o1 & E1 & G1).
      { econstructor; [apply SLDraw, OLDraw, LRead|constructor]. }
      rewrite <- Sn in G1 at 1. destruct (IH o true done st1 y0 s0 _ R A F T G1) as (st' & out & t & o' & acts & E2 & L2 & A2 & G2).
      exists st', (o1 ++ out), t, o', acts. cbn [seek_run seek_step]. rewrite E1. cbn [obind fst snd]. rewrite E2. cbn [obind app].
      split; [reflexivity|]. split; [now constructor|]. split; [exact A2|]. now rewrite sexecs_app.
    + destruct T as ((ls & Fl & ->) & T).
      set (es := SO (ODraw (VOut (flat_map (fun l => l ++ [10]) ls))) :: if fst st && s_in (o_s o) then [SStatus (-1) (set_fail (-1) (o_s o)) (o_b o)] else []).
      destruct (Run es y0 _ (status_of o) st s0 s {| k_done := done ++ ls; k_line := rb_buf (o_b o); k_idx := rb_idx (o_b o); k_reading := reading |} (status_of o) G) as (st1 & o1 & E1 & G1).
      { unfold es. pose proof (LOut u v {| k_done := done; k_line := rb_buf (o_b o); k_idx := rb_idx (o_b o); k_reading := reading |} ls Fl) as L.
        econstructor; [destruct (status_of o); [apply SLOver; exact L|apply SLDraw, OLDraw; exact L]|].
        cbn [k_done k_line k_idx k_reading]. destruct (s_in (o_s o)) eqn:Si.
        - assert (So : exists x, status_of o = Some x) by (unfold status_of; rewrite Si; eauto). destruct So as (x & So). rewrite So in G.
          destruct G as (_ & _ & _ & Y & Z & _). cbn in Z. subst reading. rewrite Y. cbn [andb].
          econstructor; [|constructor]. replace (set_fail (-1) (o_s o)) with (o_s o) by (destruct (o_s o); reflexivity).
          apply (status_case cf ps); try reflexivity; try assumption.
          + left; lia.
          + exact (ap_end _ _ (as_ap _ _ A)).
          + exact (as_data _ _ A).
        - rewrite andb_false_r. unfold status_of. rewrite Si. constructor. }
      destruct (IH o reading (done ++ ls) st1 y0 s0 _ R A F T G1) as (st' & out & t & o' & acts & E2 & L2 & A2 & G2).
      exists st', (o1 ++ out), (ls ++ t), o', acts. cbn [seek_run seek_step]. fold es. rewrite E1. cbn [obind fst snd]. rewrite E2. cbn [obind app].
      split; [reflexivity|]. split; [now constructor|]. split; [exact A2|]. rewrite sexecs_app, app_assoc. exact G2.
    + destruct T as (-> & K & T).
      destruct (step_ok cf (ss_good _ _ C) r o R (proj1 K)) as (o1 & a1 & E & R1). destruct (T o1 a1 E) as (F1 & T1).
      destruct (seek_case cf ps C o r o1 a1 done R A K E R1 F1) as (A1 & es & D & L).
      destruct (Run es y0 _ _ st s0 s _ _ G L) as (st1 & out1 & E1 & G1).
      destruct (IH o1 _ _ st1 y0 s0 _ R1 A1 F1 T1 G1) as (st' & out & t & o' & acts & E2 & L2 & A2 & G2).
      exists st', (out1 ++ out), (flat_map (text_of cf v) a1 ++ t), o', (a1 ++ acts). cbn [seek_run seek_step]. rewrite D. cbn [obind].
      rewrite E1. cbn [obind fst snd]. rewrite E. cbn [obind fst snd]. rewrite E2. cbn [obind].
      split; [reflexivity|]. split; [econstructor; eassumption|]. split; [exact A2|]. rewrite sexecs_app, app_assoc. exact G2.
Qed.
End Sess.
