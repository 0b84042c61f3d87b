(** Proofs about the screen while completing: the drawing. *)
From Verif Require Import Base ListAux RunesModel RunesSpec RuneBufModel RuneBufSpec HistoryModel HistoryProofs ScreenModel RenderModel RenderSpec RenderProofs RenderDraw RenderSession RenderMore MenuSpec MenuProofs MenuMore OpModel OpSpec OpProofs OpStep OutModel OutSpec OutProofs SeekModel SeekSpec SeekProofs CompModel CompSpec.
Open Scope Z_scope.

Definition of_opt (t : option (list Z)) : under := match t with None => UNone | Some x => UStatus x end.

(** what each event does to the view *)
Inductive clooks (cf : ocfg) (v : list Z) : look * under -> cev -> look * under -> Prop :=
| CLSeek k t e k' t' : slooks cf v (k, t) e (k', t') -> clooks cf v (k, of_opt t) (CS e) (k', of_opt t')
| CLOver k c ws e k' : looks (oc_u cf) v k e k' -> clooks cf v (k, UMenu c ws) (CS (SO (ODraw e))) (k', UNone)
| CLBell k a : clooks cf v (k, a) (CS (SO OBell)) (k, a)
| CLMenu k a c b out col : k_reading k = true -> rb_buf b = k_line k -> rb_idx b = k_idx k ->
    menu_out cf c b = Ok (out, col) -> fits cf (rb_buf b) (rb_idx b) (c_cand c) (c_off c) ->
    Forall (Forall (plainr (oc_u cf))) (c_cand c) ->
    0 < Z.of_nat (length v) + Z.of_nat (k_idx k) < oc_w cf ->
    Z.of_nat (length v) + Z.of_nat (length (k_line k)) + Z.of_nat (length (c_cand c)) <= 9223372036854775807 ->
    clooks cf v (k, a) (CMenu c b) (k, UMenu col (words c b)).
Inductive clooks_all (cf : ocfg) (v : list Z) : look * under -> list cev -> look * under -> Prop :=
| CLNil k : clooks_all cf v k [] k
| CLCons k e k1 es k2 : clooks cf v k e k1 -> clooks_all cf v k1 es k2 -> clooks_all cf v k (e :: es) k2.

Lemma clooks_app cf v a : forall b k k1 k2, clooks_all cf v k a k1 -> clooks_all cf v k1 b k2 -> clooks_all cf v k (a ++ b) k2.
Proof.
  induction a as [|e a IH]; intros b k k1 k2 A B; inversion A; subst; [exact B|]. cbn [app].
  econstructor; [eassumption|]. eapply IH; eassumption.
Qed.
Lemma clooks_one cf v k e k' : clooks cf v k e k' -> clooks_all cf v k [e] k'.
Proof. intros H. econstructor; [exact H|constructor]. Qed.

Lemma seek_events cf v es : forall k t k' t', slooks_all cf v (k, t) es (k', t') -> clooks_all cf v (k, of_opt t) (map CS es) (k', of_opt t').
Proof.
  induction es as [|e es IH]; intros k t k' t' L; inversion L; subst; [constructor|]. cbn [map].
  match goal with H : slooks _ _ _ _ ?x |- _ => destruct x as [k1 t1] end. econstructor; [apply CLSeek; eassumption|]. now apply IH.
Qed.

(** a redraw over anything *)
Lemma over_any cf v k a e k' : looks (oc_u cf) v k e k' -> clooks cf v (k, a) (CS (SO (ODraw e))) (k', UNone).
Proof.
  intros L. destruct a as [|t|c ws].
  - apply (CLSeek cf v k None _ k' None). apply SLDraw, OLDraw, L.
  - apply (CLSeek cf v k (Some t) _ k' None). apply SLOver, L.
  - now apply CLOver.
Qed.

(** redraws and bells over anything: it is gone unless there was nothing but bells *)
Lemma over_menu cf v es : forall k k' a, Forall drawing es -> olooks_all (oc_u cf) v k es k' ->
  exists a', clooks_all cf v (k, a) (map (fun e => CS (SO e)) es) (k', a') /\ (a' = UNone \/ k' = k /\ a' = a).
Proof.
  induction es as [|e es IH]; intros k k' a D L; inversion L; subst.
  - exists a. split; [constructor|auto].
  - inversion D; subst. cbn [map]. destruct e; cbn [drawing] in *; try contradiction.
    + exists UNone. split; [|now left].
      match goal with H : olooks _ _ _ _ ?k1 |- _ => apply (CLCons cf v _ _ (k1, UNone)); [apply over_any; inversion H; subst; assumption|] end.
      match goal with H : olooks_all _ _ ?k1 es k' |- _ => pose proof (seek_events cf v _ _ _ _ _ (plain_events cf v es _ _ H)) as X end.
      rewrite map_map in X. exact X.
    + match goal with H : olooks _ _ _ _ _ |- _ => inversion H; subst end.
      destruct (IH k1 k' a) as (a' & A & B); [assumption|assumption|]. exists a'. split; [econstructor; [apply CLBell|exact A]|exact B].
Qed.

Lemma WidthAll_plain u l : Forall (plainr u) l -> WidthAll u l = length l.
Proof.
  intros F. apply Width_sum1. apply Forall_forall. intros x Hx. rewrite Forall_forall in F. apply (F x Hx).
Qed.

Section Draw.
Variable cf : ocfg.
Notation u := (oc_u cf).
Notation w := (oc_w cf).
Hypothesis W : 0 < w <= 9223372036854775807.
Hypothesis U : uenv_ok u.
Hypothesis As : forall r, 32 <= r < 127 -> Width u r = 1%nat.
Variable ps : list piece.
Let v := visible ps.
Hypothesis PD : Forall sgr_digits ps.
Hypothesis PV : Forall (plainr u) v.
Hypothesis PS : Z.of_nat (length v) + 1 < w.
Hypothesis Pr : oc_prompt cf = prompt_runes ps.
Notation overlaid := (overlaid cf ps).
Notation sagrees := (sagrees cf ps).

Definition cagrees (y0 : Z) (k : look) (a : under) (st : bool * rdr) (s0 s : scr) : Prop :=
  match a with
  | UNone => sagrees y0 k None st s0 s
  | UStatus t => sagrees y0 k (Some t) st s0 s
  | UMenu _ _ => overlaid y0 k st s0 s /\ comp_screen w v y0 k a s
  end.

Lemma cagrees_opt y0 k t st s0 s : cagrees y0 k (of_opt t) st s0 s <-> sagrees y0 k t st s0 s.
Proof. destruct t; reflexivity. Qed.

Lemma cagrees_overlaid y0 k a st s0 s : cagrees y0 k a st s0 s -> k_reading k = true -> overlaid y0 k st s0 s.
Proof.
  intros A Kr. destruct a; cbn [cagrees] in A.
  - eapply (agrees_overlaid cf) with (t := None); eassumption.
  - eapply (agrees_overlaid cf) with (t := Some text); eassumption.
  - apply A.
Qed.

Lemma cagrees_reading y0 k a st s0 s : cagrees y0 k a st s0 s -> fst st = k_reading k.
Proof.
  destruct a; cbn.
  - intros A. apply A.
  - intros (_ & _ & _ & A & B & _). congruence.
  - intros ((_ & _ & _ & A & B & _) & _). congruence.
Qed.

Lemma menu_agrees y0 k st s0 s c b out col : overlaid y0 k st s0 s -> rb_buf b = k_line k -> rb_idx b = k_idx k ->
  menu_out cf c b = Ok (out, col) -> fits cf (rb_buf b) (rb_idx b) (c_cand c) (c_off c) -> Forall (Forall (plainr u)) (c_cand c) ->
  0 < Z.of_nat (length v) + Z.of_nat (k_idx k) < w ->
  Z.of_nat (length v) + Z.of_nat (length (k_line k)) + Z.of_nat (length (c_cand c)) <= 9223372036854775807 ->
  cagrees y0 k (UMenu col (words c b)) st s0 (sexecs u w s out).
Proof.
  intros (S & B & I & Rd & Kr & F & L & H & St & Ls & Ab) Bb Bi E [Fs Fo Fw _] Fc K Mx.
  set (y1 := y0 + height w (k_done k)) in *. pose proof (height_nonneg w (k_done k)) as Hh.
  assert (D : drawable u ps (op_rdr cf b)) by (apply rdr_drawable; try assumption; [now rewrite Bb|now rewrite Bb, Bi]).
  set (off := Z.to_nat (c_off c)).
  assert (Fc' : Forall (fun x => Forall (plainr u) x /\ Z.of_nat (off + length x) + 1 < w) (c_cand c)).
  { apply Forall_forall. intros x Hx. rewrite Forall_forall in Fc. split; [now apply Fc|]. specialize (Fw x Hx).
    rewrite (WidthAll_plain u x (Fc x Hx)) in Fw. unfold off. lia. }
  destruct (MenuProofs.menu_ok cf ps c b y1 s off U D) as (out' & cols & cw & E' & Q1 & Q2 & Q3 & Q4 & Q5).
  - rewrite Bb, Bi. exact Ls.
  - unfold off. lia.
  - unfold off. lia.
  - rewrite Bi. fold v. exact K.
  - exact Fc'.
  - destruct (c_cand c) as [|x l]; [contradiction|]. inversion Fc' as [|? ? (_ & X) _]. lia.
  - rewrite Bb. fold v. lia.
  - rewrite E in E'. injection E' as <- <-. cbn zeta in Q5. rewrite Bb, Bi in Q5. fold v in Q5. destruct Q5 as (Q5 & Q6 & Q7).
    assert (St' : stacked w y0 (k_done k) (sexecs u w s out)) by (apply (stacked_above w _ _ s); assumption).
    cbn [cagrees]. split.
    + unfold SeekProofs.overlaid. fold v y1. repeat (split; [assumption|]). eapply same_above_trans; [exact Ab|]. intros a z C. apply Q6. unfold y1. lia.
    + cbn [comp_screen]. fold y1. split; [exact St'|]. split; [exact Q5|]. split; [exact Q1|]. split; [unfold words; destruct (c_cand c); [contradiction|discriminate]|].
      exists cw. split; [exact Q3|]. split.
      * unfold words. fold off. apply Forall_map. rewrite Forall_forall in Q4 |- *. intros x Hx. specialize (Q4 x Hx). rewrite app_length, firstn_length. lia.
      * unfold words. fold off. rewrite Bb, Bi. exact Q7.
Qed.

Lemma cstep_agrees y0 k a st s0 s e k' a' : cagrees y0 k a st s0 s -> clooks cf v (k, a) e (k', a') ->
  exists st' o, cstep cf st e = Ok (st', o) /\ cagrees y0 k' a' st' s0 (sexecs u w s o).
Proof.
  intros A K. inversion K; subst; clear K; cbn [cstep].
  - apply cagrees_opt in A. match goal with H : slooks _ _ _ _ _ |- _ => destruct (sstep_agrees cf W U As ps PD PV PS Pr _ _ _ _ _ _ _ _ _ A H) as (st' & o & E & G) end.
    exists st', o. split; [exact E|]. now apply cagrees_opt.
  - destruct A as (A & _). eapply dstep_over; eassumption.
  - cbn [sstep ostep]. eexists _, _. split; [reflexivity|]. destruct a'.
    + destruct (sstep_agrees cf W U As ps PD PV PS Pr y0 k' None st s0 s (SO OBell) k' None A) as (st' & o & E & G); [apply SLDraw, OLBell|].
      cbn in E. injection E as <- <-. exact G.
    + destruct (sstep_agrees cf W U As ps PD PV PS Pr y0 k' (Some text) st s0 s (SO OBell) k' (Some text) A) as (st' & o & E & G); [apply SLBell|].
      cbn in E. injection E as <- <-. exact G.
    + assert (E : sexecs u w s [7] = s).
      { destruct A as ((_ & _ & _ & _ & _ & _ & _ & _ & _ & (_ & (_ & _ & _ & Pg)) & _) & _). unfold sexecs. cbn [fold_left]. unfold sexec. rewrite Pg. reflexivity. }
      rewrite E. exact A.
  - match goal with H : menu_out _ _ _ = _ |- _ => rewrite H end. cbn [obind fst]. eexists _, _. split; [reflexivity|]. apply menu_agrees; try assumption. now apply (cagrees_overlaid _ _ a).
Qed.

Lemma crun_agrees es : forall y0 k a st s0 s k' a', cagrees y0 k a st s0 s -> clooks_all cf v (k, a) es (k', a') ->
  exists st' o, crun cf st es = Ok (st', o) /\ cagrees y0 k' a' st' s0 (sexecs u w s o).
Proof.
  induction es as [|e es IH]; intros y0 k a st s0 s k' a' A K; inversion K; subst; cbn [crun].
  - eexists _, _. split; [reflexivity|exact A].
  - match goal with H : clooks _ _ _ _ ?x, G : clooks_all _ _ ?x _ _ |- _ => destruct x as [k1 a1]; rename H into H1; rename G into H2 end.
    destruct (cstep_agrees _ _ _ _ _ _ _ _ _ A H1) as (st1 & o1 & E1 & A1). rewrite E1. cbn [obind fst snd].
    destruct (IH _ _ _ _ _ _ _ _ A1 H2) as (st2 & o2 & E2 & A2). rewrite E2. cbn [obind fst snd].
    eexists _, _. split; [reflexivity|]. now rewrite sexecs_app.
Qed.
End Draw.
