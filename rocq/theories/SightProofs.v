(** Proofs for SightProps.v. *)
From Verif Require Import Base ListAux RunesModel RunesSpec RunesProofs RuneBufModel RuneBufSpec HistoryModel HistoryProofs TerminalModel ScreenModel RenderModel RenderSpec RenderProofs RenderDraw RenderSession RenderMore ClearModel ClearSpec ClearProps MenuSpec MenuProofs MenuMore OpModel OpSpec OpProofs OpStep OutModel OutSpec OutProofs SeekModel SeekSpec SeekProofs CompModel CompSpec CompDraw CompProofs ViewModel ViewSpec ViewProofs SightSpec.
From Coq Require Import ZifyBool.
Open Scope Z_scope.

(** ** Output that goes down, then up again by a number of rows *)
Definition flat1 (p : pstate) (r : Z) : bool :=
  match p with
  | PCsi _ => negb ((r =? 65) || (r =? 66) || (r =? 72))
  | PEsc => true
  | PGround => (r =? 27) || (r =? 8) || (r =? 13)
  end.
Lemma flat_fall l : forall p, all_steps flat1 p l = true -> all_steps fall1 p l = true.
Proof.
  induction l as [|r l IH]; intros p A; [reflexivity|]. cbn [all_steps] in *. apply andb_true_iff in A. destruct A as (A & B). rewrite (IH _ B), andb_true_r.
  destruct p; cbn in *; lia.
Qed.

Section V.
Variables (H : Z) (u : uenv) (w : Z).
Hypothesis HP : 0 < H.

Lemma pend_par l : forall s, s_par (sexecs u w s l) = pend (s_par s) l.
Proof.
  induction l as [|r l IH]; intros s; [reflexivity|]. rewrite sexecs_cons', IH, par_step. reflexivity.
Qed.

Lemma flat_rows l : forall s, all_steps flat1 (s_par s) l = true -> s_row (sexecs u w s l) = s_row s.
Proof.
  induction l as [|r l IH]; intros s A; [reflexivity|]. cbn [all_steps] in A. apply andb_true_iff in A. destruct A as (A & B).
  rewrite <- (par_step u w) in B. rewrite sexecs_cons', (IH _ B). clear B IH. destruct (s_par s) as [| |q] eqn:P; cbn [flat1] in A.
  - unfold sexec. rewrite P. destruct (r =? 27); [reflexivity|]. destruct (r =? 8); [reflexivity|]. destruct (r =? 13); [reflexivity|discriminate].
  - unfold sexec. rewrite P. destruct (r =? 91); reflexivity.
  - apply (csi_row u w s r q P); lia.
Qed.

Lemma xup l1 n l2 s top : top <= s_row s <= top + H - 1 -> s_par s = PGround -> all_steps rise1 PGround l1 = true -> pend PGround l1 = PGround ->
  1 <= n <= 9223372036854775807 -> all_steps flat1 PGround l2 = true ->
  let out := l1 ++ ([27; 91] ++ Itoa n ++ [65]) ++ l2 in let y := s_row (sexecs u w s out) in let top' := Z.max top (y + n - H + 1) in
  top' <= y -> xexecs H u w (s, top) out = (sexecs u w s out, top').
Proof.
  intros T Pg R1 E1 N F2 out y top' L. destruct (Itoa_spec n ltac:(lia)) as (Dg & At).
  assert (D' : Forall (fun r => 48 <= r <= 63) (Itoa n)) by (eapply Forall_impl; [|exact Dg]; cbn; intros; lia).
  set (s1 := sexecs u w s l1). assert (P1 : s_par s1 = PGround) by (unfold s1; rewrite pend_par, Pg; exact E1).
  destruct (params_steps rise1 (Itoa n)) with (p := @nil Z) as (X & q & Y); [intros ? r R; cbn; lia|exact D'|].
  set (l3 := 27 :: 91 :: Itoa n).
  assert (R3 : all_steps rise1 PGround l3 = true) by exact X. assert (E3 : pend PGround l3 = PCsi q) by exact Y.
  set (s2 := sexecs u w s1 l3). assert (P2 : s_par s2 = PCsi q) by (unfold s2; rewrite pend_par, P1; exact E3).
  assert (Row2 : s_row s2 = s_row s1).
  { unfold s2. apply flat_rows. rewrite P1. destruct (params_steps flat1 (Itoa n)) with (p := @nil Z) as (X' & _); [intros ? r R; cbn; lia|exact D'|]. exact X'. }
  set (s3 := sexec u w s2 65).
  assert (S3 : s3 = sexecs u w s1 ([27; 91] ++ Itoa n ++ [65])).
  { unfold s3, s2, l3. change (27 :: 91 :: Itoa n) with ([27; 91] ++ Itoa n). rewrite app_assoc, (sexecs_app u w s1 ([27; 91] ++ Itoa n) [65]). reflexivity. }
  assert (Row3 : s_row s3 = s_row s1 - n).
  { rewrite S3. cbn [app]. rewrite csi_seq; [|exact P1|exact D'|lia]. unfold csi_exec. cbn [Z.eqb Pos.eqb]. unfold csi_num. rewrite At.
    destruct n; try lia. reflexivity. }
  assert (P3 : s_par s3 = PGround) by (unfold s3; rewrite par_step, P2; reflexivity).
  assert (So : sexecs u w s out = sexecs u w s3 l2).
  { unfold out. rewrite S3. unfold s1. rewrite <- !(sexecs_app u w). now rewrite <- app_assoc. }
  assert (Ry : y = s_row s1 - n).
  { unfold y. rewrite So, flat_rows; [exact Row3|]. rewrite P3. exact F2. }
  assert (Eo : out = (l1 ++ l3) ++ [65] ++ l2).
  { unfold out, l3. change (27 :: 91 :: Itoa n) with ([27; 91] ++ Itoa n). now rewrite <- !app_assoc. }
  assert (S2 : sexecs u w s (l1 ++ l3) = s2) by (rewrite sexecs_app; reflexivity).
  assert (Et : Z.max top (s_row s2 - H + 1) = top') by (unfold top'; f_equal; lia).
  rewrite So, Eo, xexecs_app, (xrise H u w (l1 ++ l3) s top T), S2; [|rewrite Pg, all_app, R1, E1; exact R3]. rewrite Et.
  rewrite xexecs_app. change (xexecs H u w (s2, top') [65]) with (xexec H u w (s2, top') 65).
  rewrite (xcsi H u w s2 top' 65 q P2); [|lia|fold s3; lia]. fold s3. apply xfall.
  - lia.
  - rewrite <- So. fold y. exact L.
  - rewrite P3. now apply flat_fall.
Qed.

Lemma text_up l : Forall (plainr u) l -> all_steps rise1 PGround l = true /\ pend PGround l = PGround.
Proof.
  intros F. induction F as [|r l R F IH]; [split; reflexivity|]. unfold pend. cbn [all_steps fold_left rise1 pstep andb].
  destruct R as (R & _). replace (r =? 27) with false by lia. exact IH.
Qed.
Lemma nl_rise n : all_steps rise1 PGround (repeat 10 n) = true /\ pend PGround (repeat 10 n) = PGround.
Proof. induction n as [|n (A & B)]; [split; reflexivity|]. cbn [repeat]. split; [exact A|exact B]. Qed.
Lemma back_rise n : all_steps rise1 PGround (repeat 8 n) = true /\ pend PGround (repeat 8 n) = PGround.
Proof. induction n as [|n (A & B)]; [split; reflexivity|]. cbn [repeat]. split; [exact A|exact B]. Qed.
Lemma sp_rise n : all_steps rise1 PGround (repeat 32 n) = true /\ pend PGround (repeat 32 n) = PGround.
Proof. induction n as [|n (A & B)]; [split; reflexivity|]. cbn [repeat]. split; [exact A|exact B]. Qed.
Lemma rise_app a b : all_steps rise1 PGround a = true /\ pend PGround a = PGround -> all_steps rise1 PGround b = true /\ pend PGround b = PGround ->
  all_steps rise1 PGround (a ++ b) = true /\ pend PGround (a ++ b) = PGround.
Proof. intros (A & B) (C & D). now rewrite all_app, pend_app, A, B, C, D. Qed.

Lemma slice_plain a b (l x : list Z) : Forall (plainr u) l -> slice a b l = Ok x -> Forall (plainr u) x.
Proof. intros F E. unfold slice in E. destruct (_ && _); [|discriminate]. injection E as <-. now apply Forall_firstn, Forall_skipn. Qed.

Lemma style_rise a e b out : Forall (plainr u) (rb_buf b) -> SetStyle u a e b = Ok out ->
  all_steps rise1 PGround out = true /\ pend PGround out = PGround.
Proof.
  intros F E. unfold SetStyle in E. destruct (_ <? _)%nat; [discriminate|]. apply obind_ok in E. destruct E as (pre & Ep & E). apply obind_ok in E. destruct E as (mid & Em & E).
  injection E as <-. apply rise_app.
  - destruct (_ <? _)%nat; [apply text_up; eapply slice_plain; eassumption|]. apply obind_ok in Ep. destruct Ep as (x & _ & Ep). injection Ep as <-. apply back_rise.
  - apply (rise_app [27; 91; 52; 109]); [split; reflexivity|]. apply rise_app; [|split; reflexivity]. apply text_up. eapply slice_plain; eassumption.
Qed.

(** the table *)
Lemma cells_rise same cw cols choice sel : Forall (plainr u) same -> forall cs i j out n, Forall (Forall (plainr u)) cs ->
  cells_out u same cw cols choice sel cs i j = Ok (out, n) -> all_steps rise1 PGround out = true /\ pend PGround out = PGround.
Proof.
  intros Fs. induction cs as [|c cs IH]; intros i j out n F E; cbn [cells_out] in E.
  - injection E as <- <-. split; reflexivity.
  - inversion F as [|? ? Fc F']; subst. apply obind_ok in E. destruct E as (sp & Es & E). apply obind_ok in E. destruct E as ([o1 n1] & E1 & E). injection E as <- <-.
    specialize (IH _ _ _ _ F' E1). cbn [fst].
    assert (Sp : all_steps rise1 PGround sp = true /\ pend PGround sp = PGround).
    { unfold Repeat in Es. destruct (_ <? 0); [discriminate|]. injection Es as <-. apply sp_rise. }
    apply rise_app; [destruct (_ && _); split; reflexivity|]. apply rise_app; [now apply text_up|]. apply rise_app; [now apply text_up|].
    apply rise_app; [exact Sp|]. apply rise_app; [destruct (_ && _); split; reflexivity|]. apply rise_app; [destruct (_ =? _); split; reflexivity|exact IH].
Qed.
Lemma cells_rows same cw cols choice sel : 0 < cols -> forall cs i j out n, 0 <= j < cols ->
  cells_out u same cw cols choice sel cs i j = Ok (out, n) -> n = (j + Z.of_nat (length cs)) / cols.
Proof.
  intros C. induction cs as [|c cs IH]; intros i j out n J E; cbn [cells_out] in E.
  - injection E as <- <-. cbn [length Z.of_nat]. rewrite Z.div_small by lia. reflexivity.
  - apply obind_ok in E. destruct E as (sp & Es & E). apply obind_ok in E. destruct E as ([o1 n1] & E1 & E). injection E as <- <-. cbn [snd].
    cbn [length]. rewrite Nat2Z.inj_succ. destruct (j + 1 =? cols) eqn:X.
    + apply IH in E1; [|lia]. rewrite E1. replace (j + Z.succ (Z.of_nat (length cs))) with (0 + Z.of_nat (length cs) + 1 * cols) by lia. rewrite Z.div_add by lia. lia.
    + apply IH in E1; [|lia]. rewrite E1, Z.add_0_r. f_equal. lia.
Qed.
End V.

(** ** One event *)
Section Draw.
Variable H : Z.
Hypothesis HP : 0 < H.
Variable cf : ocfg.
Notation u := (oc_u cf).
Notation w := (oc_w cf).
Hypothesis W : 0 < w <= 9223372036854775807.
Hypothesis U : uenv_ok u.
Hypothesis As : forall r, 32 <= r < 127 -> Width u r = 1%nat.
Variable ps : list piece.
Let v := visible ps.
Hypothesis PD : Forall sgr_digits ps.
Hypothesis PV : Forall (plainr u) v.
Hypothesis PS : Z.of_nat (length v) + 1 < w.
Hypothesis Pr : oc_prompt cf = prompt_runes ps.
Notation overlaid := (overlaid cf ps).
Notation cagrees := (cagrees cf ps).
Notation sight := (all_in_sight H w v).

Lemma over_row y0 k st s0 s : overlaid y0 k st s0 s ->
  s_par s = PGround /\ s_row s = y0 + height w (k_done k) + (Z.of_nat (length v) + Z.of_nat (k_idx k)) / w.
Proof. intros (_ & _ & _ & _ & _ & _ & _ & _ & _ & (_ & (R & _ & _ & Pa)) & _). split; [exact Pa|exact R]. Qed.

Lemma over_view y0 k st s0 s e k' top st' o : overlaid y0 k st s0 s -> looks u v k e k' -> top <= y0 + height w (k_done k) -> s_row s <= top + H - 1 ->
  ViewSpec.fits H w v (k_line k) -> (forall b i, e = VLine b i -> ViewSpec.fits H w v b) -> dstep u st e = Ok (st', o) ->
  exists top', xexecs H u w (s, top) o = (sexecs u w s o, top') /\ in_sight H w v y0 k' top' /\ top <= top'.
Proof.
  intros Ov K T Lr Fk Fi E. destruct (over_row _ _ _ _ _ Ov) as (Pg & Rw).
  pose proof Ov as (S & B & I & Rd & Kr & F & L & Hd & St & (_ & Cu) & Ab). destruct st as [reading d]. cbn [fst snd] in *. subst reading.
  assert (D : drawable u ps d) by (apply (static_drawable0 u w W ps PD PV PS); [exact S|now rewrite B|now rewrite B, I]).
  set (y1 := y0 + height w (k_done k)) in *.
  destruct (clean_over u ps d y1 s D Hd) as (o1 & C1 & C2 & C3).
  { rewrite (st_width _ _ _ _ S), I, Nat2Z.inj_add. exact Cu. }
  rewrite (st_width _ _ _ _ S) in C2, C3.
  assert (V1 : xexecs H u w (s, top) o1 = (sexecs u w s o1, top)).
  { destruct (clean_is u ps d D Hd) as (n & X). rewrite C1 in X. injection X as ->. apply xfall; [exact Lr| |].
    - destruct C2 as (_ & (R & _)). rewrite R. unfold row_of. rewrite Z.div_0_l by lia. lia.
    - rewrite Pg. apply erases_fall. }
  assert (S1 : RenderSession.static u w ps (with_had true d)) by (pose proof (static_line u w ps d (d_buf d) (d_idx d) true S) as X; destruct d; exact X).
  destruct (dstep_ready u w W U ps PD PV PS y0 k (true, with_had true d) s0 (sexecs u w s o1) e k') as (st2 & o2 & E2 & A2); try assumption.
  { now rewrite Kr. }
  { congruence. }
  { apply (stacked_above w _ _ s); assumption. }
  { unfold ready. cbn. rewrite (st_width _ _ _ _ S). exact C2. }
  { intros X. congruence. }
  { eapply same_above_trans; [exact Ab|]. intros a b C. apply C3. pose proof (height_nonneg w (k_done k)). unfold y1. lia. }
  pose proof (dstep_split u d o1 e st2 o2 (st_inter _ _ _ _ S) C1 E2) as E'. rewrite E in E'. injection E' as -> ->.
  destruct (dstep_view H u w HP W U ps PD PV PS y0 k (true, with_had true d) (sexecs u w s o1) e k' top st2 o2) as (top' & V2 & V3 & V4); try assumption.
  { now rewrite Kr. }
  { congruence. }
  { unfold ready. cbn. rewrite (st_width _ _ _ _ S). exact C2. }
  { destruct C2 as (_ & (R & _)). rewrite R. unfold row_of. rewrite Z.div_0_l by lia. rewrite Rw in Lr.
    assert (0 <= (Z.of_nat (length v) + Z.of_nat (k_idx k)) / w) by (apply Z.div_pos; lia). lia. }
  exists top'. split; [|split; assumption]. now rewrite xexecs_app, sexecs_app, V1.
Qed.

Lemma status_view y0 k st s0 s x sr b out top : overlaid y0 k st s0 s -> rb_buf b = k_line k -> rb_idx b = k_idx k ->
  x < 0 \/ x = Z.of_nat (k_idx k) ->
  (let P := Z.of_nat (length v) in let n := Z.of_nat (length (k_line k)) in let c := P + Z.of_nat (k_idx k) in
   0 < P + n <= 9223372036854775807 /\ ~ (k_idx k = length (k_line k) /\ (P + n) mod w = 0) /\
   (s_ms sr = 0%nat \/ ((P + Z.of_nat (s_ms sr)) / w = c / w /\ (P + Z.of_nat (s_me sr)) / w = c / w)) /\
   Z.of_nat (length (status (s_fail sr) (s_bck sr) (s_data sr))) + 1 < w) ->
  marks_ok sr b -> Forall (plainr u) (s_data sr) ->
  top <= y0 + height w (k_done k) -> s_row s <= top + H - 1 -> rows w (Z.of_nat (length v) + Z.of_nat (length (k_line k))) < H ->
  search_out cf x sr b = Ok out ->
  exists top', xexecs H u w (s, top) out = (sexecs u w s out, top') /\ sight y0 k (UStatus (status (s_fail sr) (s_bck sr) (s_data sr))) top' /\ top <= top'.
Proof.
  intros Ov Bb Bi Ex Hs M Fd T Lr Fi E. destruct (over_row _ _ _ _ _ Ov) as (Pg & Rw).
  destruct (status_agrees cf W U As ps PD PV PS Pr y0 k st s0 s x sr b Ov Bb Bi Ex Hs M Fd) as (out' & E' & G). rewrite E in E'. injection E' as <-.
  pose proof Ov as (S & B & I & Rd & Kr & F & L & Hd & St & Ls & Ab).
  destruct Hs as (Hn & He & _ & Ht).
  assert (Rf : s_row (sexecs u w s out) = s_row s).
  { destruct G as (_ & _ & _ & _ & _ & _ & _ & _ & (_ & (_ & (R & _)) & _) & _). rewrite R, Rw. reflexivity. }
  assert (D : drawable u ps (op_rdr cf b)) by (apply rdr_drawable; try assumption; [now rewrite Bb|now rewrite Bb, Bi]).
  unfold search_out in E. apply obind_ok in E. destruct E as (front & _ & E). apply obind_ok in E. destruct E as (p & _ & E).
  replace (w =? 0) with false in E by lia. cbn zeta in E. apply obind_ok in E. destruct E as (mark & Em & E).
  rewrite (MenuProofs.cursor_lines cf ps b D), Bb, Bi in E. cbn [obind] in E. fold v in E.
  set (P := Z.of_nat (length v)) in *. set (n := Z.of_nat (length (k_line k))) in *. set (q := (P + Z.of_nat (k_idx k)) / w) in *.
  set (rs := rows w (P + n)) in *. assert (Q0 : 0 <= q) by (apply Z.div_pos; unfold P; lia). assert (Qr : q < rs).
  { destruct (Nat.eq_dec (k_idx k) (length (k_line k))) as [X|X].
    - assert (Mm : (P + n) mod w <> 0) by tauto. unfold rs. rewrite <- (rows_spec w (P + n)) by lia. rewrite Z.quot_div_nonneg, Z.rem_mod_nonneg by lia.
      replace ((P + n) mod w =? 0) with false by lia. cbn [negb]. unfold q. replace (P + Z.of_nat (k_idx k)) with (P + n) by lia. lia.
    - apply rows_lb; unfold P, n; lia. }
  pose proof (rows_le w (P + n) ltac:(lia) ltac:(lia)) as Rl. fold rs in Rl.
  apply obind_ok in E. destruct E as (nl & En & E). unfold Repeat in En. destruct (_ <? 0); [discriminate|]. injection En as <-.
  assert (Rm : all_steps rise1 PGround mark = true /\ pend PGround mark = PGround).
  { destruct (0 <? s_ms sr)%nat; [|injection Em as <-; split; reflexivity]. apply (style_rise u (s_ms sr) (s_me sr) b); [now rewrite Bb|exact Em]. }
  set (col := Z.rem _ _) in E.
  set (l1 := mark ++ repeat 10 (Z.to_nat (rs - q)) ++ [27; 91; 74] ++ status (s_fail sr) (s_bck sr) (s_data sr) ++ [27; 91; 52; 109; 32; 27; 91; 48; 109] ++ [13]).
  set (l2 := if 0 <? col then [27; 91] ++ Itoa col ++ [67] else []).
  assert (Eo : out = l1 ++ ([27; 91] ++ Itoa (rs - q) ++ [65]) ++ l2).
  { injection E as <-. unfold l1, l2, status. repeat rewrite <- app_assoc. reflexivity. }
  assert (R1 : all_steps rise1 PGround l1 = true /\ pend PGround l1 = PGround).
  { unfold l1. apply rise_app; [exact Rm|]. apply rise_app; [apply nl_rise|]. apply rise_app; [split; reflexivity|].
    apply rise_app; [apply (text_up u); now apply status_plain|]. split; reflexivity. }
  assert (F2 : all_steps flat1 PGround l2 = true).
  { unfold l2. destruct (0 <? col) eqn:Cc; [|reflexivity].
    assert (Cm : col <= 9223372036854775807).
    { unfold col. pose proof (Z.rem_bound_abs (Z.of_nat (WidthAll u front) + p) w ltac:(lia)). lia. }
    destruct (Itoa_spec col ltac:(lia)) as (Dg & _).
    destruct (params_steps flat1 (Itoa col)) with (p := @nil Z) as (X & q' & Y); [intros ? r R; cbn; lia|eapply Forall_impl; [|exact Dg]; cbn; intros; lia|].
    change (all_steps flat1 (PCsi []) (Itoa col ++ [67]) = true). rewrite all_app, X, Y. reflexivity. }
  clear E. pose proof (xup H u w l1 (rs - q) l2 s top) as X. cbn zeta in X. rewrite <- Eo, Rf in X.
  set (y1 := y0 + height w (k_done k)) in *.
  exists (Z.max top (s_row s + (rs - q) - H + 1)). split; [|split; [|lia]].
  - apply X; try tauto; try lia.
  - unfold all_in_sight, last_row. fold y1 P n rs. lia.
Qed.

Lemma menu_view y0 k st s0 s c b out col top : overlaid y0 k st s0 s -> rb_buf b = k_line k -> rb_idx b = k_idx k ->
  menu_out cf c b = Ok (out, col) -> OpSpec.fits cf (rb_buf b) (rb_idx b) (c_cand c) (c_off c) -> Forall (Forall (plainr u)) (c_cand c) ->
  0 < Z.of_nat (length v) + Z.of_nat (k_idx k) < w ->
  Z.of_nat (length v) + Z.of_nat (length (k_line k)) + Z.of_nat (length (c_cand c)) <= 9223372036854775807 ->
  top <= y0 + height w (k_done k) -> s_row s <= top + H - 1 ->
  rows w (Z.of_nat (length v) + Z.of_nat (length (k_line k))) + Z.of_nat (length (c_cand c)) / col < H ->
  exists top', xexecs H u w (s, top) out = (sexecs u w s out, top') /\ sight y0 k (UMenu col (words c b)) top' /\ top <= top'.
Proof.
  intros Ov Bb Bi E Ft Fc K Mx T Lr Fi. destruct (over_row _ _ _ _ _ Ov) as (Pg & Rw).
  pose proof (menu_agrees cf W U As ps PD PV PS Pr y0 k st s0 s c b out col Ov Bb Bi E Ft Fc K Mx) as (G & (_ & _ & Gc & _)).
  pose proof Ov as (S & B & I & Rd & Kr & F & L & Hd & St & Ls & Ab).
  assert (Rf : s_row (sexecs u w s out) = s_row s) by (destruct (over_row _ _ _ _ _ G) as (_ & R); now rewrite R, Rw).
  assert (D : drawable u ps (op_rdr cf b)) by (apply rdr_drawable; try assumption; [now rewrite Bb|now rewrite Bb, Bi]).
  unfold menu_out in E. rewrite (MenuProofs.cursor_lines cf ps b D), Bb, Bi in E. cbn [obind] in E. fold v in E.
  set (P := Z.of_nat (length v)) in *. set (n := Z.of_nat (length (k_line k))) in *.
  replace ((P + Z.of_nat (k_idx k)) / w) with 0 in * by (symmetry; apply Z.div_small; lia). rewrite Z.sub_0_r in E. rewrite Z.add_0_r in Rw.
  set (rs := rows w (P + n)) in *. assert (Qr : 1 <= rs <= P + n).
  { assert (0 / w < rows w (P + n)) by (apply rows_lb; unfold n; lia). rewrite Z.div_0_l in H0 by lia. pose proof (rows_le w (P + n) ltac:(lia) ltac:(lia)). unfold rs. lia. }
  apply obind_ok in E. destruct E as (same & Es & E). destruct (_ =? 0); [discriminate|]. cbn zeta in E.
  apply obind_ok in E. destruct E as (nl & En & E). unfold Repeat in En. destruct (_ <? 0); [discriminate|]. injection En as <-.
  apply obind_ok in E. destruct E as ([body t] & Eb & E). cbn [fst snd] in E. apply obind_ok in E. destruct E as (p & Ep & E).
  rewrite (promptLen_ok _ ps _ D) in Ep. injection Ep as <-. fold v P in E. replace (rs - 1 + (1 + t)) with (rs + t) in E by lia. injection E as Eo Ec. rewrite Ec in Eb.
  assert (Et : t = Z.of_nat (length (c_cand c)) / col) by (apply (cells_rows u) in Eb; [exact Eb|exact Gc|lia]).
  assert (Fs : Forall (plainr u) same).
  { unfold RuneSlice in Es. rewrite Bb in Es. destruct (_ <? _); [|destruct (_ <? _); [discriminate|]]; eapply slice_plain; eassumption. }
  pose proof (cells_rise u same _ _ _ _ Fs _ _ _ _ _ Fc Eb) as Rb.
  assert (Tb : 0 <= t <= Z.of_nat (length (c_cand c))).
  { rewrite Et. split; [apply Z.div_pos; lia|]. apply Z.div_le_upper_bound; [lia|]. apply Z.le_trans with (1 * Z.of_nat (length (c_cand c))); [lia|apply Z.mul_le_mono_nonneg_r; lia]. }
  set (l1 := repeat 10 (Z.to_nat rs) ++ [27; 91; 74] ++ body).
  set (l2 := [13] ++ [27; 91] ++ Itoa (Z.of_nat (k_idx k) + P) ++ [67]).
  assert (Eo' : out = l1 ++ ([27; 91] ++ Itoa (rs + t) ++ [65]) ++ l2).
  { rewrite <- Eo. unfold l1, l2. repeat rewrite <- app_assoc. reflexivity. }
  assert (R1 : all_steps rise1 PGround l1 = true /\ pend PGround l1 = PGround).
  { unfold l1. apply rise_app; [apply nl_rise|]. apply rise_app; [split; reflexivity|exact Rb]. }
  assert (F2 : all_steps flat1 PGround l2 = true).
  { destruct (Itoa_spec (Z.of_nat (k_idx k) + P) ltac:(lia)) as (Dg & _).
    destruct (params_steps flat1 (Itoa (Z.of_nat (k_idx k) + P))) with (p := @nil Z) as (X & q' & Y); [intros ? r R; cbn; lia|eapply Forall_impl; [|exact Dg]; cbn; intros; lia|].
    change (all_steps flat1 (PCsi []) (Itoa (Z.of_nat (k_idx k) + P) ++ [67]) = true). rewrite all_app, X, Y. reflexivity. }
  pose proof (xup H u w l1 (rs + t) l2 s top) as X. cbn zeta in X. rewrite <- Eo', Rf in X.
  set (y1 := y0 + height w (k_done k)) in *.
  exists (Z.max top (s_row s + (rs + t) - H + 1)). split; [|split; [|lia]].
  - apply X; try tauto; try lia.
  - unfold all_in_sight, last_row. fold y1 P n rs. unfold words. rewrite map_length. rewrite <- Et. lia.
Qed.

Lemma rows_ge n : 0 <= n -> n / w <= rows w n.
Proof.
  intros N. destruct (Z.eq_dec n 0) as [->|X]; [rewrite Z.div_0_l by lia; unfold rows; apply Z.div_pos; lia|].
  rewrite <- (rows_spec w n) by lia. rewrite Z.quot_div_nonneg by lia. destruct (negb _); lia.
Qed.

Lemma sight_line y0 k a top : k_reading k = true -> (forall c ws, a = UMenu c ws -> 0 < c) -> sight y0 k a top ->
  let y1 := y0 + height w (k_done k) in
  top <= y1 /\ y1 + (Z.of_nat (length v) + Z.of_nat (length (k_line k))) / w <= top + H - 1 /\ ViewSpec.fits H w v (k_line k).
Proof.
  intros Kr Gc (T & L) y1. fold y1 in T, L.
  assert (Le : (Z.of_nat (length v) + Z.of_nat (length (k_line k))) / w <= last_row w v k a).
  { pose proof (rows_ge (Z.of_nat (length v) + Z.of_nat (length (k_line k))) ltac:(lia)). unfold last_row. destruct a as [|t|c ws].
    - rewrite Kr. lia.
    - lia.
    - specialize (Gc c ws eq_refl). assert (0 <= Z.of_nat (length ws) / c) by (apply Z.div_pos; lia). lia. }
  split; [exact T|]. split; [lia|]. unfold ViewSpec.fits. rewrite Nat2Z.inj_add. lia.
Qed.

Lemma none_sight y0 k top : sight y0 k UNone top <-> in_sight H w v y0 k top.
Proof. unfold all_in_sight, in_sight, last_row. rewrite Nat2Z.inj_add. reflexivity. Qed.

Lemma cagrees_cols y0 k a st s0 s : cagrees y0 k a st s0 s -> forall c ws, a = UMenu c ws -> 0 < c.
Proof. intros A c ws ->. destruct A as (_ & (_ & _ & X & _)). exact X. Qed.

Lemma bell_view s top : s_par s = PGround -> top <= s_row s <= top + H - 1 -> xexecs H u w (s, top) [7] = (sexecs u w s [7], top).
Proof.
  intros Pg T. assert (Es : sexecs u w s [7] = s) by (unfold sexecs; cbn [fold_left]; unfold sexec; now rewrite Pg).
  rewrite xrise; [|exact T|rewrite Pg; reflexivity]. rewrite Es. f_equal. lia.
Qed.

Lemma cstep_view y0 k a st s0 s e k' a' top st' o : cagrees y0 k a st s0 s -> clooks cf v (k, a) e (k', a') -> sight y0 k a top ->
  draw_fits H cf v e -> cstep cf st e = Ok (st', o) ->
  exists top', xexecs H u w (s, top) o = (sexecs u w s o, top') /\ sight y0 k' a' top' /\ top <= top'.
Proof.
  intros A K G Fi E. pose proof (cagrees_cols _ _ _ _ _ _ A) as Gc.
  assert (Ov : k_reading k = true -> overlaid y0 k st s0 s /\ s_par s = PGround /\ top <= y0 + height w (k_done k) /\ top <= s_row s <= top + H - 1 /\ ViewSpec.fits H w v (k_line k)).
  { intros Kr. pose proof (CompDraw.cagrees_overlaid cf W As ps y0 k a st s0 s A Kr) as Ov. destruct (over_row _ _ _ _ _ Ov) as (Pg & Rw).
    destruct (sight_line y0 k a top Kr Gc G) as (T & L & F). repeat (split; [assumption|]). split; [|exact F].
    assert (Ix : (k_idx k <= length (k_line k))%nat) by (destruct Ov as (_ & _ & _ & _ & _ & _ & X & _); exact X). rewrite Rw.
    assert ((Z.of_nat (length v) + Z.of_nat (k_idx k)) / w <= (Z.of_nat (length v) + Z.of_nat (length (k_line k))) / w) by (apply Z.div_le_mono; lia).
    assert (0 <= (Z.of_nat (length v) + Z.of_nat (k_idx k)) / w) by (apply Z.div_pos; lia). lia. }
  (* a redraw *)
  assert (Redraw : forall d k1, k_reading k = true -> looks u v k d k1 -> (forall b i, d = VLine b i -> ViewSpec.fits H w v b) -> dstep u st d = Ok (st', o) ->
    exists top', xexecs H u w (s, top) o = (sexecs u w s o, top') /\ sight y0 k1 UNone top' /\ top <= top').
  { intros d k1 Kr L F X. destruct (Ov Kr) as (V1 & V2 & V3 & V4 & V5). destruct (over_view y0 k st s0 s d k1 top st' o V1 L V3 ltac:(lia) V5 F X) as (top' & Q1 & Q2 & Q3).
    exists top'. rewrite none_sight. auto. }
  assert (Bell : k_reading k = true -> xexecs H u w (s, top) [7] = (sexecs u w s [7], top)).
  { intros Kr. destruct (Ov Kr) as (V1 & V2 & V3 & V4 & V5). now apply bell_view. }
  assert (Line : forall d, e = CS (SO (ODraw d)) -> forall b i, d = VLine b i -> ViewSpec.fits H w v b).
  { intros d -> b i ->. exact Fi. }
  inversion K as [? t ? ? t' K1|? c ws d ? K1|? ?|? ? c b out col Kr Kb Ki Km Kf Kc Kn Kx]; subst; clear K; cbn [cstep] in E.
  - apply cagrees_opt in A. inversion K1; subst; clear K1; cbn [sstep of_opt] in *.
    + match goal with X : olooks _ _ _ ?d _ |- _ => rename d into e1; rename X into K1 end.
      destruct (ostep_view H u w HP W U ps PD PV PS y0 k st s0 s e1 k' top st' o A K1) as (top' & Q1 & Q2 & Q3).
      { now apply none_sight. }
      { intros b i ->. exact Fi. }
      { exact E. }
      exists top'. rewrite none_sight. auto.
    + match goal with X : looks _ _ _ ?d _ |- _ => apply (Redraw d k'); [apply A|exact X|now apply Line|exact E] end.
    + injection E as <- <-. exists top. split; [apply Bell; apply A|]. split; [exact G|lia].
    + apply obind_ok in E. destruct E as (out & Es & E). injection E as <- <-.
      match goal with X : k_reading _ = true |- _ => destruct (Ov X) as (V1 & V2 & V3 & V4 & V5) end.
      match goal with X : search_out _ ?x ?s1 ?b = _ |- _ => apply (status_view y0 k' st s0 s x s1 b out top); try assumption; [lia|] end. cbn [draw_fits] in Fi. cbn zeta in Fi.
      match goal with X : rb_buf b = _ |- _ => rewrite <- X end. exact Fi.
  - destruct A as (A & A2). apply (Redraw d k'); [apply A|exact K1|now apply Line|exact E].
  - cbn [sstep ostep] in E. injection E as <- <-. exists top. split; [|split; [exact G|lia]].
    destruct (k_reading k') eqn:Kr; [now apply Bell|]. destruct a' as [|t|c ws]; [|destruct A as (_ & _ & _ & _ & X & _); congruence|destruct A as ((_ & _ & _ & _ & X & _) & _); congruence].
    destruct A as (_ & _ & _ & _ & _ & _ & _ & _ & (_ & Sc) & _). cbn zeta in Sc. rewrite Kr in Sc. destruct Sc as (_ & (R & _ & _ & Pa)). unfold row_of in R. rewrite Z.div_0_l in R by lia.
    destruct G as (T & L). cbn [last_row] in L. rewrite Kr in L. apply bell_view; [exact Pa|lia].
  - rewrite Km in E. cbn [obind fst] in E. injection E as <- <-. destruct (Ov Kr) as (V1 & V2 & V3 & V4 & V5).
    apply (menu_view y0 k' st s0 s c b out col top); try assumption; [lia|]. specialize (Fi out col Km). rewrite <- Kb. exact Fi.
Qed.

Lemma crun_view es : forall y0 k a st s0 s k' a' top st' o, cagrees y0 k a st s0 s -> clooks_all cf v (k, a) es (k', a') -> sight y0 k a top ->
  Forall (draw_fits H cf v) es -> crun cf st es = Ok (st', o) ->
  exists top', xexecs H u w (s, top) o = (sexecs u w s o, top') /\ sight y0 k' a' top' /\ top <= top'.
Proof.
  induction es as [|e es IH]; intros y0 k a st s0 s k' a' top st' o A K G Fi E; inversion K; subst; cbn [crun] in E.
  - injection E as <- <-. exists top. split; [reflexivity|]. split; [exact G|lia].
  - match goal with X : clooks _ _ _ _ ?x, Y : clooks_all _ _ ?x _ _ |- _ => destruct x as [k1 a1]; rename X into H1; rename Y into H2 end.
    inversion Fi; subst.
    destruct (cstep_agrees cf W U As ps PD PV PS Pr _ _ _ _ _ _ _ _ _ A H1) as (st1 & o1 & E1 & A1). rewrite E1 in E. cbn [obind fst snd] in E.
    apply obind_ok in E. destruct E as ([st2 o2] & E2 & E). injection E as <- <-. cbn [fst snd] in *.
    destruct (cstep_view _ _ _ _ _ _ _ _ _ top _ _ A H1 G ltac:(assumption) E1) as (top1 & Q1 & Q2 & Q3).
    destruct (IH _ _ _ _ _ _ _ _ top1 _ _ A1 H2 Q2 ltac:(assumption) E2) as (top2 & Q4 & Q5 & Q6).
    exists top2. rewrite xexecs_app, sexecs_app, Q1, Q4. split; [reflexivity|]. split; [exact Q5|lia].
Qed.
End Draw.

(** ** Sessions *)
Section Sess.
Variable H : Z.
Hypothesis HP : 0 < H.
Variable cf : ocfg.
Variable ps : list piece.
Hypothesis C : comp_session cf ps.
Hypothesis W : 0 < oc_w cf <= 9223372036854775807.
Hypothesis U : uenv_ok (oc_u cf).
Let v := visible ps.
Hypothesis PD : Forall sgr_digits ps.
Hypothesis PV : Forall (plainr (oc_u cf)) v.
Hypothesis PS : Z.of_nat (length v) + 1 < oc_w cf.
Notation cagrees := (cagrees cf ps).
Notation u := (oc_u cf).
Notation w := (oc_w cf).
Notation sight := (all_in_sight H w v).

Lemma comp_view is : forall o reading done st y0 s0 s top, owf cf o -> at_comp cf ps o -> status_fits cf v o -> menu_fits cf v o -> comp_turn cf v is o reading ->
  room H cf v is o ->
  cagrees y0 {| k_done := done; k_line := rb_buf (o_b o); k_idx := rb_idx (o_b o); k_reading := reading |} (under_of o) st s0 s ->
  sight y0 {| k_done := done; k_line := rb_buf (o_b o); k_idx := rb_idx (o_b o); k_reading := reading |} (under_of o) top ->
  exists st' out t o' acts top', comp_run cf (o, st) is = Ok ((o', st'), out, acts) /\ leaves cf v is o t o' acts /\
    xexecs H u w (s, top) out = (sexecs u w s out, top') /\ top <= top' /\
    let k' := {| k_done := done ++ t; k_line := rb_buf (o_b o'); k_idx := rb_idx (o_b o'); k_reading := fst st' |} in
    cagrees y0 k' (under_of o') st' s0 (sexecs u w s out) /\ sight y0 k' (under_of o') top'.
Proof.
  pose proof (cs_seek _ _ C) as Cs.
  pose proof (crun_agrees cf W U (ss_ascii _ _ Cs) ps PD PV PS (ss_prompt _ _ Cs)) as Run.
  pose proof (crun_view H HP cf W U (ss_ascii _ _ Cs) ps PD PV PS (ss_prompt _ _ Cs)) as See.
  induction is as [|i is IH]; intros o reading done st y0 s0 s top R A F Fm T Rm Gr Sg; pose proof (cagrees_reading cf ps _ _ _ _ _ _ Gr) as Rd; cbn [k_reading] in Rd.
  - exists st, [], [], o, [], top. split; [reflexivity|]. split; [constructor|]. split; [reflexivity|]. split; [lia|]. cbn zeta. rewrite app_nil_r, Rd. split; [exact Gr|exact Sg].
  - destruct i as [|txt|r]; cbn [comp_turn room] in T, Rm.
    + destruct T as (-> & T).
      assert (Sn : under_of o = UNone).
      { destruct (under_of o); [reflexivity|destruct Gr as (_ & _ & _ & _ & Y & _); discriminate|destruct Gr as ((_ & _ & _ & _ & Y & _) & _); discriminate]. }
      rewrite Sn in Gr, Sg.
      assert (Lk : clooks_all cf v ({| k_done := done; k_line := rb_buf (o_b o); k_idx := rb_idx (o_b o); k_reading := false |}, UNone) [CompModel.CS (SO (ODraw VRead))]
        ({| k_done := done; k_line := rb_buf (o_b o); k_idx := rb_idx (o_b o); k_reading := true |}, UNone)) by apply clooks_one, over_any, LRead.
      destruct (Run _ y0 _ UNone st s0 s _ UNone Gr Lk) as (st1 & o1 & E1 & G1).
      destruct (See _ y0 _ UNone st s0 s _ UNone top st1 o1 Gr Lk Sg ltac:(repeat constructor) E1) as (top1 & X1 & X2 & X3).
      rewrite <- Sn in G1, X2. destruct (IH o true done st1 y0 s0 _ top1 R A F Fm T Rm G1 X2) as (st' & out & t & o' & acts & top' & E2 & L2 & V2 & Tp & G2 & S2).
      exists st', (o1 ++ out), t, o', acts, top'. cbn [comp_run comp_step]. rewrite E1. cbn [obind fst snd]. rewrite E2. cbn [obind app].
      split; [reflexivity|]. split; [now constructor|]. rewrite xexecs_app, sexecs_app, X1. split; [exact V2|]. split; [lia|]. split; [exact G2|exact S2].
    + destruct T as ((ls & Fl & ->) & T).
      set (es := CompModel.CS (SO (ODraw (VOut (flat_map (fun l => l ++ [10]) ls)))) ::
        if fst st then (if s_in (o_s o) then [CompModel.CS (SStatus (-1) (set_fail (-1) (o_s o)) (o_b o))] else []) ++ cmenu o else []).
      assert (Lk : clooks_all cf v ({| k_done := done; k_line := rb_buf (o_b o); k_idx := rb_idx (o_b o); k_reading := reading |}, under_of o) es
          ({| k_done := done ++ ls; k_line := rb_buf (o_b o); k_idx := rb_idx (o_b o); k_reading := reading |}, under_of o) /\ Forall (draw_fits H cf v) es).
      { unfold es. pose proof (LOut u v {| k_done := done; k_line := rb_buf (o_b o); k_idx := rb_idx (o_b o); k_reading := reading |} ls Fl) as L.
        assert (Rest : clooks_all cf v ({| k_done := done ++ ls; k_line := rb_buf (o_b o); k_idx := rb_idx (o_b o); k_reading := reading |}, UNone)
            (if fst st then (if s_in (o_s o) then [CompModel.CS (SStatus (-1) (set_fail (-1) (o_s o)) (o_b o))] else []) ++ cmenu o else [])
            ({| k_done := done ++ ls; k_line := rb_buf (o_b o); k_idx := rb_idx (o_b o); k_reading := reading |}, under_of o) /\
          Forall (draw_fits H cf v) (if fst st then (if s_in (o_s o) then [CompModel.CS (SStatus (-1) (set_fail (-1) (o_s o)) (o_b o))] else []) ++ cmenu o else [])).
        2:{ destruct Rest as (Q1 & Q2). split; [|constructor; [exact I|exact Q2]]. econstructor; [apply over_any; exact L|exact Q1]. }
        rewrite Rd. destruct A as [A|Cp].
        - assert (Ci : c_in (o_c o) = false) by exact (ap_in _ _ (as_ap _ _ A)). unfold cmenu. rewrite Ci, app_nil_r.
          unfold under_of in *. destruct (s_in (o_s o)) eqn:Si.
          + assert (So : exists x, status_of o = Some x) by (unfold status_of; rewrite Si; eauto). destruct So as (x & So).
            assert (Rt : reading = true). { rewrite So in Gr. destruct Gr as (_ & _ & _ & _ & Y & _). exact Y. }
            rewrite Rt. replace (set_fail (-1) (o_s o)) with (o_s o) by (destruct (o_s o); reflexivity). split.
            * apply clooks_one. rewrite So.
              apply (CLSeek cf v _ None _ _ (Some x)). rewrite <- So. apply (status_case cf ps); try reflexivity; try assumption.
              -- left; lia.
              -- exact (ap_end _ _ (as_ap _ _ A)).
              -- exact (as_data _ _ A).
            * constructor; [|constructor]. cbn [draw_fits]. rewrite So in Sg. destruct Sg as (S1 & S2). cbn [last_row k_line] in S2. lia.
          + unfold status_of. rewrite Si, Ci. destruct reading; split; constructor.
        - pose proof (cp_mid _ _ _ Cp) as M. rewrite (mid_s cf o M). cbn [app].
          assert (Um : under_of o = UMenu (c_col (o_c o)) (words (o_c o) (o_b o))) by (apply under_menu; [exact (mid_s cf o M)|exact (cp_in _ _ _ Cp)]).
          assert (Rt : reading = true).
          { rewrite Um in Gr. destruct Gr as ((_ & _ & _ & _ & Y & _) & _). exact Y. }
          rewrite Rt. pose proof (menu_case cf ps C o (done ++ ls) UNone Cp (Fm (cp_in _ _ _ Cp))) as Mc. split; [exact Mc|].
          unfold cmenu in *. rewrite (cp_in _ _ _ Cp) in *. constructor; [|constructor]. cbn [draw_fits]. intros out cols Em.
          rewrite Um in Mc. inversion Mc as [|? ? k1 ? ? M1 M2]; subst. inversion M2; subst. inversion M1; subst.
          match goal with X : menu_out cf (o_c o) (o_b o) = Ok (?a, c_col (o_c o)) |- _ => rewrite Em in X; injection X as _ -> end.
          rewrite Um in Sg. destruct Sg as (S1 & S2). cbn [last_row k_line] in S2. unfold words in S2. rewrite map_length in S2. lia. }
      destruct Lk as (Lk & Ft).
      destruct (Run es y0 _ (under_of o) st s0 s _ (under_of o) Gr Lk) as (st1 & o1 & E1 & G1).
      destruct (See es y0 _ (under_of o) st s0 s _ (under_of o) top st1 o1 Gr Lk Sg Ft E1) as (top1 & X1 & X2 & X3).
      destruct (IH o reading (done ++ ls) st1 y0 s0 _ top1 R A F Fm T Rm G1 X2) as (st' & out & t & o' & acts & top' & E2 & L2 & V2 & Tp & G2 & S2).
      exists st', (o1 ++ out), (ls ++ t), o', acts, top'. cbn [comp_run comp_step]. fold es. rewrite E1. cbn [obind fst snd]. rewrite E2. cbn [obind app].
      split; [reflexivity|]. split; [now constructor|]. rewrite xexecs_app, sexecs_app, app_assoc, X1. split; [exact V2|]. split; [lia|]. split; [exact G2|exact S2].
    + destruct T as (-> & K & T). destruct Rm as (Rf & Rm).
      destruct (step_ok cf (ss_good _ _ Cs) r o R (proj1 K)) as (o1 & a1 & E & R1). destruct (T o1 a1 E) as (F1 & F1' & T1).
      destruct (comp_case cf ps C o r o1 a1 done R A Fm K E R1 F1 F1') as (A1 & es & D & L).
      destruct (Run es y0 _ _ st s0 s _ _ Gr L) as (st1 & out1 & E1 & G1).
      destruct (See es y0 _ _ st s0 s _ _ top st1 out1 Gr L Sg (Rf es D) E1) as (top1 & X1 & X2 & X3).
      destruct (IH o1 _ _ st1 y0 s0 _ top1 R1 A1 F1 F1' T1 (Rm o1 a1 E) G1 X2) as (st' & out & t & o' & acts & top' & E2 & L2 & V2 & Tp & G2 & S2).
      exists st', (out1 ++ out), (flat_map (text_of cf v) a1 ++ t), o', (a1 ++ acts), top'. cbn [comp_run comp_step]. rewrite D. cbn [obind].
      rewrite E1. cbn [obind fst snd]. rewrite E. cbn [obind fst snd]. rewrite E2. cbn [obind].
      split; [reflexivity|]. split; [econstructor; eassumption|]. rewrite xexecs_app, sexecs_app, app_assoc, X1. split; [exact V2|]. split; [lia|]. split; [exact G2|exact S2].
Qed.
End Sess.
