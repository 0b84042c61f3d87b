(** Proofs for ViewProps.v. *)
From Verif Require Import Base ListAux RunesModel RunesSpec RunesProofs RuneBufModel RuneBufSpec HistoryModel TerminalModel ScreenModel RenderModel RenderSpec RenderProofs RenderDraw RenderSession RenderMore ClearModel ClearSpec ClearProps OpModel OpSpec OutModel OutSpec OutProofs ViewModel ViewSpec.
From Coq Require Import ZifyBool.
Open Scope Z_scope.

(** ** Output that goes down and output that goes up *)
Section V.
Variables (H : Z) (u : uenv) (w : Z).
Hypothesis HP : 0 < H.

Lemma xexecs_app x a b : xexecs H u w x (a ++ b) = xexecs H u w (xexecs H u w x a) b.
Proof. unfold xexecs. apply fold_left_app. Qed.

Lemma at_row_id s y : y = s_row s -> at_row y s = s.
Proof. intros ->. now destruct s. Qed.

(** in a control sequence other than up, down, home the row stays *)
Lemma csi_row s r ps : s_par s = PCsi ps -> r <> 65 -> r <> 66 -> s_row (sexec u w s r) = s_row s.
Proof.
  intros P A B. unfold sexec. rewrite P. destruct ((48 <=? r) && (r <=? 63)); [reflexivity|]. unfold csi_exec.
  replace (r =? 65) with false by lia. replace (r =? 66) with false by lia.
  destruct (r =? 67); [reflexivity|]. destruct (r =? 68); [reflexivity|]. destruct (r =? 74); [destruct ps; reflexivity|].
  destruct (r =? 75); [|reflexivity].
  repeat match goal with |- context [match ?c with _ => _ end] => destruct c; try reflexivity end.
Qed.

Lemma xcsi s top r ps : s_par s = PCsi ps -> r <> 72 -> top <= s_row (sexec u w s r) <= top + H - 1 ->
  xexec H u w (s, top) r = (sexec u w s r, top).
Proof.
  intros P N L. unfold xexec. cbn [fst snd]. rewrite P.
  assert (E : match ps with [] => if r =? 72 then move s top 0 else sexec u w s r | _ => sexec u w s r end = sexec u w s r).
  { destruct ps; [|reflexivity]. now replace (r =? 72) with false by lia. }
  rewrite E, at_row_id by lia. reflexivity.
Qed.
Lemma xother s top r : (forall ps, s_par s <> PCsi ps) ->
  xexec H u w (s, top) r = (sexec u w s r, Z.max top (s_row (sexec u w s r) - H + 1)).
Proof. intros N. unfold xexec. cbn [fst snd]. destruct (s_par s) as [| |ps]; [reflexivity..|now destruct (N ps)]. Qed.

Lemma sexecs_cons' s r l : sexecs u w s (r :: l) = sexecs u w (sexec u w s r) l.
Proof. reflexivity. Qed.

Lemma rise_rows l : forall s, all_steps rise1 (s_par s) l = true -> s_row s <= s_row (sexecs u w s l).
Proof.
  induction l as [|r l IH]; intros s A; [cbn; lia|]. cbn [all_steps] in A. apply andb_true_iff in A. destruct A as (A & B).
  pose proof (rise_step u w s r A). rewrite <- (par_step u w) in B. apply IH in B. rewrite sexecs_cons'. lia.
Qed.

Lemma xrise l : forall s top, top <= s_row s <= top + H - 1 -> all_steps rise1 (s_par s) l = true ->
  xexecs H u w (s, top) l = (sexecs u w s l, Z.max top (s_row (sexecs u w s l) - H + 1)).
Proof.
  induction l as [|r l IH]; intros s top T A.
  { cbn. f_equal. lia. }
  cbn [all_steps] in A. apply andb_true_iff in A. destruct A as (A & B).
  pose proof (rise_step u w s r A) as R. rewrite <- (par_step u w) in B. pose proof (rise_rows l _ B) as R2.
  unfold xexecs. cbn [fold_left]. fold (xexecs H u w (xexec H u w (s, top) r) l). rewrite sexecs_cons'.
  destruct (s_par s) as [| |ps] eqn:P.
  - rewrite xother by (intros ps; rewrite P; discriminate). rewrite IH; [f_equal; lia|lia|exact B].
  - rewrite xother by (intros ps; rewrite P; discriminate). rewrite IH; [f_equal; lia|lia|exact B].
  - cbn in A. assert (E : s_row (sexec u w s r) = s_row s) by (apply (csi_row s r ps P); lia).
    rewrite (xcsi s top r ps P); [|lia|lia]. apply IH; [lia|exact B].
Qed.

Lemma xfall l : forall s top, s_row s <= top + H - 1 -> top <= s_row (sexecs u w s l) -> all_steps fall1 (s_par s) l = true ->
  xexecs H u w (s, top) l = (sexecs u w s l, top).
Proof.
  induction l as [|r l IH]; intros s top T L A; [reflexivity|].
  cbn [all_steps] in A. apply andb_true_iff in A. destruct A as (A & B).
  pose proof (fall_step u w s r A) as R. rewrite <- (par_step u w) in B. pose proof (fall_rows u w l _ B) as R2.
  rewrite sexecs_cons' in *. unfold xexecs. cbn [fold_left]. fold (xexecs H u w (xexec H u w (s, top) r) l).
  assert (E : xexec H u w (s, top) r = (sexec u w s r, top)).
  { destruct (s_par s) as [| |ps] eqn:P.
    - rewrite xother by (intros ps; rewrite P; discriminate). f_equal. lia.
    - rewrite xother by (intros ps; rewrite P; discriminate). f_equal. lia.
    - cbn in A. apply (xcsi s top r ps P); lia. }
  rewrite E. apply IH; [lia|exact L|exact B].
Qed.

(** Erasing: the cursor goes up only. *)
Definition erases (n : nat) : list Z :=
  [27; 91; 74] ++ flat_map (fun _ => [27; 91; 50; 75; 13; 27; 91; 65]) (repeat tt n) ++ [27; 91; 50; 75; 13].
Lemma erases_fall n : all_steps fall1 PGround (erases n) = true.
Proof.
  unfold erases. rewrite all_app. change (all_steps fall1 PGround [27; 91; 74]) with true. change (pend PGround [27; 91; 74]) with PGround.
  cbn [andb]. induction n as [|n IH]; [reflexivity|]. cbn [repeat flat_map]. rewrite <- app_assoc, all_app. exact IH.
Qed.
End V.

Section D.
Variables (H : Z) (u : uenv).
Hypothesis HP : 0 < H.
Hypothesis U : uenv_ok u.
Variable ps : list piece.
Let v := visible ps.

(** what clean writes *)
Lemma clean_is d : drawable u ps d -> d_had d = false -> exists n, clean u d = Ok (with_had true d, erases n).
Proof.
  intros D E. pose proof (dr_width _ _ _ D) as W. unfold clean. rewrite (idxLine_ok u ps d D). cbn [obind].
  rewrite E, (dr_inter _ _ _ D). cbn [orb negb]. unfold cleanOutput. destruct (Z.eqb_spec (d_width d) 0); [lia|]. cbn [obind].
  set (line := _ / d_width d). exists (Z.to_nat line). unfold erases. destruct (Z.eqb_spec line 0) as [->|]; reflexivity.
Qed.

Lemma clean_view d y top s o : drawable u ps d -> ready ps d y s -> top <= y -> s_row s <= top + H - 1 ->
  clean u d = Ok (with_had true d, o) -> xexecs H u (d_width d) (s, top) o = (sexecs u (d_width d) s o, top).
Proof.
  intros D R T L E. pose proof (dr_width _ _ _ D) as W. destruct (clean_ready u ps d y s D R) as (o' & E' & F & _).
  rewrite E in E'. injection E' as <-.
  assert (Pg : s_par s = PGround).
  { unfold ready in R. destruct (d_had d); [|destruct R as [R|(_ & R)]]; destruct R as (_ & R); unfold cursor_at in R; tauto. }
  apply xfall; [exact L| |].
  - destruct F as (_ & (F & _)). rewrite F. unfold row_of. rewrite Z.div_0_l by lia. lia.
  - rewrite Pg. destruct (d_had d) eqn:Hd.
    + unfold clean in E. rewrite (idxLine_ok u ps d D) in E. cbn [obind] in E. rewrite Hd in E. cbn [orb] in E.
      injection E as _ <-. reflexivity.
    + destruct (clean_is d D Hd) as (n & X). rewrite E in X. injection X as ->. apply erases_fall.
Qed.

(** Prompt and line drawn on free rows. *)
Lemma output_view d y top s o : drawable u ps d -> free_from (d_width d) y s -> output u d = Ok o ->
  top <= y <= top + H - 1 -> fits H (d_width d) v (d_buf d) ->
  exists top', xexecs H u (d_width d) (s, top) o = (sexecs u (d_width d) s o, top') /\ top <= top' <= y /\
    y + Z.of_nat (length v + length (d_buf d)) / d_width d <= top' + H - 1.
Proof.
  intros D F E T Fi. destruct (output_shows u ps U d y s D F) as (o' & E' & Di & _). rewrite E in E'. injection E' as <-.
  destruct F as (T0 & C0). pose proof (dr_width _ _ _ D) as W. pose proof (dr_short _ _ _ D) as S. set (w := d_width d) in *.
  assert (Wr0 : wrote w y (Z.of_nat (length (@nil Z))) s) by (apply at_wrote; [exact C0|cbn; lia|now right]).
  destruct (print_pieces u w W ps s y [] Wr0 (dr_visible _ _ _ D) (dr_pieces _ _ _ D) T0) as (A1 & A2 & A3).
  cbn [app] in A1, A2. set (s1 := sexecs u w s (prompt_runes ps)) in *.
  destruct (dr_paint _ _ _ D) as (qs & Q1 & Q2 & Q3).
  assert (Vq : Forall (plainr u) (visible qs)) by (rewrite Q2; apply D).
  destruct (print_pieces u w W qs s1 y (visible ps) A1 Vq Q3 A2) as (B1 & B2 & B3).
  rewrite Q2 in B1, B2. set (s2 := sexecs u w s1 (prompt_runes qs)) in *.
  destruct (isInLineEdge_ok u ps d D) as (e & E1 & E2). fold v w in E2.
  set (n := Z.of_nat (length (visible ps ++ d_buf d))) in *.
  assert (Hn : n = Z.of_nat (length v) + Z.of_nat (length (d_buf d))) by (unfold n, v; rewrite app_length; lia).
  assert (X : cursor_at w y n (sexecs u w s2 (if e then [32; 8] else []))).
  { destruct e.
    - destruct (edge_trick u w W U s2 y (visible ps ++ d_buf d)) as (X1 & X2 & X3).
      + exact B1.
      + exact B2.
      + destruct (proj1 E2 eq_refl) as [X|(M & P)].
        * right. rewrite X, app_nil_r. apply (dr_empty _ _ _ D X).
        * left. fold n. rewrite Hn. auto.
      + exact X1.
    - cbn. apply wrote_at; [exact W|exact B1| |unfold n; lia].
      destruct (Z.eq_dec n 0) as [Z0|Z0]; [now right|left]. intros M. assert (false = true); [|discriminate].
      apply E2. right. rewrite <- Hn. split; [exact M|]. unfold n in *. lia. }
  unfold output in E. rewrite (dr_mask _ _ _ D), Q1, (no_tabs u qs Q3 Vq), (dr_prompt _ _ _ D), E1 in E.
  destruct (if (d_idx d <? length (d_buf d))%nat then getBackspaceSequence u d else Ok []) as [back| |] eqn:Bk; cbn [obind] in E; try discriminate.
  assert (Fb : all_steps fall1 PGround back = true).
  { destruct (d_idx d <? length (d_buf d))%nat eqn:L; [|injection Bk as <-; reflexivity]. destruct (back_ok u ps d D ltac:(apply Nat.ltb_lt; exact L)) as (sep & G & _).
    rewrite G in Bk. injection Bk as <-. apply back_falls. fold w. lia. }
  set (l1 := prompt_runes ps ++ prompt_runes qs ++ (if e then [32; 8] else [])).
  assert (E' : o = l1 ++ back).
  { unfold l1. destruct (d_buf d); injection E as <-; now rewrite <- !app_assoc. }
  clear E. subst o.
  assert (P0 : s_par s = PGround) by (unfold cursor_at in C0; tauto).
  destruct (pieces_rise u ps (dr_pieces _ _ _ D) (dr_visible _ _ _ D)) as (R1 & R2). destruct (pieces_rise u qs Q3 Vq) as (R3 & R4).
  assert (L1 : all_steps rise1 (s_par s) l1 = true).
  { rewrite P0. unfold l1. rewrite !all_app, R1, R2, R3, R4. now destruct e. }
  assert (Sl : sexecs u w s l1 = sexecs u w s2 (if e then [32; 8] else [])).
  { unfold l1. rewrite !sexecs_app. reflexivity. }
  assert (Rs : s_row s = y). { destruct C0 as (C0 & _). rewrite C0. unfold row_of. rewrite Z.div_0_l by lia. lia. }
  rewrite xexecs_app, (xrise H u w l1 s top ltac:(lia) L1), Sl. destruct X as (X1 & _ & _ & X4). rewrite X1.
  unfold row_of. rewrite Hn. unfold fits in Fi. fold w in Fi. rewrite Nat2Z.inj_add in *.
  set (q := (Z.of_nat (length v) + Z.of_nat (length (d_buf d))) / w) in *.
  exists (Z.max top (y + q - H + 1)). split; [|lia].
  rewrite !sexecs_app. rewrite sexecs_app in Di. rewrite Sl in Di |- *. apply xfall.
  - rewrite X1. unfold row_of. rewrite Hn. fold q. lia.
  - destruct Di as (_ & (R & _)). fold w in R. rewrite R. unfold row_of.
    assert (0 <= Z.of_nat (length (visible ps) + d_idx d) / w) by (apply Z.div_pos; lia). lia.
  - rewrite X4. exact Fb.
Qed.
End D.

(** ** One redraw *)
Section R.
Variables (H : Z) (u : uenv) (w : Z).
Hypothesis HP : 0 < H.
Hypothesis W : 0 < w <= 9223372036854775807.
Hypothesis U : uenv_ok u.
Variable ps : list piece.
Let v := visible ps.
Hypothesis PD : Forall sgr_digits ps.
Hypothesis PV : Forall (plainr u) v.
Hypothesis PS : Z.of_nat (length v) + 1 < w.
Notation agrees := (agrees u w ps).
Notation static := (static u w ps).

Lemma text_rise l : Forall (plainr u) l -> all_steps rise1 PGround l = true /\ pend PGround l = PGround.
Proof.
  intros F. induction F as [|r l R F IH]; [split; reflexivity|]. unfold pend. cbn [all_steps fold_left rise1 pstep andb].
  destruct R as (R & _). replace (r =? 27) with false by lia. exact IH.
Qed.
Lemma lines_rise ls : Forall (Forall (plainr u)) ls ->
  all_steps rise1 PGround (flat_map (fun l => l ++ [10]) ls) = true /\ pend PGround (flat_map (fun l => l ++ [10]) ls) = PGround.
Proof.
  intros F. induction F as [|l ls L F IH]; [split; reflexivity|]. cbn [flat_map]. destruct (text_rise l L) as (A & B). destruct IH as (C & D).
  rewrite !all_app, !pend_app, A, B. change (all_steps rise1 PGround [10]) with true. change (pend PGround [10]) with PGround. rewrite C, D. auto.
Qed.

Lemma refresh_view d b i y top s ls d' o : static d -> Forall (plainr u) (d_buf d) -> (d_idx d <= length (d_buf d))%nat ->
  Forall (plainr u) b -> (i <= length b)%nat -> Forall (Forall (plainr u)) ls -> ready ps d y s ->
  top <= y -> s_row s <= top + H - 1 -> fits H w v b ->
  refresh u d b i (flat_map (fun l => l ++ [10]) ls) = Ok (d', o) ->
  exists top', xexecs H u w (s, top) o = (sexecs u w s o, top') /\ top <= top' <= y + height w ls /\
    y + height w ls + Z.of_nat (length v + length b) / w <= top' + H - 1.
Proof.
  intros S Fd Id Fb Ib Fl R T L Fi E. pose proof (static_drawable0 u w W ps PD PV PS d S Fd Id) as D.
  unfold refresh in E. rewrite (st_inter _ _ _ _ S) in E. cbn [negb] in E.
  destruct (clean_ready u ps d y s D R) as (o1 & C1 & C2 & C3). rewrite C1 in E. cbn [obind fst snd] in E.
  pose proof (clean_view H u ps d y top s o1 D R T L C1) as V1. rewrite (st_width _ _ _ _ S) in *.
  apply obind_ok in E. destruct E as ([d2 o2] & P & E). injection E as <- <-. unfold print in P. apply obind_ok in P. destruct P as (o3 & P & Q).
  injection Q as <- <-.
  destruct (print_lines u w W ls y (sexecs u w s o1) Fl C2) as (_ & P2 & _). set (s2 := sexecs u w (sexecs u w s o1) _) in *.
  set (d2 := with_line b i (with_had true d)) in *.
  assert (D2 : drawable u ps d2) by (apply (static_drawable u w W ps PD PV PS d b i true S); assumption).
  assert (W2 : d_width d2 = w) by apply S.
  pose proof (height_nonneg w ls) as Hh. destruct C2 as (_ & (Cr & _ & _ & Cp)). unfold row_of in Cr. rewrite Z.div_0_l in Cr by lia.
  assert (Yb : y <= top + H - 1). {
    assert (s_row (sexecs u w s o1) <= s_row s).
    { apply fall_rows. assert (Pg : s_par s = PGround).
      { unfold ready in R. destruct (d_had d); [|destruct R as [R|(_ & R)]]; destruct R as (_ & R); unfold cursor_at in R; tauto. }
      rewrite Pg. destruct (d_had d) eqn:Hd.
      - unfold clean in C1. rewrite (idxLine_ok u ps d D) in C1. cbn [obind] in C1. rewrite Hd in C1. cbn [orb] in C1.
        injection C1 as _ <-. reflexivity.
      - destruct (clean_is u ps d D Hd) as (n & X). rewrite C1 in X. injection X as ->. apply erases_fall. }
    lia. }
  destruct (lines_rise ls Fl) as (A & B).
  set (top2 := Z.max top (y + height w ls - H + 1)).
  assert (V2 : xexecs H u w (sexecs u w s o1, top) (flat_map (fun l => l ++ [10]) ls) = (s2, top2)).
  { rewrite xrise; [|lia|rewrite Cp; exact A]. fold s2. f_equal. destruct P2 as (_ & (P2 & _)). rewrite P2. unfold row_of, top2. rewrite Z.div_0_l by lia. lia. }
  destruct (output_view H u U ps d2 (y + height w ls) top2 s2 o3 D2) as (top' & V3 & B1 & B2).
  - rewrite W2. exact P2.
  - exact P.
  - unfold top2. lia.
  - rewrite W2. exact Fi.
  - rewrite W2 in V3, B2. exists top'. split; [|unfold top2 in B1; split; [lia|exact B2]].
    cbn [snd]. rewrite !xexecs_app, V1, V2, V3, !sexecs_app. reflexivity.
Qed.

(** the last draw of a line *)
Lemma submits_view d b y top s o : static d -> d_buf d = b ++ [10] -> d_idx d = length (b ++ [10]) -> Forall (plainr u) b ->
  free_from w y s -> output u d = Ok o -> top <= y <= top + H - 1 ->
  exists top', xexecs H u w (s, top) o = (sexecs u w s o, top') /\ top <= top' <= y + rows_of w (v ++ b) /\
    y + rows_of w (v ++ b) <= top' + H - 1.
Proof.
  intros S B I F Fr E T. destruct (output_submits u w W U ps PD PV PS d b y s S B I F Fr) as (o' & E' & _ & Fr' & _).
  rewrite E in E'. injection E' as <-. destruct Fr' as (_ & (R & _)). unfold row_of in R. rewrite Z.div_0_l in R by lia.
  unfold output in E. rewrite (st_mask _ _ _ _ S), B, I, Nat.ltb_irrefl in E. cbn [obind] in E.
  destruct (proj2 (st_paint _ _ _ _ S b (length (b ++ [10])) F)) as (qs & Q1 & Q2 & Q3). rewrite Q1 in E.
  assert (X : expand_tabs u (prompt_runes qs ++ [10]) = prompt_runes qs ++ [10]).
  { unfold expand_tabs. rewrite flat_map_app. f_equal. apply no_tabs; [exact Q3|]. now rewrite Q2. }
  rewrite X, (st_prompt _ _ _ _ S) in E.
  destruct (isInLineEdge u d) as [e| |]; cbn [obind] in E; try (destruct (b ++ [10]); discriminate).
  assert (Eo : o = prompt_runes ps ++ (prompt_runes qs ++ [10]) ++ (if e then [32; 8] else [])).
  { destruct (b ++ [10]); injection E as <-; now rewrite ?app_nil_r. }
  destruct Fr as (_ & (C & _ & _ & Cp)). unfold row_of in C. rewrite Z.div_0_l in C by lia.
  destruct (pieces_rise u ps PD PV) as (R1 & R2).
  destruct (pieces_rise u qs Q3) as (R3 & R4); [now rewrite Q2|]. pose proof (rows_pos w (v ++ b)).
  exists (Z.max top (y + rows_of w (v ++ b) - H + 1)). split; [|lia]. rewrite xrise.
  - f_equal. unfold v. rewrite R. lia.
  - lia.
  - rewrite Cp, Eo, !all_app, !pend_app, R1, R2, R3, R4. now destruct e.
Qed.

Lemma agrees_row y0 k st s0 s top : agrees y0 k st s0 s -> in_sight H w v y0 k top -> s_row s <= top + H - 1.
Proof.
  intros (_ & _ & _ & _ & _ & L & _ & _ & (_ & Sc) & _) (T & B). cbn zeta in Sc. destruct (k_reading k).
  - destruct Sc as (_ & (Sc & _)). rewrite Sc. unfold row_of.
    assert (Z.of_nat (length (visible ps) + k_idx k) / w <= Z.of_nat (length v + length (k_line k)) / w) by (apply Z.div_le_mono; unfold v; lia).
    lia.
  - destruct Sc as (_ & (Sc & _)). rewrite Sc. unfold row_of. rewrite Z.div_0_l by lia. lia.
Qed.

(** one redraw of the prompt, whatever is below *)
Lemma dstep_view y0 k st s e k' top st' o : static (snd st) -> d_buf (snd st) = k_line k -> d_idx (snd st) = k_idx k -> fst st = k_reading k ->
  Forall (plainr u) (k_line k) -> (k_idx k <= length (k_line k))%nat -> (k_reading k = false -> free_from w (y0 + height w (k_done k)) s) ->
  ready ps (snd st) (y0 + height w (k_done k)) s -> s_row s <= top + H - 1 -> top <= y0 + height w (k_done k) -> fits H w v (k_line k) ->
  looks u v k e k' -> (forall b i, e = VLine b i -> fits H w v b) -> dstep u st e = Ok (st', o) ->
  exists top', xexecs H u w (s, top) o = (sexecs u w s o, top') /\ in_sight H w v y0 k' top' /\ top <= top'.
Proof.
  intros S B I Rd F L Sc R Lr T Fk K1 Fi E. destruct st as [reading d]. cbn [fst snd] in *. subst reading.
  assert (D : drawable u ps d) by (apply (static_drawable0 u w W ps PD PV PS); [exact S|now rewrite B|now rewrite B, I]).
  assert (Fd : Forall (plainr u) (d_buf d)) by now rewrite B. assert (Id : (d_idx d <= length (d_buf d))%nat) by now rewrite B, I.
  set (y1 := y0 + height w (k_done k)) in *.
  (* the line redrawn *)
  assert (Rf : forall b i d' o', Forall (plainr u) b -> (i <= length b)%nat -> fits H w v b -> refresh u d b i [] = Ok (d', o') ->
    exists top', xexecs H u w (s, top) o' = (sexecs u w s o', top') /\ top <= top' <= y1 /\ y1 + Z.of_nat (length v + length b) / w <= top' + H - 1).
  { intros b i d' o' Fb Ib Fib X. destruct (refresh_view d b i y1 top s [] d' o' S Fd Id Fb Ib (Forall_nil _) R T Lr Fib X) as (top' & V1 & V2 & V3).
    cbn [height fold_right] in V2, V3. exists top'. split; [exact V1|]. split; lia. }
  inversion K1; subst; clear K1; cbn [dstep] in E.
  - (* VRead *)
    apply obind_ok in E. destruct E as ([d1 o1] & E & Q). injection Q as <- <-. cbn [fst snd].
    destruct (Rf _ _ _ _ Fd Id ltac:(now rewrite B) E) as (top' & V1 & V2 & V3). exists top'. split; [exact V1|].
    split; [|lia]. unfold in_sight. cbn [k_done k_line k_reading]. fold y1. rewrite <- B. lia.
  - (* VLine *)
    apply obind_ok in E. destruct E as ([d1 o1] & E & Q). injection Q as <- <-. cbn [fst snd].
    destruct (Rf b i d1 o1 ltac:(assumption) ltac:(assumption) (Fi b i eq_refl) E) as (top' & V1 & V2 & V3). exists top'. split; [exact V1|].
    split; [|lia]. unfold in_sight. cbn [k_done k_line k_reading]. fold y1. lia.
  - (* VSubmit *)
    apply obind_ok in E. destruct E as ([d1 o1] & E & Q). injection Q as <- <-. cbn [fst snd].
    unfold submit in E. apply obind_ok in E. destruct E as ([da oa] & Ea & E). apply obind_ok in E. destruct E as ([dc oc] & Ec & E).
    injection E as <- <-. cbn [fst snd] in *.
    destruct (Rf _ _ _ _ Fd (le_n _) ltac:(now rewrite B) Ea) as (top1 & V1 & V2 & V3).
    destruct (refresh_displays u ps U d (d_buf d) (length (d_buf d)) y1 s D) as (d' & o' & X1 & X2 & X3 & X4).
    { apply (static_drawable u w W ps PD PV PS d (d_buf d) (length (d_buf d)) (d_had d) S Fd (le_n _)). }
    { exact R. }
    rewrite Ea in X1. injection X1 as -> ->. rewrite (st_width _ _ _ _ S) in X3, X4.
    subst d'. set (d1 := with_had false (with_line (d_buf d) (length (d_buf d)) d)) in *.
    assert (S1 : static d1) by now apply static_line.
    assert (D1 : drawable u ps d1) by (apply (static_drawable u w W ps PD PV PS); [exact S|exact Fd|lia]).
    destruct (clean_frees u ps d1 y1 (sexecs u w s o') D1 eq_refl X3) as (o2 & C1 & C2 & C3).
    assert (R1 : ready ps d1 y1 (sexecs u w s o')) by (left; exact X3).
    assert (Rw : s_row (sexecs u w s o') <= top1 + H - 1).
    { destruct X3 as (_ & (X3 & _)). rewrite X3. unfold row_of. cbn [d_width d1 with_had with_line d_idx]. rewrite (st_width _ _ _ _ S). unfold v in *. lia. }
    pose proof (clean_view H u ps d1 y1 top1 _ o2 D1 R1 ltac:(lia) Rw C1) as V4.
    rewrite (st_width _ _ _ _ S1) in C2, C3, V4.
    unfold refresh in Ec. rewrite (st_inter _ _ _ _ S1) in Ec. cbn [negb] in Ec. rewrite C1 in Ec. cbn [obind fst snd] in Ec.
    apply obind_ok in Ec. destruct Ec as ([d3 o3] & P & Q). injection Q as <- <-. unfold print in P. apply obind_ok in P. destruct P as (o4 & P & Q).
    injection Q as <- <-. cbn [app snd].
    set (bb := d_buf d ++ hint ++ [10]) in *.
    assert (Eb : bb = (d_buf d ++ hint) ++ [10]) by (unfold bb; now rewrite app_assoc).
    set (d2 := with_line bb (length bb) (with_had true d1)) in *.
    assert (S2 : static d2) by apply (static_line u w ps d1 bb (length bb) true S1).
    assert (Yb : y1 <= top1 + H - 1).
    { assert (0 <= Z.of_nat (length v + length (d_buf d)) / w) by (apply Z.div_pos; lia). lia. }
    destruct (submits_view d2 (d_buf d ++ hint) y1 top1 (sexecs u w (sexecs u w s o') o2) o4 S2) as (top2 & V5 & V6 & V7).
    { exact Eb. }
    { cbn. now rewrite Eb. }
    { apply Forall_app. split; assumption. }
    { exact C2. }
    { exact P. }
    { lia. }
    exists top2. rewrite !xexecs_app, V1, V4, V5, !sexecs_app. split; [reflexivity|]. split; [|lia].
    unfold in_sight. cbn [k_done k_reading]. rewrite height_app. cbn [height fold_right]. rewrite Z.add_0_r, Z.add_assoc. fold y1. rewrite <- B.
    unfold v in *. lia.
  - (* VUnique *)
    apply obind_ok in E. destruct E as ([d1 o1] & E & Q). injection Q as <- <-. cbn [fst snd].
    unfold submit_unique in E. apply obind_ok in E. destruct E as ([da oa] & Ea & E). apply obind_ok in E. destruct E as ([dc oc] & Ec & E).
    injection E as <- <-. cbn [fst snd] in *.
    destruct (Rf _ _ _ _ Fd (le_n _) ltac:(now rewrite B) Ea) as (top1 & V1 & V2 & V3).
    destruct (refresh_displays u ps U d (d_buf d) (length (d_buf d)) y1 s D) as (d' & o' & X1 & X2 & X3 & X4).
    { apply (static_drawable u w W ps PD PV PS d (d_buf d) (length (d_buf d)) (d_had d) S Fd (le_n _)). }
    { exact R. }
    rewrite Ea in X1. injection X1 as -> ->. rewrite (st_width _ _ _ _ S) in X3, X4.
    subst d'. set (d1 := with_had false (with_line (d_buf d) (length (d_buf d)) d)) in *.
    assert (S1 : static d1) by now apply static_line.
    assert (D1 : drawable u ps d1) by (apply (static_drawable u w W ps PD PV PS); [exact S|exact Fd|lia]).
    destruct (clean_frees u ps d1 y1 (sexecs u w s o') D1 eq_refl X3) as (o2 & C1 & C2 & C3).
    rewrite C1 in Ec. injection Ec as <- <-.
    assert (R1 : ready ps d1 y1 (sexecs u w s o')) by (left; exact X3).
    assert (Rw : s_row (sexecs u w s o') <= top1 + H - 1).
    { destruct X3 as (_ & (X3 & _)). rewrite X3. unfold row_of. cbn [d_width d1 with_had with_line d_idx]. rewrite (st_width _ _ _ _ S). unfold v in *. lia. }
    pose proof (clean_view H u ps d1 y1 top1 _ o2 D1 R1 ltac:(lia) Rw C1) as V4. rewrite (st_width _ _ _ _ S1) in V4.
    exists top1. rewrite !xexecs_app, V1, V4, !sexecs_app. split; [reflexivity|]. split; [|lia].
    unfold in_sight. cbn [k_done k_reading]. fold y1.
    assert (0 <= Z.of_nat (length v + length (d_buf d)) / w) by (apply Z.div_pos; lia). lia.
  - (* VOut *)
    destruct (k_reading k) eqn:Ek.
    + apply obind_ok in E. destruct E as ([d1 o1] & E & Q). injection Q as <- <-. cbn [fst snd].
      destruct (refresh_view d _ _ y1 top s ls d1 o1 S Fd Id Fd Id ltac:(assumption) R T Lr ltac:(now rewrite B) E) as (top' & V1 & V2 & V3).
      exists top'. split; [exact V1|]. split; [|lia]. unfold in_sight. cbn [k_done k_line k_reading]. rewrite height_app, Z.add_assoc. fold y1. rewrite <- B. lia.
    + specialize (Sc eq_refl). injection E as <- <-. destruct (lines_rise ls ltac:(assumption)) as (A1 & _).
      destruct (print_lines u w W ls y1 s ltac:(assumption) Sc) as (_ & (_ & (P2 & _)) & _). unfold row_of in P2. rewrite Z.div_0_l in P2 by lia.
      destruct Sc as (_ & (C & _ & _ & Cp)). unfold row_of in C. rewrite Z.div_0_l in C by lia. pose proof (height_nonneg w ls).
      exists (Z.max top (y1 + height w ls - H + 1)). split; [|split; [|lia]].
      * rewrite xrise; [f_equal; rewrite P2; lia|lia|rewrite Cp; exact A1].
      * unfold in_sight. cbn [k_done k_line k_reading]. rewrite height_app, Z.add_assoc. fold y1. lia.
Qed.

Lemma ostep_view y0 k st s0 s e k' top st' o : agrees y0 k st s0 s -> olooks u v k e k' -> in_sight H w v y0 k top ->
  (forall b i, e = ODraw (VLine b i) -> fits H w v b) -> ostep u st e = Ok (st', o) ->
  exists top', xexecs H u w (s, top) o = (sexecs u w s o, top') /\ in_sight H w v y0 k' top' /\ top <= top'.
Proof.
  intros A K IS Fi E. pose proof (agrees_ready u w ps _ _ _ _ _ A) as R. pose proof (agrees_row _ _ _ _ _ _ A IS) as Lr.
  destruct A as (S & B & I & Rd & F & L & Hd & N & (St & Sc) & Ab). destruct st as [reading d]. cbn [fst snd] in *.
  assert (D : drawable u ps d) by (apply (static_drawable0 u w W ps PD PV PS); [exact S|now rewrite B|now rewrite B, I]).
  assert (Fd : Forall (plainr u) (d_buf d)) by now rewrite B. assert (Id : (d_idx d <= length (d_buf d))%nat) by now rewrite B, I.
  destruct IS as (T & Bt). cbn zeta in Sc. set (y1 := y0 + height w (k_done k)) in *.
  assert (Fk : fits H w v (k_line k)).
  { unfold fits. destruct (k_reading k) eqn:Er; [lia|]. rewrite N by reflexivity. cbn [length].
    rewrite Z.div_small by lia. lia. }
  inversion K as [? e1 ? K1|?|? hint Rd' Fh|? Rd' Ln]; subst; clear K.
  - apply (dstep_view y0 k (k_reading k, d) s e1 k' top st' o); try assumption; try reflexivity.
    + intros X. rewrite X in Sc. exact Sc.
    + intros b i ->. now apply (Fi b i).
  - (* OBell *)
    injection E as <- <-. exists top. split; [|split; [split; assumption|lia]].
    assert (Pg : s_par s = PGround). { destruct (k_reading k'); destruct Sc as (_ & Sc); unfold cursor_at in Sc; tauto. }
    assert (Es : sexecs u w s [7] = s) by (unfold sexecs; cbn [fold_left]; unfold sexec; now rewrite Pg).
    assert (Tr : top <= s_row s).
    { destruct (k_reading k'); destruct Sc as (_ & (Sc & _)); rewrite Sc; unfold row_of.
      + assert (0 <= Z.of_nat (length (visible ps) + k_idx k') / w) by (apply Z.div_pos; lia). lia.
      + rewrite Z.div_0_l by lia. lia. }
    rewrite xrise; [|lia|rewrite Pg; reflexivity]. rewrite Es. f_equal. lia.
  - (* OEof *)
    cbn [ostep snd] in E. apply obind_ok in E. destruct E as ([d1 o1] & E & Q). injection Q as <- <-. cbn [fst snd].
    unfold eof_draw in E. apply obind_ok in E. destruct E as ([dc oc] & Ec & E). injection E as <- <-. cbn [fst snd].
    destruct (clean_ready u ps d y1 s D R) as (o2 & C1 & C2 & C3).
    pose proof (clean_view H u ps d y1 top s o2 D R T Lr C1) as V4. rewrite (st_width _ _ _ _ S) in C2, C3, V4.
    unfold refresh in Ec. rewrite (st_inter _ _ _ _ S) in Ec. cbn [negb] in Ec. rewrite C1 in Ec. cbn [obind fst snd] in Ec.
    apply obind_ok in Ec. destruct Ec as ([d3 o3] & P & Q). injection Q as <- <-. unfold print in P. apply obind_ok in P. destruct P as (o4 & P & Q).
    injection Q as <- <-. cbn [app snd].
    set (bb := d_buf d ++ hint ++ [10]) in *.
    assert (Eb : bb = (d_buf d ++ hint) ++ [10]) by (unfold bb; now rewrite app_assoc).
    set (d2 := with_line bb (length bb) (with_had true d)) in *.
    assert (S2 : static d2) by apply (static_line u w ps d bb (length bb) true S).
    assert (Yb : y1 <= top + H - 1).
    { rewrite Rd' in Bt. assert (0 <= Z.of_nat (length v + length (k_line k)) / w) by (apply Z.div_pos; lia). lia. }
    destruct (submits_view d2 (d_buf d ++ hint) y1 top (sexecs u w s o2) o4 S2) as (top2 & V5 & V6 & V7).
    { exact Eb. }
    { cbn. now rewrite Eb. }
    { apply Forall_app. split; assumption. }
    { exact C2. }
    { exact P. }
    { lia. }
    exists top2. rewrite !xexecs_app, V4, V5, !sexecs_app. split; [reflexivity|]. split; [|lia].
    unfold in_sight. cbn [k_done k_reading]. rewrite height_app. cbn [height fold_right]. rewrite Z.add_0_r, Z.add_assoc. fold y1. rewrite <- B.
    unfold v in *. lia.
  - (* OClean *)
    assert (Ed : with_line [] 0 d = d).
    { rewrite Ln in L, B. cbn in L. assert (I0 : d_idx d = 0%nat) by lia. clear - B I0. unfold with_line. destruct d; cbn in *. congruence. }
    cbn [ostep snd] in E. rewrite Ed in E. destruct (clean_ready u ps d y1 s D R) as (o2 & C1 & C2 & C3). rewrite C1 in E. cbn [obind fst snd] in E. injection E as <- <-.
    pose proof (clean_view H u ps d y1 top s o2 D R T Lr C1) as V4. rewrite (st_width _ _ _ _ S) in V4.
    exists top. split; [exact V4|]. split; [|lia]. unfold in_sight. cbn [k_done k_reading]. fold y1. rewrite Rd' in Bt.
    assert (0 <= Z.of_nat (length v + length (k_line k)) / w) by (apply Z.div_pos; lia). lia.
Qed.
End R.

(** ** Ctrl-L *)
Section C.
Variables (H : Z) (u : uenv) (w : Z).
Hypothesis HP : 0 < H.
Hypothesis W : 0 < w <= 9223372036854775807.
Hypothesis U : uenv_ok u.
Variable ps : list piece.
Let v := visible ps.
Hypothesis PD : Forall sgr_digits ps.
Hypothesis PV : Forall (plainr u) v.
Hypothesis PS : Z.of_nat (length v) + 1 < w.
Notation agrees := (agrees u w ps).
Notation static := (static u w ps).

Lemma xclean_rows top n : forall s, free_from w top s ->
  let x := xexecs H u w (s, top) (flat_map (fun _ => [27; 91; 50; 75; 13; 27; 91; 65]) (repeat tt n) ++ [27; 91; 50; 75; 13]) in
  free_from w top (fst x) /\ snd x = top.
Proof.
  cbn zeta. assert (One : forall s, free_from w top s -> exists s', xexecs H u w (s, top) [27; 91; 50; 75; 13] = (s', top) /\ free_from w top s').
  { intros s (T & (R & C & P & Pa)). unfold row_of, col_of in *. rewrite Z.div_0_l in R by lia. rewrite Z.mod_0_l in C by lia.
    destruct s as [c y x pd pa]. cbn in Pa, R, C, P. subst. unfold xexecs. cbn -[Z.max Z.min Z.sub Z.add]. eexists. split; [f_equal; lia|]. split.
    - intros y' x' Hy Hx. cbn -[Z.max Z.min Z.sub Z.add]. unfold erase_line. destruct (_ =? _); [now destruct (Z.to_nat _)|]. now apply T.
    - unfold cursor_at, row_of, col_of. rewrite Z.div_0_l, Z.mod_0_l by lia. cbn -[Z.max Z.min Z.sub Z.add]. repeat split; lia. }
  assert (Two : forall s, free_from w top s -> exists s', xexecs H u w (s, top) [27; 91; 65] = (s', top) /\ free_from w top s').
  { intros s (T & (R & C & P & Pa)). unfold row_of, col_of in *. rewrite Z.div_0_l in R by lia. rewrite Z.mod_0_l in C by lia.
    destruct s as [c y x pd pa]. cbn in Pa, R, C, P. subst. unfold xexecs. cbn -[Z.max Z.min Z.sub Z.add]. eexists. split; [f_equal; lia|]. split.
    - intros y' x' Hy Hx. cbn -[Z.max Z.min Z.sub Z.add]. now apply T.
    - unfold cursor_at, row_of, col_of. rewrite Z.div_0_l, Z.mod_0_l by lia. cbn -[Z.max Z.min Z.sub Z.add]. repeat split; lia. }
  induction n as [|n IH]; intros s F.
  - destruct (One s F) as (s' & E & F'). cbn [repeat flat_map app]. rewrite E. auto.
  - cbn [repeat flat_map]. rewrite <- app_assoc. change [27; 91; 50; 75; 13; 27; 91; 65] with ([27; 91; 50; 75; 13] ++ [27; 91; 65]).
    destruct (One s F) as (s1 & E1 & F1). destruct (Two s1 F1) as (s2 & E2 & F2). rewrite <- app_assoc, xexecs_app, xexecs_app, E1, E2. now apply IH.
Qed.

Lemma clear_view y0 k st s0 s top : agrees y0 k st s0 s -> in_sight H w v y0 k top -> k_reading k = true ->
  exists st' o s' top', vstep u st VC = Ok (st', o) /\ xexecs H u w (s, top) o = (s', top') /\
    let k' := {| k_done := []; k_line := k_line k; k_idx := k_idx k; k_reading := true |} in
    agrees top k' st' s' s' /\ in_sight H w v top k' top' /\ top' = top.
Proof.
  intros A IS Rk. pose proof (agrees_row H u w W ps _ _ _ _ _ _ A IS) as Lr.
  destruct A as (S & B & I & Rd & F & L & Hd & N & (St & Sc) & Ab). destruct st as [reading d]. cbn [fst snd] in *.
  destruct IS as (T & Bt). rewrite Rk in *. cbn zeta in Sc. specialize (Hd eq_refl).
  assert (D : drawable u ps d) by (apply (static_drawable0 u w W ps PD PV PS); [exact S|now rewrite B|now rewrite B, I]).
  destruct (clean_is u ps d D Hd) as (n & C1). unfold vstep, key_clear, refresh. cbn [snd]. rewrite (st_inter _ _ _ _ S). cbn [negb]. rewrite C1. cbn [obind fst snd].
  assert (Pg : s_par s = PGround) by (destruct Sc as (_ & Sc); unfold cursor_at in Sc; tauto).
  (* home and erase *)
  assert (X : exists s1, xexecs H u w (s, top) (ClearScreen ++ [27; 91; 74]) = (s1, top) /\ free_from w top s1).
  { destruct s as [c y x pd pa]. cbn in Pg, Lr. subst pa. unfold xexecs. cbn -[Z.max Z.min Z.sub Z.add]. eexists. split; [f_equal; lia|]. split.
    - intros y' x' Hy Hx. rewrite nth_nil_blank. cbn -[Z.max Z.min Z.sub Z.add]. unfold erase_below.
      match goal with |- (if ?b then _ else _) = _ => replace b with true by lia end. reflexivity.
    - unfold cursor_at, row_of, col_of. rewrite Z.div_0_l, Z.mod_0_l by lia. cbn -[Z.max Z.min Z.sub Z.add]. repeat split; lia. }
  destruct X as (s1 & X1 & X2). pose proof (xclean_rows top n s1 X2) as X3. cbn zeta in X3.
  destruct (xexecs H u w (s1, top) _) as [s2 t2] eqn:X4 in X3. cbn [fst snd] in X3. destruct X3 as (X3 & ->).
  set (d1 := with_line (d_buf d) (d_idx d) (with_had true d)).
  assert (D1 : drawable u ps d1) by (destruct D; constructor; assumption). assert (W1 : d_width d1 = w) by apply S.
  destruct (output_shows u ps U d1 top s2 D1) as (o & Eo & Di & _); [rewrite W1; exact X3|]. rewrite W1 in Di.
  assert (Fk : Z.of_nat (length v + length (d_buf d1)) / w < H) by (cbn [d1 with_line d_buf]; rewrite B; lia).
  destruct (output_view H u U ps d1 top top s2 o D1) as (top' & V1 & V2 & V3); [rewrite W1; exact X3|exact Eo|lia|rewrite W1; exact Fk|].
  rewrite W1 in V1, V3. unfold print. fold d1. rewrite Eo. cbn [obind fst snd app].
  eexists _, _, _, _. split; [reflexivity|]. split.
  { match goal with |- xexecs _ _ _ _ ?l = _ => set (l0 := l) end.
    assert (El : l0 = (ClearScreen ++ [27; 91; 74]) ++ (flat_map (fun _ => [27; 91; 50; 75; 13; 27; 91; 65]) (repeat tt n) ++ [27; 91; 50; 75; 13]) ++ o).
    { unfold l0, erases. cbn [app ClearScreen]. now rewrite <- !app_assoc. }
    rewrite El, xexecs_app, X1, xexecs_app, X4. exact V1. }
  cbn zeta. split; [|split].
  - unfold RenderSession.agrees. cbn [fst snd k_done k_line k_idx k_reading]. split; [exact (static_line u w ps d (d_buf d) (d_idx d) false S)|].
    cbn [with_had d1 with_line d_buf d_idx d_had]. repeat (split; [first [assumption|reflexivity|discriminate|congruence]|]).
    split; [|apply same_above_refl]. split; [exact Logic.I|]. cbn zeta. cbn [k_reading k_done k_line k_idx height fold_right]. rewrite Z.add_0_r.
    destruct Di as (Di1 & Di2). rewrite W1 in Di1, Di2. cbn [d1 with_line d_buf d_idx] in Di1, Di2. rewrite B in Di1. rewrite I in Di2. auto.
  - unfold in_sight. cbn [k_done k_line k_reading height fold_right]. cbn [d1 with_line d_buf] in V3. rewrite B in V3. lia.
  - lia.
Qed.
End C.
(** ** Which key clears *)
Ltac tie := repeat match goal with
  | X : obind _ _ = Ok _ |- _ => let y := fresh "y" in let Y := fresh "Y" in apply obind_ok in X; destruct X as (y & Y & X)
  | X : (let '(_, _) := ?p in _) = Ok _ |- _ => destruct p
  | X : Ok _ = Ok _ |- _ => injection X; clear X; intros; subst
  | X : Panic = Ok _ |- _ => discriminate X
  | X : In AClear [] |- _ => destruct X
  | X : In AClear (_ :: _) |- _ => destruct X as [X|X]; [discriminate X|]
  | X : (if ?c then _ else _) = Ok _ |- _ => destruct c
  | X : match ?c with _ => _ end = Ok _ |- _ => destruct c
  | X : In AClear (if ?c then _ else _) |- _ => destruct c
  end.
Lemma switch_acts cf r o o1 a kS kC upd : key_switch cf r o = Ok (o1, a, kS, kC, upd) -> In AClear a -> r = CharCtrlL.
Proof.
  intros E I. destruct (Z.eq_dec r CharCtrlL) as [|N]; [assumption|exfalso]. unfold key_switch in E.
  replace (r =? CharCtrlL) with false in E by lia.
  unfold edit_buf, key_enter, key_delete, key_interrupt in E. cbn zeta in E. clear N.
  tie.
Qed.
Lemma normal_acts r o o1 res a : HandleVimNormal r o = Ok (o1, res, a) -> ~ In AClear a /\ forall r', res = VKey r' -> r' <> CharCtrlL.
Proof.
  intros E. destruct (Z.eq_dec r CharCtrlL) as [->|N].
  { vm_compute in E. injection E as <- <- <-. split; [intros [X|[]]; discriminate X|discriminate]. }
  split.
  - intros I. unfold HandleVimNormal in E. cbn zeta in E. tie.
  - intros r' ->. unfold HandleVimNormal in E. cbn zeta in E. tie; try discriminate; congruence.
Qed.

Section K.
Variable cf : ocfg.
Hypothesis C : plain_session cf.
Notation u := (oc_u cf).

Lemma after_acts r o1 a kS kC upd o' acts : after_switch cf r (o1, a, kS, kC, upd) = Ok (o', acts) -> acts = a.
Proof. unfold after_switch. intros E. apply obind_ok in E. destruct E as (o2 & _ & E). apply obind_ok in E. destruct E as (o3 & _ & E). now injection E. Qed.

(** the screen is cleared only by Ctrl-L *)
Lemma step_clears o r o' acts : at_prompt cf o -> op_step cf r o = Ok (o', acts) -> In AClear acts -> clears cf r o = true.
Proof.
  intros A E I. unfold op_step in E. rewrite (ap_end _ _ A) in E. unfold clears. destruct (o_vp o) as [p|] eqn:Vp.
  { apply obind_ok in E. destruct E as (o1 & _ & E). injection E as <- <-. destruct I. }
  assert (Hk : forall r', handle_key cf r' o = Ok (o', acts) -> (r' =? CharCtrlL) && negb (oc_vim cf && o_vn o) = true).
  { intros r' X. unfold handle_key in X. destruct ((r' =? 0) && _).
    { injection X as <- <-. destruct I as [I|[]]. discriminate I. }
    rewrite (ap_sel _ _ A) in X.
    set (r2 := if r' =? 0 then CharEnter else r') in *.
    assert (G : forall o1, (y <- key_switch cf r2 o1 ;; after_switch cf r2 y) = Ok (o', acts) -> (r' =? CharCtrlL) = true).
    { intros o1 Y. apply obind_ok in Y. destruct Y as ([[[[o2 a] kS] kC] upd] & S & Y). pose proof (after_acts _ _ _ _ _ _ _ _ Y) as ->.
      pose proof (switch_acts _ _ _ _ _ _ _ _ S I) as R. unfold r2 in R. destruct (r' =? 0); [discriminate R|]. rewrite R. reflexivity. }
    unfold vim_and_switch in X. destruct (oc_vim cf) eqn:Vi.
    - unfold HandleVim in X. destruct (o_vn o) eqn:Vn.
      + exfalso. apply obind_ok in X. destruct X as ([[o1 res] a] & Nm & X). destruct (normal_acts _ _ _ _ _ Nm) as (Na & Nr). destruct res as [r3| |p].
        * destruct (r3 =? 0); [injection X as <- <-; contradiction|]. apply obind_ok in X. destruct X as ([[[[o2 a2] kS] kC] upd] & S & X).
          pose proof (after_acts _ _ _ _ _ _ _ _ X) as ->. pose proof (switch_acts _ _ _ _ _ _ _ _ S I) as R. now apply (Nr r3).
        * injection X as <- <-. contradiction.
        * injection X as <- <-. contradiction.
      + destruct (r2 =? CharEsc); cbn [obind] in X; [injection X as <- <-; destruct I|].
        destruct (r2 =? 0); [injection X as <- <-; destruct I|]. rewrite (G _ X). reflexivity.
    - rewrite (G _ X). reflexivity. }
  destruct (oc_filter cf) as [f|].
  - destruct (f r) as [r'|]; [now apply Hk|]. injection E as <- <-. destruct I as [I|[]]; discriminate I.
  - now apply Hk.
Qed.

Lemma clear_case o r o' acts : at_prompt cf o -> clears cf r o = true -> op_step cf r o = Ok (o', acts) ->
  acts = [AClear] /\ at_prompt cf o' /\
  ((listener_draws cf CharCtrlL o = [] /\ rb_buf (o_b o') = rb_buf (o_b o) /\ rb_idx (o_b o') = rb_idx (o_b o)) \/
   (listener_draws cf CharCtrlL o = [ODraw (VLine (rb_buf (o_b o')) (rb_idx (o_b o')))])).
Proof.
  intros A K E. unfold op_step in E. rewrite (ap_end _ _ A) in E. unfold clears in K. destruct (o_vp o) as [p|] eqn:Vp; [discriminate|].
  assert (Hk : handle_key cf CharCtrlL o = Ok (o', acts) /\ oc_vim cf && o_vn o = false).
  { destruct (oc_filter cf) as [f|].
    - destruct (f r) as [r'|]; [|discriminate]. apply andb_true_iff in K. destruct K as (K & V). apply Z.eqb_eq in K. subst r'.
      split; [exact E|]. now apply negb_true_iff in V.
    - apply andb_true_iff in K. destruct K as (K & V). apply Z.eqb_eq in K. subst r. split; [exact E|]. now apply negb_true_iff in V. }
  destruct Hk as (X & V). clear E K. unfold handle_key in X. change (CharCtrlL =? 0) with false in X. cbn [andb] in X. rewrite (ap_sel _ _ A) in X.
  unfold vim_and_switch in X.
  assert (Y : (y <- key_switch cf CharCtrlL o ;; after_switch cf CharCtrlL y) = Ok (o', acts)).
  { destruct (oc_vim cf); [|exact X]. cbn [andb] in V. unfold HandleVim in X. rewrite V in X. exact X. }
  clear X. change (key_switch cf CharCtrlL o) with (Ok (o, [AClear], false, false, true)) in Y. cbn [obind] in Y.
  destruct (after_case cf C CharCtrlL o [AClear] false false true o' acts A Y) as (-> & b & h & -> & Hh & B). split; [reflexivity|].
  destruct B as [(-> & B)|(l & q & -> & B & Ne & Fl & Ip)].
  - replace (with_b (o_b o) o) with o by now destruct o. split; [now apply prompt_h|]. left. auto.
  - split; [apply prompt_h; [|exact Hh]; apply prompt_b; [exact A|exact Ip|exact Fl|exact (ap_kill _ _ A)]|]. right. exact B.
Qed.
End K.

(** ** Sessions *)
Section Sess.
Variables (H : Z) (cf : ocfg).
Hypothesis HP : 0 < H.
Hypothesis C : plain_session cf.
Hypothesis W : 0 < oc_w cf <= 9223372036854775807.
Hypothesis U : uenv_ok (oc_u cf).
Variable ps : list piece.
Let v := visible ps.
Hypothesis PD : Forall sgr_digits ps.
Hypothesis PV : Forall (plainr (oc_u cf)) v.
Hypothesis PS : Z.of_nat (length v) + 1 < oc_w cf.
Notation agrees := (agrees (oc_u cf) (oc_w cf) ps).
Notation u := (oc_u cf).
Notation w := (oc_w cf).
Notation X := (xexecs H u w).

Lemma vrun_map es : forall st, vrun u st (map VE es) = orun u st es.
Proof. induction es as [|e es IH]; intros st; [reflexivity|]. cbn [map vrun vstep orun]. destruct (ostep u st e); cbn [obind]; [now rewrite IH|reflexivity..]. Qed.

Lemma orun_view es : forall y0 k st s0 s k' top, agrees y0 k st s0 s -> olooks_all u v k es k' -> in_sight H w v y0 k top ->
  (forall b i, In (ODraw (VLine b i)) es -> fits H w v b) ->
  exists st' o top', orun u st es = Ok (st', o) /\ agrees y0 k' st' s0 (sexecs u w s o) /\
    X (s, top) o = (sexecs u w s o, top') /\ in_sight H w v y0 k' top' /\ top <= top'.
Proof.
  induction es as [|e es IH]; intros y0 k st s0 s k' top A K IS Fi; inversion K; subst; cbn [orun].
  - exists st, [], top. split; [reflexivity|]. split; [exact A|]. split; [reflexivity|]. split; [exact IS|lia].
  - destruct (ostep_agrees u w W U ps PD PV PS _ _ _ _ _ _ _ A H3) as (st1 & o1 & E1 & A1). rewrite E1. cbn [obind fst snd].
    destruct (ostep_view H u w HP W U ps PD PV PS _ _ _ _ _ _ _ top st1 o1 A H3 IS) as (top1 & V1 & V2 & V3).
    { intros b i ->. apply (Fi b i). now left. }
    { exact E1. }
    destruct (IH _ _ _ _ _ _ top1 A1 H5 V2) as (st2 & o2 & top2 & E2 & A2 & V4 & V5 & V6).
    { intros b i I. apply (Fi b i). now right. }
    rewrite E2. cbn [obind fst snd]. exists st2, (o1 ++ o2), top2. split; [reflexivity|]. rewrite sexecs_app, xexecs_app, V1.
    split; [exact A2|]. split; [exact V4|]. split; [exact V5|lia].
Qed.

Lemma view_agrees is : forall o reading done st y0 s0 s top c t o' acts, at_prompt cf o -> vturn H cf v is o reading ->
  vleaves cf v is o c t o' acts ->
  let k := {| k_done := done; k_line := rb_buf (o_b o); k_idx := rb_idx (o_b o); k_reading := reading |} in
  agrees y0 k st s0 s -> in_sight H w v y0 k top ->
  exists st' out s' top' y0' s0', vses_run cf (o, st) is = Ok ((o', st'), out, acts) /\ at_prompt cf o' /\
    X (s, top) out = (s', top') /\
    let k' := {| k_done := if c then t else done ++ t; k_line := rb_buf (o_b o'); k_idx := rb_idx (o_b o'); k_reading := fst st' |} in
    agrees y0' k' st' s0' s' /\ in_sight H w v y0' k' top' /\ top <= top' /\
    (c = false -> y0' = y0 /\ s0' = s0 /\ s' = sexecs u w s out) /\ (c = true -> top <= y0' <= top').
Proof.
  induction is as [|i is IH]; intros o reading done st y0 s0 s top c t o' acts A T L k G IS; inversion L; subst; clear L.
  - exists st, [], s, top, y0, s0. cbn [vses_run]. split; [reflexivity|]. split; [exact A|]. split; [reflexivity|]. cbn zeta. rewrite app_nil_r.
    assert (R : fst st = reading) by apply G. rewrite R. split; [exact G|]. split; [exact IS|]. split; [lia|]. split; [auto|discriminate].
  - (* IRead *)
    match goal with HH : vleaves _ _ is _ _ _ _ _ |- _ => rename HH into HL end. destruct T as (-> & T).
    destruct (orun_view [ODraw VRead] y0 k st s0 s {| k_done := done; k_line := rb_buf (o_b o); k_idx := rb_idx (o_b o); k_reading := true |} top G) as (st1 & o1 & top1 & E1 & G1 & V1 & IS1 & Lt).
    { econstructor; [|apply OLNil]. apply OLDraw. apply LRead. }
    { exact IS. }
    { intros b i [Q|[]]. discriminate Q. }
    cbn [orun] in E1. apply obind_ok in E1. destruct E1 as ([st2 o2] & E1 & Q). cbn [obind fst snd] in Q. injection Q as <- <-. rewrite app_nil_r in G1, V1.
    cbn [vses_run vses_step]. rewrite E1. cbn [obind fst snd].
    destruct (IH o true done st2 y0 s0 _ top1 c t o' acts A T HL G1 IS1) as (st' & out & s' & top' & y0' & s0' & E2 & A2 & V2 & G2 & IS2 & L2 & Ca & Cb). rewrite E2. cbn [obind].
    exists st', (o2 ++ out), s', top', y0', s0'. split; [reflexivity|]. split; [exact A2|]. rewrite xexecs_app, V1. split; [exact V2|]. split; [exact G2|].
    split; [exact IS2|]. split; [lia|]. split; [rewrite sexecs_app; exact Ca|intros Q; specialize (Cb Q); lia].
  - (* IPrint *)
    match goal with HH : vleaves _ _ is _ _ _ _ _ |- _ => rename HH into HL end.
    match goal with HH : Forall (Forall _) ls |- _ => rename HH into HF end. destruct T as (_ & T).
    destruct (orun_view [ODraw (VOut (flat_map (fun l => l ++ [10]) ls))] y0 k st s0 s {| k_done := done ++ ls; k_line := rb_buf (o_b o); k_idx := rb_idx (o_b o); k_reading := reading |} top G) as (st1 & o1 & top1 & E1 & G1 & V1 & IS1 & Lt).
    { econstructor; [|apply OLNil]. apply OLDraw. exact (LOut u v k ls HF). }
    { exact IS. }
    { intros b i [Q|[]]. discriminate Q. }
    cbn [orun] in E1. apply obind_ok in E1. destruct E1 as ([st2 o2] & E1 & Q). cbn [obind fst snd] in Q. injection Q as <- <-. rewrite app_nil_r in G1, V1.
    cbn [vses_run vses_step]. rewrite E1. cbn [obind fst snd].
    destruct (IH o reading (done ++ ls) st2 y0 s0 _ top1 c t0 o' acts A T HL G1 IS1) as (st' & out & s' & top' & y0' & s0' & E2 & A2 & V2 & G2 & IS2 & L2 & Ca & Cb). rewrite E2. cbn [obind].
    exists st', (o2 ++ out), s', top', y0', s0'. split; [reflexivity|]. split; [exact A2|]. rewrite xexecs_app, V1. split; [exact V2|]. cbn zeta in *.
    replace (if c then if c then t0 else ls ++ t0 else done ++ (if c then t0 else ls ++ t0)) with (if c then t0 else (done ++ ls) ++ t0) by (destruct c; [reflexivity|now rewrite app_assoc]).
    split; [exact G2|]. split; [exact IS2|]. split; [lia|]. split; [rewrite sexecs_app; exact Ca|intros Q; specialize (Cb Q); lia].
  - (* a key other than Ctrl-L *)
    match goal with HH : vleaves _ _ is _ _ _ _ _ |- _ => rename HH into HL end.
    match goal with HH : op_step _ _ _ = _ |- _ => rename HH into HS end.
    match goal with HH : ~ In AClear _ |- _ => rename HH into HN end. destruct T as (-> & K & Fi & T).
    destruct (clears cf r o) eqn:Cl.
    { exfalso. destruct (clear_case cf C o r o1 a1 A Cl HS) as (-> & _). apply HN. now left. }
    destruct K as [K|K]; [|discriminate].
    destruct (key_case cf C v o r o1 a1 done A K HS) as (A1 & es & D & Lk).
    destruct (orun_view es y0 _ st s0 s _ top G Lk IS) as (st1 & out1 & top1 & E1 & G1 & V1 & IS1 & Lt).
    { intros b i I. apply (Fi (map VE es) b i); [|now apply in_map]. unfold vkey_draws. now rewrite Cl, D. }
    cbn [vses_run vses_step]. unfold vkey_draws. rewrite Cl, D. cbn [obind]. rewrite vrun_map, E1. cbn [obind]. rewrite HS. cbn [obind fst snd].
    destruct (IH o1 _ _ st1 y0 s0 _ top1 c t0 o' acts0 A1 (T o1 a1 HS) HL G1 IS1) as (st' & out & s' & top' & y0' & s0' & E2 & A2 & V2 & G2 & IS2 & L2 & Ca & Cb). rewrite E2. cbn [obind].
    exists st', (out1 ++ out), s', top', y0', s0'. split; [reflexivity|]. split; [exact A2|]. rewrite xexecs_app, V1. split; [exact V2|]. cbn zeta in *.
    set (ta := flat_map (text_of cf v) a1) in *.
    replace (if c then if c then t0 else ta ++ t0 else done ++ (if c then t0 else ta ++ t0)) with (if c then t0 else (done ++ ta) ++ t0) by (destruct c; [reflexivity|now rewrite app_assoc]).
    split; [exact G2|]. split; [exact IS2|]. split; [lia|]. split; [rewrite sexecs_app; exact Ca|intros Q; specialize (Cb Q); lia].
  - (* Ctrl-L *)
    match goal with HH : vleaves _ _ is _ _ _ _ _ |- _ => rename HH into HL end.
    match goal with HH : op_step _ _ _ = _ |- _ => rename HH into HS end.
    match goal with HH : In AClear _ |- _ => rename HH into HN end. destruct T as (-> & _ & Fi & T).
    pose proof (step_clears cf o r o1 a1 A HS HN) as Cl. destruct (clear_case cf C o r o1 a1 A Cl HS) as (-> & A1 & B).
    destruct (clear_view H u w HP W U ps PD PV PS y0 k st s0 s top G IS eq_refl) as (st1 & out1 & s1 & top1 & E1 & V1 & G1 & IS1 & ->). cbn zeta in G1, IS1.
    cbn [k_line k_idx k] in G1, IS1.
    assert (M : exists st2 out2 s2 top2 z2, orun u st1 (listener_draws cf CharCtrlL o) = Ok (st2, out2) /\ X (s1, top) out2 = (s2, top2) /\ top <= top2 /\
      let k2 := {| k_done := []; k_line := rb_buf (o_b o1); k_idx := rb_idx (o_b o1); k_reading := true |} in agrees top k2 st2 z2 s2 /\ in_sight H w v top k2 top2).
    { destruct B as [(B & B1 & B2)|B]; rewrite B.
      - exists st1, [], s1, top, s1. split; [reflexivity|]. split; [reflexivity|]. split; [lia|]. cbn zeta. rewrite B1, B2. auto.
      - destruct (orun_view [ODraw (VLine (rb_buf (o_b o1)) (rb_idx (o_b o1)))] top _ st1 s1 s1 {| k_done := []; k_line := rb_buf (o_b o1); k_idx := rb_idx (o_b o1); k_reading := true |} top G1) as (st2 & out2 & top2 & E2 & G2 & V2 & IS2 & Lt).
        + econstructor; [|apply OLNil]. apply OLDraw.
          refine (LLine u v {| k_done := []; k_line := rb_buf (o_b o); k_idx := rb_idx (o_b o); k_reading := true |} _ _ eq_refl (ap_buf _ _ A1) (ap_inside _ _ A1)).
        + exact IS1.
        + intros b i I. apply (Fi (VC :: map VE (listener_draws cf CharCtrlL o)) b i); [unfold vkey_draws; now rewrite Cl|]. right. rewrite B. now apply in_map.
        + exists st2, out2, (sexecs u w s1 out2), top2, s1. auto. }
    destruct M as (st2 & out2 & s2 & top2 & z2 & E2 & V2 & Lt & G2 & IS2). cbn zeta in G2, IS2.
    assert (Ev : vrun u st (VC :: map VE (listener_draws cf CharCtrlL o)) = Ok (st2, out1 ++ out2)).
    { change (vrun u st (VC :: ?l)) with (a <- vstep u st VC ;; b <- vrun u (fst a) l ;; Ok (fst b, snd a ++ snd b)).
      rewrite E1. cbn [obind fst snd]. rewrite vrun_map, E2. reflexivity. }
    cbn [vses_run vses_step]. unfold vkey_draws. rewrite Cl. cbn [obind]. rewrite Ev. cbn [obind]. rewrite HS. cbn [obind fst snd].
    destruct (IH o1 true [] st2 top z2 s2 top2 c0 t o' acts0 A1 (T o1 [AClear] HS) HL G2 IS2) as (st' & out & s' & top' & y0' & s0' & E3 & A3 & V3 & G3 & IS3 & L3 & Ca & Cb). rewrite E3. cbn [obind].
    exists st', ((out1 ++ out2) ++ out), s', top', y0', s0'. split; [reflexivity|]. split; [exact A3|]. rewrite !xexecs_app, V1, V2. split; [exact V3|]. cbn zeta in *.
    replace (if c0 then t else [] ++ t) with t in G3, IS3 by (now destruct c0).
    split; [exact G3|]. split; [exact IS3|]. split; [lia|]. split; [discriminate|]. intros _. destruct c0; [specialize (Cb eq_refl); lia|]. destruct (Ca eq_refl) as (-> & _). lia.
Qed.
End Sess.

(** ** The lines a key draws: the one before, or the one after it *)
Definition tidy (b0 : list Z) (es : list oev) : Prop :=
  (forall b i, In (ODraw (VLine b i)) es -> b = b0) \/ (exists b i, es = [ODraw (VLine b i)]) \/
  (exists b i, es = [ODraw (VLine b i); OBell]) \/ (exists b i j, es = [ODraw (VLine b i); ODraw (VLine b j)]).

Lemma tidy_once b0 x es : once x = Ok es -> tidy b0 es.
Proof. unfold once. intros E. apply obind_ok in E. destruct E as (b & _ & E). injection E as <-. right. left. eauto. Qed.
Lemma tidy_other b0 es : Forall (fun e => match e with ODraw (VLine b _) => b = b0 | _ => True end) es -> tidy b0 es.
Proof. intros F. left. intros b i I. rewrite Forall_forall in F. exact (F _ I). Qed.
Ltac tid E := lazymatch type of E with
  | Ok ?l = Ok _ => injection E as <-; apply tidy_other; repeat constructor
  | once _ = Ok _ => exact (tidy_once _ _ _ E)
  end.

Lemma switch_tidy cf r o es : switch_draws cf r o = Ok es -> tidy (rb_buf (o_b o)) es.
Proof.
  intros E. unfold switch_draws in E. cbn zeta in E.
  repeat lazymatch type of E with
  | (if ?c then _ else _) = Ok _ => destruct c; [solve [tid E | shelve]|]
  | once _ = Ok _ => exact (tidy_once _ _ _ E)
  end.
  Unshelve.
  - destruct (_ =? _)%nat; tid E.
  - destruct (_ =? _)%nat; tid E.
  - destruct (rb_kill (o_b o)); tid E.
  - destruct (oc_unique cf); tid E.
  - apply obind_ok in E. destruct E as (x & _ & E). destruct (fst x); tid E.
  - apply obind_ok in E. destruct E as (x & _ & E). destruct (fst x); tid E.
  - destruct (0 <? _)%nat; [|destruct (oc_unique cf); tid E]. apply obind_ok in E. destruct E as (x & _ & E). injection E as <-.
    destruct (snd x); [right; left; eauto|right; right; left; eauto].
  - destruct (oc_unique cf); tid E.
Qed.

Lemma del_tidy b0 next b es : vim_del_draws next b = Ok es -> tidy b0 es.
Proof.
  unfold vim_del_draws, word_draws, delete_draws. intros E. destruct (next =? 119); [destruct (_ =? _)%nat; tid E|].
  destruct (next =? 104); [tid E|]. destruct (next =? 108); tid E.
Qed.
Lemma next_tidy b0 p next b es : vim_next_draws p next b = Ok es -> tidy b0 es.
Proof.
  destruct p; cbn [vim_next_draws]; intros E.
  - tid E.
  - destruct (next =? 100); [tid E|exact (del_tidy _ _ _ _ E)].
  - destruct (next =? 99); [tid E|exact (del_tidy _ _ _ _ E)].
  - destruct (next =? CharEsc); tid E.
Qed.
Lemma vim_tidy b0 r b es : vim_draws r b = Ok es -> tidy b0 es.
Proof.
  intros E. unfold vim_draws, yank_draws, delete_draws in E.
  repeat lazymatch type of E with
  | (if ?c then _ else _) = Ok _ => destruct c; [solve [tid E | shelve]|]
  | _ => tid E
  end.
  Unshelve.
  - apply obind_ok in E. destruct E as (x & _ & E). cbn zeta in E. destruct (IsCursorInEnd (fst x)); [|injection E as <-; right; left; eauto].
    unfold once in E. apply obind_ok in E. destruct E as (t & E1 & E). apply obind_ok in E1. destruct E1 as (b' & M & E1). injection E1 as <-. injection E as <-.
    right. right. right. unfold MoveBackward in M. destruct (_ =? _)%nat in M; injection M as <-; eauto.
  - destruct (rb_kill b); tid E.
Qed.
Lemma key_tidy cf r o es : oc_listen cf = None -> key_draws cf r o = Ok es -> tidy (rb_buf (o_b o)) es.
Proof.
  intros N E. unfold key_draws in E. destruct (o_vp o); [exact (next_tidy _ _ _ _ _ E)|].
  assert (Af : forall r' o1, o_b o1 = o_b o -> after_vim cf r' o1 = Ok es -> tidy (rb_buf (o_b o)) es).
  { intros r' o1 Eb X. unfold after_vim in X. apply obind_ok in X. destruct X as (a & S & X). apply obind_ok in X. destruct X as ([[[[o2 a2] kS] kC] upd] & _ & X).
    unfold listener_draws in X. rewrite N, app_nil_r in X. injection X as <-. rewrite <- Eb. exact (switch_tidy _ _ _ _ S). }
  assert (Hd : forall r', handle_draws cf r' o = Ok es -> tidy (rb_buf (o_b o)) es).
  { intros r' X. unfold handle_draws in X. destruct (oc_vim cf); [|now apply (Af r' o)].
    apply obind_ok in X. destruct X as ([[o1 res] a] & V & X). destruct res as [r2| |p].
    - destruct (r2 =? 0); [tid X|]. apply (Af r2 o1); [|exact X]. unfold HandleVim in V. destruct (o_vn o); [|destruct (r' =? CharEsc); [discriminate V|injection V as <- _ _; reflexivity]].
      unfold HandleVimNormal in V. cbn zeta in V. clear - V.
      repeat match type of V with
      | (if ?c then _ else _) = Ok _ => destruct c
      | obind _ _ = Ok _ => apply obind_ok in V; destruct V as (? & _ & V)
      end; try discriminate V; injection V as <- _ _; reflexivity.
    - destruct (o_vn o); [exact (vim_tidy _ _ _ _ X)|tid X].
    - destruct (o_vn o); [exact (vim_tidy _ _ _ _ X)|tid X]. }
  destruct (oc_filter cf) as [f|]; [|now apply (Hd r)]. destruct (f r) as [r'|]; [now apply (Hd r')|]. tid E.
Qed.

Lemma key_lines cf (v : list Z) o r o' acts es b i : plain_session cf -> oc_listen cf = None -> at_prompt cf o -> may_press cf o r ->
  op_step cf r o = Ok (o', acts) -> key_draws cf r o = Ok es -> In (ODraw (VLine b i)) es -> b = rb_buf (o_b o) \/ b = rb_buf (o_b o').
Proof.
  intros C N A K S E I. destruct (key_case cf C v o r o' acts [] A K S) as (_ & es' & E' & L). rewrite E in E'. injection E' as <-.
  destruct (key_tidy cf r o es N E) as [T|[(b1 & j & ->)|[(b1 & j & ->)|(b1 & j & j' & ->)]]].
  - left. exact (T _ _ I).
  - right. destruct I as [I|[]]. injection I as -> ->. inversion L as [|? ? ? ? ? L1 L2]; subst. inversion L2; subst. inversion L1 as [? ? ? L3| | |]; subst. inversion L3. congruence.
  - right. destruct I as [I|[I|[]]]; [|discriminate I]. injection I as -> ->. inversion L as [|? ? ? ? ? L1 L2]; subst. inversion L2 as [|? ? ? ? ? L4 L5]; subst. inversion L5; subst. inversion L4; subst.
    inversion L1 as [? ? ? L3| | |]; subst. inversion L3. congruence.
  - right. assert (b = b1) by (destruct I as [I|[I|[]]]; injection I as -> _; reflexivity). subst b1. clear I.
    inversion L as [|? ? ? ? ? L1 L2]; subst. inversion L2 as [|? ? ? ? ? L4 L5]; subst. inversion L5; subst. inversion L4 as [? ? ? L6| | |]; subst. inversion L6. congruence.
Qed.

Lemma lines_turn H cf v is : plain_session cf -> oc_listen cf = None -> forall o reading c t o' acts, at_prompt cf o ->
  fits H (oc_w cf) v (rb_buf (o_b o)) -> lturn H cf v is o reading -> vleaves cf v is o c t o' acts -> vturn H cf v is o reading.
Proof.
  intros C N. induction is as [|i is IH]; intros o reading c t o' acts A F T L; [exact I|].
  destruct i as [|txt|r]; cbn [lturn vturn] in *.
  - split; [apply T|]. inversion L; subst. eapply IH; [exact A|exact F|apply T|eassumption].
  - split; [apply T|]. inversion L; subst; eapply IH; [exact A|exact F|apply T|eassumption].
  - destruct T as (R & K & T).
    assert (X : exists o1 a1 c1 t1 acts1, op_step cf r o = Ok (o1, a1) /\ vleaves cf v is o1 c1 t1 o' acts1) by (inversion L; subst; eauto 10).
    destruct X as (o1 & a1 & c1 & t1 & acts1 & S & L1). destruct (T o1 a1 S) as (F1 & T1).
    assert (A1 : at_prompt cf o1).
    { destruct (clears cf r o) eqn:Cl; [apply (clear_case cf C o r o1 a1 A Cl S)|]. destruct K as [K|K]; [|discriminate].
      apply (key_case cf C v o r o1 a1 [] A K S). }
    split; [exact R|]. split; [exact K|]. split.
    + intros es b i E In_. unfold vkey_draws in E. destruct (clears cf r o) eqn:Cl.
      * injection E as <-. unfold listener_draws in In_. rewrite N in In_. destruct In_ as [In_|[]]. discriminate In_.
      * destruct K as [K|K]; [|discriminate]. apply obind_ok in E. destruct E as (es' & E & Q). injection Q as <-. apply in_map_iff in In_.
        destruct In_ as (e & Q & In_). injection Q as ->. destruct (key_lines cf v o r o1 a1 es' b i C N A K S E In_) as [->| ->]; assumption.
    + intros o2 a2 S2. rewrite S in S2. injection S2 as <- <-. eapply IH; eassumption.
Qed.
