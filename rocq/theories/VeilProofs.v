(** Proofs for C133. *)
From Verif Require Import Base ListAux RunesModel RunesSpec RuneBufModel RuneBufSpec HistoryModel HistoryProofs ScreenModel RenderModel RenderSpec RenderProofs RenderSession RenderProps RenderMore OpModel OpSpec OpProofs OpStep OutModel OutSpec OutProofs PipeSpec WideSpec WideProps BroadSpec BroadProofs VeilSpec.
Open Scope Z_scope.

(** the same drawing state without a mask *)
Definition bare (d : rdr) : rdr :=
  {| d_prompt := d_prompt d; d_buf := d_buf d; d_idx := d_idx d; d_width := d_width d; d_had := d_had d;
     d_inter := d_inter d; d_mask := None; d_paint := d_paint d |}.

Section Draw.
Variable u : uenv.
Hypothesis U : uenv_ok u.
Hypothesis T : (1 <= u_tab u)%nat.
Variable w : Z.
Hypothesis W : 0 < w <= 9223372036854775807.
Variable ps : list piece.
Let v := visible ps.
Hypothesis PD : Forall sgr_digits ps.
Hypothesis PV : Forall (glyph u) v.
Hypothesis PS : columns u v + 1 < w.
Variable m : Z.
Hypothesis M : mask_ok u m.
Let U1 := proj1 U.
Let W0 : 0 < w := proj1 W.
Notation fit := (fit u w).

Definition vstatic (d : rdr) : Prop := bstatic u w ps (bare d) /\ d_mask d = Some m.
Lemma vstatic_line d b i h : vstatic d -> vstatic (with_had h (with_line b i d)).
Proof. intros (S & E). split; [apply (bstatic_line u w ps (bare d) b i h S)|exact E]. Qed.

(** what is shown takes no more columns than the line *)
Lemma len_columns l : Forall (glyph u) l -> Z.of_nat (length l) <= columns u l.
Proof. intros F. apply (columns_len u U1 T). now apply (glyph_typed u U1 T). Qed.
Lemma veil_glyphs n : Forall (glyph u) (veil m n).
Proof.
  unfold veil. destruct (Z.eqb_spec m 0); [constructor|]. destruct M as [P|(P & _)]; [|congruence].
  apply Forall_forall. intros r I. apply repeat_spec in I. subst. destruct P as (P1 & P2 & P3). split; [exact P1|]. split; [exact P2|now left].
Qed.
Lemma veil_columns n : 0 <= columns u (veil m n) <= Z.of_nat n.
Proof.
  unfold veil. destruct (Z.eqb_spec m 0); [cbn; lia|]. destruct M as [(P1 & P2 & P3)|(P & _)]; [|congruence].
  unfold columns, cells_all. split; [lia|]. induction n as [|k IH]; [reflexivity|]. cbn [repeat flat_map]. rewrite app_length.
  assert (L : length (cells_of u m) = 1%nat) by (rewrite (cells_len u U1 T); [exact P3|right; split; [exact P1|split; [exact P2|now left]]]). lia.
Qed.
Lemma veil_fit b n : (n <= length b)%nat -> Forall (glyph u) b -> fit (v ++ b) -> fit (v ++ veil m n).
Proof.
  unfold BroadProofs.fit. intros L F H. rewrite (columns_app u U1 T) in *. pose proof (len_columns b F). pose proof (veil_columns n). lia.
Qed.

(** writing the masks *)
Lemma veil_end n y text s : at_end w y text s -> Z.of_nat (length text) + columns u (veil m n) < w ->
  at_end w y (text ++ cells_all u (veil m n)) (sexecs u w s (repeat m n)) /\ same_above y s (sexecs u w s (repeat m n)).
Proof.
  intros A L. unfold veil in *. destruct (Z.eqb_spec m 0) as [->|N].
  - cbn [cells_all flat_map]. rewrite app_nil_r. destruct M as [(P & _)|(_ & P)]; [lia|].
    assert (E : sexecs u w s (repeat 0 n) = s).
    { pose proof (proj1 A) as G. clear - G P. induction n as [|k IH]; [reflexivity|]. cbn [repeat]. unfold sexecs in *. cbn [fold_left].
      replace (sexec u w s 0) with s; [exact IH|]. unfold sexec. rewrite G. cbn [Z.eqb]. unfold print_rune. rewrite P. reflexivity. }
    rewrite E. split; [exact A|apply same_above_refl].
  - destruct (pieces_end u U T w W (map Vis (repeat m n)) y text s A) as (X & Y).
    + rewrite vis_map. pose proof (veil_glyphs n) as G. unfold veil in G. destruct (Z.eqb_spec m 0); [congruence|exact G].
    + apply digits_map.
    + rewrite vis_map. exact L.
    + rewrite vis_map, runes_map in X. rewrite runes_map in Y. auto.
Qed.

(** one redraw of the line, from the start of free rows *)
Lemma veil_output d y s : vstatic d -> Forall (glyph u) (d_buf d) -> (d_idx d <= length (d_buf d))%nat -> fit (v ++ d_buf d) -> free_from w y s ->
  exists o, output u d = Ok o /\ let s' := sexecs u w s o in
    (shows_text w y (cells_all u (v ++ veil m (length (d_buf d)))) s' /\ s_row s' = y /\ s_pend s' = false /\ s_par s' = PGround /\
     s_col s' = Z.max 0 (columns u (v ++ veil m (length (d_buf d))) - 2 * Z.of_nat (length (d_buf d) - d_idx d))) /\ same_above y s s'.
Proof.
  intros (S & Mk) F I Ft Fr. apply (proj1 (free_end u U T w W y s)) in Fr.
  assert (D : one_row u ps (bare d)) by (apply (static_row0 u U T w W ps PD PV PS); assumption).
  destruct (d_buf d) as [|r0 b0] eqn:B.
  - (* empty: as without mask *)
    destruct (row_output u U1 T ps (bare d) y s D) as (o & X1 & (X2 & X3 & X4 & X5) & X6 & X7).
    { cbn. rewrite (bt_width _ _ _ _ S : d_width d = w). exact Fr. }
    cbn [bare d_width] in *. replace (d_width d) with w in * by (symmetry; exact (bt_width _ _ _ _ S)).
    exists o. split.
    + rewrite <- X1. unfold output. cbn [bare d_buf d_mask d_idx]. rewrite Mk, B. reflexivity.
    + cbn [length]. assert (E0 : veil m 0 = []) by (unfold veil; destruct (m =? 0); reflexivity). rewrite E0. split; [|exact X7].
      cbn [bare d_buf] in X2. rewrite B in X2. split; [exact X2|]. split; [exact X3|]. split; [exact X4|]. split; [exact X5|].
      rewrite X6. unfold end_col. cbn [bare d_buf d_idx]. rewrite B. cbn [length]. rewrite app_nil_r. fold v. change (columns u []) with 0. lia.
  - rewrite <- B in *. assert (Nb : (0 < length (d_buf d))%nat) by (rewrite B; cbn; lia). clear r0 b0 B.
    set (n := length (d_buf d)) in *.
    assert (La : last (d_buf d) 0 =? 10 = false).
    { assert (X : In (last (d_buf d) 0) (d_buf d)).
      { destruct (d_buf d) as [|x l] eqn:E; [cbn in Nb; lia|]. rewrite <- E. rewrite (app_removelast_last 0 (l := d_buf d)) at 2 by (rewrite E; discriminate).
        apply in_app_iff. right. now left. }
      rewrite Forall_forall in F. destruct (F _ X). apply Z.eqb_neq. lia. }
    assert (Rp : repeat m (n - 1) ++ [m] = repeat m n).
    { replace n with (n - 1 + 1)%nat at 2 by lia. rewrite repeat_app. reflexivity. }
    pose proof (veil_fit (d_buf d) n (le_n _) F Ft) as Fv. unfold BroadProofs.fit in Fv. rewrite (columns_app u U1 T) in Fv.
    pose proof (veil_columns n) as Vc.
    destruct (pieces_end u U T w W ps y [] s Fr PV PD) as (A1 & A2); [fold v; cbn [length]; lia|]. cbn [app] in A1. fold v in A1.
    set (s1 := sexecs u w s (prompt_runes ps)) in *.
    destruct (veil_end n y (cells_all u v) s1 A1) as (B1 & B2); [unfold columns in *; lia|].
    rewrite <- (cells_app u U1 T) in B1. set (s2 := sexecs u w s1 (repeat m n)) in *.
    assert (SA2 : same_above y s s2) by (eapply same_above_trans; eassumption).
    destruct B1 as (P1 & P2 & P3 & P4 & P5 & P6).
    assert (Len : Z.of_nat (length (cells_all u (v ++ veil m n))) = columns u (v ++ veil m n)) by reflexivity.
    assert (Sh : forall s', s_cell s' = s_cell s2 -> shows_text w y (cells_all u (v ++ veil m n)) s').
    { intros s' E. apply (row_text u U1 T w W0); [rewrite Len, (columns_app u U1 T); lia|]. split.
      - intros x Hx. rewrite E. now apply P5.
      - intros y' x Hy Hx. rewrite E. now apply P6. }
    assert (Bk : forall back, output u d = Ok (prompt_runes ps ++ (repeat m (n - 1) ++ [m] ++ back) ++ back) ->
      exists o, output u d = Ok o /\ sexecs u w s o = sexecs u w (sexecs u w s2 back) back).
    { intros back E. eexists. split; [exact E|]. rewrite (app_assoc (repeat m (n - 1))), Rp, !sexecs_app. reflexivity. }
    pose proof (bt_prompt _ _ _ _ S : d_prompt d = prompt_runes ps) as Ep.
    assert (Ob : forall back, (if (d_idx d <? n)%nat then getBackspaceSequence u d else Ok []) = Ok back ->
      output u d = Ok (prompt_runes ps ++ (repeat m (n - 1) ++ [m] ++ back) ++ back)).
    { intros back E. unfold output. fold n. rewrite E. cbn [obind]. rewrite Mk, La, Ep. unfold n in Nb |- *.
      destruct (d_buf d); [cbn in Nb; lia|]. reflexivity. }
    destruct (Nat.ltb_spec (d_idx d) n) as [L|L].
    + destruct (row_back u U1 T ps (bare d) D L) as (sep & G & Hs). cbn [bare d_buf d_idx d_width] in G, Hs. fold n in G, Hs.
      replace (d_width d) with w in G by (symmetry; exact (bt_width _ _ _ _ S)).
      destruct (Bk _ (Ob _ G)) as (o & E1 & E2). exists o. split; [exact E1|]. rewrite E2. cbn zeta.
      destruct (back_row u U1 T w W0 sep (n - d_idx d) (Z.of_nat n) s2 P1) as [E|E]; [intros j Hj; apply Hs; lia|lia| |exfalso; rewrite P3 in E; lia].
      rewrite E. set (s3 := move s2 (s_row s2) _).
      destruct (back_row u U1 T w W0 sep (n - d_idx d) (Z.of_nat n) s3 eq_refl) as [E'|E']; [intros j Hj; apply Hs; lia|lia| |exfalso; unfold s3 in E'; cbn in E'; lia].
      rewrite E'. unfold s3. cbn [move s_row s_col s_pend s_par]. split.
      * split; [apply Sh; reflexivity|]. split; [exact P2|]. split; [reflexivity|]. split; [reflexivity|].
        rewrite P3, Len. lia.
      * intros y' x Hy. cbn [s_cell move]. now apply SA2.
    + destruct (Bk _ (Ob [] eq_refl)) as (o & E1 & E2). exists o. split; [exact E1|]. rewrite E2. cbn zeta. cbn [sexecs fold_left].
      split; [|exact SA2]. split; [apply Sh; reflexivity|]. split; [exact P2|]. split; [exact P4|]. split; [exact P1|].
      rewrite P3, Len. pose proof (columns_app u U1 T v (veil m n)). assert (0 <= columns u v) by (unfold columns; lia). lia.
Qed.

(** the line written with a line feed at its end *)
Lemma veil_submits d b y s : vstatic d -> d_buf d = b ++ [10] -> d_idx d = length (b ++ [10]) -> Forall (glyph u) b -> fit (v ++ b) ->
  free_from w y s ->
  exists o, output u d = Ok o /\ let s' := sexecs u w s o in
    stacked w y [cells_all u (v ++ veil m (length b))] s' /\ free_from w (y + 1) s' /\ same_above y s s'.
Proof.
  intros (S & Mk) B I F Ft Fr. apply (proj1 (free_end u U T w W y s)) in Fr.
  unfold output. rewrite Mk, B, I. rewrite Nat.ltb_irrefl. cbn [obind]. rewrite last_last. change (10 =? 10) with true. cbv iota.
  rewrite app_length. cbn [length]. replace (length b + 1 - 1)%nat with (length b) by lia.
  replace (match b ++ [10] with [] => _ | _ :: _ => _ end) with (Ok (repeat m (length b) ++ [10] ++ [])) by now destruct (b ++ [10]) eqn:E; [destruct b; discriminate|].
  cbn [obind]. eexists. split; [reflexivity|]. rewrite app_nil_r, (bt_prompt _ _ _ _ S : d_prompt d = prompt_runes ps), !sexecs_app.
  pose proof (veil_fit b (length b) (le_n _) F Ft) as Fv. pose proof Fv as Fv'. unfold BroadProofs.fit in Fv'. rewrite (columns_app u U1 T) in Fv'.
  pose proof (veil_columns (length b)) as Vc.
  destruct (pieces_end u U T w W ps y [] s Fr PV PD) as (A1 & A2); [fold v; cbn [length]; lia|]. cbn [app] in A1. fold v in A1.
  set (s1 := sexecs u w s (prompt_runes ps)) in *.
  destruct (veil_end (length b) y (cells_all u v) s1 A1) as (B1 & B2); [unfold columns in *; lia|].
  rewrite <- (cells_app u U1 T) in B1. set (s2 := sexecs u w s1 (repeat m (length b))) in *.
  destruct (end_frees u U T w W y (v ++ veil m (length b)) s2 Fv B1) as (N1 & N2 & N3). set (s3 := sexecs u w s2 [10]) in *. cbn zeta. cbn [sexecs fold_left].
  split; [exact N1|]. split; [exact N2|]. intros y' x Y. rewrite N3, B2, A2 by exact Y. reflexivity.
Qed.

(** the rows shown below what was there: [D]; of the look only line, cursor and mode count *)
Definition vagrees (y0 : Z) (D : list (list Z)) (k : look) (st : bool * rdr) (s0 s : scr) : Prop :=
  vstatic (snd st) /\ d_buf (snd st) = k_line k /\ d_idx (snd st) = k_idx k /\ fst st = k_reading k /\
  Forall (glyph u) (k_line k) /\ (k_idx k <= length (k_line k))%nat /\ fit (v ++ k_line k) /\ Forall fit D /\
  (k_reading k = true -> d_had (snd st) = false) /\ (k_reading k = false -> k_line k = []) /\
  veil_screen u w v m y0 D (length (k_line k)) (k_idx k) (k_reading k) s /\ same_above y0 s0 s.

Definition hide (t : list Z) : list Z := firstn (length v) t ++ veil m (length t - length v).
Lemma hide_text l : hide (v ++ l) = v ++ veil m (length l).
Proof. unfold hide. rewrite firstn_app, firstn_all, Nat.sub_diag, app_length. cbn [firstn]. rewrite app_nil_r. do 2 f_equal. lia. Qed.

Definition no_out (e : oev) : Prop := match e with ODraw (VOut _) => False | _ => True end.

Lemma vready y0 D k st s0 s : vagrees y0 D k st s0 s -> row_ready (bare (snd st)) (y0 + Z.of_nat (length D)) s.
Proof.
  intros ((S & Mk) & B & I & R & F & L & Ft & Fd & H & N & (_ & Sc) & _). cbn zeta in Sc. unfold row_ready. rewrite (bt_width _ _ _ _ S).
  cbn [bare d_had]. destruct (k_reading k) eqn:E.
  - rewrite (H eq_refl). destruct Sc as (_ & A1 & A2 & A3 & _). split; [exact A3|]. split; [exact A1|discriminate].
  - apply (proj1 (free_end u U T w W _ s)) in Sc. pose proof Sc as (A1 & A2 & _). auto.
Qed.

Lemma veil_clean d y s : vstatic d -> Forall (glyph u) (d_buf d) -> (d_idx d <= length (d_buf d))%nat -> fit (v ++ d_buf d) -> row_ready (bare d) y s ->
  exists o, clean u d = Ok (with_had true d, o) /\ free_from w y (sexecs u w s o) /\ same_above y s (sexecs u w s o).
Proof.
  intros (S & Mk) F I Ft R.
  assert (D : one_row u ps (bare d)) by (apply (static_row0 u U T w W ps PD PV PS); assumption).
  destruct (row_clean u U1 T ps (bare d) y s D R) as (o & C1 & C2 & C3). rewrite (bt_width _ _ _ _ S) in C2, C3.
  exists o. split; [|split; [now apply (proj2 (free_end u U T w W _ _))|exact C3]].
  unfold clean in *. change (idxLine u (bare d) (d_width (bare d))) with (idxLine u d (d_width d)) in C1.
  cbn [bare d_had d_inter] in C1. destruct (idxLine u d (d_width d)) as [li| |]; [|discriminate C1|discriminate C1]. cbn [obind] in *.
  destruct (d_had d || negb (d_inter d)) eqn:Eh.
  - assert (Eo : o = []) by congruence. subst o. pose proof (bt_inter _ _ _ _ S : d_inter d = true) as Ei. rewrite Ei, orb_false_r in Eh. unfold with_had. clear - Eh. destruct d; cbn in *. now rewrite Eh.
  - change (cleanOutput u (bare d) li) with (cleanOutput u d li) in C1. destruct (cleanOutput u d li) as [o2| |]; [|discriminate C1|discriminate C1].
    cbn [obind] in *. assert (Eo : o2 = o) by congruence. now subst o2.
Qed.

Lemma vstep y0 D k st s0 s e k' t : vagrees y0 D k st s0 s -> olooks (narrow_u u) v k e k' -> no_out e -> k_done k' = k_done k ++ t -> Forall fit t ->
  (forall b i, e = ODraw (VLine b i) -> fit (v ++ b)) ->
  exists st' o, ostep u st e = Ok (st', o) /\ vagrees y0 (D ++ map hide t) k' st' s0 (sexecs u w s o).
Proof.
  intros A K No Gt Fd' Fl. pose proof (vready _ _ _ _ _ _ A) as R.
  destruct A as (S & B & I & Rd & F & L & Ft & Fd & H & N & (St & Sc) & Ab). destruct st as [reading d]. cbn [fst snd] in *. cbn zeta in Sc.
  set (y1 := y0 + Z.of_nat (length D)) in *.
  assert (Hy : y0 <= y1) by (unfold y1; lia).
  assert (Hh : y0 + height w (map (cells_all u) D) = y1) by (unfold y1; now rewrite (height_count u U T w W _ Fd)).
  assert (T0 : k_done k' = k_done k -> D ++ map hide t = D).
  { intros E. rewrite E in Gt. assert (X : length (k_done k) = length (k_done k ++ t)) by congruence. rewrite app_length in X.
    destruct t; [now rewrite app_nil_r|cbn in X; lia]. }
  assert (T1 : forall x, k_done k' = k_done k ++ [x] -> t = [x]).
  { intros x E. rewrite E in Gt. now apply app_inv_head in Gt. }
  (* one redraw of the line *)
  assert (Dr : forall b i, Forall (glyph u) b -> (i <= length b)%nat -> fit (v ++ b) ->
    exists o, refresh u d b i [] = Ok (with_had false (with_line b i d), o) /\
      (shows_text w y1 (cells_all u (v ++ veil m (length b))) (sexecs u w s o) /\ s_row (sexecs u w s o) = y1 /\ s_pend (sexecs u w s o) = false /\ s_par (sexecs u w s o) = PGround /\
       s_col (sexecs u w s o) = Z.max 0 (columns u (v ++ veil m (length b)) - 2 * Z.of_nat (length b - i))) /\
      same_above y1 s (sexecs u w s o)).
  { intros b i Fb Ib Fi. destruct (veil_clean d y1 s S) as (o1 & C1 & C2 & C3); [now rewrite B|now rewrite B, I|now rewrite B|exact R|].
    unfold refresh. rewrite (bt_inter _ _ _ _ (proj1 S) : d_inter d = true). cbn [negb]. rewrite C1. cbn [obind fst snd].
    destruct (veil_output (with_line b i (with_had true d)) y1 (sexecs u w s o1) (vstatic_line d b i true S)) as (o2 & P1 & P2 & P3); [exact Fb|exact Ib|exact Fi|exact C2|].
    unfold print. rewrite P1. cbn [obind fst snd app]. eexists. split; [reflexivity|]. rewrite sexecs_app. split; [exact P2|].
    eapply same_above_trans; [exact C3|exact P3]. }
  assert (Keep : forall s', same_above y1 s s' -> stacked w y0 (map (cells_all u) D) s').
  { intros s' X. apply (stacked_above w _ _ s); [now rewrite Hh|exact St]. }
  assert (Abv : forall s', same_above y1 s s' -> same_above y0 s0 s').
  { intros s' X. eapply same_above_trans; [exact Ab|]. intros a c Q. apply X. lia. }
  (* the line redrawn *)
  assert (Line : forall b i rd dn, Forall (glyph u) b -> (i <= length b)%nat -> fit (v ++ b) -> rd = true ->
    exists o, refresh u d b i [] = Ok (with_had false (with_line b i d), o) /\
      vagrees y0 D {| k_done := dn; k_line := b; k_idx := i; k_reading := true |} (rd, with_had false (with_line b i d)) s0 (sexecs u w s o)).
  { intros b i rd dn Fb Ib Fi ->. destruct (Dr b i Fb Ib Fi) as (o & X1 & X2 & X7). exists o. split; [exact X1|].
    unfold vagrees. cbn [fst snd k_line k_idx k_reading k_done]. split; [now apply vstatic_line|].
    cbn. repeat (split; [first [assumption|reflexivity|discriminate]|]). split; [|now apply Abv].
    split; [now apply Keep|]. exact X2. }
  (* the line written with a line feed at its end *)
  assert (Feed : forall d1 s1 hint dn, vstatic d1 -> row_ready (bare d1) y1 s1 -> same_above y1 s s1 -> d_buf d1 = k_line k -> (d_idx d1 <= length (d_buf d1))%nat ->
      Forall (glyph u) hint -> fit (v ++ k_line k ++ hint) ->
    exists d2 o, refresh u d1 (d_buf d1 ++ hint ++ [10]) (length (d_buf d1 ++ hint ++ [10])) [] = Ok (d2, o) /\
      vagrees y0 (D ++ map hide [v ++ k_line k ++ hint]) {| k_done := dn; k_line := []; k_idx := 0; k_reading := false |} (false, with_line [] 0 d2) s0 (sexecs u w s1 o)).
  { intros d1 s1 hint dn S1 R1 Ab1 B1 I1 Fh Fth.
    destruct (veil_clean d1 y1 s1 S1) as (o2 & C1 & C2 & C3); [now rewrite B1|exact I1|now rewrite B1|exact R1|].
    unfold refresh. rewrite (bt_inter _ _ _ _ (proj1 S1) : d_inter d1 = true). cbn [negb].
    rewrite C1. cbn [obind fst snd]. set (bb := d_buf d1 ++ hint ++ [10]).
    assert (Eb : bb = (k_line k ++ hint) ++ [10]) by (unfold bb; now rewrite B1, app_assoc).
    set (d2 := with_line bb (length bb) (with_had true d1)).
    assert (S2 : vstatic d2) by apply (vstatic_line d1 bb (length bb) true S1).
    assert (Fh2 : Forall (glyph u) (k_line k ++ hint)) by (apply Forall_app; now split).
    destruct (veil_submits d2 (k_line k ++ hint) y1 (sexecs u w s1 o2) S2) as (o3 & P1 & P2 & P3 & P4).
    { exact Eb. }
    { cbn. now rewrite Eb. }
    { exact Fh2. }
    { exact Fth. }
    { exact C2. }
    unfold print. rewrite P1. cbn [obind fst snd app]. eexists _, _. split; [reflexivity|].
    rewrite !sexecs_app. set (s3 := sexecs u w (sexecs u w s1 o2) o3) in *.
    assert (Ab3 : same_above y1 s s3) by (eapply same_above_trans; [exact Ab1|]; eapply same_above_trans; [exact C3|exact P4]).
    cbn [map]. rewrite hide_text.
    unfold vagrees. cbn [fst snd k_line k_idx k_reading k_done].
    split; [apply (vstatic_line (with_had false d2) [] 0 false); now apply (vstatic_line d2 (d_buf d2) (d_idx d2) false)|].
    cbn [with_line d_buf d_idx length].
    split; [reflexivity|]. split; [reflexivity|]. split; [reflexivity|]. split; [constructor|]. split; [apply le_n|].
    split; [rewrite app_nil_r; unfold BroadProofs.fit; lia|].
    split; [apply Forall_app; split; [exact Fd|constructor; [apply (veil_fit (k_line k ++ hint)); [apply le_n|exact Fh2|exact Fth]|constructor]]|].
    split; [discriminate|]. split; [reflexivity|]. split; [|now apply Abv]. split.
    - rewrite map_app. apply stacked_app. rewrite Hh. split; [now apply Keep|exact P2].
    - cbv iota. rewrite app_length. cbn [length]. replace (y0 + Z.of_nat (length D + 1)) with (y1 + 1) by (unfold y1; lia). exact P3. }
  inversion K as [? e0 ? Lk|?|? hint Rd' Fh|? Rd' Ln]; subst; clear K.
  - inversion Lk; subst; clear Lk; cbn [ostep dstep].
    + (* VRead *)
      rewrite (T0 eq_refl).
      destruct (Line (d_buf d) (d_idx d) true (k_done k) ltac:(now rewrite B) ltac:(now rewrite B, I) ltac:(now rewrite B) eq_refl) as (o & X1 & X2).
      rewrite X1. cbn [obind fst snd]. eexists _, o. split; [reflexivity|]. rewrite B, I in *. exact X2.
    + (* VLine *)
      rewrite (T0 eq_refl).
      match goal with X : Forall _ b |- _ => apply narrow_all in X end.
      destruct (Line b i (k_reading k) (k_done k)) as (o & X1 & X2); [assumption|assumption|now apply (Fl b i)|assumption|].
      rewrite X1. cbn [obind fst snd]. eexists _, o. split; [reflexivity|exact X2].
    + (* VSubmit *)
      rewrite (T1 _ eq_refl) in *. clear T0 T1 Gt.
      match goal with X : Forall _ hint |- _ => apply narrow_all in X; rename X into Fh end.
      inversion Fd' as [|? ? Fth _]; subst.
      destruct (Dr (d_buf d) (length (d_buf d)) ltac:(now rewrite B) ltac:(lia) ltac:(now rewrite B)) as (o1 & X1 & (X2 & X3 & X4 & X5 & X6) & X7).
      unfold submit. rewrite X1. cbn [obind fst snd].
      set (d1 := with_had false (with_line (d_buf d) (length (d_buf d)) d)) in *.
      destruct (Feed d1 (sexecs u w s o1) hint (k_done k ++ [v ++ k_line k ++ hint])) as (d2 & o2 & Y1 & Y2); [now apply vstatic_line|split; [exact X5|split; [exact X3|discriminate]]|exact X7|exact B|apply le_n|exact Fh|exact Fth|].
      change (d_buf d) with (d_buf d1). rewrite Y1. cbn [obind fst snd]. eexists _, _. split; [reflexivity|]. rewrite sexecs_app. exact Y2.
    + (* VUnique *)
      rewrite (T0 eq_refl).
      destruct (Dr (d_buf d) (length (d_buf d)) ltac:(now rewrite B) ltac:(lia) ltac:(now rewrite B)) as (o1 & X1 & (X2 & X3 & X4 & X5 & X6) & X7).
      unfold submit_unique. rewrite X1. cbn [obind fst snd].
      set (d1 := with_had false (with_line (d_buf d) (length (d_buf d)) d)) in *.
      assert (S1 : vstatic d1) by now apply vstatic_line.
      destruct (veil_clean d1 y1 (sexecs u w s o1) S1) as (o2 & C1 & C2 & C3); [cbn; now rewrite B|cbn; lia|cbn; now rewrite B|split; [exact X5|split; [exact X3|discriminate]]|].
      rewrite C1. cbn [obind fst snd]. eexists _, _. split; [reflexivity|].
      rewrite !sexecs_app. set (s3 := sexecs u w (sexecs u w s o1) o2) in *.
      assert (Ab3 : same_above y1 s s3) by (eapply same_above_trans; [exact X7|exact C3]).
      unfold vagrees. cbn [fst snd k_line k_idx k_reading k_done].
      split; [apply (vstatic_line (with_had true d1) [] 0 true); now apply (vstatic_line d1 (d_buf d1) (d_idx d1) true)|].
      cbn [with_line d_buf d_idx length].
      split; [reflexivity|]. split; [reflexivity|]. split; [reflexivity|]. split; [constructor|]. split; [apply le_n|].
      split; [rewrite app_nil_r; unfold BroadProofs.fit; lia|]. split; [exact Fd|].
      split; [discriminate|]. split; [reflexivity|]. split; [|now apply Abv]. split; [now apply Keep|exact C2].
    + (* VOut *) destruct No.
  - (* OBell *)
    rewrite (T0 eq_refl). eexists _, [7]. split; [reflexivity|].
    assert (E : sexecs u w s [7] = s). { unfold sexecs. cbn [fold_left]. unfold sexec. rewrite (proj1 R). reflexivity. }
    rewrite E. unfold vagrees. cbn [fst snd]. repeat (split; [first [assumption|reflexivity]|]). split; [split; [exact St|exact Sc]|exact Ab].
  - (* OEof *)
    rewrite (T1 _ eq_refl) in *. clear T0 T1 Gt.
    apply narrow_all in Fh. inversion Fd' as [|? ? Fth _]; subst.
    destruct (Feed d s hint (k_done k ++ [v ++ k_line k ++ hint]) S R (same_above_refl _ _) B ltac:(now rewrite B, I) Fh Fth) as (d2 & o2 & Y1 & Y2).
    cbn [ostep snd]. unfold eof_draw. rewrite Y1. cbn [obind fst snd]. eexists _, _. split; [reflexivity|exact Y2].
  - (* OClean *)
    rewrite (T0 eq_refl).
    destruct (veil_clean d y1 s S) as (o2 & C1 & C2 & C3); [now rewrite B|now rewrite B, I|now rewrite B|exact R|].
    assert (I0 : d_idx d = 0%nat) by (rewrite Ln in L; cbn in L; lia).
    assert (Ed : with_line [] 0 d = d).
    { rewrite Ln in B. clear - B I0. unfold with_line. destruct d; cbn in *. congruence. }
    cbn [ostep snd]. rewrite Ed, C1. cbn [obind fst snd]. eexists _, _. split; [reflexivity|].
    unfold vagrees. cbn [fst snd k_line k_idx k_reading k_done].
    split; [pose proof (vstatic_line d (d_buf d) (d_idx d) true S) as X; destruct d; exact X|].
    split; [cbn; congruence|]. split; [exact I0|].
    split; [reflexivity|]. split; [constructor|]. split; [apply le_n|]. split; [now rewrite Ln in Ft|]. split; [exact Fd|].
    split; [discriminate|]. split; [reflexivity|]. split; [|now apply Abv]. split; [now apply Keep|exact C2].
Qed.

(** lines printed by the application *)
Lemma vout y0 D k st s0 s ls : vagrees y0 D k st s0 s -> Forall (fun l => Forall (glyph u) l /\ fit l) ls ->
  exists st' o, ostep u st (ODraw (VOut (flat_map (fun l => l ++ [10]) ls))) = Ok (st', o) /\ vagrees y0 (D ++ ls) k st' s0 (sexecs u w s o).
Proof.
  intros A Fg. pose proof (vready _ _ _ _ _ _ A) as R.
  destruct A as (S & B & I & Rd & F & L & Ft & Fd & H & N & (St & Sc) & Ab). destruct st as [reading d]. cbn [fst snd] in *. cbn zeta in Sc.
  set (y1 := y0 + Z.of_nat (length D)) in *.
  assert (Hy : y0 <= y1) by (unfold y1; lia).
  assert (Hh : y0 + height w (map (cells_all u) D) = y1) by (unfold y1; now rewrite (height_count u U T w W _ Fd)).
  assert (Keep : forall s', same_above y1 s s' -> stacked w y0 (map (cells_all u) D) s').
  { intros s' X. apply (stacked_above w _ _ s); [now rewrite Hh|exact St]. }
  assert (Abv : forall s', same_above y1 s s' -> same_above y0 s0 s').
  { intros s' X. eapply same_above_trans; [exact Ab|]. intros a c Q. apply X. lia. }
  assert (Fd2 : Forall fit ls) by (eapply Forall_impl; [|exact Fg]; intros l (_ & X); exact X).
  assert (FD : Forall fit (D ++ ls)) by (apply Forall_app; now split).
  cbn [ostep dstep]. destruct (k_reading k) eqn:Ek; subst reading.
  - destruct (veil_clean d y1 s S) as (o1 & C1 & C2 & C3); [now rewrite B|now rewrite B, I|now rewrite B|exact R|].
    unfold refresh. rewrite (bt_inter _ _ _ _ (proj1 S) : d_inter d = true). cbn [negb]. rewrite C1. cbn [obind fst snd].
    destruct (bprint_lines u U T w W ls y1 (sexecs u w s o1) Fg C2) as (P1 & P2 & P3).
    set (s2 := sexecs u w (sexecs u w s o1) _) in *.
    destruct (veil_output (with_line (d_buf d) (d_idx d) (with_had true d)) (y1 + Z.of_nat (length ls)) s2 (vstatic_line d (d_buf d) (d_idx d) true S)) as (o2 & Q1 & Q2 & Q7);
      [cbn; now rewrite B|cbn; now rewrite B, I|cbn; now rewrite B|exact P2|].
    unfold print. rewrite Q1. cbn [obind fst snd]. eexists _, _. split; [reflexivity|].
    rewrite !sexecs_app. fold s2. set (s3 := sexecs u w s2 o2) in *. cbn [with_line with_had d_buf d_idx] in Q2. rewrite B, I in Q2.
    assert (Ab3 : same_above y1 s s3).
    { eapply same_above_trans; [exact C3|]. eapply same_above_trans; [exact P3|]. intros a c Q. apply Q7. lia. }
    unfold vagrees. cbn [fst snd].
    split; [apply (vstatic_line d (d_buf d) (d_idx d) false S)|]. cbn [with_line with_had d_buf d_idx d_had]. rewrite Ek.
    split; [exact B|]. split; [exact I|]. split; [reflexivity|]. split; [exact F|]. split; [exact L|]. split; [exact Ft|]. split; [exact FD|].
    split; [reflexivity|]. split; [discriminate|]. split; [|now apply Abv]. split.
    + rewrite map_app. apply stacked_app. rewrite Hh. split; [now apply Keep|].
      apply (stacked_above w _ _ s2); [|exact P1]. rewrite (height_count u U T w W) by exact Fd2. exact Q7.
    + cbn zeta. rewrite app_length, Nat2Z.inj_add, Z.add_assoc. fold y1. exact Q2.
  - eexists _, _. split; [reflexivity|].
    destruct (bprint_lines u U T w W ls y1 s Fg Sc) as (P1 & P2 & P3). set (s2 := sexecs u w s _) in *.
    unfold vagrees. cbn [fst snd]. rewrite Ek.
    split; [exact S|]. split; [exact B|]. split; [exact I|]. split; [reflexivity|]. split; [exact F|]. split; [exact L|]. split; [exact Ft|]. split; [exact FD|].
    split; [exact H|]. split; [exact N|]. split; [|now apply Abv]. split.
    + rewrite map_app. apply stacked_app. rewrite Hh. split; [now apply Keep|exact P1].
    + cbn zeta. rewrite app_length, Nat2Z.inj_add, Z.add_assoc. fold y1. exact P2.
Qed.

Lemma vrun es : forall y0 D k st s0 s k' t, vagrees y0 D k st s0 s -> olooks_all (narrow_u u) v k es k' -> Forall no_out es -> k_done k' = k_done k ++ t -> Forall fit t ->
  (forall b i, In (ODraw (VLine b i)) es -> fit (v ++ b)) ->
  exists st' o, orun u st es = Ok (st', o) /\ vagrees y0 (D ++ map hide t) k' st' s0 (sexecs u w s o).
Proof.
  induction es as [|e es IH]; intros y0 D k st s0 s k' t A K No Gt Fd Fl; inversion K; subst; cbn [orun].
  - assert (X : length (k_done k') = length (k_done k' ++ t)) by congruence. rewrite app_length in X. destruct t; [|cbn in X; lia].
    cbn [map]. rewrite app_nil_r. eexists _, _. split; [reflexivity|exact A].
  - inversion No; subst. destruct (olooks_grow u ps _ _ _ H2) as (t1 & Et1). destruct (olooks_grows u ps _ _ _ H4) as (t2 & Et2).
    assert (Et : t = t1 ++ t2).
    { rewrite Et2, Et1, <- app_assoc in Gt. apply app_inv_head in Gt. now rewrite <- Gt. }
    subst t. apply Forall_app in Fd. destruct Fd as (Fd1 & Fd2).
    destruct (vstep _ _ _ _ _ _ _ _ t1 A H2 H1 Et1 Fd1) as (st1 & o1 & E1 & A1); [intros b i ->; apply (Fl b i); now left|]. rewrite E1. cbn [obind fst snd].
    destruct (IH _ _ _ _ _ _ _ t2 A1 H4 H3 Et2 Fd2) as (st2 & o2 & E2 & A2); [intros b i Ii; apply (Fl b i); now right|]. rewrite E2. cbn [obind fst snd].
    eexists _, _. split; [reflexivity|]. rewrite sexecs_app, map_app, app_assoc. exact A2.
Qed.
End Draw.

(** ** Sessions *)
Lemma once_quiet x es : once x = Ok es -> Forall no_out es.
Proof. unfold once. intros E. apply obind_ok in E. destruct E as (b & _ & E). injection E as <-. constructor; [exact I|constructor]. Qed.
Lemma switch_quiet cf r o es : switch_draws cf r o = Ok es -> Forall no_out es.
Proof.
  intros E. unfold switch_draws in E. cbn zeta in E.
  repeat match type of E with
  | (if ?c then _ else _) = Ok _ => destruct c
  | once _ = Ok _ => exact (once_quiet _ _ E)
  | (match ?c with _ => _ end) = Ok _ => destruct c
  | obind _ _ = Ok _ => apply obind_ok in E; destruct E as (? & _ & E)
  | Ok _ = Ok _ => injection E as <-
  end;
  repeat match goal with
  | |- Forall _ (if ?c then _ else _) => destruct c
  | |- Forall _ (_ :: _) => constructor
  | |- Forall _ [] => constructor
  | |- Forall _ (match ?c with _ => _ end) => destruct c
  | |- no_out (if ?c then _ else _) => destruct c
  | |- no_out (ODraw (if ?c then _ else _)) => destruct c
  | |- no_out _ => exact I
  end.
Qed.
Lemma key_quiet cf r o es : oc_vim cf = false -> oc_listen cf = None -> oc_filter cf = None -> o_vp o = None -> key_draws cf r o = Ok es -> Forall no_out es.
Proof.
  intros V N Fi P E. unfold key_draws in E. rewrite P, Fi in E. unfold handle_draws in E. rewrite V in E. unfold after_vim in E.
  apply obind_ok in E. destruct E as (a & S & E). apply obind_ok in E. destruct E as ([[[[o2 a2] kS] kC] upd] & _ & E).
  unfold listener_draws in E. rewrite N, app_nil_r in E. injection E as <-. exact (switch_quiet _ _ _ _ S).
Qed.

Section Sess.
Variable cf : ocfg.
Notation u := (oc_u cf).
Notation w := (oc_w cf).
Hypothesis C : broad_session cf.
Hypothesis U : uenv_ok u.
Hypothesis T : (1 <= u_tab u)%nat.
Hypothesis W : 0 < w <= 9223372036854775807.
Variable ps : list piece.
Let v := visible ps.
Hypothesis PD : Forall sgr_digits ps.
Hypothesis PV : Forall (glyph u) v.
Hypothesis PS : columns u v + 1 < w.
Variable m : Z.
Hypothesis M : mask_ok u m.

Lemma hide_texts acts : map (hide ps m) (flat_map (text_of cf v) acts) = flat_map (veiled cf v m) acts.
Proof.
  induction acts as [|a acts IH]; [reflexivity|]. cbn [flat_map]. rewrite map_app, IH. f_equal.
  destruct a; cbn [text_of veiled]; try reflexivity; try (destruct (oc_unique cf); [reflexivity|]); cbn [map]; unfold v; rewrite (hide_text u U T ps m); try rewrite app_length; reflexivity.
Qed.

Lemma veil_agrees is : forall o reading D st y0 s0 s t o' acts, broad_prompt cf o -> one_line cf (v ++ rb_buf (o_b o)) -> broad_turn cf v is o reading ->
  veil_leaves cf v m is o t o' acts ->
  vagrees u w ps m y0 D {| k_done := []; k_line := rb_buf (o_b o); k_idx := rb_idx (o_b o); k_reading := reading |} st s0 s ->
  exists st' out, ses_run cf (o, st) is = Ok ((o', st'), out, acts) /\ broad_prompt cf o' /\
    vagrees u w ps m y0 (D ++ t) {| k_done := []; k_line := rb_buf (o_b o'); k_idx := rb_idx (o_b o'); k_reading := fst st' |} st' s0 (sexecs u w s out).
Proof.
  induction is as [|i is IH]; intros o reading D st y0 s0 s t o' acts A F Tn L G; inversion L; subst; clear L.
  - exists st, []. cbn [ses_run]. split; [reflexivity|]. split; [exact A|]. rewrite app_nil_r.
    assert (R : fst st = reading) by apply G. rewrite R. exact G.
  - match goal with H : veil_leaves _ _ _ is _ _ _ _ |- _ => rename H into HL end. destruct Tn as (-> & Tn).
    destruct (vstep u U T w W ps PD PV PS m M y0 D _ st s0 s (ODraw VRead) _ [] G (OLDraw _ _ _ _ _ (LRead _ _ _)) I eq_refl (Forall_nil _) ltac:(discriminate))
      as (st1 & o1 & E1 & G1). cbn [map] in G1. rewrite app_nil_r in G1. cbn [ses_run ses_step]. rewrite E1. cbn [obind fst snd].
    destruct (IH o true D st1 y0 s0 _ t o' acts A F Tn HL G1) as (st' & out & E2 & A2 & G2). rewrite E2. cbn [obind].
    eexists _, _. split; [reflexivity|]. split; [exact A2|]. now rewrite sexecs_app.
  - match goal with H : veil_leaves _ _ _ is _ _ _ _ |- _ => rename H into HL end.
    match goal with H : Forall _ ls |- _ => rename H into HF end. destruct Tn as (_ & Tn).
    destruct (vout u U T w W ps PD PV PS m M y0 D _ st s0 s ls G HF) as (st1 & o1 & E1 & G1). cbn [ses_run ses_step]. rewrite E1. cbn [obind fst snd].
    destruct (IH o reading (D ++ ls) st1 y0 s0 _ t0 o' acts A F Tn HL G1) as (st' & out & E2 & A2 & G2). rewrite E2. cbn [obind].
    eexists _, _. split; [reflexivity|]. split; [exact A2|]. rewrite sexecs_app, app_assoc. exact G2.
  - match goal with H : veil_leaves _ _ _ is _ _ _ _ |- _ => rename H into HL end.
    match goal with H : op_step _ _ _ = _ |- _ => rename H into HS end. destruct Tn as (-> & K & N & Q & Tn). destruct (Tn o1 a1 HS) as (F1 & Ft & T1).
    destruct (broad_case cf C T W ps o r o1 a1 [] A K N Q HS) as (A1 & es & Dk & Lk & Ln).
    destruct (vrun u U T w W ps PD PV PS m M es y0 D _ st s0 s _ (flat_map (text_of cf v) a1) G Lk) as (st1 & out1 & E1 & G1).
    { apply (key_quiet cf r o es (bs_vim _ C) (bs_listen _ C) (bs_filter _ C) (bp_vp _ _ A) Dk). }
    { reflexivity. }
    { exact Ft. }
    { intros b i I0. destruct (Ln b i I0) as [->| ->]; assumption. }
    rewrite hide_texts in G1.
    cbn [ses_run ses_step]. rewrite Dk. cbn [obind]. rewrite E1. cbn [obind]. rewrite HS. cbn [obind fst snd].
    destruct (IH o1 _ _ st1 y0 s0 _ t0 o' acts0 A1 F1 T1 HL G1) as (st' & out & E2 & A2 & G2). rewrite E2. cbn [obind].
    eexists _, _. split; [reflexivity|]. split; [exact A2|]. rewrite sexecs_app, app_assoc. exact G2.
Qed.
End Sess.
