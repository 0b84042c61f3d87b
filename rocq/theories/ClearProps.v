(** Property C112: Ctrl-L clears the screen. *)
From Verif Require Import Base ListAux RunesModel RunesSpec RunesProofs TerminalModel ScreenModel RenderModel RenderSpec RenderProofs RenderDraw RenderProps ClearModel ClearSpec.
From Coq Require Import ZifyBool.
Open Scope Z_scope.

(** ** The parser alone *)
Definition pstep (p : pstate) (r : Z) : pstate :=
  match p with
  | PEsc => if r =? 91 then PCsi [] else PGround
  | PCsi ps => if (48 <=? r) && (r <=? 63) then PCsi (ps ++ [r]) else PGround
  | PGround => if r =? 27 then PEsc else PGround
  end.
(** no cursor movement up or down or home; rows grow by printing and line feeds only *)
Definition rise1 (p : pstate) (r : Z) : bool := match p with PCsi _ => negb ((r =? 65) || (r =? 66) || (r =? 72)) | _ => true end.
(** nothing printed; cursor up by one *)
Definition fall1 (p : pstate) (r : Z) : bool :=
  match p with
  | PCsi ps => negb ((r =? 66) || (r =? 72)) && (negb (r =? 65) || match ps with [] => true | _ => false end)
  | PEsc => true
  | PGround => (r =? 27) || (r =? 8) || (r =? 13)
  end.
Fixpoint all_steps (f : pstate -> Z -> bool) (p : pstate) (l : list Z) : bool :=
  match l with [] => true | r :: l' => f p r && all_steps f (pstep p r) l' end.
Definition pend (p : pstate) (l : list Z) : pstate := fold_left pstep l p.

Lemma all_app f p a b : all_steps f p (a ++ b) = all_steps f p a && all_steps f (pend p a) b.
Proof.
  revert p. induction a as [|r a IH]; intros p; [reflexivity|]. cbn [app all_steps]. rewrite IH. unfold pend. cbn [fold_left]. now rewrite andb_assoc.
Qed.
Lemma pend_app p a b : pend p (a ++ b) = pend (pend p a) b.
Proof. unfold pend. apply fold_left_app. Qed.

Section S.
Variables (u : uenv) (w top : Z).

Lemma par_step s r : s_par (sexec u w s r) = pstep (s_par s) r.
Proof.
  unfold sexec, pstep. destruct (s_par s) eqn:P.
  - destruct (r =? 27) eqn:A; [reflexivity|]. destruct (r =? 8); [reflexivity|]. destruct (r =? 13); [reflexivity|]. destruct (r =? 10); [reflexivity|].
    destruct (r =? 7); [exact P|]. unfold print_rune. destruct (Z.of_nat (Width u r) =? 0); [exact P|].
    destruct (s_pend s || (w <? s_col s + Z.of_nat (Width u r))); destruct (_ <? w); reflexivity.
  - destruct (r =? 91); reflexivity.
  - destruct ((48 <=? r) && (r <=? 63)); [reflexivity|]. unfold csi_exec.
    destruct (r =? 65); [reflexivity|]. destruct (r =? 66); [reflexivity|]. destruct (r =? 67); [reflexivity|]. destruct (r =? 68); [reflexivity|].
    destruct (r =? 74); [destruct params; reflexivity|]. destruct (r =? 75); [|reflexivity].
    repeat match goal with |- context [match ?c with _ => _ end] => destruct c; try reflexivity end.
Qed.

Lemma rise_step s r : rise1 (s_par s) r = true -> s_row s <= s_row (sexec u w s r).
Proof.
  unfold sexec. destruct (s_par s) eqn:P; cbn [rise1]; intros H.
  - destruct (r =? 27); [cbn; lia|]. destruct (r =? 8); [cbn; lia|]. destruct (r =? 13); [cbn; lia|]. destruct (r =? 10); [cbn; lia|].
    destruct (r =? 7); [lia|]. unfold print_rune. destruct (Z.of_nat (Width u r) =? 0); [lia|].
    destruct (s_pend s || (w <? s_col s + Z.of_nat (Width u r))); destruct (_ <? w); cbn; lia.
  - destruct (r =? 91); cbn; lia.
  - destruct ((48 <=? r) && (r <=? 63)); [cbn; lia|]. unfold csi_exec. replace (r =? 65) with false by lia. replace (r =? 66) with false by lia.
    destruct (r =? 67); [cbn; lia|]. destruct (r =? 68); [cbn; lia|]. destruct (r =? 74); [destruct params; cbn; lia|].
    destruct (r =? 75); [|cbn; lia].
    repeat match goal with |- context [match ?c with _ => _ end] => destruct c; try (cbn; lia) end.
Qed.

Lemma fall_step s r : fall1 (s_par s) r = true -> s_row (sexec u w s r) <= s_row s.
Proof.
  unfold sexec. destruct (s_par s) eqn:P; cbn [fall1]; intros H.
  - destruct (r =? 27); [cbn; lia|]. destruct (r =? 8); [cbn; lia|]. destruct (r =? 13); [cbn; lia|discriminate].
  - destruct (r =? 91); cbn; lia.
  - destruct ((48 <=? r) && (r <=? 63)); [cbn; lia|]. unfold csi_exec. destruct (r =? 65) eqn:A.
    { destruct params; [cbn; lia|]. rewrite andb_false_r in H. discriminate. }
    replace (r =? 66) with false by lia.
    destruct (r =? 67); [cbn; lia|]. destruct (r =? 68); [cbn; lia|]. destruct (r =? 74); [destruct params; cbn; lia|].
    destruct (r =? 75); [|cbn; lia].
    repeat match goal with |- context [match ?c with _ => _ end] => destruct c; try (cbn; lia) end.
Qed.

Lemma in_view_id s : top <= s_row s -> in_view top s = s.
Proof. intros H. unfold in_view. rewrite Z.max_r by exact H. destruct s; reflexivity. Qed.

Lemma vstep s r : (forall ps, s_par s = PCsi ps -> r <> 72) -> top <= s_row (sexec u w s r) -> vexec top u w s r = sexec u w s r.
Proof.
  intros N H. unfold vexec. destruct (s_par s) as [| |[|x ps]]; try now rewrite in_view_id.
  replace (r =? 72) with false by (specialize (N [] eq_refl); lia). now rewrite in_view_id.
Qed.

Lemma vrise l : forall s, top <= s_row s -> all_steps rise1 (s_par s) l = true -> vexecs top u w s l = sexecs u w s l /\ top <= s_row (sexecs u w s l).
Proof.
  induction l as [|r l IH]; intros s T A; [auto|]. cbn [all_steps] in A. apply andb_true_iff in A. destruct A as (A & B).
  pose proof (rise_step s r A) as R. unfold vexecs, sexecs. cbn [fold_left]. rewrite vstep.
  - apply IH; [lia|]. now rewrite par_step.
  - intros ps P E. rewrite P, E in A. discriminate.
  - lia.
Qed.

Lemma fall_rows l : forall s, all_steps fall1 (s_par s) l = true -> s_row (sexecs u w s l) <= s_row s.
Proof.
  induction l as [|r l IH]; intros s A; [cbn; lia|]. cbn [all_steps] in A. apply andb_true_iff in A. destruct A as (A & B).
  pose proof (fall_step s r A) as R. rewrite <- par_step in B. apply IH in B. change (sexecs u w s (r :: l)) with (sexecs u w (sexec u w s r) l). lia.
Qed.

Lemma vfall l : forall s, top <= s_row (sexecs u w s l) -> all_steps fall1 (s_par s) l = true -> vexecs top u w s l = sexecs u w s l.
Proof.
  induction l as [|r l IH]; intros s T A; [reflexivity|]. cbn [all_steps] in A. apply andb_true_iff in A. destruct A as (A & B).
  change (sexecs u w s (r :: l)) with (sexecs u w (sexec u w s r) l) in *. rewrite <- par_step in B. pose proof (fall_rows l _ B) as R.
  unfold vexecs. cbn [fold_left]. rewrite vstep; [now apply IH| |lia].
  intros ps P E. rewrite P, E in A. cbn in A. discriminate.
Qed.

Lemma vexecs_app s a b : vexecs top u w s (a ++ b) = vexecs top u w (vexecs top u w s a) b.
Proof. unfold vexecs. apply fold_left_app. Qed.

(** ** What is drawn *)
Lemma params_steps f ps : (forall p r, 48 <= r <= 63 -> f (PCsi p) r = true) -> Forall (fun r => 48 <= r <= 63) ps -> forall p,
  all_steps f (PCsi p) ps = true /\ exists q, pend (PCsi p) ps = PCsi q.
Proof.
  intros F P. induction P as [|r ps R P IH]; intros p; [split; [reflexivity|now exists p]|]. cbn [all_steps]. rewrite F by exact R. unfold pend. cbn [fold_left pstep andb].
  replace ((48 <=? r) && (r <=? 63)) with true by lia. apply IH.
Qed.

Lemma pieces_rise ps : Forall sgr_digits ps -> Forall (plain u) (visible ps) -> all_steps rise1 PGround (prompt_runes ps) = true /\ pend PGround (prompt_runes ps) = PGround.
Proof.
  intros F. induction F as [|p ps P F IH]; intros V; [split; reflexivity|]. unfold prompt_runes, visible in *. cbn [flat_map] in *.
  apply Forall_app in V. destruct V as (V1 & V2). destruct (IH V2) as (A & B). rewrite all_app, pend_app. destruct p as [r|sg]; cbn [piece_runes] in *.
  - inversion V1 as [|? ? R _]; subst. destruct R as (R & _). unfold pend. cbn [all_steps fold_left rise1 pstep andb]. replace (r =? 27) with false by lia.
    cbn [andb]. split; [exact A|exact B].
  - cbn in P. assert (P' : Forall (fun r => 48 <= r <= 63) sg) by (eapply Forall_impl; [|exact P]; cbn; intros; lia).
    destruct (params_steps rise1 sg) with (p := @nil Z) as (X & q & Y); [intros ? r R; cbn; lia|exact P'|].
    assert (E1 : all_steps rise1 PGround (27 :: 91 :: sg ++ [109]) = true).
    { change (all_steps rise1 PGround (27 :: 91 :: sg ++ [109])) with (all_steps rise1 (PCsi []) (sg ++ [109])). rewrite all_app, X, Y. reflexivity. }
    assert (E2 : pend PGround (27 :: 91 :: sg ++ [109]) = PGround).
    { change (pend PGround (27 :: 91 :: sg ++ [109])) with (pend (PCsi []) (sg ++ [109])). rewrite pend_app, Y. reflexivity. }
    rewrite E1, E2. auto.
Qed.

Lemma back_falls sep n : 0 <= w <= 9223372036854775807 -> forall i, all_steps fall1 PGround (back_loop sep w n i) = true.
Proof.
  intros W. induction n as [|n IH]; intros i; [reflexivity|]. cbn [back_loop].
  change (all_steps fall1 PGround (8 :: ?l)) with (all_steps fall1 PGround l). rewrite all_app.
  assert (X : all_steps fall1 PGround (if existsb (Z.eqb i) sep then [27; 91; 65; 13; 27; 91] ++ Itoa w ++ [67] else []) = true /\
    pend PGround (if existsb (Z.eqb i) sep then [27; 91; 65; 13; 27; 91] ++ Itoa w ++ [67] else []) = PGround).
  { destruct (existsb _ _); [|split; reflexivity]. destruct (Itoa_spec w W) as (D & _).
    assert (D' : Forall (fun r => 48 <= r <= 63) (Itoa w)) by (eapply Forall_impl; [|exact D]; cbn; intros; lia).
    destruct (params_steps fall1 (Itoa w)) with (p := @nil Z) as (X & q & Y); [intros ? r R; cbn; lia|exact D'|].
    cbn [app]. change (all_steps fall1 PGround (27 :: 91 :: 65 :: 13 :: 27 :: 91 :: Itoa w ++ [67])) with (all_steps fall1 (PCsi []) (Itoa w ++ [67])).
    change (pend PGround (27 :: 91 :: 65 :: 13 :: 27 :: 91 :: Itoa w ++ [67])) with (pend (PCsi []) (Itoa w ++ [67])).
    rewrite all_app, pend_app, X, Y. split; reflexivity. }
  destruct X as (X & Y). rewrite X, Y. apply IH.
Qed.
End S.

(** Prompt and line drawn from the first row in view: the cursor does not leave the view on the way. *)
Lemma output_in_view u ps d top s : uenv_ok u -> drawable u ps d -> free_from (d_width d) top s ->
  exists o, output u d = Ok o /\ displayed ps d top (vexecs top u (d_width d) s o).
Proof.
  intros U D F. destruct (output_shows u ps U d top s D F) as (o & E & Di & _). exists o. split; [exact E|].
  enough (Q : vexecs top u (d_width d) s o = sexecs u (d_width d) s o) by now rewrite Q.
  pose proof (dr_width _ _ _ D) as W. destruct F as (_ & (R0 & _ & _ & P0)). unfold row_of in R0. rewrite Z.div_0_l in R0 by lia.
  assert (Rf : top <= s_row (sexecs u (d_width d) s o)).
  { destruct Di as (_ & (R & _)). rewrite R. unfold row_of. enough (0 <= Z.of_nat (length (visible ps) + d_idx d) / d_width d) by lia. apply Z.div_pos; lia. }
  clear Di. destruct (dr_paint _ _ _ D) as (qs & Q1 & Q2 & Q3).
  assert (Vq : Forall (plain u) (visible qs)) by (rewrite Q2; apply D).
  unfold output in E. rewrite (dr_mask _ _ _ D), Q1, (no_tabs u qs Q3 Vq), (dr_prompt _ _ _ D) in E.
  destruct (if (d_idx d <? length (d_buf d))%nat then getBackspaceSequence u d else Ok []) as [back| |] eqn:Bk; cbn [obind] in E; try discriminate.
  assert (Fb : all_steps fall1 PGround back = true).
  { destruct (d_idx d <? length (d_buf d))%nat eqn:L; [|injection Bk as <-; reflexivity]. destruct (back_ok u ps d D ltac:(apply Nat.ltb_lt; exact L)) as (sep & G & _).
    rewrite G in Bk. injection Bk as <-. apply back_falls. lia. }
  destruct (isInLineEdge u d) as [e| |]; cbn [obind] in E; try (destruct (d_buf d); discriminate).
  assert (E' : o = (prompt_runes ps ++ prompt_runes qs ++ (if e then [32; 8] else [])) ++ back).
  { destruct (d_buf d); injection E as <-; now rewrite <- !app_assoc. }
  clear E. subst o. destruct (pieces_rise u ps (dr_pieces _ _ _ D) (dr_visible _ _ _ D)) as (A1 & A2). destruct (pieces_rise u qs Q3 Vq) as (B1 & B2).
  set (l1 := prompt_runes ps ++ prompt_runes qs ++ (if e then [32; 8] else [])) in *.
  assert (L1 : all_steps rise1 (s_par s) l1 = true /\ pend (s_par s) l1 = PGround).
  { rewrite P0. unfold l1. rewrite !all_app, !pend_app, A1, A2, B1, B2. destruct e; split; reflexivity. }
  destruct L1 as (L1 & L2). destruct (vrise u (d_width d) top l1 s ltac:(lia) L1) as (V1 & _). rewrite vexecs_app, V1. rewrite sexecs_app in *.
  apply vfall; [exact Rf|]. enough (Pe : s_par (sexecs u (d_width d) s l1) = PGround) by now rewrite Pe.
  rewrite <- L2. clear. revert s. induction l1 as [|r l IH]; intros s; [reflexivity|]. change (sexecs u (d_width d) s (r :: l)) with (sexecs u (d_width d) (sexec u (d_width d) s r) l).
  rewrite IH, par_step. reflexivity.
Qed.

(** Erasing from the first cell in view empties the view, however many rows up the code means to go. *)
Lemma vclean_rows u w top n : 0 < w -> forall s, free_from w top s ->
  free_from w top (vexecs top u w s (flat_map (fun _ => [27; 91; 50; 75; 13; 27; 91; 65]) (repeat tt n) ++ [27; 91; 50; 75; 13])).
Proof.
  intros W. assert (One : forall s, free_from w top s -> free_from w top (vexecs top u w s [27; 91; 50; 75; 13])).
  { intros s (T & (R & C & P & Pa)). unfold row_of, col_of in *. rewrite Z.div_0_l in R by lia. rewrite Z.mod_0_l in C by lia.
    destruct s as [c y x pd pa]. cbn in Pa, R, C, P. subst. split.
    - intros y' x' Hy Hx. cbn. unfold erase_line. destruct (_ =? _); [now destruct (Z.to_nat _)|]. now apply T.
    - unfold cursor_at, row_of, col_of. rewrite Z.div_0_l, Z.mod_0_l by lia. cbn. repeat split; lia. }
  assert (Two : forall s, free_from w top s -> free_from w top (vexecs top u w s [27; 91; 65])).
  { intros s (T & (R & C & P & Pa)). unfold row_of, col_of in *. rewrite Z.div_0_l in R by lia. rewrite Z.mod_0_l in C by lia.
    destruct s as [c y x pd pa]. cbn in Pa, R, C, P. subst. split.
    - intros y' x' Hy Hx. cbn. now apply T.
    - unfold cursor_at, row_of, col_of. rewrite Z.div_0_l, Z.mod_0_l by lia. cbn. repeat split; lia. }
  induction n as [|n IH]; intros s F; [now apply One|]. cbn [repeat flat_map]. rewrite <- app_assoc.
  change [27; 91; 50; 75; 13; 27; 91; 65] with ([27; 91; 50; 75; 13] ++ [27; 91; 65]). rewrite <- app_assoc, vexecs_app, vexecs_app. now apply IH, Two, One.
Qed.

(** Whatever is on the screen, and wherever the cursor is: after Ctrl-L the rows in view show the prompt and the line from the first row on, with the cursor
    in place, and nothing else; line and cursor are as before. *)
Theorem C112_clears_partial u ps d top s : uenv_ok u -> drawable u ps d -> d_had d = false -> s_par s = PGround ->
  exists d' o, key_clear u d = Ok (d', o) /\ cleared ps d' top (vexecs top u (d_width d) s o) /\ d_buf d' = d_buf d /\ d_idx d' = d_idx d.
Proof.
  intros U D H P. pose proof (dr_width _ _ _ D) as W. unfold key_clear, refresh. rewrite (dr_inter _ _ _ D). cbn [negb].
  unfold clean. rewrite (idxLine_ok u ps d D). cbn [obind]. rewrite H, (dr_inter _ _ _ D). cbn [orb negb].
  unfold cleanOutput. destruct (Z.eqb_spec (d_width d) 0); [lia|]. cbn [obind fst snd].
  set (line := (Z.of_nat (length (visible ps)) + Z.of_nat (d_idx d)) / d_width d).
  assert (L : 0 <= line) by (apply Z.div_pos; lia).
  assert (E : (if line =? 0 then [27; 91; 50; 75; 13] else flat_map (fun _ => [27; 91; 50; 75; 13; 27; 91; 65]) (repeat tt (Z.to_nat line)) ++ [27; 91; 50; 75; 13]) =
    flat_map (fun _ => [27; 91; 50; 75; 13; 27; 91; 65]) (repeat tt (Z.to_nat line)) ++ [27; 91; 50; 75; 13]).
  { destruct (Z.eqb_spec line 0) as [->|]; reflexivity. }
  rewrite E. clear E. set (d1 := with_line (d_buf d) (d_idx d) (with_had true d)).
  assert (D1 : drawable u ps d1) by (destruct D; constructor; assumption).
  set (s1 := vexecs top u (d_width d) (vexecs top u (d_width d) s (ClearScreen ++ [27; 91; 74]))
    (flat_map (fun _ => [27; 91; 50; 75; 13; 27; 91; 65]) (repeat tt (Z.to_nat line)) ++ [27; 91; 50; 75; 13])).
  assert (F1 : free_from (d_width d) top s1).
  { apply vclean_rows; [lia|]. destruct s as [c y x pd pa]. cbn in P. subst pa. split.
    - intros y' x' Hy Hx. rewrite nth_nil_blank. cbn -[Z.max]. unfold erase_below. rewrite !Z.max_id. replace ((top <? y') || ((y' =? top) && (0 <=? x'))) with true by lia.
      reflexivity.
    - unfold cursor_at, row_of, col_of. rewrite Z.div_0_l, Z.mod_0_l by lia. cbn. repeat split; lia. }
  destruct (output_in_view u ps d1 top s1 U D1 F1) as (o & Eo & Di). unfold print. fold d1. rewrite Eo. cbn [obind fst snd app].
  do 2 eexists. split; [reflexivity|]. split; [|split; reflexivity]. unfold cleared.
  change (d_width d1) with (d_width d) in Di.
  match goal with |- displayed _ _ _ (vexecs _ _ _ _ ?l) => set (l0 := l) end.
  assert (El : l0 = (ClearScreen ++ [27; 91; 74]) ++ (flat_map (fun _ => [27; 91; 50; 75; 13; 27; 91; 65]) (repeat tt (Z.to_nat line)) ++ [27; 91; 50; 75; 13]) ++ o).
  { unfold l0. cbn [app ClearScreen]. now rewrite <- !app_assoc. }
  rewrite El, (vexecs_app _ _ _ _ (ClearScreen ++ _)), vexecs_app. fold s1. exact Di.
Qed.
Print Assumptions C112_clears_partial.

(** Examples: a screen full of "x", 3 columns, rows 5 and up in view, the cursor anywhere. *)
Definition xs : scr := {| s_cell := fun _ _ => 120; s_row := 7; s_col := 2; s_pend := false; s_par := PGround |}.
Definition rd (had : bool) : rdr :=
  {| d_prompt := [62]; d_buf := [97; 98; 99]; d_idx := 1; d_width := 3; d_had := had; d_inter := true; d_mask := None; d_paint := fun x _ => x |}.
Definition rows3 (top : Z) (s : scr) : list (list Z) := map (fun y => map (s_cell s (top + y)) [0; 1; 2]) [0; 1; 2].

Example C112_ex : uenv_ok u0 /\ drawable u0 [Vis 62] (rd false) /\ exists d' o, key_clear u0 (rd false) = Ok (d', o) /\
  rows3 5 (vexecs 5 u0 3 xs o) = [[62; 97; 98]; [99; 32; 32]; [32; 32; 32]] /\ s_row (vexecs 5 u0 3 xs o) = 5 /\ s_col (vexecs 5 u0 3 xs o) = 2.
Proof.
  split; [exact u0_ok|]. split.
  - constructor; cbn; try lia; try reflexivity; try (apply u0_plain); try (repeat constructor; lia); try discriminate.
    exists [Vis 97; Vis 98; Vis 99]. repeat split. repeat constructor.
  - do 2 eexists. split; [vm_compute; reflexivity|]. split; [vm_compute; reflexivity|]. split; vm_compute; reflexivity.
Qed.

(** After Instance.Clean, when the prompt is not on the screen, Ctrl-L draws it in the first row and clears nothing. *)
Theorem C112_cleaned_refuted : exists d d' o, d_had d = true /\ drawable u0 [Vis 62] d /\ key_clear u0 d = Ok (d', o) /\
  rows3 5 (vexecs 5 u0 3 xs o) = [[62; 97; 98]; [99; 120; 120]; [120; 120; 120]].
Proof.
  exists (rd true). do 2 eexists. split; [reflexivity|]. split; [|split; [vm_compute; reflexivity|vm_compute; reflexivity]].
  destruct C112_ex as (_ & D & _). destruct D. constructor; assumption.
Qed.
Print Assumptions C112_cleaned_refuted.
