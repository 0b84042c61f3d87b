(** Properties C47-C51 and C73: drawing. *)
From Verif Require Import Base ListAux RunesModel RunesSpec RunesProofs TerminalModel RuneBufModel RuneBufSpec RuneBufProofs ScreenModel RenderModel RenderSpec RenderProofs RenderDraw RenderSession RenderMore.
From Coq Require Import ZifyBool.
Open Scope Z_scope.

(** A concrete environment for examples: CJK runes are wide, line feed and combining marks take no column. *)
Definition u0 : uenv := {| u_zero := fun r => (r =? 10) || ((768 <=? r) && (r <=? 879)); u_dbl := fun r => 19968 <=? r; u_tab := 4; u_number := fun _ => false |}.
Definition scr0 : scr := {| s_cell := fun _ _ => 32; s_row := 0; s_col := 0; s_pend := false; s_par := PGround |}.
Definition d0 (prompt : list Z) (w : Z) (mask : option Z) : rdr :=
  {| d_prompt := prompt; d_buf := []; d_idx := 0; d_width := w; d_had := false; d_inter := true; d_mask := mask; d_paint := fun b _ => b |}.
(** the cells of a rectangle *)
Definition cells (s : scr) (rows cols : nat) : list (list Z) :=
  map (fun y => map (fun x => s_cell s (Z.of_nat y) (Z.of_nat x)) (seq 0 cols)) (seq 0 rows).

Lemma u0_ok : uenv_ok u0.
Proof. split; reflexivity. Qed.
Lemma u0_plain l : Forall (fun r => 32 <= r < 127) l -> Forall (plain u0) l.
Proof.
  apply Forall_impl. intros r H. split; [lia|]. split; [lia|]. unfold Width, u0; cbn.
  replace (r =? 9) with false by lia. replace (r =? 10) with false by lia. replace (768 <=? r) with false by lia.
  replace (19968 <=? r) with false by lia. reflexivity.
Qed.
Lemma default_painter u : colouring u (fun b _ => b).
Proof.
  intros b i F. assert (E : prompt_runes (map Vis b) = b /\ visible (map Vis b) = b /\ Forall sgr_digits (map Vis b)).
  { clear F. induction b as [|x b (A & B & C)]; [split; [reflexivity|split; [reflexivity|apply Forall_nil]]|].
    cbn. unfold prompt_runes, visible in A, B. rewrite A, B. repeat split. constructor; [exact I|exact C]. }
  destruct E as (A & B & C). split; [exists (map Vis b); rewrite A; auto|]. exists (map Vis b). rewrite A. auto.
Qed.

(** C47 *)
Theorem C47_split_is_partition : forall u start w rs,
  concat (SplitByLine u start w rs) = rs /\ rows_ok u w start (SplitByLine u start w rs).
Proof.
  intros u start w rs. split; [apply split_concat|]. unfold SplitByLine.
  replace start with (start + Z.of_nat (WidthAll u [])) at 2 by (cbn; lia). apply split_rows.
  intros a b E A. destruct a; [congruence|discriminate].
Qed.
Print Assumptions C47_split_is_partition.
Theorem C47_row_count : forall u start w rs, 0 < w -> 0 <= start < w -> Forall (fun r => Width u r = 1%nat) rs ->
  Z.of_nat (length (SplitByLine u start w rs)) = 1 + (start + Z.of_nat (length rs)) / w.
Proof. exact (fun u start w rs W S F => split_count u w rs [] start W S F). Qed.
Print Assumptions C47_row_count.
Example C47_ex : SplitByLine u0 2 5 [97;98;99;19968;97;19968;98;99] = [[97;98;99]; [19968;97;19968]; [98;99]].
Proof. reflexivity. Qed.

(** C48 *)
Theorem C48_redraw_terminates_iff : forall u d f, ColorFilter (d_prompt d) = Ok f ->
  let p := Z.of_nat (WidthAll u f) in
  (output u d <> Hang <->
   ((length (d_buf d) <= d_idx d)%nat \/ WidthAll u (d_buf d) = 0%nat \/ (0 < d_width d /\ (p = 0 \/ p mod d_width d <> 0)))).
Proof.
  intros u d f F. cbn zeta. destruct (output_hang u d f F) as (A & B). split.
  - intros N. destruct (redraw_ends_dec u d (Z.of_nat (WidthAll u f))) as [R|R]; [exact R|]. now elim N; apply B.
  - intros R. destruct (A R) as (o & ->). discriminate.
Qed.
Print Assumptions C48_redraw_terminates_iff.

(** Hang in the model means that the loop of the code runs forever: no number of rounds ends it. *)
Theorem C48_hang_is_divergence : forall u d f, ColorFilter (d_prompt d) = Ok f -> output u d = Hang ->
  forall fuel, sep_loop fuel (Z.of_nat (WidthAll u (d_buf d))) (Z.of_nat (WidthAll u f)) (d_width d) 0 [] = None.
Proof.
  intros u d f F H. destruct (output_hang u d f F) as (A & B).
  destruct (redraw_ends_dec u d (Z.of_nat (WidthAll u f))) as [R|R]; [destruct (A R); congruence|]. now apply B.
Qed.
Print Assumptions C48_hang_is_divergence.

(** A prompt exactly as wide as the screen hangs the editor when the cursor moves left of the end of the line. *)
Theorem C48_redraw_hangs_refuted : exists d, d_width d = 4 /\ d_buf d = [97] /\ d_idx d = 0%nat /\ output u0 d = Hang.
Proof. exists (with_line [97] 0 (d0 [97;98;62;32] 4 None)). repeat split. Qed.
Print Assumptions C48_redraw_hangs_refuted.

(** C49: any session of redraws, submitted lines and background output. *)
Theorem C49_session_screen : forall u ps paint w es k y0 s, uenv_ok u -> 0 < w <= 9223372036854775807 ->
  Forall sgr_digits ps -> Forall (plain u) (visible ps) -> Z.of_nat (length (visible ps)) + 1 < w -> colouring u paint ->
  let d := {| d_prompt := prompt_runes ps; d_buf := []; d_idx := 0; d_width := w; d_had := false; d_inter := true; d_mask := None; d_paint := paint |} in
  looks_all u (visible ps) {| k_done := []; k_line := []; k_idx := 0; k_reading := false |} es k ->
  free_from w y0 s ->
  exists st o, drun u (false, d) es = Ok (st, o) /\
    screen_is w (visible ps) y0 k (sexecs u w s o) /\ same_above y0 s (sexecs u w s o) /\
    d_buf (snd st) = k_line k /\ d_idx (snd st) = k_idx k.
Proof.
  intros u ps paint w es k y0 s U W PD PV PS Pt d L F.
  destruct (drun_agrees u w W U ps PD PV PS es y0 {| k_done := []; k_line := []; k_idx := 0; k_reading := false |} (false, d) s s k) with (2 := L) as (st & o & E & A).
  - unfold agrees. cbn. split; [constructor; cbn; auto|]. repeat (split; [first [reflexivity|apply Forall_nil|lia|discriminate]|]).
    split; [|apply same_above_refl]. split; [exact I|]. cbn. rewrite Z.add_0_r. exact F.
  - exists st, o. split; [exact E|]. destruct A as (_ & A1 & A2 & _ & _ & _ & _ & _ & A3 & A4). auto.
Qed.
Print Assumptions C49_session_screen.

(** C49 for every sequence of editing commands on a line being read. *)
Theorem C49_edits_screen : forall u ps paint w es y0 s b, uenv_ok u -> 0 < w <= 9223372036854775807 ->
  Forall sgr_digits ps -> Forall (plain u) (visible ps) -> Z.of_nat (length (visible ps)) + 1 < w -> colouring u paint ->
  let d := {| d_prompt := prompt_runes ps; d_buf := []; d_idx := 0; d_width := w; d_had := false; d_inter := true; d_mask := None; d_paint := paint |} in
  Forall (fun e => e <> EReset /\ Forall (plain u) (inserts e)) es -> no_short_transpose es rb_empty ->
  run_edits es rb_empty = Ok b -> free_from w y0 s ->
  exists evs st o, edit_events es rb_empty = Ok evs /\ drun u (false, d) (VRead :: evs) = Ok (st, o) /\
    let s' := sexecs u w s o in
    shows_text w y0 (visible ps ++ rb_buf b) s' /\
    cursor_at w y0 (Z.of_nat (length (visible ps) + rb_idx b)) s' /\ same_above y0 s s'.
Proof.
  intros u ps paint w es y0 s b U W PD PV PS Pt d F N R Fr.
  destruct (edits_look u (visible ps) es rb_empty {| k_done := []; k_line := []; k_idx := 0; k_reading := true |} b F N R)
    as (evs & E1 & E2); try reflexivity; try apply Forall_nil; try (unfold inside; cbn; lia).
  assert (L : looks_all u (visible ps) {| k_done := []; k_line := []; k_idx := 0; k_reading := false |} (VRead :: evs)
                {| k_done := []; k_line := rb_buf b; k_idx := rb_idx b; k_reading := true |}).
  { eapply LCons; [apply LRead|exact E2]. }
  destruct (C49_session_screen u ps paint w (VRead :: evs) _ y0 s U W PD PV PS Pt L Fr) as (st & o & D & (_ & Sc) & Ab & _).
  exists evs, st, o. split; [exact E1|]. split; [exact D|]. cbn in Sc. rewrite Z.add_0_r in Sc.
  destruct Sc. auto.
Qed.
Print Assumptions C49_edits_screen.

(** One redraw, also for a prompt one column narrower than the screen. *)
Theorem C49_redraw : forall u ps d b i y0 s, uenv_ok u -> drawable u ps d -> drawable u ps (with_line b i d) ->
  d_had d = false -> displayed ps d y0 s ->
  exists d' o, refresh u d b i [] = Ok (d', o) /\ d_buf d' = b /\ d_idx d' = i /\
    displayed ps d' y0 (sexecs u (d_width d) s o) /\ same_above y0 s (sexecs u (d_width d) s o).
Proof.
  intros u ps d b i y0 s U D D' H S.
  destruct (refresh_displays u ps U d b i y0 s D D') as (d' & o & A & B & C & E).
  - unfold ready. rewrite H. now left.
  - exists d', o. subst d'. auto.
Qed.
Print Assumptions C49_redraw.

(** A session: "> ab" entered with Enter, then "cdef" with the cursor moved back twice, 5 columns. *)
Example C49_ex :
  let es := [VRead; VLine [97] 1; VLine [97;98] 2; VSubmit []; VRead; VLine [99;100;101;102] 4; VOut [120;121;10]; VLine [99;100;101;102] 2] in
  looks_all u0 [62;32] {| k_done := []; k_line := []; k_idx := 0; k_reading := false |} es
     {| k_done := [[62;32;97;98]; [120;121]]; k_line := [99;100;101;102]; k_idx := 2; k_reading := true |} /\
  exists st o, drun u0 (false, d0 [62;32] 5 None) es = Ok (st, o) /\
    cells (sexecs u0 5 scr0 o) 5 5 = [[62;32;97;98;32]; [120;121;32;32;32]; [62;32;99;100;101]; [102;32;32;32;32]; [32;32;32;32;32]] /\
    s_row (sexecs u0 5 scr0 o) = 2 /\ s_col (sexecs u0 5 scr0 o) = 4.
Proof.
  cbn zeta. split.
  - assert (P : forall l, Forall (fun r => 32 <= r < 127) l -> Forall (plain u0) l) by exact u0_plain.
    eapply LCons; [apply LRead|]. eapply LCons; [apply LLine; [reflexivity|apply P; repeat constructor; lia|cbn; lia]|].
    eapply LCons; [apply LLine; [reflexivity|apply P; repeat constructor; lia|cbn; lia]|].
    eapply LCons; [apply LSubmit; [reflexivity|apply Forall_nil]|].
    eapply LCons; [apply LRead|]. eapply LCons; [apply LLine; [reflexivity|apply P; repeat constructor; lia|cbn; lia]|].
    eapply LCons.
    { pose proof (LOut u0 [62;32] {| k_done := [[62;32;97;98]]; k_line := [99;100;101;102]; k_idx := 4; k_reading := true |} [[120;121]]) as L.
      cbn [flat_map app] in L. apply L. apply Forall_cons; [apply P; repeat constructor; lia|apply Forall_nil]. }
    eapply LCons; [apply LLine; [reflexivity|apply P; repeat constructor; lia|cbn; lia]|]. apply LNil.
  - eexists _, _. split; [vm_compute; reflexivity|]. vm_compute. repeat split.
Qed.

(** Outside those conditions the screen is wrong. Wide runes: the cursor goes back one column per rune, not per column. *)
Theorem C49_wide_cursor_refuted : exists st o, drun u0 (false, d0 [62;32] 20 None) [VRead; VLine [19968;97] 0] = Ok (st, o) /\
  s_col (sexecs u0 20 scr0 o) = 3 /\ Z.of_nat (WidthAll u0 [62;32]) = 2 /\ d_idx (snd st) = 0%nat.
Proof. eexists _, _. split; [vm_compute; reflexivity|]. vm_compute. repeat split. Qed.
Print Assumptions C49_wide_cursor_refuted.

(** An empty line after a prompt of width one less than the screen: the cursor ends on the prompt's last column. *)
Theorem C49_edge_prompt_refuted : exists st o, drun u0 (false, d0 [97;62;32] 4 None) [VRead] = Ok (st, o) /\
  s_row (sexecs u0 4 scr0 o) = 0 /\ s_col (sexecs u0 4 scr0 o) = 2 /\ length [97;62;32] = 3%nat.
Proof. eexists _, _. split; [vm_compute; reflexivity|]. vm_compute. repeat split. Qed.
Print Assumptions C49_edge_prompt_refuted.

(** A prompt wider than the screen leaves a stale copy of its first row at every redraw. *)
Theorem C49_long_prompt_refuted : exists st o, drun u0 (false, d0 [97;98;99;62;32] 4 None) [VRead; VLine [120] 1] = Ok (st, o) /\
  cells (sexecs u0 4 scr0 o) 4 4 = [[97;98;99;62]; [97;98;99;62]; [32;120;32;32]; [32;32;32;32]].
Proof. eexists _, _. split; [vm_compute; reflexivity|]. vm_compute. reflexivity. Qed.
Print Assumptions C49_long_prompt_refuted.

(** With a mask the cursor is moved back twice as far. *)
Theorem C49_mask_cursor_refuted : exists st o, drun u0 (false, d0 [62;32] 20 (Some 42)) [VRead; VLine [97;98;99;100] 3] = Ok (st, o) /\
  cells (sexecs u0 20 scr0 o) 1 8 = [[62;32;42;42;42;42;32;32]] /\
  s_col (sexecs u0 20 scr0 o) = 4 /\ d_idx (snd st) = 3%nat.
Proof. eexists _, _. split; [vm_compute; reflexivity|]. vm_compute. repeat split. Qed.
Print Assumptions C49_mask_cursor_refuted.

(** Interrupting a line of several rows with UniqueEditLine leaves its first rows on the screen. *)
Theorem C49_unique_interrupt_refuted : exists st o1 d2 o2 d3 o3,
  drun u0 (false, d0 [62] 4 None) [VRead; VLine [97;98;99;100] 4] = Ok (st, o1) /\
  interrupt_unique u0 (snd st) = Ok (d2, o2) /\ refresh u0 d2 (d_buf d2) (d_idx d2) [] = Ok (d3, o3) /\ d_buf d3 = [] /\
  cells (sexecs u0 4 scr0 (o1 ++ o2 ++ o3)) 3 4 = [[62;97;98;99]; [62;32;32;32]; [32;32;32;32]].
Proof. eexists _, _, _, _, _, _. split; [vm_compute; reflexivity|]. split; [vm_compute; reflexivity|]. split; [vm_compute; reflexivity|]. vm_compute. split; reflexivity. Qed.
Print Assumptions C49_unique_interrupt_refuted.

(** C50: one drawing of the masked line. *)
Theorem C50_masked_output : forall u d1 d2, masked_alike d1 d2 -> length (d_buf d1) = length (d_buf d2) ->
  WidthAll u (d_buf d1) = WidthAll u (d_buf d2) -> (last (d_buf d1) 0 =? 10) = (last (d_buf d2) 0 =? 10) ->
  output u d1 = output u d2.
Proof. exact output_alike. Qed.
Print Assumptions C50_masked_output.

(** With the cursor at the end of the line exactly one mask rune per rune is drawn; only a final newline is drawn as itself. *)
Theorem C50_mask_runes : forall u d m l r, d_mask d = Some m -> d_buf d = l ++ [r] -> d_idx d = length (d_buf d) ->
  output u d = Ok (d_prompt d ++ repeat m (length l) ++ [if r =? 10 then 10 else m]).
Proof.
  intros u d m l r M B I. unfold output. rewrite M, I, Nat.ltb_irrefl. cbn [obind]. rewrite B. destruct (l ++ [r]) as [|a k] eqn:E; [destruct l; discriminate|].
  rewrite <- E, last_last, app_length. cbn [length obind]. replace (length l + 1 - 1)%nat with (length l) by lia. now rewrite !app_nil_r.
Qed.
Print Assumptions C50_mask_runes.
Example C50_mask_runes_ex : let d := with_line [115; 101; 99; 10] 4 (d0 [62; 32] 20 (Some 42)) in
  d_mask d = Some 42 /\ output u0 d = Ok [62; 32; 42; 42; 42; 10].
Proof. split; reflexivity. Qed.

(** C50, partial (whole redraws, which also erase the previous drawing): the widths of the runes must agree one by
    one, not only their sum. *)
Theorem C50_masked_redraws_partial : forall u ls1 ls2 d1 d2, masked_alike d1 d2 -> map (Width u) (d_buf d1) = map (Width u) (d_buf d2) ->
  Forall2 (fun x y => snd x = snd y /\ map (Width u) (fst x) = map (Width u) (fst y) /\
                      (last (fst x) 0 =? 10) = (last (fst y) 0 =? 10)) ls1 ls2 ->
  redraws u d1 ls1 = redraws u d2 ls2.
Proof. exact (fun u ls1 ls2 d1 d2 => redraws_alike u ls1 ls2 d1 d2). Qed.
Print Assumptions C50_masked_redraws_partial.
Example C50_ex : exists o, redraws u0 (d0 [62;32] 4 (Some 42)) [([], 0%nat); ([115;101;99], 1%nat)] = Ok o /\
  redraws u0 (d0 [62;32] 4 (Some 42)) [([], 0%nat); ([120;121;122], 1%nat)] = Ok o /\ ~ In 115 o.
Proof. eexists. split; [vm_compute; reflexivity|]. split; [vm_compute; reflexivity|]. cbn. intuition discriminate. Qed.

(** The erasing sequences depend on where wide runes sit in the secret. *)
Theorem C50_width_leak_refuted : exists d b1 b2 i o1 o2, d_mask d = Some 42 /\
  length b1 = length b2 /\ WidthAll u0 b1 = WidthAll u0 b2 /\ last b1 0 = last b2 0 /\
  redraws u0 d [(b1, i); (b1, i)] = Ok o1 /\ redraws u0 d [(b2, i); (b2, i)] = Ok o2 /\ o1 <> o2.
Proof.
  exists (d0 [62;32] 5 (Some 42)), [19968;97;98;97], [97;98;19968;97], 2%nat. eexists _, _.
  do 4 (split; [reflexivity|]). split; [vm_compute; reflexivity|]. split; [vm_compute; reflexivity|]. discriminate.
Qed.
Print Assumptions C50_width_leak_refuted.

(** C51 *)
Theorem C51_background_output : forall u ps d y0 s ls, uenv_ok u -> drawable u ps d -> d_had d = false -> displayed ps d y0 s ->
  Forall (Forall (plain u)) ls ->
  exists d' o, dstep u (true, d) (VOut (flat_map (fun l => l ++ [10]) ls)) = Ok ((true, d'), o) /\
    let s' := sexecs u (d_width d) s o in
    stacked (d_width d) y0 ls s' /\ displayed ps d (y0 + height (d_width d) ls) s' /\ same_above y0 s s' /\
    d_buf d' = d_buf d /\ d_idx d' = d_idx d.
Proof.
  intros u ps d y0 s ls U D H S F. pose proof (dr_width _ _ _ D) as W.
  destruct (clean_frees u ps d y0 s D H S) as (o1 & C1 & C2 & C3).
  cbn [dstep]. unfold refresh. rewrite (dr_inter _ _ _ D). cbn [negb]. rewrite C1. cbn [obind fst snd].
  destruct (print_lines u (d_width d) W ls y0 _ F C2) as (P1 & P2 & P3).
  set (s2 := sexecs u (d_width d) (sexecs u (d_width d) s o1) _) in *.
  assert (D2 : drawable u ps (with_line (d_buf d) (d_idx d) (with_had true d))) by (destruct D; constructor; assumption).
  destruct (output_shows u ps U _ (y0 + height (d_width d) ls) s2 D2 P2) as (o2 & Q1 & Q2 & Q3).
  unfold print. rewrite Q1. cbn [obind fst snd]. eexists _, _. split; [reflexivity|]. cbn zeta.
  rewrite !sexecs_app. fold s2. cbn in Q2, Q3. pose proof (height_nonneg (d_width d) ls).
  split; [apply (stacked_above _ _ _ s2); [exact Q3|exact P1]|]. split; [exact Q2|]. split; [|split; reflexivity].
  eapply same_above_trans; [exact C3|]. eapply same_above_trans; [exact P3|]. intros y x Y. apply Q3. lia.
Qed.
Print Assumptions C51_background_output.
Example C51_ex : exists st o, drun u0 (false, d0 [62;32] 4 None) [VRead; VLine [97;98;99] 1; VOut [120;121;122;122;121;10]] = Ok (st, o) /\
  cells (sexecs u0 4 scr0 o) 5 4 = [[120;121;122;122]; [121;32;32;32]; [62;32;97;98]; [99;32;32;32]; [32;32;32;32]] /\
  s_row (sexecs u0 4 scr0 o) = 2 /\ s_col (sexecs u0 4 scr0 o) = 3.
Proof. eexists _, _. split; [vm_compute; reflexivity|]. vm_compute. repeat split. Qed.

(** Output not ended by a line feed is erased by the next redraw. *)
Theorem C51_unfinished_line_refuted : exists st o, drun u0 (false, d0 [62;32] 20 None) [VRead; VLine [97] 1; VOut [120;121]; VLine [97;98] 2] = Ok (st, o) /\
  cells (sexecs u0 20 scr0 o) 2 6 = [[62;32;97;98;32;32]; [32;32;32;32;32;32]].
Proof. eexists _, _. split; [vm_compute; reflexivity|]. vm_compute. repeat split. Qed.
Print Assumptions C51_unfinished_line_refuted.

(** C73: setting the title should leave the screen text alone; instead all but the first character of the title is
    written on the screen. *)
Theorem C73_title_shown_refuted : exists t s o, o = SetTitle t /\ s = scr0 /\ cells (sexecs u0 20 s o) 1 4 = [[105;116;108;101]].
Proof. exists [116;105;116;108;101]. eexists _, _. split; [reflexivity|]. split; [reflexivity|]. vm_compute. reflexivity. Qed.
Print Assumptions C73_title_shown_refuted.

Theorem C73_title_always_shown : forall u w y0 s c t, 0 < w <= 9223372036854775807 -> free_from w y0 s ->
  97 <= c <= 122 -> Forall (plain u) t ->
  shows_text w y0 t (sexecs u w s (SetTitle (c :: t))).
Proof.
  intros u w y0 s c t W Fr C F. unfold SetTitle.
  replace ([27;91;50;59] ++ (c :: t) ++ [7]) with ((27 :: 91 :: [50;59] ++ [c]) ++ t ++ [7]) by reflexivity.
  rewrite !sexecs_app. rewrite csi_seq; [|apply Fr|apply Forall_cons; [lia|apply Forall_cons; [lia|apply Forall_nil]]|lia].
  assert (E : csi_exec w (upd s (PCsi [50;59])) [50;59] c = with_cell s (s_cell s)).
  { unfold csi_exec. replace (c =? 65) with false by lia. replace (c =? 66) with false by lia. replace (c =? 67) with false by lia.
    replace (c =? 68) with false by lia. replace (c =? 74) with false by lia. replace (c =? 75) with false by lia. reflexivity. }
  rewrite E. assert (Fr' : free_from w y0 (with_cell s (s_cell s))).
  { destruct Fr as (A & B1 & B2 & B3 & B4). split; [exact A|]. repeat split; assumption. }
  destruct (print_text u w W t _ y0 [] (free_wrote w y0 _ Fr') F (proj1 Fr')) as ((P & _) & B & _). cbn [app] in B, P.
  unfold sexecs at 1. cbn [fold_left]. unfold sexec. rewrite P. exact B.
Qed.
Print Assumptions C73_title_always_shown.
