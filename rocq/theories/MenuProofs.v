(** Proofs about the candidate menu and the search status on the screen. *)
From Verif Require Import Base ListAux RunesModel RunesSpec RunesProofs RuneBufModel RuneBufSpec TerminalModel ScreenModel RenderModel RenderSpec RenderProofs RenderDraw OpModel MenuSpec.
From Coq Require Import ZifyBool.
Open Scope Z_scope.

Section scr.
Variables (u : uenv) (w : Z).
Hypothesis W : 0 < w <= 9223372036854775807.
Hypothesis U : uenv_ok u.

(** The cursor is at row [y] and column [x], without a pending wrap. *)
Definition at_ (y x : Z) (s : scr) : Prop := s_par s = PGround /\ s_pend s = false /\ s_row s = y /\ s_col s = x.

Lemma pr_one y x s r : at_ y x s -> plain u r -> 0 <= x -> x + 1 < w ->
  at_ y (x + 1) (sexec u w s r) /\ s_cell (sexec u w s r) = put (s_cell s) y x r.
Proof.
  intros (P & Pe & R & C) (R1 & R2 & R3) X L. unfold sexec. rewrite P.
  destruct (Z.eqb_spec r 27); [lia|]. destruct (Z.eqb_spec r 8); [lia|]. destruct (Z.eqb_spec r 13); [lia|].
  destruct (Z.eqb_spec r 10); [lia|]. destruct (Z.eqb_spec r 7); [lia|].
  unfold print_rune. rewrite R3. cbn [Z.of_nat Pos.of_succ_nat]. change (1 =? 0) with false. change (1 =? 2) with false. cbv iota.
  rewrite Pe, C, R. replace (w <? x + 1) with false by lia. cbn [orb]. replace (x + 1 <? w) with true by lia.
  split; [|reflexivity]. repeat split.
Qed.

Lemma pr_row l : forall y x s, at_ y x s -> Forall (plain u) l -> 0 <= x -> x + Z.of_nat (length l) < w ->
  at_ y (x + Z.of_nat (length l)) (sexecs u w s l) /\
  forall y' x', s_cell (sexecs u w s l) y' x' =
    if (y' =? y) && (x <=? x') && (x' <? x + Z.of_nat (length l)) then nth (Z.to_nat (x' - x)) l blank else s_cell s y' x'.
Proof.
  induction l as [|r l IH]; intros y x s A F X L.
  - cbn [length Z.of_nat]. rewrite Z.add_0_r. split; [exact A|]. intros y' x'. destruct ((y' =? y) && (x <=? x') && (x' <? x)) eqn:E; [lia|reflexivity].
  - inversion F; subst. cbn [length] in *. rewrite sexecs_cons. destruct (pr_one y x s r A) as (A1 & C1); try assumption; [lia|].
    destruct (IH y (x + 1) (sexec u w s r) A1) as (A2 & C2); try assumption; try lia. split.
    + replace (x + Z.of_nat (S (length l))) with (x + 1 + Z.of_nat (length l)) by lia. exact A2.
    + intros y' x'. rewrite C2, C1. unfold put. destruct (Z.eq_dec y' y) as [Y|Y].
      * subst y'. rewrite Z.eqb_refl. cbn [andb]. destruct (Z.eq_dec x' x) as [E|E].
        -- subst x'. replace (x + 1 <=? x) with false by lia. rewrite Z.eqb_refl. cbn [andb].
           replace ((x <=? x) && (x <? x + Z.of_nat (S (length l)))) with true by lia. replace (x - x) with 0 by lia. reflexivity.
        -- replace (x' =? x) with false by lia. destruct (Z.le_gt_cases (x + 1) x') as [Q|Q].
           ++ replace (x + 1 <=? x') with true by lia. replace (x <=? x') with true by lia. cbn [andb].
              replace (x' <? x + Z.of_nat (S (length l))) with (x' <? x + 1 + Z.of_nat (length l)) by lia.
              destruct (x' <? x + 1 + Z.of_nat (length l)); [|reflexivity]. replace (Z.to_nat (x' - x)) with (S (Z.to_nat (x' - (x + 1)))) by lia. reflexivity.
           ++ replace (x + 1 <=? x') with false by lia. replace (x <=? x') with false by lia. reflexivity.
      * replace (y' =? y) with false by lia. reflexivity.
Qed.

Lemma newlines n : forall y x s, at_ y x s -> (0 < n)%nat -> at_ (y + Z.of_nat n) 0 (sexecs u w s (repeat 10 n)) /\ s_cell (sexecs u w s (repeat 10 n)) = s_cell s.
Proof.
  induction n as [|n IH]; intros y x s A N; [lia|]. cbn [repeat]. rewrite sexecs_cons.
  assert (A1 : at_ (y + 1) 0 (sexec u w s 10) /\ s_cell (sexec u w s 10) = s_cell s).
  { destruct A as (P & Pe & R & C). unfold sexec. rewrite P. cbn. rewrite R. repeat split. }
  destruct A1 as (A1 & C1). destruct n as [|n].
  - cbn [repeat]. replace (y + Z.of_nat 1) with (y + 1) by lia. split; [exact A1|exact C1].
  - destruct (IH (y + 1) 0 (sexec u w s 10) A1 ltac:(lia)) as (A2 & C2). replace (y + Z.of_nat (S (S n))) with (y + 1 + Z.of_nat (S n)) by lia.
    split; [exact A2|]. now rewrite C2, C1.
Qed.

Lemma up n y x s : at_ y x s -> 1 <= n <= 9223372036854775807 ->
  at_ (y - n) x (sexecs u w s ([27; 91] ++ Itoa n ++ [65])) /\ s_cell (sexecs u w s ([27; 91] ++ Itoa n ++ [65])) = s_cell s.
Proof.
  intros (P & Pe & R & C) N. destruct (Itoa_spec n ltac:(lia)) as (F & E). cbn [app].
  rewrite csi_seq; [|exact P|eapply Forall_impl; [|exact F]; cbn; lia|lia].
  unfold csi_exec. cbn [Z.eqb Pos.eqb]. unfold csi_num. rewrite E. cbn [upd s_row s_col]. rewrite R, C. destruct n; try lia. repeat split.
Qed.
Lemma right n y x s : at_ y x s -> 1 <= n <= 9223372036854775807 -> x + n < w ->
  at_ y (x + n) (sexecs u w s ([27; 91] ++ Itoa n ++ [67])) /\ s_cell (sexecs u w s ([27; 91] ++ Itoa n ++ [67])) = s_cell s.
Proof.
  intros (P & Pe & R & C) N X. destruct (Itoa_spec n ltac:(lia)) as (F & E). cbn [app].
  rewrite csi_seq; [|exact P|eapply Forall_impl; [|exact F]; cbn; lia|lia].
  unfold csi_exec. cbn [Z.eqb Pos.eqb]. unfold csi_num. rewrite E. cbn [upd s_row s_col]. rewrite R, C. destruct n as [|n|]; try lia.
  unfold at_. cbn [move s_par s_pend s_row s_col s_cell]. repeat split. lia.
Qed.
Lemma cr y x s : at_ y x s -> at_ y 0 (sexecs u w s [13]) /\ s_cell (sexecs u w s [13]) = s_cell s.
Proof. intros (P & Pe & R & C). cbn. unfold sexec. rewrite P. cbn. rewrite R. repeat split. Qed.
Lemma erase y x s : at_ y x s -> at_ y x (sexecs u w s [27; 91; 74]) /\ s_cell (sexecs u w s [27; 91; 74]) = erase_below (s_cell s) y x.
Proof. intros (P & Pe & R & C). rewrite csi_J by assumption. rewrite R, C. split; [|reflexivity]. repeat split; assumption. Qed.
Lemma sgr_at y x s ps : at_ y x s -> Forall (fun r => 48 <= r <= 59) ps -> sexecs u w s (27 :: 91 :: ps ++ [109]) = s.
Proof. intros A F. apply sgr_seq; [apply A|exact F]. Qed.

(** the grid *)
Definition nthw (words : list (list Z)) (k : Z) : list Z := nth (Z.to_nat k) words [].
Lemma add_word y1 cols cw pre word s s' : 0 < cols -> 0 < cw -> cols * cw < w -> Z.of_nat (length word) <= cw ->
  let k := Z.of_nat (length pre) in
  grid_shown w y1 cols cw pre s ->
  (forall y x, s_cell s' y x =
     if (y =? y1 + k / cols) && (k mod cols * cw <=? x) && (x <? k mod cols * cw + cw) then nth (Z.to_nat (x - k mod cols * cw)) (word ++ repeat 32 (Z.to_nat cw - length word)) blank
     else s_cell s y x) ->
  grid_shown w y1 cols cw (pre ++ [word]) s'.
Proof.
  cbn zeta. intros Hc Hw Hcw Hl G C y x Hy Hx. set (k := Z.of_nat (length pre)) in *. rewrite C.
  pose proof (Z.div_mod k cols ltac:(lia)) as Dk. pose proof (Z.mod_pos_bound k cols ltac:(lia)) as Mk.
  pose proof (Z.div_mod x cw ltac:(lia)) as Dx. pose proof (Z.mod_pos_bound x cw ltac:(lia)) as Mx.
  assert (Hk : 0 <= k / cols) by (apply Z.div_pos; lia). assert (Hq : 0 <= x / cw) by (apply Z.div_pos; lia).
  destruct ((y =? y1 + k / cols) && (k mod cols * cw <=? x) && (x <? k mod cols * cw + cw)) eqn:E.
  - assert (Y : y - y1 = k / cols) by lia. assert (Q : x / cw = k mod cols) by (symmetry; apply Z.div_unique with (x - k mod cols * cw); lia).
    assert (Mq : x mod cw = x - k mod cols * cw) by (rewrite <- Q; lia).
    assert (Lt : x < cols * cw).
    { assert ((k mod cols + 1) * cw <= cols * cw) by (apply Z.mul_le_mono_nonneg_r; lia). lia. }
    replace (x <? cols * cw) with true by lia. rewrite Y, Q. replace (k / cols * cols + k mod cols) with k by lia.
    replace (Z.to_nat k) with (length pre) by lia. rewrite nth_middle. rewrite Mq. set (t := Z.to_nat (x - k mod cols * cw)).
    destruct (Nat.lt_ge_cases t (length word)) as [T|T].
    + now rewrite app_nth1.
    + rewrite app_nth2 by exact T. rewrite (nth_overflow word) by exact T. rewrite (nth_indep _ blank 32).
      * apply nth_repeat.
      * rewrite repeat_length. lia.
  - rewrite G by assumption. destruct (x <? cols * cw) eqn:L; [|reflexivity]. f_equal.
    assert (Qb : x / cw < cols) by (apply Z.div_lt_upper_bound; lia).
    assert (I : (y - y1) * cols + x / cw <> k).
    { intros I. assert (A1 : y - y1 = k / cols) by (apply Z.div_unique with (x / cw); lia).
      assert (A2 : x / cw = k mod cols) by (apply Z.mod_unique with (y - y1); lia).
      assert (x = k mod cols * cw + x mod cw) by (rewrite <- A2; lia). lia. }
    assert (0 <= (y - y1) * cols) by (apply Z.mul_nonneg_nonneg; lia).
    destruct (Z.lt_ge_cases ((y - y1) * cols + x / cw) k) as [Q|Q].
    + now rewrite app_nth1 by lia.
    + rewrite (nth_overflow pre) by lia. rewrite nth_overflow; [reflexivity|]. rewrite app_length. cbn [length]. lia.
Qed.

Lemma cells_grid same cols cw choice sel y1 : 0 < cols -> 0 < cw -> cols * cw < w -> Forall (plain u) same ->
  forall cs pre s, Forall (fun c => Forall (plain u) c /\ Z.of_nat (length same + length c) < cw) cs ->
  let k := Z.of_nat (length pre) in
  at_ (y1 + k / cols) (k mod cols * cw) s -> grid_shown w y1 cols cw pre s ->
  exists out n, cells_out u same cw cols choice sel cs k (k mod cols) = Ok (out, n) /\
    let s' := sexecs u w s out in let k' := Z.of_nat (length pre + length cs) in
    n = k' / cols - k / cols /\ at_ (y1 + k' / cols) (k' mod cols * cw) s' /\
    grid_shown w y1 cols cw (pre ++ map (app same) cs) s' /\ same_above y1 s s'.
Proof.
  intros Hc Hw Hcw Fs. induction cs as [|c cs IH]; intros pre s F k A G.
  - exists [], 0. cbn [cells_out map length]. rewrite Nat.add_0_r, app_nil_r. cbn zeta. fold k. split; [reflexivity|].
    split; [lia|]. split; [exact A|]. split; [exact G|apply same_above_refl].
  - inversion F as [|? ? (Fc & Lc) F']; subst. cbn [cells_out].
    rewrite (Width_sum1 u c), (Width_sum1 u same) by (now apply plain_w).
    pose proof (Z.div_mod k cols ltac:(lia)) as Dk. pose proof (Z.mod_pos_bound k cols ltac:(lia)) as Mk.
    assert (Hk : 0 <= k / cols) by (apply Z.div_pos; lia).
    unfold Repeat. replace (cw - Z.of_nat (length c) - Z.of_nat (length same) <? 0) with false by lia. cbn [obind].
    set (sp := repeat 32 (Z.to_nat (cw - Z.of_nat (length c) - Z.of_nat (length same)))).
    set (hl := (k =? choice) && sel). set (wrap := k mod cols + 1 =? cols).
    set (word := same ++ c). set (text := word ++ sp).
    assert (Lt : Z.of_nat (length text) = cw) by (unfold text, word, sp; rewrite !app_length, repeat_length; lia).
    assert (Ft : Forall (plain u) text).
    { unfold text, word, sp. apply Forall_app. split; [apply Forall_app; auto|]. apply Forall_forall. intros z Z. apply repeat_spec in Z. subst z. now apply plain_32. }
    (* the highlighting leaves the screen alone *)
    assert (X : exists s1, sexecs u w s ((if hl then [27; 91; 51; 48; 59; 52; 55; 109] else []) ++ same ++ c ++ sp ++ (if hl then [27; 91; 48; 109] else [])) = s1 /\
      at_ (y1 + k / cols) (k mod cols * cw + cw) s1 /\
      forall y' x', s_cell s1 y' x' = if (y' =? y1 + k / cols) && (k mod cols * cw <=? x') && (x' <? k mod cols * cw + cw) then nth (Z.to_nat (x' - k mod cols * cw)) text blank else s_cell s y' x').
    { assert (B : k mod cols * cw + cw <= cols * cw) by (replace (k mod cols * cw + cw) with ((k mod cols + 1) * cw) by lia; apply Z.mul_le_mono_nonneg_r; lia).
      assert (B0 : 0 <= k mod cols * cw) by (apply Z.mul_nonneg_nonneg; lia).
      destruct (pr_row text (y1 + k / cols) (k mod cols * cw) s A Ft B0 ltac:(lia)) as (A1 & C1). rewrite Lt in A1, C1.
      exists (sexecs u w s text). split; [|split; [exact A1|exact C1]].
      assert (E1 : sexecs u w s (if hl then [27; 91; 51; 48; 59; 52; 55; 109] else []) = s).
      { destruct hl; [|reflexivity]. apply (sgr_at _ _ s [51; 48; 59; 52; 55] A). repeat constructor; lia. }
      assert (E2 : sexecs u w (sexecs u w s text) (if hl then [27; 91; 48; 109] else []) = sexecs u w s text).
      { destruct hl; [|reflexivity]. apply (sgr_at _ _ _ [48] A1). repeat constructor; lia. }
      rewrite sexecs_app, E1. unfold text, word in *. rewrite !app_assoc. rewrite sexecs_app. exact E2. }
    destruct X as (s1 & E1 & A1 & C1).
    assert (G1 : grid_shown w y1 cols cw (pre ++ [word]) s1).
    { apply (add_word y1 cols cw pre word s s1); try assumption; [unfold word; rewrite app_length; lia|]. fold k. intros y x. rewrite C1.
      replace (Z.to_nat cw - length word)%nat with (Z.to_nat (cw - Z.of_nat (length c) - Z.of_nat (length same))) by (unfold word; rewrite app_length; lia). reflexivity. }
    assert (S1 : same_above y1 s s1).
    { intros y x Y. rewrite C1. replace (y =? y1 + k / cols) with false by lia. reflexivity. }
    (* the end of the row *)
    assert (X : exists s2, sexecs u w s1 (if wrap then [10] else []) = s2 /\ at_ (y1 + (k + 1) / cols) ((k + 1) mod cols * cw) s2 /\ s_cell s2 = s_cell s1 /\
       (k + 1) / cols = k / cols + (if wrap then 1 else 0) /\ (if wrap then 0 else k mod cols + 1) = (k + 1) mod cols).
    { destruct wrap eqn:Ew; unfold wrap in Ew.
      - assert (D1 : (k + 1) / cols = k / cols + 1) by (symmetry; apply Z.div_unique with 0; lia).
        assert (M1 : (k + 1) mod cols = 0) by (symmetry; apply Z.mod_unique with (k / cols + 1); lia).
        destruct (newlines 1 (y1 + k / cols) _ s1 A1 ltac:(lia)) as (A2 & C2). cbn [repeat] in *. eexists. split; [reflexivity|]. rewrite D1, M1.
        replace (y1 + (k / cols + 1)) with (y1 + k / cols + Z.of_nat 1) by lia. auto.
      - assert (D1 : (k + 1) / cols = k / cols) by (symmetry; apply Z.div_unique with (k mod cols + 1); lia).
        assert (M1 : (k + 1) mod cols = k mod cols + 1) by (symmetry; apply Z.mod_unique with (k / cols); lia).
        exists s1. split; [reflexivity|]. rewrite D1, M1. replace ((k mod cols + 1) * cw) with (k mod cols * cw + cw) by lia. split; [exact A1|]. split; [reflexivity|]. split; lia. }
    destruct X as (s2 & E2 & A2 & C2 & D2 & M2).
    specialize (IH (pre ++ [word]) s2 F'). rewrite app_length in IH. cbn [length] in IH. cbn zeta in IH.
    replace (Z.of_nat (length pre + 1)) with (k + 1) in IH by lia. specialize (IH A2).
    destruct IH as (out & n & E & N & A3 & G3 & S3); [intros y x Hy Hx; rewrite C2; now apply G1|].
    rewrite M2, E. cbn [obind fst snd]. eexists _, _. split; [reflexivity|]. cbn zeta.
    cbn [length]. replace (Z.of_nat (length pre + S (length cs))) with (Z.of_nat (length pre + 1 + length cs)) by lia.
    replace (sexecs u w s _) with (sexecs u w s2 out).
    + split; [clear - N D2; destruct wrap; lia|]. split; [exact A3|]. split.
      * cbn [map]. rewrite <- app_assoc in G3. exact G3.
      * eapply same_above_trans; [exact S1|]. intros y x Y. rewrite S3 by exact Y. now rewrite C2.
    + fold sp hl wrap. rewrite <- E2, <- E1, <- !sexecs_app. f_equal. now rewrite <- !app_assoc.
Qed.
End scr.

(** CursorLineCount on plain text *)
Lemma rows_spec w n : 0 < w -> 0 <= n -> (if negb (Z.rem n w =? 0) then Z.quot n w + 1 else Z.quot n w) = rows w n.
Proof.
  intros Hw Hn. unfold rows. rewrite Z.quot_div_nonneg, Z.rem_mod_nonneg by lia. pose proof (Z.div_mod n w ltac:(lia)) as D. pose proof (Z.mod_pos_bound n w Hw) as M.
  destruct (Z.eqb_spec (n mod w) 0) as [E|E]; cbn [negb]; [apply Z.div_unique with (w - 1); lia|apply Z.div_unique with (n mod w - 1); lia].
Qed.
Lemma cursor_lines cf ps b : drawable (oc_u cf) ps (op_rdr cf b) ->
  let P := Z.of_nat (length (visible ps)) in
  CursorLineCount cf b = Ok (rows (oc_w cf) (P + Z.of_nat (length (rb_buf b))) - (P + Z.of_nat (rb_idx b)) / oc_w cf).
Proof.
  intros D P. pose proof (dr_width _ _ _ D) as Wd. cbn [op_rdr d_width] in Wd.
  unfold CursorLineCount. rewrite (promptLen_ok _ ps _ D). cbn [obind]. unfold LineCount. replace (oc_w cf =? 0) with false by lia.
  rewrite (Width_sum1 _ (rb_buf b)) by (apply plain_w, (dr_line _ _ _ D)). fold P.
  replace (Z.of_nat (length (rb_buf b)) + P) with (P + Z.of_nat (length (rb_buf b))) by lia.
  pose proof (rows_spec (oc_w cf) (P + Z.of_nat (length (rb_buf b))) ltac:(lia) ltac:(lia)) as R.
  pose proof (idxLine_ok _ ps _ D) as I. change (d_width (op_rdr cf b)) with (oc_w cf) in I. change (d_idx (op_rdr cf b)) with (rb_idx b) in I. 
  destruct (negb (Z.rem _ _ =? 0)); cbn [obind]; rewrite R; setoid_rewrite I; cbn [obind]; reflexivity.
Qed.

Lemma rows_lb w n k : 0 < w -> 0 <= k < n -> k / w < rows w n.
Proof.
  intros Hw K. unfold rows. apply Z.div_lt_upper_bound; [exact Hw|]. pose proof (Z.div_mod (n + w - 1) w ltac:(lia)). pose proof (Z.mod_pos_bound (n + w - 1) w Hw). nia.
Qed.
Lemma rows_le w n : 0 < w -> 0 <= n -> 0 <= rows w n <= n.
Proof. intros Hw N. unfold rows. split; [apply Z.div_pos; lia|]. apply Z.lt_succ_r, Z.div_lt_upper_bound; nia. Qed.

Lemma max_width_ub u cs c : In c cs -> Z.of_nat (WidthAll u c) <= max_width u cs.
Proof.
  unfold max_width. assert (G : forall cs m, m <= fold_left (fun m c => Z.max m (Z.of_nat (WidthAll u c))) cs m /\
    forall c, In c cs -> Z.of_nat (WidthAll u c) <= fold_left (fun m c => Z.max m (Z.of_nat (WidthAll u c))) cs m).
  { induction cs0 as [|x xs IH]; intros m; cbn [fold_left]; [split; [lia|intros ? []]|]. destruct (IH (Z.max m (Z.of_nat (WidthAll u x)))) as (A & B).
    split; [lia|]. intros c0 [<-|I]; [lia|auto]. }
  intros I. now apply G.
Qed.
Lemma max_width_lub u cs m : 0 <= m -> Forall (fun c => Z.of_nat (WidthAll u c) <= m) cs -> 0 <= max_width u cs <= m.
Proof.
  unfold max_width. assert (G : forall cs k, 0 <= k <= m -> Forall (fun c => Z.of_nat (WidthAll u c) <= m) cs ->
    0 <= fold_left (fun m c => Z.max m (Z.of_nat (WidthAll u c))) cs k <= m).
  { induction cs0 as [|x xs IH]; intros k K F; cbn [fold_left]; [exact K|]. inversion F; subst. apply IH; [lia|assumption]. }
  intros M F. apply G; [lia|exact F].
Qed.

Lemma Forall_firstn {A} (Q : A -> Prop) n l : Forall Q l -> Forall Q (firstn n l).
Proof. intros F. rewrite <- (firstn_skipn n l) in F. now apply Forall_app in F. Qed.
Lemma Forall_skipn {A} (Q : A -> Prop) n l : Forall Q l -> Forall Q (skipn n l).
Proof. intros F. rewrite <- (firstn_skipn n l) in F. now apply Forall_app in F. Qed.

(** ** the menu *)
Lemma menu_ok cf ps c b y0 s off :
  let u := oc_u cf in let w := oc_w cf in let v := visible ps in let P := Z.of_nat (length v) in
  let n := Z.of_nat (length (rb_buf b)) in let k := P + Z.of_nat (rb_idx b) in
  let same := firstn off (skipn (rb_idx b - off) (rb_buf b)) in
  uenv_ok u -> drawable u ps (op_rdr cf b) -> line_shown w y0 (v ++ rb_buf b) k s ->
  c_off c = Z.of_nat off -> (off <= rb_idx b)%nat -> 0 < k < w ->
  Forall (fun x => Forall (plain u) x /\ Z.of_nat (off + length x) + 1 < w) (c_cand c) -> Z.of_nat off + 1 < w ->
  P + n + Z.of_nat (length (c_cand c)) <= 9223372036854775807 ->
  exists out cols cw, menu_out cf c b = Ok (out, cols) /\ 0 < cols /\ 0 < cw /\ cols * cw < w /\
    Forall (fun x => Z.of_nat (off + length x) < cw) (c_cand c) /\
    let s' := sexecs u w s out in
    line_shown w y0 (v ++ rb_buf b) k s' /\ same_above y0 s s' /\
    grid_shown w (y0 + rows w (P + n)) cols cw (map (app same) (c_cand c)) s'.
Proof.
  cbn zeta. set (u := oc_u cf). set (w := oc_w cf). set (P := Z.of_nat (length (visible ps))). set (n := Z.of_nat (length (rb_buf b))).
  set (k := P + Z.of_nat (rb_idx b)). set (same := firstn off (skipn (rb_idx b - off) (rb_buf b))).
  intros U D (T & Cu) Eo Lo K Fc Wo Big.
  pose proof (dr_width _ _ _ D) as Wd. cbn [op_rdr d_width] in Wd. fold w in Wd.
  pose proof (dr_idx _ _ _ D) as Ix. cbn [op_rdr d_idx d_buf] in Ix.
  pose proof (dr_line _ _ _ D) as Fl. cbn [op_rdr d_buf] in Fl.
  assert (Kw : k / w = 0) by (apply Z.div_small; lia). assert (Km : k mod w = k) by (apply Z.mod_small; lia).
  assert (A0 : at_ y0 k s).
  { destruct Cu as (R & C & Pe & Pa). unfold row_of, col_of in *. rewrite Kw in R. rewrite Km in C. repeat split; try assumption. lia. }
  set (lc := rows w (P + n)). assert (Lc : 1 <= lc <= P + n).
  { assert (0 / w < rows w (P + n)) by (apply rows_lb; lia). rewrite Z.div_0_l in H by lia. pose proof (rows_le w (P + n) ltac:(lia) ltac:(lia)). unfold lc. lia. }
  assert (Ls : length same = off) by (unfold same; rewrite firstn_length, skipn_length; lia).
  assert (Fs : Forall (plain u) same).
  { unfold same. now apply Forall_firstn, Forall_skipn. }
  unfold menu_out. rewrite (cursor_lines cf ps b D). cbn [obind]. fold u w P n k. rewrite Kw, Z.sub_0_r. fold lc.
  assert (Es : RuneSlice (- c_off c) b = Ok same).
  { rewrite Eo. unfold RuneSlice. replace (0 <? - Z.of_nat off) with false by lia. replace (Z.of_nat (rb_idx b) + - Z.of_nat off <? 0) with false by lia.
    replace (Z.to_nat (Z.of_nat (rb_idx b) + - Z.of_nat off)) with (rb_idx b - off)%nat by lia. rewrite slice_ok by lia. unfold same. do 2 f_equal. lia. }
  rewrite Es. cbn [obind]. rewrite Eo.
  set (m := max_width u (c_cand c)).
  assert (M : 0 <= m <= w - 2 - Z.of_nat off).
  { apply max_width_lub; [lia|]. eapply Forall_impl; [|exact Fc]. cbn. intros x (Px & Lx). rewrite Width_sum1 by (now apply plain_w). lia. }
  set (cw := m + (Z.of_nat off + 1)). assert (C0 : cw = m + Z.of_nat off + 1) by (unfold cw; lia). replace (cw =? 0) with false by (unfold cw; lia).
  rewrite (Z.quot_div_nonneg (w - 1) cw) by (unfold cw; lia). set (cols := (w - 1) / cw).
  assert (C1 : 1 <= cols) by (apply Z.div_le_lower_bound; unfold cw; lia).
  assert (C2 : cw * cols <= w - 1) by (apply Z.mul_div_le; unfold cw; lia).
  replace (cols =? 0) with false by lia. rewrite Z.quot_div_nonneg by lia. set (cw' := cw + (w - 1 - cw * cols) / cols).
  assert (C3 : 0 <= (w - 1 - cw * cols) / cols) by (apply Z.div_pos; lia).
  assert (C4 : cols * cw' < w).
  { unfold cw'. pose proof (Z.mul_div_le (w - 1 - cw * cols) cols ltac:(lia)). lia. }
  unfold Repeat at 1. replace (lc <? 0) with false by lia. cbn [obind].
  assert (Fc' : Forall (fun x => Forall (plain u) x /\ Z.of_nat (length same + length x) < cw') (c_cand c)).
  { apply Forall_forall. intros x X. rewrite Forall_forall in Fc. destruct (Fc x X) as (Px & Lx). split; [exact Px|]. rewrite Ls.
    pose proof (max_width_ub u (c_cand c) x X) as Q. rewrite Width_sum1 in Q by (now apply plain_w). fold m in Q. unfold cw'. lia. }
  destruct (newlines u w (Z.to_nat lc) y0 k s A0 ltac:(lia)) as (A1 & Q1). rewrite Z2Nat.id in A1 by lia. set (s1 := sexecs u w s (repeat 10 (Z.to_nat lc))) in *.
  destruct (erase u w (y0 + lc) 0 s1 A1) as (A2 & Q2). set (s2 := sexecs u w s1 [27; 91; 74]) in *.
  assert (G2 : grid_shown w (y0 + lc) cols cw' [] s2).
  { intros y x Hy Hx. rewrite Q2. unfold erase_below. replace ((y0 + lc <? y) || (y =? y0 + lc) && (0 <=? x)) with true by lia.
    destruct (x <? cols * cw'); [|reflexivity]. now destruct (Z.to_nat ((y - (y0 + lc)) * cols + x / cw')), (Z.to_nat (x mod cw')). }
  destruct (cells_grid u w U same cols cw' (c_choice c) (c_sel c) (y0 + lc) ltac:(lia) ltac:(unfold cw'; lia) C4 Fs (c_cand c) [] s2 Fc') as (out & nl & E & N & A3 & G3 & S3).
  { cbn [length Z.of_nat]. rewrite Z.div_0_l, Z.mod_0_l by lia. rewrite Z.add_0_r. exact A2. }
  { exact G2. }
  cbn [length Z.of_nat Nat.add] in E, N, A3. rewrite Z.mod_0_l in E by lia. rewrite Z.div_0_l in N by lia. rewrite E. cbn [obind fst snd].
  rewrite (promptLen_ok _ ps _ D). cbn [obind]. fold P. set (s3 := sexecs u w s2 out) in *.
  set (t := Z.of_nat (length (c_cand c)) / cols) in *. assert (Tb : 0 <= t <= Z.of_nat (length (c_cand c))).
  { unfold t. split; [apply Z.div_pos; lia|]. apply Z.div_le_upper_bound; [lia|]. apply Z.le_trans with (1 * Z.of_nat (length (c_cand c))); [lia|apply Z.mul_le_mono_nonneg_r; lia]. }
  assert (Up : lc - 1 + (1 + nl) = lc + t) by lia. rewrite Up.
  destruct (up u w (lc + t) _ _ s3 A3 ltac:(lia)) as (A4 & Q4). set (s4 := sexecs u w s3 ([27; 91] ++ Itoa (lc + t) ++ [65])) in *.
  destruct (cr u w _ _ s4 A4) as (A5 & Q5). set (s5 := sexecs u w s4 [13]) in *.
  replace (Z.of_nat (rb_idx b) + P) with k by (unfold k; lia).
  destruct (right u w k _ _ s5 A5 ltac:(lia) ltac:(lia)) as (A6 & Q6). set (s6 := sexecs u w s5 ([27; 91] ++ Itoa k ++ [67])) in *.
  eexists _, cols, cw'. split; [reflexivity|]. split; [lia|]. split; [unfold cw'; lia|]. split; [exact C4|].
  split; [eapply Forall_impl; [|exact Fc']; cbn; intros x (_ & X); lia|].
  assert (Es6 : sexecs u w s (repeat 10 (Z.to_nat lc) ++ [27; 91; 74] ++ out ++ [27; 91] ++ Itoa (lc + t) ++ [65; 13] ++ [27; 91] ++ Itoa k ++ [67]) = s6).
  { unfold s6, s5, s4, s3, s2, s1. rewrite <- !sexecs_app. f_equal. repeat rewrite <- app_assoc. reflexivity. }
  rewrite Es6. clear Es6.
  assert (Cells : forall y x, y < y0 + lc -> s_cell s6 y x = s_cell s y x).
  { intros y x Y. rewrite Q6, Q5, Q4, S3 by exact Y. rewrite Q2. unfold erase_below. replace ((y0 + lc <? y) || (y =? y0 + lc) && (0 <=? x)) with false by lia. now rewrite Q1. }
  split.
  - split.
    + intros y x Hy Hx. rewrite app_length, Nat2Z.inj_add in Hy. fold P n lc in Hy. rewrite Cells by lia. apply T; [|exact Hx]. rewrite app_length, Nat2Z.inj_add. fold P n lc. exact Hy.
    + destruct A6 as (Pa & Pe & R & C). unfold cursor_at, row_of, col_of. rewrite Kw, Km. repeat split; try assumption; lia.
  - split.
    + intros y x Y. apply Cells. lia.
    + intros y x Hy Hx. rewrite Q6, Q5, Q4. now apply G3.
Qed.

(** ** the search status *)
Lemma backs u w n : forall y x s, at_ y x s -> Z.of_nat n <= x -> at_ y (x - Z.of_nat n) (sexecs u w s (repeat 8 n)) /\ s_cell (sexecs u w s (repeat 8 n)) = s_cell s.
Proof.
  induction n as [|n IH]; intros y x s A N.
  - cbn [repeat Z.of_nat]. rewrite Z.sub_0_r. split; [exact A|reflexivity].
  - cbn [repeat]. rewrite sexecs_cons. assert (A1 : at_ y (x - 1) (sexec u w s 8) /\ s_cell (sexec u w s 8) = s_cell s).
    { destruct A as (Pa & Pe & R & C). unfold sexec. rewrite Pa. cbn. rewrite R, C. unfold at_. cbn. repeat split. lia. }
    destruct A1 as (A1 & C1). destruct (IH y (x - 1) _ A1 ltac:(lia)) as (A2 & C2). replace (x - Z.of_nat (S n)) with (x - 1 - Z.of_nat n) by lia.
    split; [exact A2|]. now rewrite C2, C1.
Qed.

Lemma nth_part (d : Z) len a i : forall l, (i < len)%nat -> nth i (firstn len (skipn a l)) d = nth (a + i) l d.
Proof.
  intros l L. assert (H : nth i (skipn a l) d = nth (a + i) l d).
  { revert l. induction a as [|a IH]; intros l; [reflexivity|]. destruct l; [now destruct i|]. cbn. apply IH. }
  rewrite <- H. generalize (skipn a l). clear - L. revert len L. induction i as [|i IH]; intros [|len] L m; try lia; destruct m; cbn; try reflexivity. apply IH. lia.
Qed.

(** printing a part of the line where it is *)
Lemma reprint u w y0 text q c len s : 0 < w -> Forall (plain u) text ->
  (forall y x, y0 <= y < y0 + rows w (Z.of_nat (length text)) -> 0 <= x < w -> s_cell s y x = nth (Z.to_nat ((y - y0) * w + x)) text blank) ->
  at_ (y0 + q) c s -> 0 <= q < rows w (Z.of_nat (length text)) -> 0 <= c -> c + Z.of_nat len < w -> q * w + c + Z.of_nat len <= Z.of_nat (length text) ->
  let l := firstn len (skipn (Z.to_nat (q * w + c)) text) in
  at_ (y0 + q) (c + Z.of_nat len) (sexecs u w s l) /\ forall y x, s_cell (sexecs u w s l) y x = s_cell s y x.
Proof.
  intros Wp F T A Q C L B l. assert (Ll : length l = len) by (unfold l; rewrite firstn_length, skipn_length; nia).
  destruct (pr_row u w l (y0 + q) c s A) as (A1 & C1); [unfold l; now apply Forall_firstn, Forall_skipn|exact C|lia|].
  rewrite Ll in A1, C1. split; [exact A1|]. intros y x. rewrite C1. destruct ((y =? y0 + q) && (c <=? x) && (x <? c + Z.of_nat len)) eqn:E; [|reflexivity].
  rewrite T by lia. replace (y - y0) with q by lia. unfold l. rewrite nth_part by lia. f_equal. nia.
Qed.

Lemma status_plain u f d data : (forall r, 32 <= r < 127 -> Width u r = 1%nat) -> Forall (plain u) data -> Forall (plain u) (status f d data).
Proof.
  intros A F. unfold status. repeat (apply Forall_app; split); try exact F; [destruct f|destruct d|]; repeat (constructor; [split; [lia|split; [lia|apply A; lia]]|]); constructor.
Qed.

Lemma search_ok cf ps x st b y0 s :
  let u := oc_u cf in let w := oc_w cf in let v := visible ps in let P := Z.of_nat (length v) in
  let n := Z.of_nat (length (rb_buf b)) in let k := P + Z.of_nat (rb_idx b) in let text := status (s_fail st) (s_bck st) (s_data st) in
  uenv_ok u -> (forall r, 32 <= r < 127 -> Width u r = 1%nat) -> drawable u ps (op_rdr cf b) -> line_shown w y0 (v ++ rb_buf b) k s ->
  x < 0 \/ x = Z.of_nat (rb_idx b) -> 0 < P + n -> ~ (rb_idx b = length (rb_buf b) /\ (P + n) mod w = 0) ->
  s_ms st = 0%nat \/ (s_ms st <= s_me st <= length (rb_buf b))%nat /\ (P + Z.of_nat (s_ms st)) / w = k / w /\ (P + Z.of_nat (s_me st)) / w = k / w ->
  Forall (plain u) (s_data st) -> Z.of_nat (length text) + 1 < w -> P + n <= 9223372036854775807 ->
  exists out, search_out cf x st b = Ok out /\
    let s' := sexecs u w s out in
    line_shown w y0 (v ++ rb_buf b) k s' /\ same_above y0 s s' /\ shows_text w (y0 + rows w (P + n)) text s'.
Proof.
  cbn zeta. set (u := oc_u cf). set (w := oc_w cf). set (P := Z.of_nat (length (visible ps))). set (n := Z.of_nat (length (rb_buf b))).
  set (k := P + Z.of_nat (rb_idx b)). set (text := status (s_fail st) (s_bck st) (s_data st)).
  intros U Asc D (T & Cu) Ex Pn Edge Mk Fd Lt Big.
  pose proof (dr_width _ _ _ D) as Wd. cbn [op_rdr d_width] in Wd. fold w in Wd.
  pose proof (dr_idx _ _ _ D) as Ix. cbn [op_rdr d_idx d_buf] in Ix.
  pose proof (dr_line _ _ _ D) as Fl. cbn [op_rdr d_buf] in Fl. pose proof (dr_visible _ _ _ D) as Fv.
  pose proof (Z.div_mod k w ltac:(lia)) as Dk. pose proof (Z.mod_pos_bound k w ltac:(lia)) as Mk'.
  set (q := k / w) in *. assert (Q0 : 0 <= q) by (apply Z.div_pos; lia).
  set (rs := rows w (P + n)) in *. assert (Qr : q < rs).
  { destruct (Nat.eq_dec (rb_idx b) (length (rb_buf b))) as [E|E].
    - assert (M : (P + n) mod w <> 0) by tauto. unfold rs. rewrite <- (rows_spec w (P + n)) by lia. rewrite Z.quot_div_nonneg, Z.rem_mod_nonneg by lia.
      replace ((P + n) mod w =? 0) with false by lia. cbn [negb]. unfold q. replace k with (P + n) by lia. lia.
    - apply rows_lb; lia. }
  pose proof (rows_le w (P + n) ltac:(lia) ltac:(lia)) as Rl. fold rs in Rl.
  assert (A0 : at_ (y0 + q) (k mod w) s).
  { destruct Cu as (R & C & Pe & Pa). unfold row_of, col_of in *. repeat split; assumption. }
  unfold search_out.
  replace (if x <? 0 then rb_idx b else Z.to_nat x) with (rb_idx b) by (destruct (x <? 0) eqn:E; lia).
  rewrite slice_to by lia. cbn [obind]. fold u w. rewrite (promptLen_ok _ ps _ D). cbn [obind]. fold P. replace (w =? 0) with false by lia.
  rewrite Width_sum1 by (apply plain_w; now apply Forall_firstn). rewrite firstn_length_le by lia.
  replace (Z.of_nat (rb_idx b) + P) with k by (unfold k; lia). rewrite Z.rem_mod_nonneg by lia.
  rewrite app_length, Nat2Z.inj_add in T. fold P n rs in T.
  (* the match is drawn again *)
  assert (X : exists mark c1, (if (0 <? s_ms st)%nat then SetStyle u (s_ms st) (s_me st) b else Ok []) = Ok mark /\
     at_ (y0 + q) c1 (sexecs u w s mark) /\ forall y x, s_cell (sexecs u w s mark) y x = s_cell s y x).
  { destruct (0 <? s_ms st)%nat eqn:E0; [|exists [], (k mod w); split; [reflexivity|]; split; [exact A0|reflexivity]].
    destruct Mk as [Mk|(Lm & Q1 & Q2)]; [lia|].
    pose proof (Z.div_mod (P + Z.of_nat (s_ms st)) w ltac:(lia)) as D1. pose proof (Z.mod_pos_bound (P + Z.of_nat (s_ms st)) w ltac:(lia)) as M1.
    pose proof (Z.div_mod (P + Z.of_nat (s_me st)) w ltac:(lia)) as D2. pose proof (Z.mod_pos_bound (P + Z.of_nat (s_me st)) w ltac:(lia)) as M2.
    rewrite Q1 in D1. rewrite Q2 in D2. set (c1 := (P + Z.of_nat (s_ms st)) mod w) in *. set (c2 := (P + Z.of_nat (s_me st)) mod w) in *.
    assert (Ft : Forall (plain u) (visible ps ++ rb_buf b)) by (apply Forall_app; auto).
    assert (Skip : forall j, (j <= length (rb_buf b))%nat -> skipn (Z.to_nat (P + Z.of_nat j)) (visible ps ++ rb_buf b) = skipn j (rb_buf b)).
    { intros j J. rewrite skipn_app. unfold P. replace (Z.to_nat (Z.of_nat (length (visible ps)) + Z.of_nat j) - length (visible ps))%nat with j by lia.
      rewrite skipn_all2 by lia. reflexivity. }
    assert (Pre : exists pre, (if (rb_idx b <? s_ms st)%nat then slice (rb_idx b) (s_ms st) (rb_buf b)
            else z <- slice (s_ms st) (rb_idx b) (rb_buf b) ;; Ok (repeat 8 (WidthAll u z))) = Ok pre /\
            at_ (y0 + q) c1 (sexecs u w s pre) /\ forall y x, s_cell (sexecs u w s pre) y x = s_cell s y x).
    { destruct (rb_idx b <? s_ms st)%nat eqn:E1.
      - rewrite slice_ok by lia. eexists. split; [reflexivity|].
        destruct (reprint u w y0 (visible ps ++ rb_buf b) q (k mod w) (s_ms st - rb_idx b) s) as (A1 & C1); try assumption; try lia;
          try (rewrite app_length, Nat2Z.inj_add; fold P n rs; first [exact T|lia]).
        replace (q * w + k mod w) with (P + Z.of_nat (rb_idx b)) in A1, C1 by lia. rewrite Skip in A1, C1 by lia.
        split; [|exact C1]. replace c1 with (k mod w + Z.of_nat (s_ms st - rb_idx b)) by lia. exact A1.
      - rewrite slice_ok by lia. cbn [obind]. eexists. split; [reflexivity|]. rewrite Width_sum1 by (apply plain_w; now apply Forall_firstn, Forall_skipn).
        rewrite firstn_length, skipn_length. replace (Nat.min (rb_idx b - s_ms st) (length (rb_buf b) - s_ms st)) with (rb_idx b - s_ms st)%nat by lia.
        destruct (backs u w (rb_idx b - s_ms st) _ _ s A0 ltac:(lia)) as (A1 & C1). split; [|intros y x0; now rewrite C1].
        replace c1 with (k mod w - Z.of_nat (rb_idx b - s_ms st)) by lia. exact A1. }
    destruct Pre as (pre & Ep & A1 & C1). unfold SetStyle. replace (s_me st <? s_ms st)%nat with false by lia. rewrite Ep. cbn [obind].
    rewrite slice_ok by lia. cbn [obind]. eexists _, c2. split; [reflexivity|].
    set (mid := firstn (s_me st - s_ms st) (skipn (s_ms st) (rb_buf b))).
    assert (E3 : sexecs u w s (pre ++ [27; 91; 52; 109] ++ mid ++ [27; 91; 48; 109]) = sexecs u w (sexecs u w s pre) mid).
    { rewrite !sexecs_app. change [27; 91; 52; 109] with (27 :: 91 :: [52] ++ [109]). rewrite (sgr_at u w _ _ _ [52] A1) by (repeat constructor; lia).
      destruct (reprint u w y0 (visible ps ++ rb_buf b) q c1 (s_me st - s_ms st) (sexecs u w s pre)) as (A2 & C2); try assumption; try lia;
        try (rewrite app_length, Nat2Z.inj_add; fold P n rs; first [intros y x0 Hy Hx; rewrite C1; now apply T|lia]).
      replace (q * w + c1) with (P + Z.of_nat (s_ms st)) in A2 by lia. rewrite Skip in A2 by lia. fold mid in A2.
      change [27; 91; 48; 109] with (27 :: 91 :: [48] ++ [109]). now rewrite (sgr_at u w _ _ _ [48] A2) by (repeat constructor; lia). }
    rewrite E3.
    destruct (reprint u w y0 (visible ps ++ rb_buf b) q c1 (s_me st - s_ms st) (sexecs u w s pre)) as (A2 & C2); try assumption; try lia;
      try (rewrite app_length, Nat2Z.inj_add; fold P n rs; first [intros y x0 Hy Hx; rewrite C1; now apply T|lia]).
    replace (q * w + c1) with (P + Z.of_nat (s_ms st)) in A2, C2 by lia. rewrite Skip in A2, C2 by lia. fold mid in A2, C2.
    split; [replace c2 with (c1 + Z.of_nat (s_me st - s_ms st)) by lia; exact A2|]. intros y x0. now rewrite C2, C1. }
  destruct X as (mark & c1 & Em & A1 & C1). rewrite Em. cbn [obind]. set (s1 := sexecs u w s mark) in *.
  rewrite (cursor_lines cf ps b D). cbn [obind]. fold u w P n k q rs. set (lc := rs - q) in *.
  unfold Repeat. replace (lc <? 0) with false by lia. cbn [obind]. eexists. split; [reflexivity|].
  destruct (newlines u w (Z.to_nat lc) _ _ s1 A1 ltac:(lia)) as (A2 & Q2). rewrite Z2Nat.id in A2 by lia. replace (y0 + q + lc) with (y0 + rs) in A2 by lia.
  set (s2 := sexecs u w s1 (repeat 10 (Z.to_nat lc))) in *.
  destruct (erase u w _ _ s2 A2) as (A3 & Q3). set (s3 := sexecs u w s2 [27; 91; 74]) in *.
  pose proof (status_plain u (s_fail st) (s_bck st) (s_data st) Asc Fd) as Fp. fold text in Fp.
  destruct (pr_row u w text _ _ s3 A3 Fp ltac:(lia) ltac:(lia)) as (A4 & Q4). set (s4 := sexecs u w s3 text) in *.
  assert (E5 : sexecs u w s4 [27; 91; 52; 109; 32; 27; 91; 48; 109] = sexec u w s4 32).
  { change [27; 91; 52; 109; 32; 27; 91; 48; 109] with ((27 :: 91 :: [52] ++ [109]) ++ [32] ++ (27 :: 91 :: [48] ++ [109])).
    rewrite !sexecs_app, (sgr_at u w _ _ _ [52] A4) by (repeat constructor; lia).
    destruct (pr_one u w _ _ s4 32 A4 (plain_32 u U) ltac:(lia) ltac:(lia)) as (A5 & _).
    change (sexecs u w s4 [32]) with (sexec u w s4 32). now rewrite (sgr_at u w _ _ _ [48] A5) by (repeat constructor; lia). }
  destruct (pr_one u w _ _ s4 32 A4 (plain_32 u U) ltac:(lia) ltac:(lia)) as (A5 & Q5). rewrite <- E5 in A5, Q5. set (s5 := sexecs u w s4 [27; 91; 52; 109; 32; 27; 91; 48; 109]) in *.
  destruct (cr u w _ _ s5 A5) as (A6 & Q6). set (s6 := sexecs u w s5 [13]) in *.
  destruct (up u w lc _ _ s6 A6 ltac:(lia)) as (A7 & Q7). set (s7 := sexecs u w s6 ([27; 91] ++ Itoa lc ++ [65])) in *.
  assert (X : exists s8, sexecs u w s7 (if 0 <? k mod w then [27; 91] ++ Itoa (k mod w) ++ [67] else []) = s8 /\ at_ (y0 + q) (k mod w) s8 /\ s_cell s8 = s_cell s7).
  { replace (y0 + rs - lc) with (y0 + q) in A7 by lia. destruct (0 <? k mod w) eqn:E.
    - destruct (right u w (k mod w) _ _ s7 A7 ltac:(lia) ltac:(lia)) as (A8 & Q8). eexists. split; [reflexivity|]. split; [exact A8|exact Q8].
    - exists s7. split; [reflexivity|]. replace (k mod w) with 0 by lia. split; [exact A7|reflexivity]. }
  destruct X as (s8 & E8 & A8 & Q8).
  match goal with |- context [sexecs u w s ?l] => assert (Es8 : sexecs u w s l = s8) end.
  { rewrite <- E8. unfold s7, s6, s5, s4, s3, s2, s1. rewrite <- !sexecs_app. f_equal. unfold text, status. repeat rewrite <- app_assoc. reflexivity. }
  rewrite Es8. clear Es8.
  assert (Cells : forall y x, s_cell s8 y x = s_cell s5 y x) by (intros; now rewrite Q8, Q7, Q6).
  assert (Above : forall y x, y < y0 + rs -> s_cell s8 y x = s_cell s y x).
  { intros y x0 Y. rewrite Cells, Q5. unfold put. replace (y =? y0 + rs) with false by lia. cbn [andb]. rewrite Q4. replace (y =? y0 + rs) with false by lia. cbn [andb].
    rewrite Q3. unfold erase_below. replace ((y0 + rs <? y) || (y =? y0 + rs) && (0 <=? x0)) with false by lia. now rewrite Q2, C1. }
  split.
  - split.
    + intros y x0 Hy Hx. rewrite app_length, Nat2Z.inj_add in Hy. fold P n rs in Hy. rewrite Above by lia. now apply T.
    + destruct A8 as (Pa & Pe & R & C). unfold cursor_at, row_of, col_of. fold q. repeat split; assumption.
  - split; [intros y x0 Y; apply Above; lia|].
    intros y x0 Hy Hx. rewrite Cells, Q5. unfold put. rewrite Q4, Q3. unfold erase_below.
    replace ((y0 + rs <? y) || (y =? y0 + rs) && (0 <=? x0)) with true by lia.
    destruct (Z.eq_dec y (y0 + rs)) as [Y|Y].
    + subst y. rewrite Z.eqb_refl. cbn [andb]. replace ((y0 + rs - (y0 + rs)) * w + x0) with x0 by lia. rewrite !Z.add_0_l, Z.sub_0_r. replace (0 <=? x0) with true by lia. cbn [andb].
      destruct (Z.eqb_spec x0 (Z.of_nat (length text))) as [E|E].
      * now rewrite nth_overflow by lia.
      * destruct (x0 <? Z.of_nat (length text)) eqn:L; [reflexivity|]. now rewrite nth_overflow by lia.
    + replace (y =? y0 + rs) with false by lia. cbn [andb]. rewrite nth_overflow; [reflexivity|].
      assert (1 * w <= (y - (y0 + rs)) * w) by (apply Z.mul_le_mono_nonneg_r; lia). lia.
Qed.

