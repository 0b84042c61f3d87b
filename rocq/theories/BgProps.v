(** Property C109: background output while candidates or a search status are shown. *)
From Verif Require Import Base RunesModel RunesSpec RuneBufModel RuneBufSpec HistoryModel TerminalModel ScreenModel RenderModel RenderSpec RenderProofs RenderDraw RenderSession RenderProps OpModel OpSpec OpProps
  MenuSpec MenuProofs MenuMore MenuProps BgModel.
Open Scope Z_scope.

(** *** the line redrawn below output, with something below it *)
Lemma refresh_lines u ps d y0 s ls : uenv_ok u -> drawable u ps d -> d_had d = false ->
  cursor_at (d_width d) y0 (Z.of_nat (length (visible ps) + d_idx d)) s -> Forall (Forall (RenderSpec.plain u)) ls ->
  exists d' o, refresh u d (d_buf d) (d_idx d) (flat_map (fun l => l ++ [10]) ls) = Ok (d', o) /\
    let s' := sexecs u (d_width d) s o in
    stacked (d_width d) y0 ls s' /\ displayed ps d (y0 + height (d_width d) ls) s' /\ same_above y0 s s'.
Proof.
  intros U D H (C1 & C2 & C3 & C4) F. pose proof (dr_width _ _ _ D) as W.
  assert (X : exists o, clean u d = Ok (with_had true d, o) /\ free_from (d_width d) y0 (sexecs u (d_width d) s o) /\ same_above y0 s (sexecs u (d_width d) s o)).
  { unfold clean. rewrite (idxLine_ok u ps d D). cbn [obind]. rewrite H, (dr_inter _ _ _ D). cbn [orb negb].
    unfold cleanOutput. destruct (Z.eqb_spec (d_width d) 0); [lia|]. cbn [obind].
    eexists. split; [reflexivity|]. match goal with |- context [Z.to_nat ?l] => set (line := l) in * end.
    destruct (clean_all u (d_width d) s y0 line C4) as (A & B).
    - apply Z.div_pos; lia.
    - rewrite C1. unfold row_of, line. f_equal. f_equal. lia.
    - split; [apply (cleaned_free ps); [lia|exact A]|exact B]. }
  destruct X as (o1 & X1 & X2 & X3).
  unfold refresh. rewrite (dr_inter _ _ _ D). cbn [negb]. rewrite X1. cbn [obind fst snd].
  destruct (print_lines u (d_width d) W ls y0 _ F X2) as (P1 & P2 & P3).
  set (s2 := sexecs u (d_width d) (sexecs u (d_width d) s o1) _) in *.
  assert (D2 : drawable u ps (with_line (d_buf d) (d_idx d) (with_had true d))) by (destruct D; constructor; assumption).
  destruct (output_shows u ps U _ (y0 + height (d_width d) ls) s2 D2 P2) as (o2 & Q1 & Q2 & Q3).
  unfold print. rewrite Q1. cbn [obind fst snd]. eexists _, _. split; [reflexivity|]. cbn zeta.
  rewrite !sexecs_app. fold s2. cbn in Q2, Q3. pose proof (height_nonneg (d_width d) ls).
  split; [apply (stacked_above _ _ _ s2); [exact Q3|exact P1]|]. split; [exact Q2|].
  eapply same_above_trans; [exact X3|]. eapply same_above_trans; [exact P3|]. intros y x Y. apply Q3. lia.
Qed.

(** ** C109: output from elsewhere appears above the prompt, whatever is open below it *)
(** Candidates: complete lines of single-width text appear above the line; below it the same candidates are shown again. *)
Theorem C109_menu_partial : forall cf ps o y0 s off ls,
  let u := oc_u cf in let w := oc_w cf in let b := o_b o in let c := o_c o in let P := Z.of_nat (length (visible ps)) in
  let n := Z.of_nat (length (rb_buf b)) in let k := P + Z.of_nat (rb_idx b) in let y1 := y0 + height w ls in
  let same := firstn off (skipn (rb_idx b - off) (rb_buf b)) in
  s_in (o_s o) = false -> c_in c = true -> uenv_ok u -> drawable u ps (op_rdr cf b) -> cursor_at w y0 k s ->
  c_off c = Z.of_nat off -> (off <= rb_idx b)%nat -> 0 < k < w ->
  Forall (fun x => Forall (RenderSpec.plain u) x /\ Z.of_nat (off + length x) + 1 < w) (c_cand c) -> Z.of_nat off + 1 < w ->
  P + n + Z.of_nat (length (c_cand c)) <= 9223372036854775807 -> Forall (Forall (RenderSpec.plain u)) ls ->
  exists o' out cols cw, wrap_write cf true (flat_map (fun l => l ++ [10]) ls) o = Ok (o', out) /\
    o_b o' = b /\ o_h o' = o_h o /\ o_s o' = o_s o /\ c_cand (o_c o') = c_cand c /\ c_choice (o_c o') = c_choice c /\
    0 < cols /\ 0 < cw /\ cols * cw < w /\ Forall (fun x => Z.of_nat (off + length x) < cw) (c_cand c) /\
    let s' := sexecs u w s out in
    stacked w y0 ls s' /\ line_shown w y1 (visible ps ++ rb_buf b) k s' /\ same_above y0 s s' /\
    grid_shown w (y1 + rows w (P + n)) cols cw (map (app same) (c_cand c)) s'.
Proof.
  intros cf ps o y0 s off ls u w b c P n k y1 same Si Ci U D Cu Co Of K Fc Ow Mx Fl.
  assert (Cu' : cursor_at (d_width (op_rdr cf b)) y0 (Z.of_nat (length (visible ps) + d_idx (op_rdr cf b))) s) by (rewrite Nat2Z.inj_add; exact Cu).
  destruct (refresh_lines u ps (op_rdr cf b) y0 s ls U D eq_refl Cu' Fl) as (d' & r & R1 & R2). cbn zeta in R2. destruct R2 as (R2 & R3 & R4).
  change (d_width (op_rdr cf b)) with w in *. set (s1 := sexecs u w s r) in *.
  apply displayed_line in R3. change (d_width (op_rdr cf b)) with w in R3. change (d_buf (op_rdr cf b)) with (rb_buf b) in R3. change (d_idx (op_rdr cf b)) with (rb_idx b) in R3.
  destruct (menu_ok cf ps c b y1 s1 off U D R3 Co Of K Fc Ow Mx) as (out & cols & cw & M1 & M2 & M3 & M4 & M5 & M6). cbn zeta in M6. destruct M6 as (M6 & M7 & M8).
  unfold wrap_write. cbn [negb]. change (refresh (oc_u cf) (op_rdr cf (o_b o)) (rb_buf (o_b o)) (rb_idx (o_b o))) with (refresh u (op_rdr cf b) (d_buf (op_rdr cf b)) (d_idx (op_rdr cf b))).
  rewrite R1. cbn [obind]. rewrite Si. cbn [obind]. unfold CompleteRefresh. fold c b. rewrite Ci. cbn [negb]. rewrite M1. cbn [obind fst snd app].
  exists (with_c (set_col cols c) o), (r ++ out), cols, cw. split; [reflexivity|]. do 5 (split; [reflexivity|]).
  do 4 (split; [assumption|]). cbn zeta. change (oc_u cf) with u. rewrite sexecs_app. fold s1.
  pose proof (height_nonneg w ls). split; [apply (stacked_above _ _ _ s1); [exact M7|exact R2]|]. split; [exact M6|]. split; [|exact M8].
  eapply same_above_trans; [exact R4|]. intros y x Y. apply M7. unfold y1. clear - Y H. lia.
Qed.
Print Assumptions C109_menu_partial.

Lemma set_fail_same s : set_fail (-1) s = s.
Proof. destruct s; reflexivity. Qed.
Lemma with_s_same o : with_s (o_s o) o = o.
Proof. destruct o; reflexivity. Qed.
Lemma neg1 : -1 < 0. Proof. lia. Qed.
Lemma write_search cf bytes o d' r out : s_in (o_s o) = true -> c_in (o_c o) = false ->
  refresh (oc_u cf) (op_rdr cf (o_b o)) (rb_buf (o_b o)) (rb_idx (o_b o)) bytes = Ok (d', r) -> search_out cf (-1) (o_s o) (o_b o) = Ok out ->
  wrap_write cf true bytes o = Ok (o, r ++ out).
Proof.
  intros S C R M. unfold wrap_write. cbn [negb]. rewrite R. cbn [obind]. rewrite S. unfold SearchRefresh. rewrite set_fail_same, M. cbn [obind].
  rewrite with_s_same, C. cbn [obind]. unfold CompleteRefresh. rewrite C. cbn [negb obind snd]. rewrite app_nil_r. reflexivity.
Qed.
(** Searching: the same with the status row. *)
Theorem C109_search_partial : forall cf ps o y0 s ls,
  let u := oc_u cf in let w := oc_w cf in let b := o_b o in let st := o_s o in let P := Z.of_nat (length (visible ps)) in
  let n := Z.of_nat (length (rb_buf b)) in let k := P + Z.of_nat (rb_idx b) in let y1 := y0 + height w ls in
  let text := status (s_fail st) (s_bck st) (s_data st) in
  s_in st = true -> c_in (o_c o) = false -> uenv_ok u -> (forall r, 32 <= r < 127 -> Width u r = 1%nat) -> drawable u ps (op_rdr cf b) ->
  cursor_at w y0 k s -> 0 < P + n -> ~ (rb_idx b = length (rb_buf b) /\ (P + n) mod w = 0) ->
  s_ms st = 0%nat \/ (s_ms st <= s_me st <= length (rb_buf b))%nat /\ (P + Z.of_nat (s_ms st)) / w = k / w /\ (P + Z.of_nat (s_me st)) / w = k / w ->
  Forall (RenderSpec.plain u) (s_data st) -> Z.of_nat (length text) + 1 < w -> P + n <= 9223372036854775807 -> Forall (Forall (RenderSpec.plain u)) ls ->
  exists out, wrap_write cf true (flat_map (fun l => l ++ [10]) ls) o = Ok (o, out) /\
    let s' := sexecs u w s out in
    stacked w y0 ls s' /\ line_shown w y1 (visible ps ++ rb_buf b) k s' /\ same_above y0 s s' /\ shows_text w (y1 + rows w (P + n)) text s'.
Proof.
  intros cf ps o y0 s ls u w b st P n k y1 text Si Ci U Wa D Cu P0 Ne Mk Fd Lt Mx Fl.
  assert (Cu' : cursor_at (d_width (op_rdr cf b)) y0 (Z.of_nat (length (visible ps) + d_idx (op_rdr cf b))) s) by (rewrite Nat2Z.inj_add; exact Cu).
  destruct (refresh_lines u ps (op_rdr cf b) y0 s ls U D eq_refl Cu' Fl) as (d' & r & R1 & R2). cbn zeta in R2. destruct R2 as (R2 & R3 & R4).
  change (d_width (op_rdr cf b)) with w in *. set (s1 := sexecs u w s r) in *.
  apply displayed_line in R3. change (d_width (op_rdr cf b)) with w in R3. change (d_buf (op_rdr cf b)) with (rb_buf b) in R3. change (d_idx (op_rdr cf b)) with (rb_idx b) in R3.
  destruct (search_ok cf ps (-1) st b y1 s1 U Wa D R3 (or_introl neg1) P0 Ne Mk Fd Lt Mx) as (out & M1 & M6). cbn zeta in M6. destruct M6 as (M6 & M7 & M8).
  exists (r ++ out). split; [exact (write_search cf _ o d' r out Si Ci R1 M1)|]. cbn zeta. rewrite sexecs_app. fold s1.
  pose proof (height_nonneg w ls). split; [apply (stacked_above _ _ _ s1); [exact M7|exact R2]|]. split; [exact M6|]. split; [|exact M8].
  eapply same_above_trans; [exact R4|]. intros y x Y. apply M7. unfold y1. clear - Y H. lia.
Qed.
Print Assumptions C109_search_partial.

(** Nothing is added to output while no line is read. *)
Theorem C109_idle : forall cf bytes o, wrap_write cf false bytes o = Ok (o, bytes).
Proof. reflexivity. Qed.
Print Assumptions C109_idle.

(** The cursor in the second row of a long line with candidates open: output leaves it at the end of that row. *)
Definition bgop (b : rbuf) (s : srch) (c : comp) : op := {| o_b := b; o_h := newOpHistory []; o_s := s; o_c := c; o_vn := false; o_vp := None; o_end := false |}.
Theorem C109_second_row_refuted : exists o out, let s := drawn 6 [62; 32] [97; 98; 99; 100; 101] 5 in
  (s_row s, s_col s) = (1, 1) /\
  wrap_write (mcfg 6 [62; 32]) true [104; 10] (bgop (mbuf [97; 98; 99; 100; 101] 5) s0 (mcomp [[111]; [120]] 0 1)) = Ok (o, out) /\
  seen 6 4 (sexecs u0 6 s out) = ([[104; 32; 32; 32; 32; 32]; [62; 32; 97; 98; 99; 100]; [101; 32; 32; 32; 32; 32]; [111; 32; 120; 32; 32; 32]], (2, 5)).
Proof. eexists _, _. cbn zeta. split; [vm_compute; reflexivity|]. split; [vm_compute; reflexivity|vm_compute; reflexivity]. Qed.
Print Assumptions C109_second_row_refuted.

(** "hi" written while "> fo" has the candidates foo and fox below it, and while a search for "b" shows "abc" *)
Example C109_ex :
  (exists o out, let s := drawn 20 [62; 32] [102; 111] 2 in
     wrap_write (mcfg 20 [62; 32]) true [104; 105; 10] (bgop (mbuf [102; 111] 2) s0 (mcomp [[111]; [120]] 2 1)) = Ok (o, out) /\
     seen 20 3 (sexecs u0 20 s out) =
       ([[104; 105] ++ repeat 32 18; [62; 32; 102; 111] ++ repeat 32 16; [102; 111; 111; 32; 102; 111; 120] ++ repeat 32 13], (1, 4))) /\
  (exists o out, let s := drawn 30 [62; 32] [97; 98; 99] 1 in
     wrap_write (mcfg 30 [62; 32]) true [104; 105; 10] (bgop (mbuf [97; 98; 99] 1) (msrch false true [98] 1 2) c0) = Ok (o, out) /\
     seen 30 3 (sexecs u0 30 s out) =
       ([[104; 105] ++ repeat 32 28; [62; 32; 97; 98; 99] ++ repeat 32 25; status false true [98] ++ repeat 32 15], (1, 3))).
Proof.
  split; eexists _, _; cbn zeta; (split; [vm_compute; reflexivity|]); vm_compute; reflexivity.
Qed.
