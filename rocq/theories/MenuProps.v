(** C95, C96: the candidate menu and the search status on the screen. *)
From Verif Require Import Base RunesModel RunesSpec RuneBufModel RuneBufSpec HistoryModel ScreenModel RenderModel RenderSpec RenderDraw RenderProps OpModel OpSpec OpProps
  MenuSpec MenuProofs MenuMore MenuStep.
Open Scope Z_scope.

(** ** C95: the candidate menu *)

(** With the line on the screen and its cursor in the first row, the menu puts the candidates, each after the text
    already typed, in columns below the line.  The line, the cursor and everything above are as before. *)
Theorem C95_menu_partial : forall cf ps c b y0 s off,
  let u := oc_u cf in let w := oc_w cf in let P := Z.of_nat (length (visible ps)) in
  let n := Z.of_nat (length (rb_buf b)) in let k := P + Z.of_nat (rb_idx b) in
  let same := firstn off (skipn (rb_idx b - off) (rb_buf b)) in
  uenv_ok u -> drawable u ps (op_rdr cf b) -> line_shown w y0 (visible ps ++ rb_buf b) k s ->
  c_off c = Z.of_nat off -> (off <= rb_idx b)%nat -> 0 < k < w ->
  Forall (fun x => Forall (RenderSpec.plain u) x /\ Z.of_nat (off + length x) + 1 < w) (c_cand c) -> Z.of_nat off + 1 < w ->
  P + n + Z.of_nat (length (c_cand c)) <= 9223372036854775807 ->
  exists out cols cw, menu_out cf c b = Ok (out, cols) /\ 0 < cols /\ 0 < cw /\ cols * cw < w /\
    Forall (fun x => Z.of_nat (off + length x) < cw) (c_cand c) /\
    let s' := sexecs u w s out in
    line_shown w y0 (visible ps ++ rb_buf b) k s' /\ same_above y0 s s' /\
    grid_shown w (y0 + rows w (P + n)) cols cw (map (app same) (c_cand c)) s'.
Proof. exact menu_ok. Qed.
Print Assumptions C95_menu_partial.

(** A line drawn as C49 describes is on the screen in this sense. *)
Theorem C95_from_line : forall ps d y0 s, displayed ps d y0 s ->
  line_shown (d_width d) y0 (visible ps ++ d_buf d) (Z.of_nat (length (visible ps)) + Z.of_nat (d_idx d)) s.
Proof. exact displayed_line. Qed.
Print Assumptions C95_from_line.

(** The next change of the line takes the menu (or the search status) away and shows the new line in its place. *)
Theorem C95_redraw : forall u ps d b i y0 s, uenv_ok u -> drawable u ps d -> drawable u ps (with_line b i d) -> d_had d = false ->
  line_shown (d_width d) y0 (visible ps ++ d_buf d) (Z.of_nat (length (visible ps)) + Z.of_nat (d_idx d)) s ->
  exists d' o, refresh u d b i [] = Ok (d', o) /\ d_buf d' = b /\ d_idx d' = i /\
    displayed ps d' y0 (sexecs u (d_width d) s o) /\ same_above y0 s (sexecs u (d_width d) s o).
Proof.
  intros u ps d b i y0 s U D D' H (_ & C). rewrite <- Nat2Z.inj_add in C.
  destruct (refresh_over u ps d b i y0 s U D D' H C) as (d' & o & A & -> & B & E). eauto 10.
Qed.
Print Assumptions C95_redraw.

(** The chosen candidate, and nothing else, is drawn black on white. *)
Theorem C95_chosen : forall cf c b out n x, menu_out cf c b = Ok (out, n) -> c_sel c = true -> 0 <= c_choice c ->
  nth_error (c_cand c) (Z.to_nat (c_choice c)) = Some x ->
  exists a z sp same, RuneSlice (- c_off c) b = Ok same /\
    out = a ++ [27; 91; 51; 48; 59; 52; 55; 109] ++ (same ++ x ++ repeat 32 sp) ++ [27; 91; 48; 109] ++ z /\
    menu_out cf (no_select c) b = Ok (a ++ (same ++ x ++ repeat 32 sp) ++ z, n).
Proof. exact menu_chosen. Qed.
Print Assumptions C95_chosen.
Theorem C95_plain : forall u same cw cols ch cs out m, cells_out u same cw cols ch false cs 0 0 = Ok (out, m) ->
  ~ In 27 same -> Forall (fun c => ~ In 27 c) cs -> ~ In 27 out.
Proof. intros. eapply cells_unselected; eassumption. Qed.
Print Assumptions C95_plain.

(** While candidates are shown, every key redraws the menu: what is on the screen belongs to the current line,
    candidates and choice. *)
Theorem C95_current : forall cf r o o' a, oc_vim cf = false -> oc_filter cf = None -> o_end o = false -> o_vp o = None ->
  s_in (o_s o) = false -> r <> 0 -> op_step cf r o = Ok (o', a) ->
  c_in (o_c o') = true -> exists out, menu_out cf (o_c o') (o_b o') = Ok (out, c_col (o_c o')).
Proof. exact menu_step. Qed.
Print Assumptions C95_current.

(** *** examples *)
Definition mcfg (w : Z) (p : list Z) : ocfg :=
  {| oc_u := u0; oc_h := {| hc_limit := 500; hc_fold := false; hc_file := false |}; oc_w := w; oc_prompt := p;
     oc_auto := Some ab; oc_vim := false; oc_unique := false; oc_nosave := false; oc_listen := None; oc_filter := None;
     oc_eofp := []; oc_intp := [] |}.
Definition mbuf (l : list Z) (i : nat) : rbuf := {| rb_buf := l; rb_idx := i; rb_kill := [] |}.
Definition mcomp (cands : list (list Z)) (off choice : Z) : comp :=
  {| c_in := true; c_sel := true; c_cand := cands; c_src := None; c_off := off; c_choice := choice; c_col := 0 |}.
(** the line drawn on an empty screen *)
Definition drawn (w : Z) (p l : list Z) (i : nat) : scr :=
  match output u0 (op_rdr (mcfg w p) (mbuf l i)) with Ok o => sexecs u0 w scr0 o | _ => scr0 end.
(** rows of the screen afterwards and the cursor *)
Definition seen (w : Z) (n : nat) (s : scr) : list (list Z) * (Z * Z) := (cells s n (Z.to_nat w), (s_row s, s_col s)).

Lemma u0_ascii r : 32 <= r < 127 -> RenderSpec.plain u0 r.
Proof. intros H. assert (F := u0_plain [r] ltac:(repeat constructor; lia)). now inversion F. Qed.
Lemma mdraw w p l i : 0 < w <= 9223372036854775807 -> Forall (fun r => 32 <= r < 127) p -> Forall (fun r => 32 <= r < 127) l ->
  Z.of_nat (length p) + 1 < w -> (i <= length l)%nat ->
  exists ps, visible ps = p /\ drawable u0 ps (op_rdr (mcfg w p) (mbuf l i)).
Proof.
  intros W P L S I. exists (map Vis p).
  assert (V : visible (map Vis p) = p /\ prompt_runes (map Vis p) = p /\ Forall sgr_digits (map Vis p)).
  { clear - P. induction P as [|r p H P (A & B & C)]; [repeat split; constructor|]. cbn [map].
    change (visible (Vis r :: map Vis p)) with (r :: visible (map Vis p)). change (prompt_runes (Vis r :: map Vis p)) with (r :: prompt_runes (map Vis p)).
    rewrite A, B. repeat split. now constructor. }
  destruct V as (V1 & V2 & V3). split; [exact V1|]. constructor; cbn [op_rdr mcfg mbuf d_width d_inter d_mask d_prompt d_buf d_idx d_paint oc_w oc_prompt rb_buf rb_idx];
    try reflexivity; try assumption; try lia; rewrite ?V1, ?V2; try lia; try reflexivity.
  - now apply u0_plain.
  - now apply u0_plain.
  - destruct (default_painter u0 l 0%nat (u0_plain l L)) as (C & _). exact C.
Qed.

(** "> fo" with the candidates foo, foobar and fox, the second one chosen *)
Example C95_ex :
  let b := mbuf [102; 111] 2 in let c := mcomp [[111]; [111; 98; 97; 114]; [120]] 2 1 in let s := drawn 20 [62; 32] [102; 111] 2 in
  (exists ps, visible ps = [62; 32] /\ drawable u0 ps (op_rdr (mcfg 20 [62; 32]) b)) /\
  line_shown 20 0 [62; 32; 102; 111] 4 s /\
  exists out, menu_out (mcfg 20 [62; 32]) c b = Ok (out, 2) /\
    seen 20 4 (sexecs u0 20 s out) =
      ([[62; 32; 102; 111] ++ repeat 32 16;
        [102; 111; 111; 32; 32; 32; 32; 32; 32; 102; 111; 111; 98; 97; 114; 32; 32; 32; 32; 32];
        [102; 111; 120] ++ repeat 32 17;
        repeat 32 20], (0, 4)) /\
    out = [10; 27; 91; 74; 102; 111; 111; 32; 32; 32; 32; 32; 32] ++
      [27; 91; 51; 48; 59; 52; 55; 109] ++ [102; 111; 111; 98; 97; 114; 32; 32; 32] ++ [27; 91; 48; 109] ++
      [10; 102; 111; 120; 32; 32; 32; 32; 32; 32] ++ [27; 91; 50; 65; 13; 27; 91; 52; 67].
Proof.
  cbn zeta. split; [apply mdraw; repeat constructor; cbn; lia|]. split.
  - split; [|vm_compute; repeat split]. intros y x Hy Hx. change (rows 20 (Z.of_nat (length [62; 32; 102; 111]))) with 1 in Hy. assert (y = 0) as -> by lia.
    assert (E : forall i, (i < 20)%nat -> s_cell (drawn 20 [62; 32] [102; 111] 2) 0 (Z.of_nat i) = nth (Z.to_nat ((0 - 0) * 20 + Z.of_nat i)) [62; 32; 102; 111] blank).
    { intros i Hi. do 20 (destruct i as [|i]; [vm_compute; reflexivity|]). lia. }
    rewrite <- (Z2Nat.id x) by lia. apply E. lia.
  - eexists. split; [vm_compute; reflexivity|]. split; [vm_compute; reflexivity|vm_compute; reflexivity].
Qed.

(** The cursor in the second row of a long line: it ends up at the end of that row, so that the next rune seems to go
    elsewhere. *)
Theorem C95_second_row_refuted : exists out n, (* "> abcde" in 6 columns *)
  let s := drawn 6 [62; 32] [97; 98; 99; 100; 101] 5 in
  (s_row s, s_col s) = (1, 1) /\ menu_out (mcfg 6 [62; 32]) (mcomp [[111]; [120]] 0 1) (mbuf [97; 98; 99; 100; 101] 5) = Ok (out, n) /\
  seen 6 3 (sexecs u0 6 s out) = ([[62; 32; 97; 98; 99; 100]; [101; 32; 32; 32; 32; 32]; [111; 32; 120; 32; 32; 32]], (1, 5)).
Proof. eexists _, _. cbn zeta. split; [vm_compute; reflexivity|]. split; [vm_compute; reflexivity|vm_compute; reflexivity]. Qed.
Print Assumptions C95_second_row_refuted.

(** A wide rune before the cursor: the cursor ends up one column to the left. *)
Theorem C95_wide_refuted : exists out n, let s := drawn 20 [62; 32] [19968] 1 in
  (s_row s, s_col s) = (0, 4) /\ menu_out (mcfg 20 [62; 32]) (mcomp [[111]; [120]] 0 1) (mbuf [19968] 1) = Ok (out, n) /\
  let s' := sexecs u0 20 s out in (s_row s', s_col s') = (0, 3).
Proof. eexists _, _. cbn zeta. split; [vm_compute; reflexivity|]. split; [vm_compute; reflexivity|vm_compute; reflexivity]. Qed.
Print Assumptions C95_wide_refuted.

(** A line that fills its row, cursor at the end, that is at the start of the next row: the menu is drawn where the
    cursor is and the next rune is typed over it; the cursor is not where it was. *)
Theorem C95_full_row_refuted : exists out n, let s := drawn 6 [62; 32] [97; 98; 99; 100] 4 in
  (s_row s, s_col s) = (1, 0) /\ menu_out (mcfg 6 [62; 32]) (mcomp [[111]; [120]] 0 1) (mbuf [97; 98; 99; 100] 4) = Ok (out, n) /\
  seen 6 3 (sexecs u0 6 s out) = ([[62; 32; 97; 98; 99; 100]; [111; 32; 120; 32; 32; 32]; repeat 32 6], (1, 5)).
Proof. eexists _, _. cbn zeta. split; [vm_compute; reflexivity|]. split; [vm_compute; reflexivity|vm_compute; reflexivity]. Qed.
Print Assumptions C95_full_row_refuted.

(** No prompt, cursor at the start of the line: it moves one column to the right. *)
Theorem C95_no_prompt_refuted : exists out n, let s := drawn 6 [] [97] 0 in
  (s_row s, s_col s) = (0, 0) /\ menu_out (mcfg 6 []) (mcomp [[111]; [120]] 0 1) (mbuf [97] 0) = Ok (out, n) /\
  seen 6 2 (sexecs u0 6 s out) = ([[97; 32; 32; 32; 32; 32]; [111; 32; 120; 32; 32; 32]], (0, 1)).
Proof. eexists _, _. cbn zeta. split; [vm_compute; reflexivity|]. split; [vm_compute; reflexivity|vm_compute; reflexivity]. Qed.
Print Assumptions C95_no_prompt_refuted.

(** A candidate as wide as the screen: the candidates run on and the cursor ends up in the menu. *)
Theorem C95_wide_candidate_refuted : exists out n, let s := drawn 6 [62] [97] 1 in
  (s_row s, s_col s) = (0, 2) /\ menu_out (mcfg 6 [62]) (mcomp [[111; 111; 111; 111; 112]; [120]] 1 1) (mbuf [97] 1) = Ok (out, n) /\
  seen 6 3 (sexecs u0 6 s out) = ([[62; 97; 32; 32; 32; 32]; [97; 111; 111; 111; 111; 112]; [32; 97; 120; 32; 32; 32]], (2, 2)).
Proof. eexists _, _. cbn zeta. split; [vm_compute; reflexivity|]. split; [vm_compute; reflexivity|vm_compute; reflexivity]. Qed.
Print Assumptions C95_wide_candidate_refuted.

(** Keys: "f", Tab, Tab and Ctrl-F leave the menu open; it has just been drawn. *)
Example C95_current_ex : exists o o' a, op_run (mcfg 20 [62; 32]) [102; 9; 9] fresh = Ok (o, a) /\ s_in (o_s o) = false /\
  op_step (mcfg 20 [62; 32]) 6 o = Ok (o', []) /\ c_in (o_c o') = true /\ c_choice (o_c o') = 1 /\ c_cand (o_c o') = [[97]; [98]].
Proof. eexists _, _, _. split; [vm_compute; reflexivity|]. vm_compute. repeat split. Qed.

(** ** C96: the search status *)

(** With the line on the screen, not ending exactly at the edge with the cursor behind it, and the match in the
    cursor's row, a search shows its status in the row below the line and nothing else; the line, the cursor and
    everything above are as before. *)
Theorem C96_status_partial : forall cf ps x st b y0 s,
  let u := oc_u cf in let w := oc_w cf in let P := Z.of_nat (length (visible ps)) in
  let n := Z.of_nat (length (rb_buf b)) in let k := P + Z.of_nat (rb_idx b) in let text := status (s_fail st) (s_bck st) (s_data st) in
  uenv_ok u -> (forall r, 32 <= r < 127 -> Width u r = 1%nat) -> drawable u ps (op_rdr cf b) ->
  line_shown w y0 (visible ps ++ rb_buf b) k s ->
  x < 0 \/ x = Z.of_nat (rb_idx b) -> 0 < P + n -> ~ (rb_idx b = length (rb_buf b) /\ (P + n) mod w = 0) ->
  s_ms st = 0%nat \/ (s_ms st <= s_me st <= length (rb_buf b))%nat /\ (P + Z.of_nat (s_ms st)) / w = k / w /\ (P + Z.of_nat (s_me st)) / w = k / w ->
  Forall (RenderSpec.plain u) (s_data st) -> Z.of_nat (length text) + 1 < w -> P + n <= 9223372036854775807 ->
  exists out, search_out cf x st b = Ok out /\
    let s' := sexecs u w s out in
    line_shown w y0 (visible ps ++ rb_buf b) k s' /\ same_above y0 s s' /\ shows_text w (y0 + rows w (P + n)) text s'.
Proof. exact search_ok. Qed.
Print Assumptions C96_status_partial.

Definition msrch (failing backward : bool) (d : list Z) (ms me : nat) : srch :=
  {| s_in := true; s_fail := failing; s_bck := backward; s_src := None; s_data := d; s_ms := ms; s_me := me |}.

(** Searching backward for "b", found in "abc" *)
Example C96_ex :
  let b := mbuf [97; 98; 99] 1 in let s := drawn 30 [62; 32] [97; 98; 99] 1 in
  (exists ps, visible ps = [62; 32] /\ drawable u0 ps (op_rdr (mcfg 30 [62; 32]) b)) /\ (s_row s, s_col s) = (0, 3) /\
  exists out, search_out (mcfg 30 [62; 32]) 1 (msrch false true [98] 1 2) b = Ok out /\
    seen 30 3 (sexecs u0 30 s out) =
      ([[62; 32; 97; 98; 99] ++ repeat 32 25;
        [98; 99; 107; 45; 105; 45; 115; 101; 97; 114; 99; 104; 58; 32; 98] ++ repeat 32 15; repeat 32 30], (0, 3)).
Proof.
  cbn zeta. split; [apply mdraw; repeat constructor; cbn; lia|]. split; [vm_compute; reflexivity|]. eexists. split; [vm_compute; reflexivity|vm_compute; reflexivity].
Qed.

(** A match that goes on in the next row: the status appears one row too low, the cursor too. *)
Theorem C96_match_rows_refuted : exists out, let l := repeat 97 22 in let s := drawn 20 [62; 32] l 17 in
  (s_row s, s_col s) = (0, 19) /\ search_out (mcfg 20 [62; 32]) 17 (msrch false true [97; 97; 97] 17 20) (mbuf l 17) = Ok out /\
  let s' := sexecs u0 20 s out in (s_row s', s_col s') = (1, 19) /\ s_cell s' 2 0 = 32 /\ s_cell s' 3 0 = 98.
Proof. eexists. cbn zeta. split; [vm_compute; reflexivity|]. split; [vm_compute; reflexivity|]. vm_compute. repeat split. Qed.
Print Assumptions C96_match_rows_refuted.

(** A status that does not fit its row: the cursor ends up one row too low. *)
Theorem C96_long_status_refuted : exists out, let s := drawn 20 [62; 32] [97; 98; 99] 1 in
  (s_row s, s_col s) = (0, 3) /\ search_out (mcfg 20 [62; 32]) 1 (msrch false true (repeat 98 7) 1 2) (mbuf [97; 98; 99] 1) = Ok out /\
  let s' := sexecs u0 20 s out in (s_row s', s_col s') = (1, 3).
Proof. eexists. cbn zeta. split; [vm_compute; reflexivity|]. split; [vm_compute; reflexivity|vm_compute; reflexivity]. Qed.
Print Assumptions C96_long_status_refuted.

(** A line that fills its row, cursor at its end: the status is drawn in the cursor's row and the cursor moves up onto
    the prompt. *)
Theorem C96_full_row_refuted : exists out, let l := repeat 97 18 in let s := drawn 20 [62; 32] l 18 in
  (s_row s, s_col s) = (1, 0) /\ search_out (mcfg 20 [62; 32]) (-1) (msrch false true [] 0 0) (mbuf l 18) = Ok out /\
  let s' := sexecs u0 20 s out in (s_row s', s_col s') = (0, 0) /\ s_cell s' 1 0 = 98.
Proof. eexists. cbn zeta. split; [vm_compute; reflexivity|]. split; [vm_compute; reflexivity|]. vm_compute. repeat split. Qed.
Print Assumptions C96_full_row_refuted.
