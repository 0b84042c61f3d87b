(** Property C100: cursor movement and erasing on a Windows console. *)
From Verif Require Import Base ListAux TerminalModel TerminalSpec AnsiWinModel AnsiWinSpec AnsiWinProofs AnsiWinProps WinConModel WinConSpec.
Open Scope Z_scope.

Lemma short_id v : -32768 <= v <= 32767 -> short v = v.
Proof. intros H. unfold short. rewrite Z.mod_small; lia. Qed.
Lemma short_low v : -98304 <= v < -32768 -> short v = v + 65536.
Proof. intros H. unfold short. replace (v + 32768) with (v + 65536 + 32768 + (-1) * 65536) by lia. rewrite Z.mod_add, Z.mod_small by lia. lia. Qed.
Lemma short_high v : 32767 < v <= 98303 -> short v = v - 65536.
Proof. intros H. unfold short. replace (v + 32768) with (v - 65536 + 32768 + 1 * 65536) by lia. rewrite Z.mod_add, Z.mod_small by lia. lia. Qed.
Lemma short_period v k : short (v + k * 65536) = short v.
Proof. unfold short. replace (v + k * 65536 + 32768) with (v + 32768 + k * 65536) by lia. now rewrite Z.mod_add by lia. Qed.
Lemma short_range v : -32768 <= short v <= 32767.
Proof. unfold short. pose proof (Z.mod_pos_bound (v + 32768) 65536 ltac:(lia)). lia. Qed.
Lemma short_eq v : exists k, short v = v + k * 65536.
Proof.
  exists (- ((v + 32768) / 65536)). unfold short. rewrite (Z.mod_eq (v + 32768) 65536) by lia. lia.
Qed.
Lemma short_mul a b : short (short a * b) = short (a * b).
Proof. destruct (short_eq a) as (k & ->). replace ((a + k * 65536) * b) with (a * b + (k * b) * 65536) by lia. apply short_period. Qed.
Lemma short_add a b : short (short a + b) = short (a + b).
Proof. destruct (short_eq a) as (k & ->). replace (a + k * 65536 + b) with (a + b + k * 65536) by lia. apply short_period. Qed.

(** The number in a movement sequence: one when there is none. *)
Definition count (d : list Z) : Z := match d with [] => 1 | _ => decimal d end.

Lemma move_write d f s : 65 <= f <= 68 -> Forall (fun r => 48 <= r <= 57) d -> count d <= 32767 ->
  console_write ([27; 91] ++ d ++ [f]) s = Ok (wcon_do (WMove f (count d)) s).
Proof.
  intros Hf F L. destruct (C89_moves wctx0 d f eq_refl Hf F) as (A & B & _ & _).
  assert (exists s', w_seq s' = false /\ w_esc s' = false /\ wwrite wctx0 ([27; 91] ++ d ++ [f]) = Ok (s', [WMove f (count d)])) as (s' & _ & _ & E).
  { destruct d; [apply A; reflexivity|]. apply B; [discriminate|exact L]. }
  unfold console_write. rewrite E. cbn [obind snd wcon_all]. now destruct (wcon_do (WMove f (count d)) s).
Qed.

Lemma set_cursor_in x y s : inside (x, y) s -> only_cursor (x, y) s (set_cursor x y s).
Proof.
  intros (A & B). cbn in A, B. unfold set_cursor.
  replace ((0 <=? x) && (x <? c_w s) && (0 <=? y) && (y <? c_h s)) with true by lia.
  unfold only_cursor. cbn. repeat (split; [auto|]). reflexivity.
Qed.
Lemma set_cursor_out x y s : ~ inside (x, y) s -> set_cursor x y s = s.
Proof.
  intros N. unfold set_cursor. destruct ((0 <=? x) && (x <? c_w s) && (0 <=? y) && (y <? c_h s)) eqn:E; [|reflexivity].
  exfalso. apply N. unfold inside. cbn. lia.
Qed.

Lemma move_do f n s : con_ok s -> 65 <= f <= 68 -> 0 <= n <= 32767 ->
  exists p, wcon_do (WMove f n) s = Some (set_cursor (fst p) (snd p) s) /\ (inside (target f n s) s -> p = target f n s) /\
    (~ inside (target f n s) s -> ~ inside p s).
Proof.
  intros (W & H & X & Y) Hf Hn.
  assert (C : f = 65 \/ f = 66 \/ f = 67 \/ f = 68) by lia. unfold inside, target.
  destruct C as [->|[->|[->| ->]]]; cbn [Z.eqb Pos.eqb wcon_do fst snd].
  - exists (c_x s, short (c_y s - n)). cbn [fst snd]. split; [reflexivity|]. rewrite short_id by lia. split; [reflexivity|lia].
  - exists (c_x s, short (c_y s + n)). cbn [fst snd]. split; [reflexivity|].
    destruct (Z.leb_spec (c_y s + n) 32767); [rewrite short_id by lia|rewrite short_high by lia]; split; intros; try reflexivity; lia.
  - exists (short (c_x s + n), c_y s). cbn [fst snd]. split; [reflexivity|].
    destruct (Z.leb_spec (c_x s + n) 32767); [rewrite short_id by lia|rewrite short_high by lia]; split; intros; try reflexivity; lia.
  - exists (short (c_x s - n), c_y s). cbn [fst snd]. split; [reflexivity|]. rewrite short_id by lia. split; [reflexivity|lia].
Qed.

Lemma decimal_pos d : Forall (fun r => 48 <= r <= 57) d -> 0 <= count d.
Proof.
  intros F. unfold count. destruct d as [|a d]; [lia|]. revert F. generalize (a :: d). clear. intros d F. unfold decimal.
  cut (forall a, 0 <= a -> 0 <= fold_left (fun a r => a * 10 + (r - 48)) d a); [intros X; apply X; lia|].
  induction F as [|r d R _ IH]; intros a A; [exact A|]. cbn. apply IH. lia.
Qed.

(** C100: ESC[nA to ESC[nD move the cursor by n and change nothing else, if that stays inside the buffer.  Missing: the
    edges, for which the full statement (stop at the edge) is false (C100_edge_refuted). *)
Theorem C100_move_partial : forall s d f, con_ok s -> 65 <= f <= 68 -> Forall (fun r => 48 <= r <= 57) d -> count d <= 32767 ->
  inside (target f (count d) s) s ->
  exists s', console_write ([27; 91] ++ d ++ [f]) s = Ok (Some s') /\ only_cursor (target f (count d) s) s s'.
Proof.
  intros s d f K Hf F L I. rewrite move_write by assumption. pose proof (decimal_pos d F) as P.
  destruct (move_do f (count d) s K Hf (conj P L)) as (p & E & A & _). specialize (A I). rewrite E, A.
  destruct (target f (count d) s) as [x y] eqn:T. cbn [fst snd]. eexists. split; [reflexivity|]. apply set_cursor_in. exact I.
Qed.
Print Assumptions C100_move_partial.
(** A movement across an edge does nothing at all. *)
Theorem C100_outside : forall s d f, con_ok s -> 65 <= f <= 68 -> Forall (fun r => 48 <= r <= 57) d -> count d <= 32767 ->
  ~ inside (target f (count d) s) s -> console_write ([27; 91] ++ d ++ [f]) s = Ok (Some s).
Proof.
  intros s d f K Hf F L I. rewrite move_write by assumption. pose proof (decimal_pos d F) as P.
  destruct (move_do f (count d) s K Hf (conj P L)) as (p & E & _ & B). rewrite E. destruct p as [x y]. cbn [fst snd].
  now rewrite set_cursor_out by (exact (B I)).
Qed.
Print Assumptions C100_outside.
Definition con (w h x y : Z) : wcon := {| c_w := w; c_h := h; c_x := x; c_y := y; c_cell := fun _ => 97; c_color := fun _ => 12; c_now := 7 |}.
(** "Stop at the edge" fails: nine columns to the right of column 75 of 80 is still column 75. *)
Theorem C100_edge_refuted : exists s, con_ok s /\ c_w s = 80 /\ c_x s = 75 /\
  console_write [27; 91; 57; 67] s = Ok (Some s).
Proof. exists (con 80 25 75 3). split; [unfold con_ok; cbn; lia|]. split; [reflexivity|]. split; reflexivity. Qed.
Print Assumptions C100_edge_refuted.
(** The editor's own sequence for "last column of the row above" (runebuf.go:533-534, with the width of the console) ends
    in the first column of that row, on every console. *)
Theorem C100_row_above : forall s d, con_ok s -> 1 <= c_y s -> Forall (fun r => 48 <= r <= 57) d -> d <> [] -> decimal d = c_w s ->
  exists s', console_write ([27; 91; 65] ++ [13] ++ [27; 91] ++ d ++ [67]) s = Ok (Some s') /\ only_cursor (0, c_y s - 1) s s'.
Proof.
  intros s d K Y F N D. assert (C : count d = c_w s) by (destruct d; [contradiction|exact D]).
  assert (K' := K). destruct K' as (W & H & X & _).
  set (s1 := {| c_w := c_w s; c_h := c_h s; c_x := 0; c_y := c_y s - 1; c_cell := c_cell s; c_color := c_color s; c_now := c_now s |}).
  exists s1. split; [|unfold only_cursor; cbn; repeat (split; [auto|]); reflexivity].
  assert (K1 : con_ok s1) by (unfold con_ok; cbn; destruct K as (_ & _ & _ & ?); lia).
  pose proof (C100_outside s1 d 67 K1 ltac:(lia) F ltac:(lia)) as O.
  assert (O1 : console_write ([27; 91] ++ d ++ [67]) s1 = Ok (Some s1)).
  { apply O. unfold inside, target. cbn. lia. }
  unfold console_write in *. set (t := [27; 91] ++ d ++ [67]) in *. clearbody t.
  change ([27; 91; 65] ++ [13] ++ t) with ([27; 91; 65; 13] ++ t). rewrite wwrite_app.
  assert (E : wwrite wctx0 [27; 91; 65; 13] = Ok (wctx0, [WMove 65 1; WText 13])) by reflexivity.
  rewrite E. cbn [obind fst]. destruct (wwrite wctx0 t) as [[c os]| |]; [|discriminate|discriminate].
  cbn [obind fst snd] in *. injection O1 as O1. cbn [app wcon_all wcon_do Z.eqb Pos.eqb].
  rewrite short_id by (destruct K as (_ & _ & _ & ?); lia). unfold set_cursor.
  replace ((0 <=? c_x s) && (c_x s <? c_w s) && (0 <=? c_y s - 1) && (c_y s - 1 <? c_h s)) with true
    by (destruct K as (_ & _ & _ & ?); lia). cbn [c_w c_h c_x c_y c_cell c_color c_now]. fold s1. now rewrite O1.
Qed.
Print Assumptions C100_row_above.

(** ** Erasing below the cursor *)
(** C100: how many cells ESC[J blanks, on every console: all up to the end of the buffer when their number is between 1
    and 32768 modulo 65536, otherwise the difference to the next multiple of 65536. *)
Definition kill_count (s : wcon) : Z :=
  let m := cells_left s mod 65536 in
  if (1 <=? m) && (m <=? 32768) then cells_left s else (65536 - m) mod 65536.
Theorem C100_clear_below : forall s, con_ok s ->
  exists s', console_write [27; 91; 74] s = Ok (Some s') /\ blanked (kill_count s) s s'.
Proof.
  intros s K. exists (killLines s). split; [reflexivity|]. unfold blanked, killLines.
  cbn [c_w c_h c_x c_y c_cell c_color c_now]. repeat (split; [reflexivity|]). intros i Hi. cbn zeta.
  assert (Z0 : short (short (short (c_y s - c_h s) * c_w s) + c_x s) = short (- cells_left s)).
  { rewrite short_mul, short_add. f_equal. unfold cells_left. lia. }
  rewrite Z0. fold (c_at s). unfold fill.
  assert (R : c_at s < c_w s * c_h s /\ cells_left s = c_w s * c_h s - c_at s /\ 0 <= c_at s /\ c_w s * c_h s <= 1073676289).
  { destruct K as (W & H & X & Y). unfold c_at, cells_left. split; [nia|]. split; [reflexivity|]. split; nia. }
  destruct R as (R1 & R2 & R3 & R4).
  assert (N : (c_at s <=? i) && (i <? c_at s + dword (short (- cells_left s))) && (i <? c_w s * c_h s) =
              (c_at s <=? i) && (i <? c_at s + kill_count s)).
  { unfold kill_count. set (n := cells_left s) in *. pose proof (Z.mod_pos_bound n 65536 ltac:(lia)) as M.
    assert (Q : exists k, n = n mod 65536 + k * 65536) by (exists (n / 65536); rewrite (Z.mod_eq n 65536) by lia; lia).
    destruct Q as (k & Q). set (m := n mod 65536) in *. cbn zeta.
    assert (S : short (- n) = short (- m)) by (rewrite Q; replace (- (m + k * 65536)) with (- m + (- k) * 65536) by lia; apply short_period).
    rewrite S. unfold dword. destruct ((1 <=? m) && (m <=? 32768)) eqn:B.
    - rewrite short_id by lia. replace (- m) with (4294967296 - m + (-1) * 4294967296) by lia. rewrite Z.mod_add, Z.mod_small by lia. lia.
    - destruct (Z.eqb_spec m 0) as [M0|M0].
      + rewrite M0. cbn [Z.opp]. change (short 0) with 0. change (0 mod 4294967296) with 0. change ((65536 - 0) mod 65536) with 0. lia.
      + rewrite short_low by lia. rewrite !Z.mod_small by lia.
        replace (- m + 65536) with (65536 - m) by lia.
        assert (65536 - m <= n) by lia. lia. }
  rewrite N. split; reflexivity.
Qed.
Print Assumptions C100_clear_below.
(** So everything from the cursor on is cleared when at most 32768 cells are left.  Missing: larger buffers, where it is
    false. *)
Theorem C100_clear_below_partial : forall s, con_ok s -> cells_left s <= 32768 ->
  exists s', console_write [27; 91; 74] s = Ok (Some s') /\ blanked (cells_left s) s s'.
Proof.
  intros s K L. destruct (C100_clear_below s K) as (s' & E & B). exists s'. split; [exact E|].
  assert (1 <= cells_left s) by (destruct K as (W & H & X & Y); unfold cells_left; nia).
  unfold kill_count in B. rewrite Z.mod_small in B by lia. replace ((1 <=? cells_left s) && (cells_left s <=? 32768)) with true in B by lia. exact B.
Qed.
Print Assumptions C100_clear_below_partial.
(** In a buffer of 128 columns and 9001 rows, 512 rows from the end, ESC[J clears nothing at all. *)
Theorem C100_clear_below_refuted : exists s, con_ok s /\ c_w s = 128 /\ c_h s = 9001 /\ cells_left s = 65536 /\
  exists s', console_write [27; 91; 74] s = Ok (Some s') /\ forall i, c_cell s' i = c_cell s i.
Proof.
  exists (con 128 9001 0 8489). split; [unfold con_ok; cbn; lia|]. split; [reflexivity|]. split; [reflexivity|]. split; [reflexivity|].
  exists (killLines (con 128 9001 0 8489)). split; [reflexivity|]. intros i. unfold killLines. cbn [c_cell].
  change (dword _) with 0. unfold fill. replace ((c_at (con 128 9001 0 8489) <=? i) && (i <? c_at (con 128 9001 0 8489) + 0)) with false by lia. reflexivity.
Qed.
Print Assumptions C100_clear_below_refuted.

(** ** Erasing a line *)
(** C100: ESC[2K blanks the cursor's row, leaves the other rows, the colours and the cursor. *)
Theorem C100_erase_line : forall s, con_ok s ->
  exists s', console_write [27; 91; 50; 75] s = Ok (Some s') /\ c_x s' = c_x s /\ c_y s' = c_y s /\ c_w s' = c_w s /\ c_h s' = c_h s /\
    forall x y, 0 <= x < c_w s -> 0 <= y < c_h s ->
      c_cell s' (y * c_w s + x) = (if y =? c_y s then 32 else c_cell s (y * c_w s + x)) /\
      c_color s' (y * c_w s + x) = c_color s (y * c_w s + x).
Proof.
  intros s (W & H & X & Y). exists (eraseLine s). split; [reflexivity|]. repeat (split; [reflexivity|]).
  intros x y Hx Hy. split; [|reflexivity]. unfold eraseLine, fill. cbn [c_cell]. unfold dword. rewrite Z.mod_small by lia.
  assert (B : y * c_w s + x < c_w s * c_h s) by nia.
  destruct (Z.eqb_spec y (c_y s)) as [->|N].
  - replace ((c_y s * c_w s + 0 <=? c_y s * c_w s + x) && (c_y s * c_w s + x <? c_y s * c_w s + 0 + c_w s) &&
      (c_y s * c_w s + x <? c_w s * c_h s)) with true by lia. reflexivity.
  - assert (D : y * c_w s + x < c_y s * c_w s \/ (c_y s + 1) * c_w s <= y * c_w s + x) by nia.
    replace ((c_y s * c_w s + 0 <=? y * c_w s + x) && (y * c_w s + x <? c_y s * c_w s + 0 + c_w s) &&
      (y * c_w s + x <? c_w s * c_h s)) with false by lia. reflexivity.
Qed.
Print Assumptions C100_erase_line.
(** ESC[K ("from the cursor to the end of the line") also erases what is before the cursor. *)
Theorem C100_erase_to_end_refuted : exists s s', con_ok s /\ c_x s = 5 /\ console_write [27; 91; 75] s = Ok (Some s') /\
  c_cell s (c_y s * c_w s + 2) = 97 /\ c_cell s' (c_y s * c_w s + 2) = 32.
Proof.
  exists (con 80 25 5 3), (eraseLine (con 80 25 5 3)). split; [unfold con_ok; cbn; lia|]. split; [reflexivity|].
  split; [reflexivity|]. split; reflexivity.
Qed.
Print Assumptions C100_erase_to_end_refuted.
Example C100_ex : con_ok (con 80 25 5 3) /\ inside (target 67 12 (con 80 25 5 3)) (con 80 25 5 3) /\ count [49; 50] = 12 /\
  cells_left (con 80 300 5 3) <= 32768 /\ kill_count (con 80 25 5 3) = 1755 /\ kill_count (con 120 9001 0 9000) = 120.
Proof. unfold con_ok, inside. cbn. repeat split; vm_compute; congruence. Qed.
