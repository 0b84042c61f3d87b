(** Properties C06-C16: line editing. *)
From Verif Require Import Base ListAux RunesModel RuneBufModel RuneBufSpec RuneBufProofs.
Open Scope nat_scope.

(** C06 *)
Theorem C06_cursor_inside : forall es s,
  no_short_transpose es rb_empty -> run_edits es rb_empty = Ok s -> rb_idx s <= length (rb_buf s).
Proof. exact (fun es s => edits_inside es rb_empty s (le_n 0)). Qed.
Print Assumptions C06_cursor_inside.

Theorem C06_step : forall e s s', rb_idx s <= length (rb_buf s) ->
  (e = ETranspose -> length (rb_buf s) <> 1) ->
  run_edit e s = Ok s' -> rb_idx s' <= length (rb_buf s').
Proof.
  exact (fun e s s' H N E => edits_inside [e] s s' H (conj N (fun _ _ => I))
    (eq_trans (f_equal (fun x => obind x (fun s1 => run_edits [] s1)) E) eq_refl)).
Qed.
Print Assumptions C06_step.
Example C06_ex : let es := [EWrite [97;98;99]%Z; EBackward; ETranspose; EKillFront; EYank; EPrevWord] in
  no_short_transpose es rb_empty /\ exists s, run_edits es rb_empty = Ok s /\ rb_buf s = [97;99;98]%Z.
Proof.
  split; [|eexists; split; reflexivity].
  cbn. repeat match goal with
  | |- True => exact I
  | |- _ /\ _ => split
  | |- _ = ETranspose -> _ => intros X; first [discriminate X | clear X; cbn; lia]
  | |- forall s', _ -> _ => let Q := fresh in intros ? Q; injection Q as <-; cbn
  end.
Qed.

(** C06, finding: transposing a line of one rune moves the cursor behind the end,
    and the next typed rune panics. *)
Theorem C06_short_transpose_refuted : exists es s,
  run_edits es rb_empty = Ok s /\ length (rb_buf s) < rb_idx s /\
  run_edits (es ++ [EWrite [98]%Z]) rb_empty = Panic.
Proof.
  exists [EWrite [97]%Z; ETranspose]. eexists. split; [vm_compute; reflexivity|].
  split; [cbn; lia|reflexivity].
Qed.
Print Assumptions C06_short_transpose_refuted.

(** C07 *)
Theorem C07_motion_keeps_text : forall e s s', is_motion e = true -> run_edit e s = Ok s' ->
  rb_buf s' = rb_buf s /\ rb_kill s' = rb_kill s.
Proof. exact motion_keeps. Qed.
Print Assumptions C07_motion_keeps_text.
Example C07_ex : let s := line [97;32]%Z [98;99;32;100]%Z [120]%Z in
  run_edit EEndWord s = Ok (with_idx 3 s) /\ run_edit (EMoveTo 100 true false) s = Ok (with_idx 4 s).
Proof. split; reflexivity. Qed.

(** C08 *)
Theorem C08_insert_at_cursor : forall l r k t, run_edit (EWrite t) (line l r k) = Ok (line (l ++ t) r k).
Proof. exact (fun l r k t => write_line t l r k). Qed.
Print Assumptions C08_insert_at_cursor.

(** every state with the cursor inside the line is of the form [line l r k] *)
Theorem C08_line_form : forall s, rb_idx s <= length (rb_buf s) -> exists l r, s = line l r (rb_kill s).
Proof. exact (fun s H => ex_intro _ _ (ex_intro _ _ (inside_line s H))). Qed.
Print Assumptions C08_line_form.
Example C08_ex : run_edit (EWrite [120;121]%Z) {| rb_buf := [97;98]%Z; rb_idx := 1; rb_kill := [] |}
  = Ok {| rb_buf := [97;120;121;98]%Z; rb_idx := 3; rb_kill := [] |}.
Proof. reflexivity. Qed.

(** C09 *)
Theorem C09_backspace : forall l x r k, run_edit EBackspace (line (l ++ [x]) r k) = Ok (line l r k).
Proof. exact backspace_line. Qed.
Print Assumptions C09_backspace.

Theorem C09_backspace_at_start : forall r k, run_edit EBackspace (line [] r k) = Ok (line [] r k).
Proof. exact backspace_start. Qed.
Print Assumptions C09_backspace_at_start.

Theorem C09_delete : forall l x r k, Delete (line l (x :: r) k) = Ok (line l r [x], true).
Proof. exact delete_line. Qed.
Print Assumptions C09_delete.

Theorem C09_delete_at_end : forall l k, Delete (line l [] k) = Ok (line l [] k, false).
Proof. exact delete_end. Qed.
Print Assumptions C09_delete_at_end.
Example C09_ex : run_edits [EBackspace; EDelete] (line [97;98] [99;100] [])%Z = Ok (line [97] [100] [99])%Z.
Proof. reflexivity. Qed.

(** C10 *)
Theorem C10_kill_removes_range : forall e s, is_kill e = true -> rb_idx s <= length (rb_buf s) ->
  run_edit e s = Ok s \/
  exists l k r, rb_buf s = l ++ k ++ r /\ length l <= rb_idx s <= length (l ++ k) /\
    (rb_idx s = length l \/ rb_idx s = length (l ++ k) \/ l = [] /\ r = []) /\
    run_edit e s = Ok (line l r k).
Proof. exact kill_shape. Qed.
Print Assumptions C10_kill_removes_range.

Theorem C10_kill_then_yank : forall e s s1 s2, is_kill e = true -> rb_idx s <= length (rb_buf s) ->
  run_edit e s = Ok s1 -> rb_buf s1 <> rb_buf s -> run_edit EYank s1 = Ok s2 -> rb_buf s2 = rb_buf s.
Proof. exact kill_yank. Qed.
Print Assumptions C10_kill_then_yank.

Theorem C10_yank : forall l r k, run_edit EYank (line l r k) = Ok (line (l ++ k) r k).
Proof. exact yank_line. Qed.
Print Assumptions C10_yank.

Theorem C10_ctrl_k : forall l r k, run_edit EKill (line l r k) = Ok (line l [] r).
Proof. exact kill_line. Qed.
Print Assumptions C10_ctrl_k.

Theorem C10_ctrl_u : forall l r k, l <> [] -> run_edit EKillFront (line l r k) = Ok (line [] r l).
Proof. exact killfront_line. Qed.
Print Assumptions C10_ctrl_u.

Theorem C10_erase : forall l r k, run_edit EErase (line l r k) = Ok (line [] [] (l ++ r)).
Proof. exact erase_line. Qed.
Print Assumptions C10_erase.
Example C10_ex : let s := (line [97;98] [99;32;100] [7])%Z in
  run_edits [EDeleteWord; EYank] s = Ok (line [97;98;99] [32;100] [99])%Z /\
  run_edits [EErase; EYank] s = Ok (line [97;98;99;32;100] [] [97;98;99;32;100])%Z.
Proof. split; reflexivity. Qed.

(** C11: correct whenever the word does not start the line, or nothing precedes it but the cursor is at the end. *)
Theorem C11_cut_previous_word_partial : forall s p, rb_idx s <= length (rb_buf s) ->
  greatest (fun j => j < rb_idx s /\ word_start (rb_buf s) j) p ->
  run_edit EBackEscapeWord s =
    Ok (line (firstn p (rb_buf s)) (skipn (rb_idx s) (rb_buf s)) (firstn (rb_idx s - p) (skipn p (rb_buf s)))).
Proof.
  intros s p H G. destruct (backescape_spec s H) as [(q & G' & E)|(N & _)].
  - destruct G as ((L & _) & _). lia.
  - destruct G as ((L & W) & M), G' as ((L' & W') & M').
    pose proof (M q (conj L' W')). pose proof (M' p (conj L W)). replace p with q by lia. exact E.
  - destruct G as ((L & W) & _). now elim (N p L).
Qed.
Print Assumptions C11_cut_previous_word_partial.
(* Missing for the full C11: the case of a word starting at column 0, where the claim is false:
   everything is erased and the kill buffer is not set, exactly as stated next. *)
Theorem C11_first_word_erases_line : forall s, rb_idx s <= length (rb_buf s) -> 0 < rb_idx s ->
  (forall j, j < rb_idx s -> ~ word_start (rb_buf s) j) ->
  run_edit EBackEscapeWord s = Ok (line [] [] (rb_kill s)).
Proof.
  intros s H P N. destruct (backescape_spec s H P) as [(q & ((L & W) & _) & _)|(_ & E)]; [now elim (N q L)|exact E].
Qed.
Print Assumptions C11_first_word_erases_line.

Theorem C11_cut_previous_word_refuted : exists l r k s,
  ~ In 32%Z l /\ l <> [] /\ run_edit EBackEscapeWord (line l r k) = Ok s /\ rb_buf s <> r /\ rb_kill s <> l.
Proof.
  exists [97;98]%Z, [32;99]%Z, []. eexists. split; [cbn; intuition discriminate|].
  split; [discriminate|]. split; [vm_compute; reflexivity|]. split; discriminate.
Qed.
Print Assumptions C11_cut_previous_word_refuted.
Example C11_ex : run_edit EBackEscapeWord (line [97;32;98;99] [100] [])%Z = Ok (line [97;32] [100] [98;99])%Z /\
  greatest (fun j => j < 4 /\ word_start [97;32;98;99;100]%Z j) 2.
Proof.
  split; [reflexivity|]. split.
  - split; [lia|]. split; [lia|]. split; eexists; (split; [reflexivity|unfold alnum; lia]).
  - intros [|[|[|[|j]]]] (H & _ & _ & (x & E & N)); try lia; cbn in E; injection E as <-; elim N; unfold alnum; lia.
Qed.

(** C12 *)
Theorem C12_backward_word : forall s, rb_idx s <= length (rb_buf s) -> 0 < rb_idx s ->
  exists p, run_edit EPrevWord s = Ok (with_idx p s) /\
    (greatest (fun j => j < rb_idx s /\ word_start (rb_buf s) j) p
     \/ p = 0 /\ forall j, j < rb_idx s -> ~ word_start (rb_buf s) j).
Proof.
  intros s H P. destruct (prevword_spec s H P) as (p & E & C). exists p. split; [|exact C].
  cbn [run_edit]. rewrite E. reflexivity.
Qed.
Print Assumptions C12_backward_word.

Theorem C12_forward_word : forall s, rb_idx s <= length (rb_buf s) ->
  exists p, run_edit ENextWord s = Ok (with_idx p s) /\
    (least (fun j => rb_idx s < j /\ word_start (rb_buf s) j) p
     \/ p = length (rb_buf s) /\ forall j, rb_idx s < j -> ~ word_start (rb_buf s) j).
Proof. exact nextword_spec. Qed.
Print Assumptions C12_forward_word.

Theorem C12_end_of_word : forall s, rb_idx s < length (rb_buf s) ->
  (rb_idx s + 1 = length (rb_buf s) -> other_at (rb_buf s) (rb_idx s)) ->
  exists p, run_edit EEndWord s = Ok (with_idx p s) /\
    (least (fun j => rb_idx s < j /\ word_end (rb_buf s) j) p
     \/ p = length (rb_buf s) /\ forall j, rb_idx s < j -> ~ word_end (rb_buf s) j).
Proof. exact endword_spec. Qed.
Print Assumptions C12_end_of_word.
Example C12_ex : let s := (line [97;98;32;99] [100;45;101;102] [])%Z in
  run_edit EPrevWord s = Ok (with_idx 3 s) /\ run_edit ENextWord s = Ok (with_idx 6 s) /\
  run_edit EEndWord s = Ok (with_idx 8 s) /\ run_edit EEndWord (with_idx 0 s) = Ok (with_idx 1 s).
Proof. repeat split; reflexivity. Qed.

(** C13 *)
Theorem C13_delete_word : forall s, rb_idx s <= length (rb_buf s) -> rb_idx s < length (rb_buf s) ->
  exists e, run_edit EDeleteWord s =
      Ok (line (firstn (rb_idx s) (rb_buf s)) (skipn e (rb_buf s))
            (firstn (e - rb_idx s) (skipn (rb_idx s) (rb_buf s)))) /\
    rb_idx s <= e <= length (rb_buf s) /\
    let next_start := fun i => word_start (rb_buf s) i /\
                       exists w, rb_idx s <= w < i /\ alnum_at (rb_buf s) w in
    (least next_start (e + 1) \/ e = length (rb_buf s) /\ forall i, ~ next_start i).
Proof. exact deleteword_spec. Qed.
Print Assumptions C13_delete_word.

Theorem C13_delete_word_at_end : forall l k, run_edit EDeleteWord (line l [] k) = Ok (line l [] k).
Proof. exact deleteword_end. Qed.
Print Assumptions C13_delete_word_at_end.
Example C13_ex :
  run_edit EDeleteWord (line [97] [32;98;99;32;45;100] [])%Z = Ok (line [97] [45;100] [32;98;99;32])%Z.
Proof. reflexivity. Qed.

(** C14 *)
Theorem C14_transpose : forall s, 2 <= length (rb_buf s) ->
  exists l x y r, rb_buf s = l ++ x :: y :: r /\
    run_edit ETranspose s = Ok (line (l ++ [y; x]) r (rb_kill s)) /\
    (rb_idx s = 0 /\ l = [] \/ rb_idx s = length l + 1 \/ length (rb_buf s) <= rb_idx s /\ r = []).
Proof. exact transpose_spec. Qed.
Print Assumptions C14_transpose.

Theorem C14_transpose_short : forall s, length (rb_buf s) <= 1 ->
  run_edit ETranspose s = Ok (with_idx (rb_idx s + length (rb_buf s)) s).
Proof. exact transpose_short. Qed.
Print Assumptions C14_transpose_short.
Example C14_ex : run_edit ETranspose (line [97;98] [99] [])%Z = Ok (line [97;99;98] [] [])%Z /\
  run_edit ETranspose (line [97;98;99] [] [])%Z = Ok (line [97;99;98] [] [])%Z /\
  run_edit ETranspose (line [] [97;98;99] [])%Z = Ok (line [98;97] [99] [])%Z.
Proof. repeat split; reflexivity. Qed.

(** C15 *)
Theorem C15_find_left : forall ch prevChar s, rb_idx s <= length (rb_buf s) ->
  (exists k, greatest (fun j => j < rb_idx s /\ nth_error (rb_buf s) j = Some ch) k /\
     MoveTo ch prevChar true s = Ok (with_idx (if prevChar then k + 1 else k) s, true))
  \/ ((forall j, j < rb_idx s -> nth_error (rb_buf s) j <> Some ch) /\
      MoveTo ch prevChar true s = Ok (s, false)).
Proof. exact moveto_rev_spec. Qed.
Print Assumptions C15_find_left.

Theorem C15_find_right : forall ch prevChar s,
  (exists k, least (fun j => rb_idx s < j /\ nth_error (rb_buf s) j = Some ch) k /\
     MoveTo ch prevChar false s = Ok (with_idx (if prevChar then k - 1 else k) s, true))
  \/ ((forall j, rb_idx s < j -> nth_error (rb_buf s) j <> Some ch) /\
      MoveTo ch prevChar false s = Ok (s, false)).
Proof. exact moveto_fwd_spec. Qed.
Print Assumptions C15_find_right.
Example C15_ex : let s := (line [97;98;97] [99;97;98] [])%Z in
  MoveTo 98 false false s = Ok (with_idx 5 s, true) /\ MoveTo 97 true true s = Ok (with_idx 3 s, true) /\
  MoveTo 120 false true s = Ok (s, false).
Proof. repeat split; reflexivity. Qed.

(** C16: with the cursor inside the line exactly these commands panic. *)
Theorem C16_panics_exactly : forall e s, rb_idx s <= length (rb_buf s) ->
  (run_edit e s = Panic <->
   match e with
   | EReplace _ => rb_idx s = length (rb_buf s)
   | EEndWord => rb_idx s + 1 = length (rb_buf s) /\ alnum_at (rb_buf s) (rb_idx s)
   | _ => False
   end).
Proof. exact edit_panic_iff. Qed.
Print Assumptions C16_panics_exactly.

Theorem C16_otherwise_succeeds : forall e s, rb_idx s <= length (rb_buf s) -> run_edit e s <> Panic ->
  exists s', run_edit e s = Ok s'.
Proof.
  intros e s H N. destruct (edit_ok e s H) as (s' & E & _).
  - intros P. apply N. now apply edit_panic.
  - now exists s'.
Qed.
Print Assumptions C16_otherwise_succeeds.
Example C16_ex : run_edit (EReplace 120) (line [97;98] [] [])%Z = Panic /\
  run_edit EEndWord (line [32] [97] [])%Z = Panic /\ is_ok (run_edit EEndWord (line [32] [45] [])%Z) = true.
Proof. repeat split; reflexivity. Qed.
