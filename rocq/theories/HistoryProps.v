(** Properties C17-C26 and C64-C66: the history. *)
From Verif Require Import Base ListAux RunesModel RunesSpec RunesProofs Utf8Model Utf8Spec Utf8Proofs
  HistoryModel HistorySpec HistoryProofs HistoryNavProofs HistoryFileProofs HistFileModel HistFileProofs.
Open Scope nat_scope.

Definition lim (n : Z) (file : bool) : hcfg := {| hc_limit := n; hc_fold := false; hc_file := file |}.

(** C17: from a fresh history, whatever is called (any number of times, in any order) except loading a file,
    the list holds at most HistoryLimit entries and the line being edited. *)
Theorem C17_bounded : forall c ks disk h,
  forallb (fun k => negb (loads k)) ks = true ->
  run_hcalls c ks (newOpHistory disk) = Ok h -> length (h_items h) <= Z.to_nat (hc_limit c) + 1.
Proof.
  intros c ks disk h L R. apply (run_hcalls_bound c ks (newOpHistory disk)); auto. unfold bounded. cbn. lia.
Qed.
Print Assumptions C17_bounded.

(** C17: the same after loading a file once, for any contents of the file. *)
Theorem C17_bounded_after_load : forall c ks o disk h,
  forallb (fun k => negb (loads k)) ks = true ->
  run_hcalls c ks (HInit c o (newOpHistory disk)) = Ok h -> length (h_items h) <= Z.to_nat (hc_limit c) + 1.
Proof.
  intros c ks o disk h L R. apply (run_hcalls_bound c ks (HInit c o (newOpHistory disk))); auto. apply load_bound.
Qed.
Print Assumptions C17_bounded_after_load.
Example C17_ex : exists h, run_hcalls (lim 2 true) [HNew [97]%Z; HNew [98]%Z; HUpdate [120]%Z false; HPrev; HNew [99]%Z; HNew [100]%Z]
    (HInit (lim 2 true) true (newOpHistory [120;10;121;10;122;10]%Z)) = Ok h /\ length (h_items h) = 3.
Proof. eexists. split; [vm_compute; reflexivity|reflexivity]. Qed.

(** C18: at a prompt whose recorded lines are [r] (for instance just after loading a file), editing and
    submitting lines records each line once and in order, keeping the newest ones: at least HistoryLimit - 1
    and at most HistoryLimit of them. *)
Theorem C18_submitted_lines : forall c es h r, (1 <= hc_limit c)%Z -> hwf h -> at_prompt c h r ->
  exists h' n, run_events c es h = Ok h' /\ committed h' = lastn n (recorded r es) /\
    Z.to_nat (hc_limit c) - 1 <= n <= Z.to_nat (hc_limit c).
Proof. exact committed_from_prompt. Qed.
Print Assumptions C18_submitted_lines.

(** C18: the same from a fresh history. *)
Theorem C18_submitted_lines_fresh : forall c es disk, (1 <= hc_limit c)%Z -> starts_well es ->
  exists h' n, run_events c es (newOpHistory disk) = Ok h' /\ committed h' = lastn n (recorded [] es) /\
    Z.to_nat (hc_limit c) - 1 <= n <= Z.to_nat (hc_limit c).
Proof. exact committed_from_fresh. Qed.
Print Assumptions C18_submitted_lines_fresh.

(** C18: when the last line submitted was recorded, exactly the newest HistoryLimit lines are kept. *)
Theorem C18_after_submit : forall c es s h r, (1 <= hc_limit c)%Z -> hwf h -> at_prompt c h r ->
  record (recorded r es) (Submit s) <> recorded r es ->
  exists h', run_events c (es ++ [Submit s]) h = Ok h' /\
    committed h' = lastn (Z.to_nat (hc_limit c)) (recorded r (es ++ [Submit s])).
Proof.
  intros c es s h r Hl W A NR. apply at_prompt_rests in A; [|exact W].
  destruct (run_events_rests c es h r Hl A) as (h1 & E1 & A1).
  destruct (run_events_rests c [Submit s] h1 _ Hl A1) as (h2 & E2 & _).
  exists h2. split.
  - assert (X : forall a b g, run_events c (a ++ b) g = (g' <- run_events c a g ;; run_events c b g')).
    { induction a as [|z a IHa]; intros b g; cbn; [reflexivity|]. destruct (run_event c z g); cbn; auto. }
    rewrite X, E1. exact E2.
  - unfold recorded. rewrite fold_left_app. cbn [fold_left]. cbn [run_events] in E2.
    destruct (run_event c (Submit s) h1) as [h3| |] eqn:E3; cbn in E2; try discriminate. injection E2 as <-.
    eapply committed_after_submit; eauto.
Qed.
Print Assumptions C18_after_submit.

(** C18 fails for one start: an empty line submitted first to a history without a file is recorded. *)
Theorem C18_first_empty_line_refuted : exists es h, run_events (lim 10 false) es (newOpHistory []) = Ok h /\
  committed h <> recorded [] es.
Proof. exists [Submit []]. eexists. split; [vm_compute; reflexivity|]. vm_compute. discriminate. Qed.
Print Assumptions C18_first_empty_line_refuted.

Example C18_ex : exists h, run_events (lim 3 false)
    [Edit [97]; Submit [97]; Submit [97]; Submit []; Edit [98]; Submit [98]; Submit [99]; Submit [97]]%Z (newOpHistory [])
    = Ok h /\ committed h = [[98];[99];[97]]%Z /\ at_prompt (lim 3 false) h [[98];[99];[97]]%Z.
Proof.
  eexists. split; [vm_compute; reflexivity|]. split; [reflexivity|]. split; [reflexivity|]. split; [reflexivity|].
  split; [cbn; lia|]. eexists. split; reflexivity.
Qed.

(** C19: k times Prev and then k times Next gives back the very same history state. *)
Theorem C19_up_down : forall c k h p, hwf h -> cur_at h p -> k <= p ->
  exists h1, run_hcalls c (repeat HPrev k) h = Ok h1 /\ run_hcalls c (repeat HNext k) h1 = Ok h.
Proof. exact ups_downs. Qed.
Print Assumptions C19_up_down.

(** C19: Prev fails exactly at the oldest entry and changes nothing then; otherwise it shows the next older one. *)
Theorem C19_prev : forall h p, hwf h -> cur_at h p ->
  match p with
  | 0 => Prev h = Ok (None, h)
  | S q => exists y, nth_error (h_items h) q = Some y /\
      Prev h = Ok (Some (showItem h y), set_cur (Some (it_id y)) h)
  end.
Proof. exact Prev_spec. Qed.
Print Assumptions C19_prev.

Theorem C19_next : forall h p, hwf h -> cur_at h p ->
  match nth_error (h_items h) (S p) with
  | None => Next h = Ok (None, h)
  | Some y => Next h = Ok (Some (showItem h y), set_cur (Some (it_id y)) h)
  end.
Proof. exact Next_spec. Qed.
Print Assumptions C19_next.

(** C19: as the keys do it, that is with the shown text stored back after every key: after k times Up the
    buffer shows the k-th older entry, after k times Down the buffer, the current entry and the text of
    every entry are those of the start. *)
Theorem C19_keys : forall c k h buf p, browse_at h buf p -> k <= p -> length (h_items h) <= Z.to_nat (hc_limit c) ->
  exists h1 b1 h2, presses Prev c k (h, buf) = Ok (h1, b1) /\ shown_at h (p - k) = Some b1 /\
    presses Next c k (h1, b1) = Ok (h2, buf) /\ view h2 = view h /\ h_cur h2 = h_cur h.
Proof. exact presses_round. Qed.
Print Assumptions C19_keys.

Definition hist3 : hist := Eval vm_compute in
  match run_hcalls (lim 9 false) [HNew [97]; HNew [98]; HNew [99]; HUpdate [120] false]%Z (newOpHistory []) with
  | Ok h => h | _ => newOpHistory [] end.
Lemma hwf_hist3 : hwf hist3.
Proof.
  destruct (run_hcalls_ok (lim 9 false) [HNew [97]; HNew [98]; HNew [99]; HUpdate [120] false]%Z _ (hwf_new [])) as (h & E & W).
  vm_compute in E. injection E as <-. exact W.
Qed.
Example C19_ex : browse_at hist3 [120]%Z 3 /\ length (h_items hist3) = 4.
Proof.
  split; [|reflexivity]. split; [exact hwf_hist3|]. split; [|reflexivity].
  eexists. split; reflexivity.
Qed.

(** C20: browsing, searching and editing without submitting never change the recorded text or the order of
    entries; at most the oldest ones beyond HistoryLimit go. *)
Theorem C20_recorded_text : forall c ks h h', (1 <= hc_limit c)%Z -> hwf h -> h_items h <> [] ->
  forallb browsing ks = true -> run_hcalls c ks h = Ok h' ->
  sources h' = sources h \/ sources h' = lastn (Z.to_nat (hc_limit c)) (sources h).
Proof. exact browsing_all_sources. Qed.
Print Assumptions C20_recorded_text.

(** C20: an edit is what its entry shows, and touches no other entry. *)
Theorem C20_edit_shown : forall c s h p, hwf h -> cur_at h p -> length (h_items h) <= Z.to_nat (hc_limit c) ->
  exists h', Update c s false h = Ok h' /\
    (forall id, shown h' id = if opt_eqb (Some id) (h_cur h) then Some s else shown h id) /\
    sources h' = sources h.
Proof. exact shown_after_update. Qed.
Print Assumptions C20_edit_shown.

Theorem C20_moves_keep_edits : forall h h' r, (Prev h = Ok (r, h') \/ Next h = Ok (r, h')) ->
  forall id, shown h' id = shown h id.
Proof. exact shown_unchanged_by_moves. Qed.
Print Assumptions C20_moves_keep_edits.

(** C20: after an abort, and after a submission, every entry shows its recorded text. *)
Theorem C20_revert : forall h, hwf h -> forall x, In x (h_items (Revert h)) -> showItem (Revert h) x = it_src x.
Proof. exact shown_after_revert. Qed.
Print Assumptions C20_revert.

Theorem C20_submit_drops_edits : forall c s h h', hwf h -> h_enable h = true -> New c s h = Ok h' ->
  forall x, In x (h_items h') -> showItem h' x = it_src x.
Proof. exact shown_after_new. Qed.
Print Assumptions C20_submit_drops_edits.
Example C20_ex : exists h1 h2, run_hcalls (lim 9 false) [HPrev; HUpdate [122] false; HPrev; HNext]%Z hist3 = Ok h1 /\
  shown h1 2 = Some [122]%Z /\ shown h1 3 = Some [120]%Z /\ New (lim 9 false) [120]%Z h1 = Ok h2 /\ shown h2 2 = Some [99]%Z.
Proof.
  eexists. eexists. split; [vm_compute; reflexivity|]. split; [reflexivity|]. split; [reflexivity|].
  split; [vm_compute; reflexivity|reflexivity].
Qed.

(** C21: no sequence of history calls dereferences a missing element, whatever the limit and the file. *)
Theorem C21_no_nil : forall c ks disk, exists h, run_hcalls c ks (newOpHistory disk) = Ok h.
Proof.
  intros c ks disk. destruct (run_hcalls_ok c ks (newOpHistory disk) (hwf_new disk)) as (h & E & _). eauto.
Qed.
Print Assumptions C21_no_nil.
Example C21_ex : exists h, run_hcalls (lim (-1) true)
  [HInitC true; HNew [97]; HUpdate [98] false; HPrev; HResetC; HNew [99]; HUpdate [1] true; HNew []]%Z (newOpHistory [120;10]%Z) = Ok h
  /\ h_cur h <> None.
Proof. eexists. split; [vm_compute; reflexivity|discriminate]. Qed.

(** C22: loading a file of clean lines yields the newest HistoryLimit of them, in order. *)
Theorem C22_load : forall c ls, hc_file c = true -> Forall clean_line ls ->
  committed (openf c (flat_map file_line ls)) = lastn (Z.to_nat (hc_limit c)) ls.
Proof.
  intros c ls HF CL. rewrite <- (app_nil_r (flat_map file_line ls)). apply open_committed; auto.
Qed.
Print Assumptions C22_load.

(** C22: loading leaves the file alone, or replaces it by the newest HistoryLimit lines when it holds more. *)
Theorem C22_file_after_load : forall c ls, hc_file c = true -> Forall clean_line ls ->
  h_disk (openf c (flat_map file_line ls)) =
    if (hc_limit c <? Z.of_nat (length ls))%Z then flat_map file_line (lastn (Z.to_nat (hc_limit c)) ls)
    else flat_map file_line ls.
Proof.
  intros c ls HF CL. destruct (open_spec c ls [] HF CL (fun x => x)) as (_ & _ & _ & _ & D).
  rewrite app_nil_r in D. exact D.
Qed.
Print Assumptions C22_file_after_load.

(** C22: a whole session: load, edit and submit clean lines, close; the next session (with the same or a
    smaller limit) sees the newest recorded lines. *)
Theorem C22_session : forall c c' es ls, (1 <= hc_limit c)%Z -> hc_file c = true -> hc_file c' = true ->
  (hc_limit c' <= hc_limit c)%Z -> Forall clean_line ls -> Forall clean_event es ->
  exists h, run_events c es (openf c (flat_map file_line ls)) = Ok h /\
    committed (openf c' (h_disk (HClose h))) =
      lastn (Z.to_nat (hc_limit c')) (recorded (lastn (Z.to_nat (hc_limit c)) ls) es).
Proof. exact session_reload. Qed.
Print Assumptions C22_session.

Lemma clean_ex (s : list Z) : forallb scalarb s = true -> s <> [] -> existsb (Z.eqb 10) s = false ->
  (match s with x :: _ => IsSpace x | [] => false end) = false ->
  (match rev s with x :: _ => IsSpace x | [] => false end) = false -> clean_line s.
Proof.
  intros A B C D E. split; [exact B|]. split; [|split; [|split]].
  - apply Forall_forall. intros x I. rewrite forallb_forall in A. apply A in I.
    unfold scalarb in I. unfold scalar. lia.
  - intros I. assert (X : existsb (Z.eqb 10) s = true) by (apply existsb_exists; exists 10%Z; auto). congruence.
  - intros x t ->. exact D.
  - intros x t ->. rewrite rev_app_distr in E. exact E.
Qed.
Example C22_ex : Forall clean_line [[97;32;98];[228];[8364;128512]]%Z /\
  exists h, run_events (lim 2 true) [Edit [120]; Submit [120;32;121]; Submit [120;32;121]]%Z
    (openf (lim 2 true) (flat_map file_line [[97;32;98];[228];[8364;128512]]%Z)) = Ok h /\
  committed (openf (lim 2 true) (h_disk (HClose h))) = [[8364;128512];[120;32;121]]%Z.
Proof.
  split; [repeat (apply Forall_cons; [apply clean_ex; (reflexivity || discriminate)|]); apply Forall_nil|].
  eexists. split; [vm_compute; reflexivity|]. vm_compute. reflexivity.
Qed.

(** C23: stopping the process between any two system calls of the rewrite, or in the middle of a write,
    leaves the old or the new contents in the history file, provided no write fails. *)
Theorem C23_crash_atomic : forall chunks done rest s, rewrite_ops chunks = done ++ rest -> all_written chunks ->
  fs_main (syss done s) = fs_main s \/ fs_main (syss done s) = concat (map fst chunks).
Proof. exact rewrite_crash_atomic. Qed.
Print Assumptions C23_crash_atomic.

Theorem C23_crash_mid_write : forall chunks done c k rest n s, rewrite_ops chunks = done ++ OWrite c :: rest ->
  all_written chunks -> k = firstn n c ->
  fs_main (syss (done ++ [OWrite k]) s) = fs_main s \/ fs_main (syss (done ++ [OWrite k]) s) = concat (map fst chunks).
Proof. exact rewrite_crash_mid. Qed.
Print Assumptions C23_crash_mid_write.

Theorem C23_completes : forall chunks s, all_written chunks ->
  fs_main (syss (rewrite_ops chunks) s) = concat (map fst chunks).
Proof. exact rewrite_completes. Qed.
Print Assumptions C23_completes.

(** C23: with a failing write (disk full) the truncated copy replaces the history. *)
Theorem C23_write_failure_refuted : exists chunks old,
  let s := {| fs_main := old; fs_tmp := None |} in
  fs_main (syss (rewrite_ops chunks) s) <> old /\
  fs_main (syss (rewrite_ops chunks) s) <> concat (map fst chunks).
Proof. exists [([97;10]%Z, 2); ([98;10]%Z, 0)], [99;10;97;10;98;10]%Z. vm_compute. split; discriminate. Qed.
Print Assumptions C23_write_failure_refuted.

(** C24: what actually happens to an unterminated last line: it is not loaded, and the next line recorded is
    appended to it. *)
Theorem C24_torn_line_partial : forall c ls torn s, (1 <= hc_limit c)%Z -> hc_file c = true -> Forall clean_line ls ->
  ~ In 10%Z torn -> (Z.of_nat (length ls) <= hc_limit c)%Z -> s <> [] -> last_line ls <> Some s -> plain_line s ->
  committed (openf c (flat_map file_line ls ++ torn)) = ls /\
  exists h, New c s (openf c (flat_map file_line ls ++ torn)) = Ok h /\
    h_disk h = flat_map file_line ls ++ torn ++ file_line s /\
    read_lines (h_disk h) [] = map encode ls ++ [torn ++ encode s].
Proof.
  intros c ls torn s Hl HF CL T LL NE ND PS. split; [|now apply torn_glued].
  rewrite open_committed by assumption. apply lastn_all. unfold keep. lia.
Qed.
Print Assumptions C24_torn_line_partial.

(** C24 fails: history file "ab" without newline; "c" is submitted; the next session sees one line "abc". *)
Theorem C24_refuted : exists torn s h, New (lim 9 true) s (openf (lim 9 true) torn) = Ok h /\
  committed (openf (lim 9 true) torn) = [] /\ ~ In s (committed (openf (lim 9 true) (h_disk h))).
Proof.
  exists [97;98]%Z, [99]%Z. eexists. split; [vm_compute; reflexivity|]. split; [reflexivity|].
  vm_compute. intros [H|[]]. discriminate.
Qed.
Print Assumptions C24_refuted.

(** C25 fails for every file: with a negative HistoryLimit the file is emptied. *)
Theorem C25_disabled_truncates_partial : forall c disk, (hc_limit c < 0)%Z -> hc_file c = true ->
  h_disk (openf c disk) = [].
Proof. exact disabled_truncates. Qed.
Print Assumptions C25_disabled_truncates_partial.

Theorem C25_refuted : exists disk, h_disk (openf (lim (-1) true) disk) <> disk.
Proof. exists [97;10]%Z. vm_compute. discriminate. Qed.
Print Assumptions C25_refuted.

(** C26: reverse search: the candidates are the part of the current entry before the cursor (extended by the
    search text when it has just been changed), then the older entries, newest first; the result is the
    first candidate containing the search text, at its rightmost position. *)
Theorem C26_reverse_search : forall c (new : bool) rs (start : nat) h p x,
  hwf h -> nth_error (h_items h) p = Some x -> h_cur h = Some (it_id x) ->
  exists r, FindBck c new rs start h = Ok r /\
    nearest (fun t k => forall m, occurs (hc_fold c) rs t m -> m <= k) (occurs (hc_fold c) rs)
      ((it_id x, firstn (if new then start + length rs else start) (showItem h x)) ::
       map (fun y => (it_id y, showItem h y)) (rev (firstn p (h_items h)))) r.
Proof. exact FindBck_spec. Qed.
Print Assumptions C26_reverse_search.

(** C26: forward search: leftmost occurrence at or after the cursor in the current entry, else the first
    newer entry containing the search text, at its leftmost position. *)
Theorem C26_forward_search : forall c (new : bool) rs (start : nat) h p x, rs <> [] ->
  hwf h -> nth_error (h_items h) p = Some x -> h_cur h = Some (it_id x) ->
  let st := if new then start - length rs else start in
  exists r, FindFwd c new rs start h = Ok r /\
    ((exists k, r = Some (Z.of_nat k, it_id x) /\ st <= k /\ occurs (hc_fold c) rs (showItem h x) k /\
       forall m, st <= m -> occurs (hc_fold c) rs (showItem h x) m -> k <= m)
     \/ ((forall m, st <= m -> ~ occurs (hc_fold c) rs (showItem h x) m) /\
       nearest (fun t k => forall m, occurs (hc_fold c) rs t m -> k <= m) (occurs (hc_fold c) rs)
        (map (fun y => (it_id y, showItem h y)) (skipn (S p) (h_items h))) r)).
Proof. exact FindFwd_spec. Qed.
Print Assumptions C26_forward_search.
Example C26_ex : FindBck (lim 9 false) true [97]%Z 1 hist3 = Ok (Some (0%Z, 0)) /\
  FindFwd (lim 9 false) true [98]%Z 0 (set_cur (Some 0) hist3) = Ok (Some (0%Z, 1)) /\
  FindBck (lim 9 false) true [122]%Z 1 hist3 = Ok None.
Proof. repeat split. Qed.

(** C64: the line handed to New is the one recorded: true at the prompt (C18), false when the current entry
    is an older one.  (a) After a search that moved to entry "abc", pressing Enter on it records an empty line. *)
Theorem C64_search_submit_refuted : exists ks s h, 
  run_hcalls (lim 9 true) ks (openf (lim 9 true) []) = Ok h /\ last_line (committed h) <> Some s /\
  last_line (committed h) = Some [] /\ exists ks', ks = ks' ++ [HNew s] /\ s = [97;98;99]%Z.
Proof.
  exists [HNew [97;98;99]; HNew [100]; HGoto 0; HNew [97;98;99]]%Z, [97;98;99]%Z.
  eexists. split; [vm_compute; reflexivity|]. split; [discriminate|]. split; [reflexivity|].
  exists [HNew [97;98;99]; HNew [100]; HGoto 0]%Z. split; reflexivity.
Qed.
Print Assumptions C64_search_submit_refuted.

(** C65: SaveHistory(content) while an older entry is current (DisableAutoSaveHistory, after Up) records the
    text of the entry browsed to and not [content]. *)
Theorem C65_save_history_refuted : exists ks s h, 
  run_hcalls (lim 9 false) ks (newOpHistory []) = Ok h /\ ks = [HNew [97]; HNew [98]; HPrev; HUpdate [98] false; HNew s]%Z /\
  s = [99]%Z /\ ~ In s (committed h).
Proof.
  eexists. exists [99]%Z. eexists. split; [|split; [reflexivity|]]; [vm_compute; reflexivity|].
  split; [reflexivity|]. vm_compute. intuition discriminate.
Qed.
Print Assumptions C65_save_history_refuted.

(** C66: after ResetHistory, the next line saved is kept in memory but not written to the history file. *)
Theorem C66_reset_then_save_refuted : exists h,
  run_hcalls (lim 9 true) [HResetC; HNew [97]]%Z (openf (lim 9 true) []) = Ok h /\
  committed h = [[97]]%Z /\ h_fd h = FdOpen /\ h_disk h = [].
Proof. eexists. split; [vm_compute; reflexivity|]. repeat split. Qed.
Print Assumptions C66_reset_then_save_refuted.
