(** Properties C27-C30, C37-C41, C74, C75: the editor goroutine (operation.go, search.go, complete.go, vim.go). *)
From Verif Require Import Base ListAux RunesModel RunesSpec Utf8Model Utf8Spec Utf8Proofs RuneBufModel RuneBufSpec HistoryModel HistoryProofs
  RenderModel TerminalModel TerminalSpec TerminalProofs OpModel OpSpec OpProofs OpStep OpKeys OpModes.
From Coq Require Import ZifyBool.
Open Scope Z_scope.

(** Concrete editors for the examples and counterexamples: prompt "> ", limit 500, no history file. *)
Definition ascii : uenv :=
  {| u_zero := fun _ => false; u_dbl := fun _ => false; u_tab := 4%nat; u_number := fun r => (48 <=? r) && (r <=? 57) |}.
Definition wide : uenv :=
  {| u_zero := fun _ => false; u_dbl := fun r => r =? 19990; u_tab := 4%nat; u_number := fun r => (48 <=? r) && (r <=? 57) |}.
Definition excf (u : uenv) (w : Z) (auto : option (list Z -> nat -> list (list Z) * nat)) (vim : bool) : ocfg :=
  {| oc_u := u; oc_h := {| hc_limit := 500; hc_fold := false; hc_file := false |}; oc_w := w; oc_prompt := [62;32];
     oc_auto := auto; oc_vim := vim; oc_unique := false; oc_nosave := false; oc_listen := None; oc_filter := None;
     oc_eofp := [94;68]; oc_intp := [94;67] |}.
Definition fresh : op := op_new (newOpHistory []).
(** completers: "a" and "b" after whatever is typed; the same, replacing the typed prefix *)
Definition ab : list Z -> nat -> list (list Z) * nat := fun _ _ => ([[97]; [98]], 0%nat).
Definition ab_after : list Z -> nat -> list (list Z) * nat := fun _ p => ([[97]; [98]], p).

Lemma excf_good w vim : 3 <= w -> good_config (excf ascii w (Some ab) vim).
Proof.
  intros W. constructor; cbn; try reflexivity; try lia; [eexists; reflexivity|].
  intros Do line pos cands off E L D. cbn in E. injection E as <-. injection D as <- <-. right.
  constructor; cbn; try discriminate; try lia.
  intros c [<-|[<-|[]]]; cbn; lia.
Qed.

Lemma excf_plain u w auto vim : plain (excf u w auto vim).
Proof. split; reflexivity. Qed.

Lemma fresh_rest : at_rest fresh.
Proof. constructor; try reflexivity. apply (hwf_new []). Qed.

(** ** C74: no key sequence crashes the editor *)

(** In a sane configuration no sequence of keys makes the editor panic or hang, provided no key is one of the
    few that [trips] describes. *)
Theorem C74_no_crash_partial : forall cf rs o, good_config cf -> started o -> safe cf rs o ->
  exists o' a, op_run cf rs o = Ok (o', a).
Proof.
  intros cf rs o G S Sf. destruct (run_ok cf G rs o) as (o' & a & E & _); [|exact Sf|eauto]. right. destruct S as [[] ? ? ?].
  constructor; try assumption; try congruence.
  - unfold inside. rewrite ar_idx. lia.
  - now split.
  - now split.
  - intros [X|X]; congruence.
Qed.
Print Assumptions C74_no_crash_partial.

(** In particular: outside vim mode, any sequence of runes without Ctrl-T and Ctrl-K. *)
Theorem C74_no_crash_keys_partial : forall cf rs o, good_config cf -> started o -> oc_vim cf = false ->
  Forall (fun r => r <> 20 /\ r <> 11) rs -> exists o' a, op_run cf rs o = Ok (o', a).
Proof.
  intros cf rs o G S V F. apply C74_no_crash_partial; auto.
  assert (P : o_vp o = None) by apply S. clear S. revert o P.
  induction F as [|r rs (R1 & R2) F IH]; intros o P; cbn [safe]; [exact I|]. split.
  - unfold trips. rewrite P, V. cbn [andb]. intros [(X & _)|[(X & _)|(_ & X & _)]]; [lia|lia|discriminate].
  - intros o' a E. apply IH. apply (vp_step cf r o o' a V (gc_filter _ G) P E).
Qed.
Print Assumptions C74_no_crash_keys_partial.

(** An editor which has returned a line is started; a session with completion, search and yanking. *)
Example C74_ex : exists o a, op_run (excf ascii 80 (Some ab) false) [120; 13] fresh = Ok (o, a) /\ started o /\
  exists o', op_run (excf ascii 80 (Some ab) false) [9; 9; 5; 13; 18; 120; 7; 121; 25; 16; 97; 14; 13] o =
    Ok (o', [AKick; ALine [98; 121]]).
Proof.
  do 2 eexists. split; [vm_compute; reflexivity|]. split.
  - constructor; try reflexivity; try discriminate. constructor; try reflexivity.
    constructor; cbn; [repeat constructor; cbn; intuition discriminate| | |tauto]; repeat constructor; cbn; lia.
  - eexists; vm_compute; reflexivity.
Qed.

(** What [trips] excludes does crash the editor.  Ctrl-T with one rune on the line, then any rune: *)
Theorem C74_transpose_refuted : exists cf rs, good_config cf /\ rs = [97; 20; 97] /\ op_run cf rs fresh = Panic.
Proof. exists (excf ascii 80 (Some ab) false). eexists. split; [apply excf_good; lia|]. split; reflexivity. Qed.
Print Assumptions C74_transpose_refuted.
(** Ctrl-R and then Ctrl-G or Ctrl-C as the first keys of a new instance without history: *)
Theorem C74_first_search_refuted : exists cf, good_config cf /\
  op_run cf [18; 7] fresh = Panic /\ op_run cf [18; 3] fresh = Panic.
Proof. exists (excf ascii 80 (Some ab) false). split; [apply excf_good; lia|]. split; reflexivity. Qed.
Print Assumptions C74_first_search_refuted.
(** vim: r at the end of the line; e on the last letter; Esc out of a search, dd, i and a rune: *)
Theorem C74_vim_refuted : exists cf, good_config cf /\
  op_run cf [97; 27; 114; 98] fresh = Panic /\ op_run cf [97; 27; 104; 101] fresh = Panic /\
  op_run cf [120; 97; 13; 18; 97; 27; 100; 100; 105; 113] fresh = Panic.
Proof. exists (excf ascii 80 (Some ab) true). split; [apply excf_good; lia|]. repeat split; vm_compute; reflexivity. Qed.
Print Assumptions C74_vim_refuted.
(** an OnChange listener that empties the line while a match is underlined: *)
Theorem C74_listener_refuted : exists f,
  op_run {| oc_u := ascii; oc_h := {| hc_limit := 500; hc_fold := false; hc_file := false |}; oc_w := 80; oc_prompt := [62;32];
     oc_auto := None; oc_vim := false; oc_unique := false; oc_nosave := false; oc_listen := Some f; oc_filter := None;
     oc_eofp := []; oc_intp := [] |} [120; 97; 13; 18; 97; 122] fresh = Panic /\ forall l p r, l <> [120; 97] -> f l p r = None.
Proof.
  exists (fun l p r => if Equal l [120; 97] && (r =? 97) && (p =? 1)%nat then Some ([], 0%nat) else None). split; [vm_compute; reflexivity|].
  intros l p r N. destruct (Equal l [120; 97]) eqn:E; [|reflexivity]. apply RunesProofs.Equal_spec in E. contradiction.
Qed.
Print Assumptions C74_listener_refuted.

(** ** C29: completion never panics *)
Theorem C29_completion_partial : forall cf rs o, good_config cf -> started o -> oc_auto cf <> None -> safe cf rs o ->
  exists o' a, op_run cf rs o = Ok (o', a).
Proof. intros cf rs o G S _ Sf. now apply C74_no_crash_partial. Qed.
Print Assumptions C29_completion_partial.
Example C29_ex : exists o' a, op_run (excf ascii 80 (Some ab) false) [120; 13; 9; 9; 14; 14; 16; 1; 5; 9; 6; 2; 127; 122; 9; 3; 13] fresh = Ok (o', a).
Proof. do 2 eexists. vm_compute. reflexivity. Qed.

(** Not for any width and candidates: Ctrl-K while choosing a candidate divides by zero; *)
Theorem C29_kill_refuted : exists cf, good_config cf /\ op_run cf [9; 9; 11] fresh = Panic.
Proof. exists (excf ascii 80 (Some ab) false). split; [apply excf_good; lia|]. reflexivity. Qed.
Print Assumptions C29_kill_refuted.
(** a terminal narrower than the candidates; *)
Theorem C29_narrow_refuted : exists w, 0 < w /\ op_run (excf ascii w (Some ab) false) [9; 9; 1] fresh = Panic.
Proof. exists 2. split; [lia|reflexivity]. Qed.
Print Assumptions C29_narrow_refuted.
(** a typed prefix of double width runes; *)
Theorem C29_wide_prefix_refuted : exists rs, op_run (excf wide 80 (Some ab_after) false) rs fresh = Panic.
Proof. exists [19990; 19990; 9]. vm_compute. reflexivity. Qed.
Print Assumptions C29_wide_prefix_refuted.
(** Esc in vim mode while choosing, then i and Ctrl-K. *)
Theorem C29_vim_refuted : exists cf, good_config cf /\ op_run cf [9; 9; 27; 105; 11] fresh = Panic.
Proof. exists (excf ascii 80 (Some ab) true). split; [apply excf_good; lia|]. reflexivity. Qed.
Print Assumptions C29_vim_refuted.

(** ** C27: cancelling a search restores the line *)
Theorem C27_cancel_partial : forall cf k ks e o id l, good_config cf -> typing o -> s_ms (o_s o) = 0%nat ->
  h_cur (o_h o) = Some id -> shows (o_h o) id l ->
  k = 18 \/ k = 19 -> Forall search_key ks -> e = 7 \/ e = 3 ->
  exists o' a, op_run cf (k :: ks ++ [e]) o = Ok (o', a) /\ results a = [] /\ typing o' /\
    h_cur (o_h o') = Some id /\ rb_buf (o_b o') = l.
Proof. intros. now apply cancel_search. Qed.
Print Assumptions C27_cancel_partial.
Example C27_ex : exists o o' a a', op_run (excf ascii 80 None false) [97; 98; 13; 98; 13; 99; 100] fresh = Ok (o, a) /\
  h_cur (o_h o) = Some 2%nat /\ shows (o_h o) 2 [99; 100] /\
  op_run (excf ascii 80 None false) [18; 97; 98; 127; 7] o = Ok (o', a') /\ rb_buf (o_b o') = [99; 100] /\
  exists o1, op_run (excf ascii 80 None false) [18; 97; 98; 127] o = Ok (o1, []) /\ rb_buf (o_b o1) = [97; 98].
Proof.
  do 4 eexists. split; [vm_compute; reflexivity|]. split; [reflexivity|]. split.
  { eexists. split; [right; right; left; reflexivity|]. split; reflexivity. }
  split; [vm_compute; reflexivity|]. split; [reflexivity|]. eexists. split; vm_compute; reflexivity.
Qed.
(** Pressing Ctrl-R again forgets where the search started: the line after Ctrl-G is the first match. *)
Theorem C27_search_again_refuted : exists o o' a a', 
  op_run (excf ascii 80 None false) [97; 98; 13; 98; 13; 99; 100] fresh = Ok (o, a) /\ rb_buf (o_b o) = [99; 100] /\
  op_run (excf ascii 80 None false) [18; 97; 18; 7] o = Ok (o', a') /\ rb_buf (o_b o') = [97; 98] /\ h_cur (o_h o') <> h_cur (o_h o).
Proof. do 4 eexists. split; [vm_compute; reflexivity|]. split; [reflexivity|]. split; [vm_compute; reflexivity|]. split; [reflexivity|discriminate]. Qed.
Print Assumptions C27_search_again_refuted.
(** On the first line of an instance without history the cancelled search loses the line. *)
Theorem C27_first_line_refuted : exists o o' a', op_step (excf ascii 80 None false) 97 fresh = Ok (o, []) /\ rb_buf (o_b o) = [97] /\
  op_run (excf ascii 80 None false) [18; 7] o = Ok (o', a') /\ rb_buf (o_b o') = [].
Proof. do 3 eexists. split; [vm_compute; reflexivity|]. split; [reflexivity|]. split; [vm_compute; reflexivity|]. reflexivity. Qed.
Print Assumptions C27_first_line_refuted.

(** ** C28: the selected candidate *)
Theorem C28_selection : forall cf keys o, good_config cf -> selecting cf o -> Forall sel_key keys ->
  exists o', op_run cf keys o = Ok (o', []) /\ selecting cf o' /\ o_b o' = o_b o /\ c_cand (o_c o') = c_cand (o_c o) /\
    0 <= c_choice (o_c o') < Z.of_nat (length (c_cand (o_c o))).
Proof.
  intros cf keys o G S F. revert o S. induction F as [|r rs R F IH]; intros o S; cbn [op_run].
  - exists o. split; [reflexivity|]. repeat (split; [first [assumption|reflexivity]|]). apply S.
  - destruct (sel_move cf G r o S R) as (o1 & -> & S1 & B1 & _ & C1 & _). cbn [obind fst snd].
    destruct (IH o1 S1) as (o2 & -> & S2 & B2 & C2 & X). cbn [obind fst snd app]. exists o2.
    rewrite <- C1 at 2. rewrite <- B1, <- C1. auto.
Qed.
Print Assumptions C28_selection.
(** where each key goes *)
Theorem C28_moves : forall cf r o, good_config cf -> selecting cf o -> sel_key r ->
  exists o', op_step cf r o = Ok (o', []) /\ selecting cf o' /\
    moves (Z.of_nat (length (c_cand (o_c o)))) (c_col (o_c o)) (c_choice (o_c o)) r (c_choice (o_c o')).
Proof. intros cf r o G S R. destruct (sel_move cf G r o S R) as (o1 & E & S1 & _ & _ & _ & M). eauto. Qed.
Print Assumptions C28_moves.
(** Enter and Ctrl-J insert exactly the selected candidate at the cursor *)
Theorem C28_accept : forall cf r o, good_config cf -> selecting cf o -> hwf (o_h o) -> r = 13 \/ r = 10 ->
  exists o' x, op_step cf r o = Ok (o', [AKick]) /\ nth_error (c_cand (o_c o)) (Z.to_nat (c_choice (o_c o))) = Some x /\
    rb_buf (o_b o') = firstn (rb_idx (o_b o)) (rb_buf (o_b o)) ++ x ++ skipn (rb_idx (o_b o)) (rb_buf (o_b o)) /\
    rb_idx (o_b o') = (rb_idx (o_b o) + length x)%nat /\ c_in (o_c o') = false /\ c_sel (o_c o') = false.
Proof. intros. now apply sel_accept. Qed.
Print Assumptions C28_accept.
(** seven candidates in rows of three: from the second row down (wrapping) and to the end of the row, then Enter *)
Definition seven : list Z -> nat -> list (list Z) * nat :=
  fun _ _ => ([[97;97]; [98;98]; [99;99]; [100;100]; [101;101]; [102;102]; [103;103]], 0%nat).
Example C28_ex : exists o a, op_run (excf ascii 11 (Some seven) false) [120; 2; 9; 9; 6; 14] fresh = Ok (o, a) /\
  c_in (o_c o) = true /\ c_sel (o_c o) = true /\ c_col (o_c o) = 3 /\ c_choice (o_c o) = 4 /\
  (exists o1, op_step (excf ascii 11 (Some seven) false) 14 o = Ok (o1, []) /\ c_choice (o_c o1) = 1) /\
  (exists o2, op_run (excf ascii 11 (Some seven) false) [5; 13] o = Ok (o2, [AKick]) /\ rb_buf (o_b o2) = [102; 102; 120]).
Proof. do 2 eexists. split; [vm_compute; reflexivity|]. repeat (split; [reflexivity|]). split; eexists; split; vm_compute; reflexivity. Qed.

(** ** C30: Tab *)
Theorem C30_tab : forall cf Do o cands off, good_config cf -> typing o -> oc_auto cf = Some Do ->
  Do (rb_buf (o_b o)) (rb_idx (o_b o)) = (cands, off) ->
  exists o', op_step cf 9 o = Ok (o', []) /\ s_in (o_s o') = false /\ c_sel (o_c o') = false /\
    let put t := rb_buf (o_b o') = firstn (rb_idx (o_b o)) (rb_buf (o_b o)) ++ t ++ skipn (rb_idx (o_b o)) (rb_buf (o_b o)) /\
                 rb_idx (o_b o') = (rb_idx (o_b o) + length t)%nat in
    match cands with
    | [] => put [] /\ c_in (o_c o') = false
    | [x] => put x /\ c_in (o_c o') = false
    | _ => exists same, longest_common_prefix same cands /\ put same /\
             (if match same with [] => true | _ => false end then c_in (o_c o') = true /\ c_cand (o_c o') = cands
              else c_in (o_c o') = false)
    end.
Proof. intros cf Do o cands off G T A D. exact (tab_step cf G Do o cands off T A D). Qed.
Print Assumptions C30_tab.
Definition aba : list Z -> nat -> list (list Z) * nat := fun _ _ => ([[97;98;97]; [97;98;99]], 0%nat).
Example C30_ex : exists o o' o'', op_run (excf ascii 80 (Some aba) false) [120; 2] fresh = Ok (o, []) /\ typing o /\
  op_step (excf ascii 80 (Some aba) false) 9 o = Ok (o', []) /\ rb_buf (o_b o') = [97; 98; 120] /\ rb_idx (o_b o') = 2%nat /\
  op_step (excf ascii 80 (Some ab) false) 9 o = Ok (o'', []) /\ rb_buf (o_b o'') = [120] /\ c_cand (o_c o'') = [[97]; [98]].
Proof.
  do 3 eexists. split; [vm_compute; reflexivity|]. split.
  { constructor; try reflexivity; [unfold inside; cbn; lia|]. constructor; cbn; [repeat constructor; cbn; intuition discriminate| | |tauto]; repeat constructor; cbn; lia. }
  split; [vm_compute; reflexivity|]. split; [reflexivity|]. split; [reflexivity|]. split; [vm_compute; reflexivity|]. split; reflexivity.
Qed.

(** ** C75: typing never starts choosing a candidate *)
Theorem C75_typing_refreshes_partial : forall cf Do r o, good_config cf -> oc_auto cf = Some Do -> ordinary r ->
  inside (o_b o) -> hwf (o_h o) -> s_in (o_s o) = false -> c_in (o_c o) = true -> c_sel (o_c o) = false -> 
  c_src (o_c o) = Some (rb_buf (o_b o)) -> o_vn o = false -> o_vp o = None -> o_end o = false ->
  exists o' off, op_step cf r o = Ok (o', []) /\ c_sel (o_c o') = false /\
    rb_buf (o_b o') = firstn (rb_idx (o_b o)) (rb_buf (o_b o)) ++ [r] ++ skipn (rb_idx (o_b o)) (rb_buf (o_b o)) /\
    rb_idx (o_b o') = S (rb_idx (o_b o)) /\
    Do (rb_buf (o_b o')) (rb_idx (o_b o')) = (c_cand (o_c o'), off) /\
    (c_in (o_c o') = true <-> c_cand (o_c o') <> []).
Proof. exact typing_refreshes. Qed.
Print Assumptions C75_typing_refreshes_partial.
(** After Tab showed the candidates for "x" with the cursor before the x, Ctrl-K, and typing x again, the
    editor selects the first of the candidates. *)
Theorem C75_retyped_refuted : exists o o', op_run (excf ascii 80 (Some ab) false) [120; 2; 9; 11] fresh = Ok (o, []) /\
  c_sel (o_c o) = false /\ rb_buf (o_b o) = [] /\
  op_step (excf ascii 80 (Some ab) false) 120 o = Ok (o', []) /\ c_sel (o_c o') = true /\ c_choice (o_c o') = 0 /\ rb_buf (o_b o') = [120].
Proof. do 2 eexists. split; [vm_compute; reflexivity|]. split; [reflexivity|]. split; [reflexivity|]. split; [vm_compute; reflexivity|]. repeat split. Qed.
Print Assumptions C75_retyped_refuted.

(** ** C37: reading resumes after every pause *)
Theorem C37_one_kick_partial : forall cf r o o' a, oc_vim cf = false -> oc_filter cf = None -> o_end o = false -> o_vp o = None ->
  op_step cf r o = Ok (o', a) -> r <> 0 ->
  (pause_key r -> length (filter resumes a) = 1%nat) /\ (~ pause_key r -> filter resumes a = []).
Proof.
  intros cf r o o' a Vi Fi En Vp E N0. pose proof (step_kicks cf r o o' a Vi Fi En Vp N0 E) as K. unfold kicks in K. split; intros P.
  - rewrite K. replace (pauseb r) with true; [reflexivity|]. unfold pauseb, pause_key in *. lia.
  - apply length_zero_iff_nil. rewrite K. replace (pauseb r) with false; [reflexivity|]. unfold pauseb, pause_key in *. lia.
Qed.
Print Assumptions C37_one_kick_partial.
(** over whole sessions: as many resumptions as pauses, whatever modes are entered *)
Theorem C37_session_partial : forall cf rs o o' a, oc_vim cf = false -> oc_filter cf = None -> Forall (fun r => r <> 0) rs ->
  o_end o = false -> o_vp o = None -> op_run cf rs o = Ok (o', a) ->
  length (filter resumes a) = length (filter pauseb rs).
Proof. intros cf rs o o' a Vi Fi F En Vp E. exact (proj1 (run_kicks cf rs Vi Fi F o o' a En Vp E)). Qed.
Print Assumptions C37_session_partial.
Example C37_ex : exists o' a, op_run (excf ascii 80 (Some ab) false) [120; 13; 9; 9; 13; 4; 18; 3; 9; 3; 3; 4] fresh = Ok (o', a) /\
  filter resumes a = [ALine [120]; AKick; AKick; AKick; AKick; AIntr [97]; AEof].
Proof. do 2 eexists. split; vm_compute; reflexivity. Qed.
(** vim command mode: Ctrl-J and Ctrl-D ring the bell and the terminal is not asked to go on; nor after Enter
    as the second key of a command *)
Theorem C37_vim_refuted : exists cf o a, oc_filter cf = None /\ op_run cf [97; 27] fresh = Ok (o, a) /\
  (forall r, r = 10 \/ r = 4 -> exists o', op_step cf r o = Ok (o', [ABell])) /\
  (exists o', op_run cf [100; 13] o = Ok (o', [])).
Proof.
  exists (excf ascii 80 None true). do 2 eexists. split; [reflexivity|]. split; [vm_compute; reflexivity|]. split.
  - intros r [-> | ->]; eexists; vm_compute; reflexivity.
  - eexists; vm_compute; reflexivity.
Qed.
Print Assumptions C37_vim_refuted.
(** a FuncFilterInputRune replacing Enter by another rune *)
Theorem C37_filter_refuted : exists f o, 
  op_step {| oc_u := ascii; oc_h := {| hc_limit := 500; hc_fold := false; hc_file := false |}; oc_w := 80; oc_prompt := [62;32];
     oc_auto := None; oc_vim := false; oc_unique := false; oc_nosave := false; oc_listen := None; oc_filter := Some f;
     oc_eofp := []; oc_intp := [] |} 13 fresh = Ok (o, []) /\ f 13 = Some 59.
Proof. exists (fun r => if r =? 13 then Some 59 else Some r). eexists. split; vm_compute; reflexivity. Qed.
Print Assumptions C37_filter_refuted.

(** ** C38: lines are returned exactly and in order *)
Theorem C38_lines : forall cf ls tail o n, plain cf -> at_rest o ->
  Forall (fun le => Forall ordinary (fst le) /\ (snd le = 13 \/ snd le = 10)) ls -> Forall ordinary tail -> (2 <= n)%nat ->
  exists o', op_run cf (typed ls ++ tail ++ repeat 0 n) o =
    Ok (o', map (fun le => ALine (fst le)) ls ++ match tail with [] => [] | _ => [ALine tail] end ++ [AEof]) /\ o_end o' = true.
Proof. exact lines_then_eof. Qed.
Print Assumptions C38_lines.
(** the same from the bytes typed: UTF-8 decoding and key decoding included *)
Theorem C38_bytes : forall cf u ls tail o n, plain cf -> at_rest o ->
  Forall (fun le => Forall ordinary (fst le) /\ Forall scalar (fst le) /\ (snd le = 13 \/ snd le = 10)) ls ->
  Forall ordinary tail -> Forall scalar tail -> (2 <= n)%nat ->
  exists o', op_run cf (keys_of u (oc_vim cf) (decode (encode (typed ls ++ tail))) ++ repeat 0 n) o =
    Ok (o', map (fun le => ALine (fst le)) ls ++ match tail with [] => [] | _ => [ALine tail] end ++ [AEof]) /\ o_end o' = true.
Proof. exact bytes_then_eof. Qed.
Print Assumptions C38_bytes.
Example C38_ex : exists o', op_run (excf wide 80 (Some ab) true)
   (keys_of ascii true (decode [228; 184; 150; 13; 13; 97; 10; 98]) ++ [0; 0; 0]) fresh =
   Ok (o', [ALine [19990]; ALine []; ALine [97]; ALine [98]; AEof]).
Proof. eexists. vm_compute. reflexivity. Qed.

(** ** C39: Ctrl-C *)
Theorem C39_interrupt : forall cf o, plain cf -> inside (o_b o) -> hwf (o_h o) -> s_in (o_s o) = false -> c_in (o_c o) = false ->
  c_sel (o_c o) = false -> o_vp o = None -> o_end o = false -> (o_vn o = true -> oc_vim cf = true) ->
  exists o', op_step cf 3 o = Ok (o', [AIntr (rb_buf (o_b o))]) /\ at_rest o'.
Proof. exact interrupt_step. Qed.
Print Assumptions C39_interrupt.
Example C39_ex : exists o o' a, op_run (excf ascii 80 None true) [97; 98; 2; 99; 27] fresh = Ok (o, a) /\ o_vn o = true /\
  op_step (excf ascii 80 None true) 3 o = Ok (o', [AIntr [97; 99; 98]]).
Proof. do 3 eexists. split; [vm_compute; reflexivity|]. split; [reflexivity|]. vm_compute. reflexivity. Qed.

(** ** C40: Ctrl-D *)
Theorem C40_eof : forall cf o, plain cf -> at_rest o -> exists o', op_step cf 4 o = Ok (o', [AEof]) /\ at_rest o'.
Proof. exact delete_empty_step. Qed.
Print Assumptions C40_eof.
Theorem C40_delete : forall cf o, plain cf -> typing o -> rb_buf (o_b o) <> [] ->
  exists o' a, op_step cf 4 o = Ok (o', a) /\ results a = [] /\ filter resumes a = [AKick] /\ typing o' /\
    rb_buf (o_b o') = firstn (rb_idx (o_b o)) (rb_buf (o_b o)) ++ skipn (S (rb_idx (o_b o))) (rb_buf (o_b o)) /\
    rb_idx (o_b o') = rb_idx (o_b o).
Proof. exact delete_text_step. Qed.
Print Assumptions C40_delete.
Example C40_ex : exists o o', op_run (excf ascii 80 None false) [97; 98; 2; 4] fresh = Ok (o, [AKick]) /\ rb_buf (o_b o) = [97] /\
  op_run (excf ascii 80 None false) [4; 127; 4] o = Ok (o', [AKick; ABell; AEof]).
Proof. do 2 eexists. split; [vm_compute; reflexivity|]. split; [reflexivity|]. vm_compute. reflexivity. Qed.

(** ** C41: only end of input ends the session *)
Theorem C41_goes_on_partial : forall cf rs o o' a, oc_vim cf = false -> oc_filter cf = None -> Forall (fun r => r <> 0) rs ->
  o_end o = false -> o_vp o = None -> op_run cf rs o = Ok (o', a) -> o_end o' = false.
Proof. intros cf rs o o' a Vi Fi F En Vp E. exact (proj2 (run_kicks cf rs Vi Fi F o o' a En Vp E)). Qed.
Print Assumptions C41_goes_on_partial.
Example C41_ex : exists o' a, op_run (excf ascii 80 None false) [4; 4; 97; 3; 13; 26; 1; 4] fresh = Ok (o', a) /\ o_end o' = false.
Proof. do 2 eexists. split; vm_compute; reflexivity. Qed.
(** The rune NUL (Ctrl-@ or Ctrl-Space on most terminals) typed on an empty line ends the session as well:
    later lines are never returned. *)
Theorem C41_nul_refuted : exists o, op_run (excf ascii 80 None false) ([0] ++ [97; 13]) fresh = Ok (o, [AEof]) /\
  keys_of ascii false (decode [0; 97; 13]) = [0; 97; 13].
Proof. eexists. split; vm_compute; reflexivity. Qed.
Print Assumptions C41_nul_refuted.
