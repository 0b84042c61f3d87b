(** Property C98: what a history search finds and shows (search.go, history.go:128-195, operation.go ioloop). *)
From Verif Require Import Base ListAux RunesModel RunesSpec Utf8Model Utf8Spec Utf8Proofs RuneBufModel RuneBufSpec HistoryModel HistorySpec HistoryProofs HistoryNavProofs RenderModel OpModel OpSpec OpProofs OpStep OpKeys OpModes OpProps
  SearchSpec SearchProofs.
From Coq Require Import ZifyBool.
Open Scope Z_scope.

(** Ctrl-R or Ctrl-S at the prompt: the search begins; nothing is sought yet, the line stays. *)
Theorem C98_begin : forall cf k o id, good_config cf -> typing o -> s_ms (o_s o) = 0%nat -> s_data (o_s o) = [] -> s_fail (o_s o) = false ->
  h_cur (o_h o) = Some id -> k = 18 \/ k = 19 ->
  exists o', op_step cf k o = Ok (o', []) /\ searching (o_h o) id o' /\ s_bck (o_s o') = (k =? 18) /\ s_data (o_s o') = [] /\ s_fail (o_s o') = false /\
    o_b o' = o_b o /\ o_h o' = o_h o.
Proof. intros cf k o id G. exact (begin_step cf G k o id). Qed.
Print Assumptions C98_begin.

(** A character extends what is sought.  The line becomes the nearest entry containing it, from the current match on;
    when there is none the search is shown as failing and the line stays. *)
Theorem C98_char : forall cf r o p x, good_config cf -> looking o p x -> ordinary r -> exists o' res, op_step cf r o = Ok (o', []) /\
  match_from (s_bck (o_s o)) true (oc_h cf) (s_data (o_s o) ++ [r]) (rb_idx (o_b o)) (o_h o) p x res /\
  shows_result (s_bck (o_s o)) (s_data (o_s o) ++ [r]) res o o'.
Proof. intros cf r o p x G. exact (char_step cf G r o p x). Qed.
Print Assumptions C98_char.

(** Backspace takes the last character back and seeks what remains; *)
Theorem C98_backspace : forall cf r o p x d e, good_config cf -> looking o p x -> s_data (o_s o) = d ++ [e] -> d <> [] -> r = 127 \/ r = 8 ->
  exists o' res, op_step cf r o = Ok (o', []) /\
  match_from (s_bck (o_s o)) true (oc_h cf) d (rb_idx (o_b o)) (o_h o) p x res /\ shows_result (s_bck (o_s o)) d res o o'.
Proof. intros cf r o p x d e G. exact (back_step cf G r o p x d e). Qed.
Print Assumptions C98_backspace.

(** when nothing remains, nothing fails. *)
Theorem C98_emptied : forall cf r o e, good_config cf -> (exists h0 id, searching h0 id o) -> s_data (o_s o) = [e] -> r = 127 \/ r = 8 ->
  exists o', op_step cf r o = Ok (o', []) /\ s_in (o_s o') = true /\ s_data (o_s o') = [] /\ s_fail (o_s o') = false /\ o_b o' = o_b o /\ o_h o' = o_h o.
Proof. intros cf r o e G. exact (empty_step cf G r o e). Qed.
Print Assumptions C98_emptied.

(** The search key again: on to the next match in its direction. *)
Theorem C98_again : forall cf k o p x, good_config cf -> looking o p x -> s_data (o_s o) <> [] -> k = 18 \/ k = 19 ->
  exists o' res, op_step cf k o = Ok (o', []) /\
  match_from (k =? 18) false (oc_h cf) (s_data (o_s o)) (rb_idx (o_b o)) (o_h o) p x res /\ shows_result (k =? 18) (s_data (o_s o)) res o o'.
Proof. intros cf k o p x G. exact (again_step cf G k o p x). Qed.
Print Assumptions C98_again.

(** "ab", "xb", "b" submitted; then Ctrl-R b shows "b", Ctrl-R "xb" with the cursor before the b, Ctrl-R "ab", Ctrl-R fails. *)
Definition at_search : op :=
  Eval vm_compute in match op_run (excf ascii 80 (Some ab) false) ([97; 98; 13; 120; 98; 13; 98; 13] ++ [18; 98]) fresh with Ok (o, _) => o | _ => fresh end.
Example C98_ex : good_config (excf ascii 80 (Some ab) false) /\ looking at_search 2 {| it_id := 2; it_src := [98]; it_ver := 2; it_tmp := [98] |} /\ rb_buf (o_b at_search) = [98] /\
  exists o1 o2 o3, op_step (excf ascii 80 (Some ab) false) 18 at_search = Ok (o1, []) /\ rb_buf (o_b o1) = [120; 98] /\ rb_idx (o_b o1) = 1%nat /\
    op_step (excf ascii 80 (Some ab) false) 18 o1 = Ok (o2, []) /\ rb_buf (o_b o2) = [97; 98] /\
    op_step (excf ascii 80 (Some ab) false) 18 o2 = Ok (o3, []) /\ s_fail (o_s o3) = true /\ rb_buf (o_b o3) = [97; 98].
Proof.
  split; [apply excf_good; lia|]. split.
  - split; [|split; [vm_compute; reflexivity|reflexivity]]. eexists (o_h at_search), _. constructor; try reflexivity.
    + unfold inside. cbn. lia.
    + constructor; cbn; [repeat constructor; cbn; intuition discriminate| | |tauto]; repeat constructor; cbn; lia.
    + intros H. cbn in *. lia.
  - split; [reflexivity|]. do 3 eexists. split; [vm_compute; reflexivity|]. split; [reflexivity|]. split; [reflexivity|].
    split; [vm_compute; reflexivity|]. split; [reflexivity|]. split; [vm_compute; reflexivity|]. split; reflexivity.
Qed.

(** Backspace searches on from the current match, not from where the search began: taking a character back need not
    return to the entry that was shown before it was typed. *)
Theorem C98_backspace_returns_refuted : exists cf ks r o1 o2 o3, good_config cf /\ ordinary r /\
  op_run cf ks fresh = Ok (o1, [ALine [97; 98]; ALine [97]]) /\ s_in (o_s o1) = true /\ s_fail (o_s o1) = false /\
  op_step cf r o1 = Ok (o2, []) /\ op_step cf 127 o2 = Ok (o3, []) /\ s_data (o_s o3) = s_data (o_s o1) /\
  rb_buf (o_b o1) = [97] /\ rb_buf (o_b o3) = [97; 98].
Proof.
  exists (excf ascii 80 (Some ab) false), [97; 98; 13; 97; 13; 18; 97], 98. do 3 eexists. split; [apply excf_good; lia|]. split; [unfold ordinary; lia|].
  split; [vm_compute; reflexivity|]. split; [reflexivity|]. split; [reflexivity|]. split; [vm_compute; reflexivity|]. split; [vm_compute; reflexivity|].
  split; [reflexivity|]. split; reflexivity.
Qed.
Print Assumptions C98_backspace_returns_refuted.
