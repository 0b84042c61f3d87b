(** C136: HistoryLimit -1 disables the history: no line is kept, none can be recalled. *)
From Verif Require Import Base RunesModel RuneBufModel HistoryModel RenderModel RenderProps OpModel OpSpec OpProps PassProps HistoryFileProofs AppendProofs OffSpec OffProofs.
Open Scope Z_scope.

(** Whatever is typed (vim mode, completion, searches, listener and filter included), at every moment of the session no line is
    kept, neither a submitted one nor the one being edited. *)
Theorem C136_nothing_kept : forall cf rs o o' a, history_off cf -> nothing_kept o -> op_run cf rs o = Ok (o', a) -> nothing_kept o'.
Proof. intros cf rs o o' a L. exact (run_off cf rs L o o' a). Qed.
Print Assumptions C136_nothing_kept.

(** So the keys that recall a line ring the bell and leave the line and the cursor as they were, at any time of a session
    that begins with nothing kept. *)
Theorem C136_no_recall : forall cf rs r o o1 a1 o2 a2, history_off cf -> nothing_kept o -> op_run cf rs o = Ok (o1, a1) ->
  browsing_prompt cf o1 -> r = CharPrev \/ r = CharNext -> op_step cf r o1 = Ok (o2, a2) ->
  a2 = [ABell] /\ rb_buf (o_b o2) = rb_buf (o_b o1) /\ rb_idx (o_b o2) = rb_idx (o_b o1).
Proof.
  intros cf rs r o o1 a1 o2 a2 L K H B R S. apply (C136_nothing_kept _ _ _ _ _ L K) in H.
  exact (recall_off cf r o1 (o2, a2) B H R S).
Qed.
Print Assumptions C136_no_recall.

(** A search, in either direction and from anywhere in the line, finds nothing but the entry that is being edited. *)
Theorem C136_search : forall cf rs o o1 a1 b new txt start idx id, history_off cf -> nothing_kept o -> op_run cf rs o = Ok (o1, a1) ->
  (if b : bool then FindBck (oc_h cf) new txt start (o_h o1) else FindFwd (oc_h cf) new txt start (o_h o1)) = Ok (Some (idx, id)) ->
  h_cur (o_h o1) = Some id.
Proof.
  intros cf rs o o1 a1 b new txt start idx id L K H F. apply (C136_nothing_kept _ _ _ _ _ L K) in H. exact (find_off _ _ _ _ _ _ _ _ H F).
Qed.
Print Assumptions C136_search.

(** An instance begins with nothing kept, without a history file and with any one: what is in the file is not loaded
    (it is even removed from the file, C25). *)
Theorem C136_start : forall cf disk openable, history_off cf ->
  nothing_kept (op_new (HInit (oc_h cf) openable (newOpHistory disk))).
Proof. exact start_off. Qed.
Print Assumptions C136_start.

(** The same keys with a limit of two lines recall what was submitted: it is the option that disables the history. *)
Definition c136_one : ocfg :=
  {| oc_u := u0; oc_h := {| hc_limit := 2; hc_fold := false; hc_file := false |}; oc_w := 10; oc_prompt := [63;32];
     oc_auto := None; oc_vim := false; oc_unique := false; oc_nosave := false; oc_listen := None; oc_filter := None;
     oc_eofp := []; oc_intp := [] |}.
Definition c136_file : ocfg :=
  {| oc_u := u0; oc_h := {| hc_limit := -1; hc_fold := false; hc_file := true |}; oc_w := 10; oc_prompt := [63;32];
     oc_auto := None; oc_vim := false; oc_unique := false; oc_nosave := false; oc_listen := None; oc_filter := None;
     oc_eofp := []; oc_intp := [] |}.
Definition c136_keys : list Z := [97; 13; 98].
Example C136_ex : history_off c135_cf /\ nothing_kept fresh /\ nothing_kept (op_new (openf (oc_h c136_file) [97; 10])) /\
  (exists o1 o2, op_run c135_cf c136_keys fresh = Ok (o1, [ALine [97]]) /\ browsing_prompt c135_cf o1 /\
     op_step c135_cf CharPrev o1 = Ok (o2, [ABell]) /\ rb_buf (o_b o2) = [98]) /\
  (exists o1 o2, op_run c136_one c136_keys fresh = Ok (o1, [ALine [97]]) /\
     op_step c136_one CharPrev o1 = Ok (o2, []) /\ rb_buf (o_b o2) = [97]).
Proof.
  split; [reflexivity|]. split; [apply (C136_start c135_cf [] false); reflexivity|].
  split; [apply (C136_start c136_file [97; 10] true); reflexivity|]. split.
  - do 2 eexists. split; [vm_compute; reflexivity|]. split; [vm_compute; auto 10|]. split; vm_compute; reflexivity.
  - do 2 eexists. split; [vm_compute; reflexivity|]. split; vm_compute; reflexivity.
Qed.
(** "ab" is submitted and "xa" typed: a search for "a" finds the "a" of the line at hand, one for "b" nothing. *)
Example C136_search_ex : exists o1 id, op_run c135_cf [97; 98; 13; 120; 97] fresh = Ok (o1, [ALine [97; 98]]) /\ h_cur (o_h o1) = Some id /\
  FindBck (oc_h c135_cf) true [97] 2 (o_h o1) = Ok (Some (1, id)) /\ FindBck (oc_h c135_cf) true [98] 2 (o_h o1) = Ok None.
Proof. do 2 eexists. split; [vm_compute; reflexivity|]. split; [vm_compute; reflexivity|]. split; vm_compute; reflexivity. Qed.
