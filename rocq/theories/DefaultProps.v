(** Property C102: a line offered with ReadlineWithDefault. *)
From Verif Require Import Base ListAux RunesModel RuneBufModel RuneBufSpec HistoryModel HistorySpec HistoryProofs HistoryFileProofs
  RenderModel OpModel OpSpec OpProofs OpKeys OpModes OpHist SessionProps DefaultModel DefaultSpec DefaultProofs.
Open Scope Z_scope.

(** ** C102: the offered line can be accepted, extended and edited as if it had been typed *)
(** Whatever the line offered contains, accepting it returns exactly that line, and text typed before Enter is added at its end. *)
Theorem C102_enter : forall cf d t e o, plain cf -> at_rest o -> Forall ordinary t -> e = 13 \/ e = 10 ->
  exists o', ReadlineWithDefault cf d (t ++ [e]) o = Ok (o', [ALine (d ++ t)]) /\ at_rest o'.
Proof. exact default_enter. Qed.
Print Assumptions C102_enter.
(** Ctrl-C gives it up and returns it with the error. *)
Theorem C102_interrupt : forall cf d o, plain cf -> at_rest o -> exists o', ReadlineWithDefault cf d [3] o = Ok (o', [AIntr d]) /\ at_rest o'.
Proof. exact default_interrupt. Qed.
Print Assumptions C102_interrupt.

(** With an editing key first, everything that follows, whatever the keys, is what it would be had the line been typed:
    the same results, the same history, the same state of the editor. *)
Theorem C102_as_typed_partial : forall cf d r rs o, plain cf -> oc_vim cf = false -> at_rest o -> h_items (o_h o) <> [] ->
  Forall ordinary d -> edits d r -> ReadlineWithDefault cf d (r :: rs) o = op_run cf (d ++ r :: rs) o.
Proof.
  intros cf d r rs o P Vi A N F E. apply default_as_typed; auto. intros C. pose proof (w_cur _ (ar_h _ A)) as W. rewrite C in W. exact (N W).
Qed.
Print Assumptions C102_as_typed_partial.

(** What is returned is recorded, as for lines that were typed. *)
Theorem C102_recorded_partial : forall cf d rs o R o' a, 1 <= hc_limit (oc_h cf) -> oc_vim cf = false -> oc_nosave cf = false -> oc_filter cf = None ->
  at_rest o -> rests (oc_h cf) (o_h o) R -> no_search_enter cf rs (SetBuffer d o) -> ReadlineWithDefault cf d rs o = Ok (o', a) ->
  exists n, committed (o_h o') = lastn n (recorded R (map Submit (lines_of a))) /\ (n <= keep (oc_h cf))%nat /\
    (Nat.min (length (recorded R (map Submit (lines_of a)))) (keep (oc_h cf) - 1) <= n)%nat.
Proof. exact default_recorded. Qed.
Print Assumptions C102_recorded_partial.

(** Without one it is not: the line offered is not known to the history.  Up and down, which bring a typed line back, lose it. *)
Definition one_line : op := op_new (openf {| hc_limit := 10; hc_fold := false; hc_file := true |} [111; 110; 101; 10]).
Theorem C102_browse_refuted : exists cf d o o' o'', plain cf /\ at_rest o /\ h_items (o_h o) <> [] /\
  ReadlineWithDefault cf d [16; 14; 13] o = Ok (o', [ALine []]) /\ d <> [] /\
  op_run cf (d ++ [16; 14; 13]) o = Ok (o'', [ALine d]).
Proof.
  exists cf0, [97; 98], one_line. do 2 eexists. split; [split; reflexivity|]. split.
  { constructor; try reflexivity. apply historyUpdatePath_ok, hwf_new. }
  split; [vm_compute; discriminate|]. split; [vm_compute; reflexivity|]. split; [discriminate|]. vm_compute. reflexivity.
Qed.
Print Assumptions C102_browse_refuted.
(** Ctrl-R and Ctrl-G, a search begun and cancelled, as well. *)
Theorem C102_search_refuted : exists cf d o o' o'', plain cf /\
  ReadlineWithDefault cf d [18; 7; 13] o = Ok (o', [ALine []]) /\ d <> [] /\
  op_run cf (d ++ [18; 7; 13]) o = Ok (o'', [ALine d]).
Proof.
  exists cf0, [97; 98], one_line. do 2 eexists. split; [split; reflexivity|].
  split; [vm_compute; reflexivity|]. split; [discriminate|]. vm_compute. reflexivity.
Qed.
Print Assumptions C102_search_refuted.

(** "ab" is offered; the cursor is moved left, "x" typed, then up, down and Enter. *)
Example C102_ex : edits [97; 98] 2 /\ exists o' o'', ReadlineWithDefault cf0 [97; 98] [2; 120; 16; 14; 13] one_line = Ok (o', [ALine [97; 120; 98]]) /\
  committed (o_h o') = [[111; 110; 101]; [97; 120; 98]] /\
  ReadlineWithDefault cf0 [9; 10; 0] [99; 13] one_line = Ok (o'', [ALine [9; 10; 0; 99]]).
Proof.
  split; [unfold edits; intuition discriminate|]. do 2 eexists. split; [vm_compute; reflexivity|]. split; vm_compute; reflexivity.
Qed.
