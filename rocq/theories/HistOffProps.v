(** Property C97: nothing is recorded while recording is off (readline.go:330-338, history.go:228-236, 281-284,
    operation.go:254-261). *)
From Verif Require Import Base ListAux RunesModel Utf8Model Utf8Spec Utf8Proofs RuneBufModel HistoryModel HistorySpec HistoryProofs HistoryFileProofs
  RenderModel OpModel OpSpec OpProofs OpModes OpHist OpProps SessionProps HistOffSpec OpHistOff.
From Coq Require Import ZifyBool.
Open Scope Z_scope.

(** Whatever keys other than the two search keys are pressed, and however often recording is switched off and on
    between them, the history ends with exactly what the lines submitted while it was on add to it: all of them up
    to the limit, nothing else.  With DisableAutoSaveHistory nothing is added at all. *)
Theorem C97_off_partial : forall cf h R es o a l, 1 <= hc_limit (oc_h cf) -> oc_vim cf = false -> oc_filter cf = None -> no_search_keys es ->
  rests (oc_h cf) h R -> hev_run cf es true (op_new h) = Ok (o, a, l) ->
  let kept := if oc_nosave cf then R else recorded R (map Submit l) in
  exists n, committed (o_h o) = lastn n kept /\ (n <= keep (oc_h cf))%nat /\ (Nat.min (length kept) (keep (oc_h cf) - 1) <= n)%nat.
Proof. exact off_recorded. Qed.
Print Assumptions C97_off_partial.

(** The same for the file: read back later it gives the lines that were there and those submitted while recording
    was on. *)
Theorem C97_saved_partial : forall cf c' ls es o a l, 1 <= hc_limit (oc_h cf) -> oc_vim cf = false -> oc_filter cf = None -> no_search_keys es ->
  hc_file (oc_h cf) = true -> hc_file c' = true -> hc_limit c' <= hc_limit (oc_h cf) -> Forall clean_line ls ->
  let h := openf (oc_h cf) (flat_map file_line ls) in
  hev_run cf es true (op_new h) = Ok (o, a, l) -> Forall (fun l => l = [] \/ clean_line l) (lines_of a) ->
  committed (openf c' (h_disk (HClose (o_h o)))) =
    lastn (keep c') (if oc_nosave cf then lastn (keep (oc_h cf)) ls else recorded (lastn (keep (oc_h cf)) ls) (map Submit l)).
Proof. exact off_saved. Qed.
Print Assumptions C97_saved_partial.

(** "one" is in the file; "a" is submitted; recording is switched off, "secret" submitted after looking at the
    older lines; recording is switched on in the middle of the line "b". *)
Example C97_ex : let cf := filed cf0 in let ls := [[111; 110; 101]] in let h := openf (oc_h cf) (flat_map file_line ls) in
  let es := map HKey [97; 13] ++ [HOff] ++ map HKey [16; 16; 14; 14; 115; 101; 99; 114; 101; 116; 13; 98] ++ [HOn] ++ map HKey [98; 13] in
  no_search_keys es /\ rests (oc_h cf) h ls /\ exists o,
    hev_run cf es true (op_new h) = Ok (o, [ALine [97]; ALine [115; 101; 99; 114; 101; 116]; ALine [98; 98]], [[97]; [98; 98]]) /\
    committed (o_h o) = [[111; 110; 101]; [97]; [98; 98]] /\ committed (openf (oc_h cf) (h_disk (HClose (o_h o)))) = [[111; 110; 101]; [97]; [98; 98]].
Proof.
  cbn zeta. split; [split; cbn; intuition discriminate|]. split.
  - assert (O : Forall clean_line [[111; 110; 101]]).
    { repeat constructor; try discriminate; try (unfold scalar; lia); try (cbn; intuition discriminate);
        intros x t E; try (injection E as <- _; reflexivity); destruct t as [|? [|? [|? t]]]; try discriminate; injection E as; subst; try reflexivity; destruct t; discriminate. }
    destruct (open_persisted (oc_h (filed cf0)) _ ltac:(cbn; lia) eq_refl O) as (F & X & _). exact X.
  - eexists. split; [vm_compute; reflexivity|]. split; vm_compute; reflexivity.
Qed.

(** Recording off does not mean that the history is as it was: an older line recalled and submitted while recording
    is off is shown empty afterwards.  "x" is in the history; off; Ctrl-P Enter; then Ctrl-N does nothing visible, and
    Ctrl-P shows an empty line where "x" was. *)
Theorem C97_unchanged_refuted : exists cf es o a l, 1 <= hc_limit (oc_h cf) /\ no_search_keys es /\
  hev_run cf (map HKey [120; 13] ++ [HOff] ++ es) true (op_new (newOpHistory [])) = Ok (o, a, l) /\
  committed (o_h o) = [[120]] /\ (exists id, h_cur (o_h o) = Some id /\ option_map it_id (hd_error (h_items (o_h o))) = Some id) /\
  rb_buf (o_b o) = [].
Proof.
  exists cf0, (map HKey [16; 13; 14; 16]). do 3 eexists. split; [vm_compute; discriminate|]. split; [split; cbn; intuition discriminate|].
  split; [vm_compute; reflexivity|]. split; [vm_compute; reflexivity|]. split; [eexists; split; vm_compute; reflexivity|vm_compute; reflexivity].
Qed.
Print Assumptions C97_unchanged_refuted.

(** With DisableAutoSaveHistory a submitted line is not recorded, but it is not forgotten either: Ctrl-P Ctrl-N at
    the next prompt bring it back into the line. *)
Definition unsaved (cf : ocfg) : ocfg :=
  {| oc_u := oc_u cf; oc_h := oc_h cf; oc_w := oc_w cf; oc_prompt := oc_prompt cf; oc_auto := oc_auto cf; oc_vim := oc_vim cf;
     oc_unique := oc_unique cf; oc_nosave := true; oc_listen := oc_listen cf; oc_filter := oc_filter cf; oc_eofp := oc_eofp cf; oc_intp := oc_intp cf |}.
Theorem C97_forgotten_refuted : exists cf ls es o a l, oc_nosave cf = true /\ hc_file (oc_h cf) = true /\ no_search_keys es /\
  hev_run cf es true (op_new (openf (oc_h cf) (flat_map file_line ls))) = Ok (o, a, l) /\
  lines_of a = [[115; 101; 99]] /\ committed (o_h o) = ls /\ rb_buf (o_b o) = [115; 101; 99].
Proof.
  exists (unsaved (filed cf0)), [[120]], (map HKey [115; 101; 99; 13; 16; 14]). do 3 eexists. split; [reflexivity|]. split; [reflexivity|].
  split; [split; cbn; intuition discriminate|]. split; [vm_compute; reflexivity|]. split; [vm_compute; reflexivity|]. split; vm_compute; reflexivity.
Qed.
Print Assumptions C97_forgotten_refuted.

(** With DisableAutoSaveHistory the first Ctrl-P at a new prompt need not show the newest line: browsing continues where
    the previous prompt left it. *)
Theorem C97_first_up_refuted : exists cf ls es o a l, oc_nosave cf = true /\ hc_file (oc_h cf) = true /\ no_search_keys es /\
  hev_run cf (es ++ [HKey 16]) true (op_new (openf (oc_h cf) (flat_map file_line ls))) = Ok (o, a, l) /\
  committed (o_h o) = ls /\ last ls [] = [50] /\ rb_buf (o_b o) = [49] /\ (exists k, es = k ++ [HKey 13]).
Proof.
  exists (unsaved (filed cf0)), [[49]; [50]], (map HKey [16; 13]). do 3 eexists. split; [reflexivity|]. split; [reflexivity|].
  split; [split; cbn; intuition discriminate|]. split; [vm_compute; reflexivity|]. split; [vm_compute; reflexivity|]. split; [reflexivity|]. split; [vm_compute; reflexivity|].
  exists [HKey 16]. reflexivity.
Qed.
Print Assumptions C97_first_up_refuted.
