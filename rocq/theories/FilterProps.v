(** Property C110: FuncFilterInputRune. *)
From Verif Require Import Base RunesModel RuneBufModel HistoryModel OpModel OpSpec OpProofs OpModes OpProps FilterSpec.
Open Scope Z_scope.

Lemma handle_unfiltered cf r o : handle_key (unfiltered cf) r o = handle_key cf r o.
Proof. destruct cf. reflexivity. Qed.

Lemma step_passed cf f r o : oc_filter cf = Some f -> o_vp o = None ->
  op_step cf r o = if o_end o then Ok (o, []) else match f r with Some r' => op_step (unfiltered cf) r' o | None => Ok (o, [AKick]) end.
Proof.
  intros F V. unfold op_step. rewrite V, F. cbn [oc_filter unfiltered]. destruct (o_end o); [reflexivity|].
  destruct (f r); [|reflexivity]. symmetry. apply handle_unfiltered.
Qed.

Lemma shown_app a b : shown_acts (a ++ b) = shown_acts a ++ shown_acts b.
Proof. apply filter_app. Qed.

Lemma visible_cons x (k : op -> outcome (op * list act)) :
  visible_run (y <- x ;; z <- k (fst y) ;; Ok (fst z, snd y ++ snd z)) =
  (y <- x ;; z <- visible_run (k (fst y)) ;; Ok (fst z, shown_acts (snd y) ++ snd z)).
Proof.
  destruct x as [[o a]| |]; cbn [obind fst snd visible_run]; try reflexivity.
  destruct (k o) as [[o' a']| |]; cbn [obind fst snd visible_run]; [rewrite shown_app|..]; reflexivity.
Qed.

(** Without vim mode the filter decides every rune and nothing else: the editor does exactly what it would do, without a filter, on the runes the filter
    passes on.  (The vim commands of two keys read the second key themselves: see below.) *)
Theorem C110_filter_partial cf f rs o : oc_filter cf = Some f -> oc_vim cf = false -> o_vp o = None ->
  visible_run (op_run cf rs o) = visible_run (op_run (unfiltered cf) (passed f rs) o).
Proof.
  intros F Vi. revert o. induction rs as [|r rs IH]; intros o V; [reflexivity|].
  destruct (o_end o) eqn:E; [rewrite !ended_run by exact E; reflexivity|].
  cbn [op_run passed flat_map]. rewrite (step_passed cf f r o F V), E. fold (passed f rs).
  destruct (f r) as [r'|].
  - cbn [app op_run]. rewrite !visible_cons. destruct (op_step (unfiltered cf) r' o) as [[o1 a]| |] eqn:S; cbn [obind fst snd]; try reflexivity.
    rewrite IH; [reflexivity|]. apply (vp_step (unfiltered cf) r' o o1 a); auto.
  - cbn [obind fst snd app]. rewrite <- IH by exact V.
    destruct (op_run cf rs o) as [[o' a']| |]; reflexivity.
Qed.

(** A filter that passes every rune is no filter at all. *)
Theorem C110_transparent cf rs o : oc_filter cf = Some (fun r => Some r) -> op_run cf rs o = op_run (unfiltered cf) rs o.
Proof.
  intros F. revert o. induction rs as [|r rs IH]; intros o; [reflexivity|]. cbn [op_run].
  assert (S : op_step cf r o = op_step (unfiltered cf) r o).
  { unfold op_step. rewrite F. cbn [oc_filter unfiltered]. rewrite handle_unfiltered. reflexivity. }
  rewrite S. destruct (op_step (unfiltered cf) r o) as [[o1 a]| |]; cbn [obind fst snd]; try reflexivity. rewrite IH. reflexivity.
Qed.

(** A rune the filter drops leaves the line, the cursor, the history and every mode as they are, and the prompt open. *)
Theorem C110_dropped cf f r o : oc_filter cf = Some f -> f r = None -> o_vp o = None -> op_step cf r o = Ok (o, if o_end o then [] else [AKick]).
Proof. intros F D V. rewrite (step_passed cf f r o F V), D. destruct (o_end o); reflexivity. Qed.

(** A filter that drops the rune that stands for the end of the input (rune 0) drops the end of the input: however often it is read, the call that is
    waiting gets no answer. *)
Theorem C110_end_dropped cf f n o : oc_filter cf = Some f -> f 0 = None -> o_vp o = None -> o_end o = false ->
  op_run cf (repeat 0 n) o = Ok (o, repeat AKick n).
Proof.
  intros F D V E. induction n as [|n IH]; [reflexivity|]. cbn [repeat op_run]. rewrite (C110_dropped cf f 0 o F D V), E. cbn [obind fst snd].
  rewrite IH. reflexivity.
Qed.

(** The filter of the examples: capitals for lower-case letters, no digits. *)
Definition caps (r : Z) : option Z := if (97 <=? r) && (r <=? 122) then Some (r - 32) else if (48 <=? r) && (r <=? 57) then None else Some r.
Definition nodigits (r : Z) : option Z := if (48 <=? r) && (r <=? 57) then None else Some r.
Definition filtered (f : Z -> option Z) (vim : bool) (cf : ocfg) : ocfg :=
  {| oc_u := oc_u cf; oc_h := oc_h cf; oc_w := oc_w cf; oc_prompt := oc_prompt cf; oc_auto := oc_auto cf; oc_vim := vim; oc_unique := oc_unique cf;
     oc_nosave := oc_nosave cf; oc_listen := oc_listen cf; oc_filter := Some f; oc_eofp := oc_eofp cf; oc_intp := oc_intp cf |}.
Definition fcf := filtered caps false (excf ascii 80 None false).

Definition returned (x : outcome (op * list act)) : list (list Z) := match x with Ok (_, a) => lines_of a | _ => [] end.

Example C110_ex : returned (op_run fcf [97;49;98;50;CharEnter] fresh) = [[65;66]]. Proof. vm_compute. reflexivity. Qed.
(** dropping rune 0 *)
Example C110_end_ex : exists f, oc_filter (filtered f false (excf ascii 80 None false)) = Some f /\ f 0 = None /\ f 97 = Some 97 /\ o_vp fresh = None /\ o_end fresh = false.
Proof. exists (fun r => if r <? 32 then None else Some r). repeat split. Qed.

(** In vim mode the second key of a command goes round the filter: "a", Escape, "h", "r1": this replaces the character under the cursor by the digit the filter drops. *)
Theorem C110_vim_refuted : exists cf f rs, oc_filter cf = Some f /\ o_vp fresh = None /\ f 49 = None /\
  returned (op_run cf rs fresh) = [[49]] /\ returned (op_run (unfiltered cf) (passed f rs) fresh) = [].
Proof.
  exists (filtered nodigits true (excf ascii 80 None false)), nodigits, [97;CharEsc;104;114;49;CharEnter]. split; [reflexivity|]. split; [reflexivity|]. split; [reflexivity|].
  split; vm_compute; reflexivity.
Qed.

Print Assumptions C110_filter_partial.
Print Assumptions C110_transparent.
Print Assumptions C110_dropped.
Print Assumptions C110_end_dropped.
Print Assumptions C110_vim_refuted.
