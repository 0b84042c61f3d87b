(** Property C103: the loop around Line, CanContinue and CanBreak; ReadSlice. *)
From Verif Require Import Base ListAux RunesModel Utf8Model Utf8Proofs RuneBufModel RuneBufSpec HistoryModel HistorySpec HistoryProofs
  RenderModel OpModel OpSpec OpProofs OpKeys OpModes SessionProps LoopModel LoopSpec.
From Coq Require Import ZifyBool.
Open Scope Z_scope.

Lemma somes_app {A} (a b : list (option A)) : somes (a ++ b) = somes a ++ somes b.
Proof. induction a as [|[x|] a IH]; cbn; [reflexivity|now rewrite IH|exact IH]. Qed.

(** What the calls of Readline return. *)
Definition returned (x : user) : act := match x with UEnter t _ => ALine t | UIntr t => AIntr t | UEof => AEof end.

Lemma does_step cf x o : plain cf -> at_rest o -> sensible x -> exists o', op_run cf (does x) o = Ok (o', [returned x]) /\ at_rest o'.
Proof.
  intros P A S. pose proof A as T. apply rest_typing in T. destruct T as (T & B & I). destruct x as [t e|t|]; cbn [does returned] in *.
  - destruct S as (F & E). rewrite op_run_app. destruct (text_steps cf t P F o T) as (o1 & -> & T1 & B1 & _); [rewrite B; exact I|].
    cbn [obind fst snd op_run]. destruct (enter_step cf e o1 P T1 E) as (o2 & -> & A2 & _). cbn. rewrite B1, B. eauto.
  - rewrite op_run_app. destruct (text_steps cf t P S o T) as (o1 & -> & T1 & B1 & _); [rewrite B; exact I|]. cbn [obind fst snd op_run].
    destruct (interrupt_step cf o1 P (ty_in _ T1) (ty_h _ T1) (ty_s _ T1) (ty_c _ T1) (ty_sel _ T1) (ty_vp _ T1) (ty_end _ T1)) as (o2 & -> & A2).
    { intros X. pose proof (ty_vn _ T1). congruence. }
    cbn. rewrite B1, B. eauto.
  - cbn [op_run]. destruct (delete_empty_step cf o P A) as (o2 & -> & A2). cbn. eauto.
Qed.

Lemma does_steps cf xs : plain cf -> Forall sensible xs -> forall o, at_rest o ->
  exists o', op_run cf (flat_map does xs) o = Ok (o', map returned xs) /\ at_rest o'.
Proof.
  intros P. induction 1 as [|x xs S F IH]; intros o A; cbn [flat_map map]; [cbn; eauto|].
  rewrite op_run_app. destruct (does_step cf x o P A S) as (o1 & -> & A1). cbn [obind fst snd].
  destruct (IH o1 A1) as (o2 & -> & A2). cbn. eauto.
Qed.

Lemma encode_empty l : length (encode l) = 0%nat <-> l = [].
Proof.
  split; [|now intros ->]. destruct l as [|x l]; [reflexivity|]. cbn. pose proof (encode_nonempty x). destruct (encode_rune x); [congruence|discriminate].
Qed.

Lemma loop_handled xs : loop (somes (map String_ (map returned xs))) = handled xs.
Proof.
  induction xs as [|[t e|t|] xs IH]; cbn [map returned String_ somes loop handled]; [reflexivity| | |reflexivity].
  - unfold CanBreak, CanContinue. cbn [r_line r_err]. rewrite andb_false_r. cbn [negb andb]. rewrite IH. destruct (handled xs). reflexivity.
  - unfold CanBreak, CanContinue. cbn [r_line r_err]. destruct t as [|c t]; [reflexivity|].
    destruct (Nat.eqb_spec (length (encode (c :: t))) 0) as [E|E]; [apply encode_empty in E; discriminate|]. exact IH.
Qed.

(** ** C103: a loop around Line handles the lines entered, until Ctrl-C or Ctrl-D on an empty line *)
Theorem C103_loop_partial : forall cf xs o, plain cf -> at_rest o -> Forall sensible xs ->
  exists o' a, op_run cf (flat_map does xs) o = Ok (o', a) /\ loop (somes (map String_ a)) = handled xs.
Proof.
  intros cf xs o P A F. destruct (does_steps cf xs P F o A) as (o' & E & _). exists o', (map returned xs). split; [exact E|apply loop_handled].
Qed.
Print Assumptions C103_loop_partial.

(** The end of the input ends the loop; a line not finished by then is handled. *)
Theorem C103_end_partial : forall cf xs tail o n, plain cf -> at_rest o -> Forall sensible xs -> Forall ordinary tail -> (2 <= n)%nat -> snd (handled xs) = false ->
  exists o' a, op_run cf (flat_map does xs ++ tail ++ repeat 0 n) o = Ok (o', a) /\
    loop (somes (map String_ a)) = (fst (handled xs) ++ match tail with [] => [] | _ => [encode tail] end, true).
Proof.
  intros cf xs tail o n P A F Ft N H. rewrite op_run_app. destruct (does_steps cf xs P F o A) as (o1 & -> & A1). cbn [obind fst snd].
  destruct (lines_then_eof cf [] tail o1 n P A1 ltac:(constructor) Ft N) as (o2 & E & _). cbn [typed map app] in E. rewrite E. cbn [obind fst snd].
  do 2 eexists. split; [reflexivity|]. rewrite map_app, somes_app.
  assert (Q : forall rs, loop (somes (map String_ (map returned xs)) ++ rs) = (fst (handled xs) ++ fst (loop rs), snd (loop rs))).
  { clear - H. induction xs as [|[t e|t|] xs IH]; intros rs; cbn [map returned String_ somes app loop handled] in *.
    - destruct (loop rs); reflexivity.
    - unfold CanBreak, CanContinue. cbn [r_line r_err]. rewrite andb_false_r. cbn [negb andb fst snd] in *. rewrite IH by exact H. reflexivity.
    - unfold CanBreak, CanContinue. cbn [r_line r_err]. destruct t as [|c t]; [discriminate|].
      destruct (Nat.eqb_spec (length (encode (c :: t))) 0) as [E|E]; [apply encode_empty in E; discriminate|]. cbn [negb andb]. now apply IH.
    - discriminate. }
  rewrite Q. destruct tail as [|c tail]; [reflexivity|]. cbn [map String_ app somes loop].
  unfold CanBreak, CanContinue. cbn [r_line r_err]. rewrite !andb_false_r. reflexivity.
Qed.
Print Assumptions C103_end_partial.

(** Every result of Line is one to skip, one to stop at, or a line without error. *)
Theorem C103_cases : forall a r, String_ a = Some r ->
  (CanContinue r = true /\ CanBreak r = false /\ exists l, a = AIntr l /\ l <> []) \/
  (CanContinue r = false /\ CanBreak r = true /\ (a = AEof \/ a = AIntr [])) \/
  (CanContinue r = false /\ CanBreak r = false /\ exists l, a = ALine l /\ r_line r = encode l).
Proof.
  intros a r E. destruct a as [|l|l| | | |]; try discriminate; injection E as <-; unfold CanBreak, CanContinue; cbn [r_line r_err].
  - right. right. rewrite andb_false_r. eauto.
  - destruct l as [|x l].
    + right. left. cbn. auto.
    + left. destruct (Nat.eqb_spec (length (encode (x :: l))) 0) as [E|E]; [apply encode_empty in E; discriminate|].
      split; [reflexivity|]. split; [reflexivity|]. exists (x :: l). split; [reflexivity|discriminate].
  - right. left. cbn. auto.
Qed.
Print Assumptions C103_cases.

(** ReadSlice gives the bytes of what Readline gives, except that ... *)
Theorem C103_slice_partial : forall a r, String_ a = Some r -> r_err r <> EInterrupt -> Slice a = Some r.
Proof. intros a r. destruct a; cbn; try discriminate; intros [= <-]; cbn; congruence. Qed.
Print Assumptions C103_slice_partial.
(** ... the text given up with Ctrl-C is lost, although the method is documented as "same as readline". *)
Theorem C103_slice_refuted : exists cf o o' a r s, plain cf /\ op_run cf [97; 3] o = Ok (o', [a]) /\ String_ a = Some r /\ Slice a = Some s /\
  r_line r = [97] /\ r_line s = [] /\ r_err r = r_err s.
Proof.
  exists cf0, (op_new (newOpHistory [])). do 4 eexists. split; [split; reflexivity|]. split; [vm_compute; reflexivity|].
  split; [reflexivity|]. split; [reflexivity|]. split; [reflexivity|]. split; reflexivity.
Qed.
Print Assumptions C103_slice_refuted.

(** "a" entered, "b" given up, "c" entered, Ctrl-C on an empty line; "d" is not handled any more. *)
Example C103_ex : let xs := [UEnter [97] 13; UIntr [98]; UEnter [19990] 10; UIntr []; UEnter [100] 13] in
  Forall sensible xs /\ handled xs = ([[97]; [228; 184; 150]], true) /\ exists o' a,
  op_run cf0 (flat_map does xs) (op_new (newOpHistory [])) = Ok (o', a) /\ loop (somes (map String_ a)) = ([[97]; [228; 184; 150]], true).
Proof.
  cbn zeta. split.
  { assert (O : forall r, (32 <=? r) && (r <? 127) || (r =? 19990) = true -> ordinary r) by (intros r H; unfold ordinary; lia).
    apply Forall_cons; [split; [apply Forall_cons; [apply O; reflexivity|constructor]|left; reflexivity]|].
    apply Forall_cons; [apply Forall_cons; [apply O; reflexivity|constructor]|].
    apply Forall_cons; [split; [apply Forall_cons; [apply O; reflexivity|constructor]|right; reflexivity]|].
    apply Forall_cons; [constructor|].
    apply Forall_cons; [split; [apply Forall_cons; [apply O; reflexivity|constructor]|left; reflexivity]|constructor]. }
  split; [vm_compute; reflexivity|]. do 2 eexists. split; [vm_compute; reflexivity|]. vm_compute. reflexivity.
Qed.
