(** C137: ResetHistory forgets what was recorded. *)
From Verif Require Import Base ListAux RunesModel RuneBufModel HistoryModel HistorySpec HistoryProofs
  RenderProps OpModel OpSpec OpProps PassProps AppendSpec AppendProofs OffSpec OffProofs OffProps.
Open Scope nat_scope.

(** At most [k] entries and the line being edited; a history with an entry has a current one. *)
Definition few (k : nat) (h : hist) : Prop := length (h_items h) <= k + 1 /\ (h_items h = [] \/ h_cur h <> None).

Lemma few_compact c k h : length (h_items h) <= k + 1 -> h_items h = [] \/ h_cur h <> None -> few k (Compact c h).
Proof.
  intros L C. split.
  - rewrite Compact_items. unfold lastn. rewrite skipn_length. lia.
  - destruct C as [C|C].
    + left. rewrite Compact_items, C. unfold lastn. now rewrite skipn_nil.
    + right. unfold Compact. destruct (compact_loop _ _ _). exact C.
Qed.
Lemma few_update c s b k h h' : few k h -> Update c s b h = Ok h' -> few k h'.
Proof.
  intros (L & C) E. unfold Update in E. destruct (h_cur h) eqn:Q.
  - ob E. injection E as <-. apply few_compact.
    + destruct b; unfold write_fd; cbn; try (destruct (h_fd h); cbn); unfold map_item; rewrite map_length; exact L.
    + right. destruct b; unfold write_fd; cbn; try (destruct (h_fd h); cbn); congruence.
  - destruct C as [C|C]; [|congruence]. injection E as <-. apply few_compact; cbn.
    + rewrite C. cbn. lia.
    + right. discriminate.
Qed.
Lemma few_push k h : length (h_items h) <= k + 1 -> few (S k) (Push [] (bump_ver h)).
Proof. intros L. split; cbn; [rewrite app_length; cbn; lia|right; discriminate]. Qed.
Lemma few_back k h : few k h -> few k (set_cur (back_id h) h).
Proof.
  intros (L & _). split; [exact L|]. cbn. unfold back_id, back. destruct (h_items h) as [|x l]; [now left|right].
  destruct (rev (x :: l)) eqn:R; [|discriminate]. apply (f_equal (@length _)) in R. rewrite rev_length in R. discriminate.
Qed.
Lemma few_commit c s k h h' : few k h -> new_commit c s h = Ok h' -> few (S k) h'.
Proof.
  intros F E. unfold new_commit in E. ob E. injection E as <-.
  match goal with X : Update _ _ _ ?h1 = Ok _ |- _ => assert (F1 : few k h1) end.
  { destruct (opt_eqb (h_cur h) (back_id h)); [congruence|]. destruct (h_cur h); [|discriminate].
    match goal with X : obind _ _ = Ok _ |- _ => ob X; injection X as <- <- end. now apply few_back. }
  match goal with X : Update _ _ _ _ = Ok _ |- _ => apply (few_update _ _ _ k) in X; [|exact F1]; destruct X as (X & _) end.
  apply few_push. assumption.
Qed.
Lemma few_clean k id h : few k h -> few k (clean_back id h).
Proof. intros (L & C). split; cbn; unfold map_item; [rewrite map_length; exact L|right; discriminate]. Qed.
Lemma few_more k h : few k h -> few (S k) h.
Proof. intros (L & C). split; [lia|exact C]. Qed.
Lemma few_new c s k h h' : few k h -> New c s h = Ok h' -> few (S k) h'.
Proof.
  intros F E. unfold New in E. destruct (negb (h_enable h)); [injection E as <-; now apply few_more|].
  destruct (match rev (h_items h) with [] => None | _ => _ end) as [id|]; [injection E as <-; now apply few_more, few_clean|].
  destruct (length s =? 0); [|eapply few_commit; eassumption]. destruct (back_id h) as [id|] eqn:B; [injection E as <-; now apply few_more, few_clean|].
  eapply few_commit; [|exact E]. rewrite <- B. now apply few_back.
Qed.
Lemma few_path c n h h' : hpath c n h h' -> forall k, few k h -> few (n + k) h'.
Proof.
  intros P. induction P as [n h|n m h h1 h2 P1 IH1 P2 IH2| | | |]; intros k F.
  - destruct F as (L & C). split; [lia|exact C].
  - replace (n + m + k) with (m + (n + k)) by lia. apply IH2, IH1, F.
  - destruct F as (L & C). split; [exact L|right; discriminate].
  - exact (few_back k (bump_ver h) F).
  - eapply few_update; eassumption.
  - eapply few_new; eassumption.
Qed.
Lemma lines_app a b : lines_of (a ++ b) = lines_of a ++ lines_of b.
Proof. unfold lines_of. now rewrite ?flat_map_app. Qed.
Lemma few_run cf es : forall k o o' a, few k (o_h o) -> f_run cf es o = Ok (o', a) -> few (length (lines_of a) + saves es + k) (o_h o').
Proof.
  induction es as [|e es IH]; intros k o o' a F H; cbn [f_run] in H; [injection H as <- <-; exact F|].
  destruct e as [r|s| | |]; cbn in H.
  - ob H. injection H as <- <-. rewrite lines_app, app_length.
    match goal with X : op_step _ _ _ = Ok ?x, Y : f_run _ _ _ = Ok ?y |- _ => apply step_h in X; unfold st_grows in X; apply (few_path _ _ _ _ X) in F;
      apply (IH _ _ (fst y) (snd y)) in F; [|rewrite Y; now destruct y] end.
    destruct F as (L & C). split; [|exact C]. unfold saves in *. cbn [filter]. destruct (oc_nosave cf); lia.
  - ob H. match goal with X : New _ _ _ = Ok _ |- _ => apply (few_new _ _ k) in X; [|exact F]; apply (IH (S k) (with_h a0 o)) in H; [|exact X] end.
    destruct H as (L & C). split; [|exact C]. unfold saves in *. cbn [filter length]. lia.
  - apply (IH k) in H; [exact H|]. split; [cbn; lia|now left].
  - apply (IH k) in H; [exact H|exact F].
  - apply (IH k) in H; [exact H|exact F].
Qed.

(** After ResetHistory there are at most as many lines in the history as have been entered or saved since, beside the line
    being edited. *)
Theorem C137_forgets : forall cf es o o' a, f_run cf (KReset :: es) o = Ok (o', a) ->
  length (h_items (o_h o')) <= length (lines_of a) + saves es + 1.
Proof.
  intros cf es o o' a H. cbn [f_run] in H. apply (few_run cf es 0) in H; [destruct H; lia|]. split; [cbn; lia|now left].
Qed.
Print Assumptions C137_forgets.

(** Until a line is entered or saved nothing can be recalled: Ctrl-P and Ctrl-N ring the bell and leave the line alone. *)
Theorem C137_no_recall : forall cf es r o o1 a1 o2 a2, f_run cf (KReset :: es) o = Ok (o1, a1) -> lines_of a1 = [] -> saves es = 0 ->
  browsing_prompt cf o1 -> r = CharPrev \/ r = CharNext -> op_step cf r o1 = Ok (o2, a2) ->
  a2 = [ABell] /\ rb_buf (o_b o2) = rb_buf (o_b o1) /\ rb_idx (o_b o2) = rb_idx (o_b o1).
Proof.
  intros cf es r o o1 a1 o2 a2 H A S B R E. apply C137_forgets in H. rewrite A, S in H. cbn in H.
  exact (recall_few cf r o1 (o2, a2) B H R E).
Qed.
Print Assumptions C137_no_recall.

(** Limit 5: "a" and "b" are entered, the history is reset, "c" is typed: up rings the bell; without the reset it shows "b".
    After entering "c" the history has "c" and the line to come. *)
Definition c137_cf : ocfg :=
  {| oc_u := oc_u c135_cf; oc_h := {| hc_limit := 5; hc_fold := false; hc_file := false |}; oc_w := 10; oc_prompt := [63;32]%Z; oc_auto := None;
     oc_vim := false; oc_unique := false; oc_nosave := false; oc_listen := None; oc_filter := None; oc_eofp := []; oc_intp := [] |}.
Definition c137_o : op := match op_run c137_cf [97; 13; 98; 13]%Z fresh with Ok (o, _) => o | _ => fresh end.
Example C137_ex : map it_src (h_items (o_h c137_o)) = [[97]; [98]; []]%Z /\
  (exists o1 o2, f_run c137_cf (KReset :: [KKey 99%Z]) c137_o = Ok (o1, []) /\ browsing_prompt c137_cf o1 /\
     op_step c137_cf CharPrev o1 = Ok (o2, [ABell]) /\ rb_buf (o_b o2) = [99]%Z) /\
  (exists o1 o2, f_run c137_cf [KKey 99%Z] c137_o = Ok (o1, []) /\ op_step c137_cf CharPrev o1 = Ok (o2, []) /\ rb_buf (o_b o2) = [98]%Z) /\
  (exists o1, f_run c137_cf (KReset :: map KKey [99; 13]%Z) c137_o = Ok (o1, [ALine [99]%Z]) /\ map it_src (h_items (o_h o1)) = [[99]; []]%Z).
Proof.
  split; [vm_compute; reflexivity|]. split; [|split].
  - do 2 eexists. split; [vm_compute; reflexivity|]. split; [vm_compute; auto 10|]. split; vm_compute; reflexivity.
  - do 2 eexists. split; [vm_compute; reflexivity|]. split; vm_compute; reflexivity.
  - eexists. split; vm_compute; reflexivity.
Qed.
