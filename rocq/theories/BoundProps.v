(** C17 and C136 over sessions: keys mixed with SaveHistory, ResetHistory, HistoryDisable and HistoryEnable. *)
From Verif Require Import Base ListAux RunesModel RuneBufModel HistoryModel HistorySpec HistoryProofs HistoryFileProofs
  OpModel OpSpec OpProps PassProps AppendSpec AppendProofs OffSpec OffProofs OffProps.
Open Scope nat_scope.

Lemma update_compact c s b h h' : Update c s b h = Ok h' -> exists k, h' = Compact c k.
Proof. intros E. unfold Update in E. destruct (h_cur h); ob E; injection E as <-; eexists; reflexivity. Qed.

(** What Update, New and Reset keep is kept by a session. *)
Section Keeps.
  Variable c : hcfg.
  Variable I : list item -> Prop.
  Hypothesis I_nil : I [].
  Hypothesis I_push : forall h, I (h_items (Push [] (bump_ver (Compact c h)))).
  Hypothesis I_compact : forall h, I (h_items (Compact c h)).
  Hypothesis I_clean : forall id h, I (h_items h) -> I (h_items (modify id clean_item h)).

  Lemma keeps_update s b h h' : Update c s b h = Ok h' -> I (h_items h').
  Proof. intros E. unfold Update in E. destruct (h_cur h); ob E; injection E as <-; apply I_compact. Qed.
  Lemma keeps_commit s h h' : new_commit c s h = Ok h' -> I (h_items h').
  Proof.
    intros E. unfold new_commit in E. ob E. injection E as <-.
    match goal with X : Update _ _ _ _ = Ok _ |- _ => apply update_compact in X; destruct X as (k & ->) end.
    exact (I_push k).
  Qed.
  Lemma keeps_new s h h' : I (h_items h) -> New c s h = Ok h' -> I (h_items h').
  Proof.
    intros K E. unfold New in E. destruct (negb (h_enable h)); [injection E as <-; exact K|].
    destruct (match rev (h_items h) with [] => None | _ => _ end) as [id|].
    - injection E as <-. exact (I_clean id (set_cur (Some id) h) K).
    - destruct (length s =? 0); [|eapply keeps_commit; eassumption]. destruct (back_id h) as [id|].
      + injection E as <-. exact (I_clean id (set_cur (Some id) h) K).
      + eapply keeps_commit; eassumption.
  Qed.
  Lemma keeps_path n h h' : hpath c n h h' -> I (h_items h) -> I (h_items h').
  Proof.
    intros P. induction P as [| ? ? ? ? ? ? IH1 ? IH2| | | |]; intros K; try exact K.
    - apply IH2, IH1, K.
    - eapply keeps_update; eassumption.
    - eapply keeps_new; eassumption.
  Qed.
  Lemma keeps_run cf es : oc_h cf = c -> forall o o' a, I (h_items (o_h o)) -> f_run cf es o = Ok (o', a) -> I (h_items (o_h o')).
  Proof.
    intros C. induction es as [|e es IH]; intros o o' a K H; cbn [f_run] in H; [injection H as <- _; exact K|].
    destruct e as [r|s| | |]; cbn in H.
    - ob H. injection H as <- _. match goal with X : op_step _ _ _ = Ok _ |- _ => apply step_h in X; unfold st_grows in X; rewrite C in X; pose proof (keeps_path _ _ _ X K) as K1 end.
      match goal with X : f_run _ _ _ = Ok ?y |- _ => apply (IH _ (fst y) (snd y) K1); rewrite X; destruct y; reflexivity end.
    - ob H. refine (IH _ _ _ _ H). cbn. eapply keeps_new; [exact K|]. rewrite C in *. eassumption.
    - refine (IH _ _ _ _ H). exact I_nil.
    - refine (IH _ _ _ _ H). exact K.
    - refine (IH _ _ _ _ H). exact K.
  Qed.
End Keeps.

(** C17 at the prompt: whatever is typed and called, the history never holds more than the limit allows, beside the line being edited;
    and it begins like that with any history file. *)
Theorem C17_session : forall cf es o o' a, length (h_items (o_h o)) <= Z.to_nat (hc_limit (oc_h cf)) + 1 -> f_run cf es o = Ok (o', a) ->
  length (h_items (o_h o')) <= Z.to_nat (hc_limit (oc_h cf)) + 1.
Proof.
  intros cf es o o' a K H. apply (keeps_run (oc_h cf) (fun l => length l <= Z.to_nat (hc_limit (oc_h cf)) + 1)) with (5 := eq_refl) (7 := H); auto.
  - cbn. lia.
  - intros h. cbn. rewrite app_length. pose proof (f_equal (@length _) (Compact_items (oc_h cf) h)) as E. cbn in E. rewrite E. unfold lastn, keep. rewrite skipn_length. cbn. lia.
  - intros h. rewrite Compact_items. unfold lastn, keep. rewrite skipn_length. lia.
  - intros id h. cbn. unfold map_item. rewrite map_length. auto.
Qed.
Print Assumptions C17_session.
Theorem C17_session_start : forall cf openable disk,
  length (h_items (o_h (op_new (HInit (oc_h cf) openable (newOpHistory disk))))) <= Z.to_nat (hc_limit (oc_h cf)) + 1.
Proof. intros cf openable disk. exact (load_bound (oc_h cf) openable disk). Qed.
Print Assumptions C17_session_start.

(** C136 with calls: SaveHistory too keeps nothing when the history is disabled. *)
Theorem C136_calls : forall cf es o o' a, history_off cf -> nothing_kept o -> f_run cf es o = Ok (o', a) -> nothing_kept o'.
Proof.
  intros cf es o o' a L K H. unfold history_off in L.
  assert (N : forall h, h_items (Compact (oc_h cf) h) = []).
  { intros h. rewrite Compact_items. replace (keep (oc_h cf)) with 0 by (unfold keep; lia). unfold lastn. rewrite Nat.sub_0_r. apply skipn_all. }
  apply (keeps_run (oc_h cf) (fun l => length l <= 1 /\ Forall (fun x => it_src x = []) l)) with (5 := eq_refl) (6 := K) (7 := H).
  - split; [cbn; lia|constructor].
  - intros h. cbn. pose proof (N h) as E. cbn in E. rewrite E. cbn. split; [lia|repeat constructor].
  - intros h. rewrite N. split; [cbn; lia|constructor].
  - intros id h (A & B). cbn. unfold map_item. rewrite map_length. split; [exact A|]. apply Forall_map. eapply Forall_impl; [|exact B].
    intros x E. cbn. destruct (_ =? _); [reflexivity|exact E].
Qed.
Print Assumptions C136_calls.

(** Limit two: four lines are entered, one of them while recording is off, and one is saved by the program; the newest one and the line to come are held (after every key the limit counts the latter too).  Limit -1: none. *)
Definition c17_es : list fevent := map KKey [97; 13; 98; 13]%Z ++ [KSave [120]%Z; KOff] ++ map KKey [99; 13]%Z ++ [KOn] ++ map KKey [100; 13]%Z.
Example C17_session_ex :
  (exists o a, f_run c136_one c17_es fresh = Ok (o, a) /\ lines_of a = [[97]; [98]; [99]; [100]]%Z /\ map it_src (h_items (o_h o)) = [[100]; []]%Z) /\
  (exists o a, f_run c135_cf c17_es fresh = Ok (o, a) /\ lines_of a = [[97]; [98]; [99]; [100]]%Z /\ h_items (o_h o) = []).
Proof. split; do 2 eexists; (split; [vm_compute; reflexivity|split; vm_compute; reflexivity]). Qed.

(** C136 in vim mode: k and j in the normal mode, Ctrl-P and Ctrl-N in the insert mode. *)
Definition vim_recall (o : op) (r : Z) : Prop :=
  (if o_vn o then r = 107 \/ r = 106 else r = CharPrev \/ r = CharNext)%Z.
Definition vim_prompt (cf : ocfg) (o : op) : Prop :=
  o_end o = false /\ c_sel (o_c o) = false /\ c_in (o_c o) = false /\ o_vp o = None /\ s_in (o_s o) = false /\
  oc_vim cf = true /\ oc_listen cf = None /\ oc_filter cf = None.
Theorem C136_vim_recall : forall cf es r o o1 a1 o2 a2, history_off cf -> nothing_kept o -> f_run cf es o = Ok (o1, a1) ->
  vim_prompt cf o1 -> vim_recall o1 r -> op_step cf r o1 = Ok (o2, a2) ->
  a2 = [ABell] /\ rb_buf (o_b o2) = rb_buf (o_b o1) /\ rb_idx (o_b o2) = rb_idx (o_b o1) /\ o_vn o2 = o_vn o1.
Proof.
  intros cf es r o0 o a1 o2 a2 L K0 H0 (N1 & N2 & N3 & N4 & N5 & N6 & N7 & N8) R H. apply (C136_calls _ _ _ _ _ L K0) in H0. clear K0.
  assert (P : Prev (o_h o) = Ok (None, o_h o) /\ Next (o_h o) = Ok (None, o_h o)).
  { unfold Prev, Next. destruct (h_cur (o_h o)) as [n|]; auto. destruct (alone n (o_h o) H0) as (-> & ->). auto. }
  destruct P as (P1 & P2).
  assert (V : exists r', HandleVim r o = Ok (o, VKey r', []) /\ (r' = CharPrev \/ r' = CharNext)).
  { unfold vim_recall in R. unfold HandleVim. destruct (o_vn o).
    - destruct R as [->| ->]; eexists; (split; [reflexivity|auto]).
    - exists r. split; [destruct R as [->| ->]; reflexivity|exact R]. }
  destruct V as (r' & V & R').
  assert (S : key_switch cf r' o = Ok (with_h (o_h o) o, [ABell], false, false, true)).
  { destruct R' as [->| ->]; unfold key_switch; cbn -[Prev Next]; rewrite ?P1, ?P2; reflexivity. }
  assert (Z0 : (r =? 0)%Z = false) by (unfold vim_recall in R; destruct (o_vn o), R as [->| ->]; reflexivity).
  assert (Z1 : (r' =? 0)%Z = false) by (destruct R' as [->| ->]; reflexivity).
  unfold op_step in H. rewrite N1, N4, N8 in H. unfold handle_key in H. rewrite N2, Z0 in H. cbn [andb] in H.
  unfold vim_and_switch in H. rewrite N6, V in H. cbn [obind] in H. rewrite Z1, S in H. cbn [obind] in H. unfold after_switch in H. rewrite N7 in H.
  cbn [negb andb with_h o_s o_c] in H. rewrite N3, N5 in H. cbn [negb andb obind with_h o_s o_b] in H. rewrite N5 in H. cbn [negb] in H.
  ob H. injection H as <- <-. match goal with X : _ = Ok a |- _ => ob X; injection X as <- end. cbn. auto.
Qed.
Print Assumptions C136_vim_recall.
(** "a" is submitted and saved by the program, "b" typed, Escape, k: the bell, and the line is still "b". *)
Definition c136_vim : ocfg :=
  {| oc_u := oc_u c135_cf; oc_h := oc_h c135_cf; oc_w := 10; oc_prompt := [63;32]%Z; oc_auto := None; oc_vim := true; oc_unique := false;
     oc_nosave := false; oc_listen := None; oc_filter := None; oc_eofp := []; oc_intp := [] |}.
Example C136_vim_ex : exists o1 o2, f_run c136_vim (map KKey [97; 13]%Z ++ [KSave [97]%Z] ++ map KKey [98; 27]%Z) fresh = Ok (o1, [ALine [97]%Z]) /\
  vim_prompt c136_vim o1 /\ vim_recall o1 107%Z /\ op_step c136_vim 107%Z o1 = Ok (o2, [ABell]) /\ rb_buf (o_b o2) = [98]%Z.
Proof.
  do 2 eexists. split; [vm_compute; reflexivity|]. split; [vm_compute; auto 10|]. split; [vm_compute; auto|]. split; vm_compute; reflexivity.
Qed.
