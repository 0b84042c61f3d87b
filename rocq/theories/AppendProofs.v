(** Every key acts on the history through four calls only. *)
From Verif Require Import Base ListAux RunesModel RuneBufModel RuneBufProofs HistoryModel HistorySpec HistoryProofs HistoryFileProofs
  OpModel OpSpec OpProofs OpProps SessionProps DefaultProofs HistOffSpec AppendSpec.
Open Scope nat_scope.

(** What the editor does with the history: moving the current entry, Revert, recording the line being edited, and New;
    [n] bounds the calls of New. *)
Inductive hpath (c : hcfg) : nat -> hist -> hist -> Prop :=
| hp_refl n h : hpath c n h h
| hp_trans n m h h1 h2 : hpath c n h h1 -> hpath c m h1 h2 -> hpath c (n + m) h h2
| hp_cur id x h : deref h id = Ok x -> hpath c 0 h (set_cur (Some id) h)
| hp_rev h : hpath c 0 h (Revert h)
| hp_upd s h h' : Update c s false h = Ok h' -> hpath c 0 h h'
| hp_new s h h' : New c s h = Ok h' -> hpath c 1 h h'.

Lemma hp_more c n m h h' : n <= m -> hpath c n h h' -> hpath c m h h'.
Proof. intros L H. replace m with (n + (m - n)) by lia. eapply hp_trans; [exact H|apply hp_refl]. Qed.

(** Unpacking of results. *)
Ltac ob H := repeat (match type of H with
  | obind ?x _ = Ok _ => let e := fresh "E" in destruct x eqn:e; cbn [obind] in H; try discriminate H
  | (let '(_, _) := ?p in _) = Ok _ => destruct p
  end).

Lemma sref_h cf x o o' : SearchRefresh cf x o = Ok o' -> o_h o' = o_h o.
Proof. unfold SearchRefresh. intros H. ob H. now injection H as <-. Qed.

Lemma search_h cf b o o' : search cf b o = Ok o' -> hpath (oc_h cf) 0 (o_h o) (o_h o').
Proof.
  unfold search. destruct (s_data (o_s o)) eqn:D.
  - intros H. apply sref_h in H. rewrite H. apply hp_refl.
  - intros H. ob H. destruct a as [(idx, id)|].
    + ob H. apply sref_h in H. rewrite H. eapply hp_cur. eassumption.
    + apply sref_h in H. rewrite H. apply hp_refl.
Qed.

Lemma exit_h cf rv o o' : ExitSearchMode rv o = Ok o' -> hpath (oc_h cf) 0 (o_h o) (o_h o').
Proof.
  unfold ExitSearchMode. intros H. ob H. injection H as <-. cbn [o_h with_s]. destruct rv; [|injection E as <-; apply hp_refl].
  destruct (s_src (o_s o)); [|discriminate]. ob E. injection E as <-. eapply hp_cur. exact E0.
Qed.

Lemma mode_h cf b o o' x : SearchMode cf b o = Ok (o', x) -> hpath (oc_h cf) 0 (o_h o) (o_h o').
Proof.
  unfold SearchMode. destruct (oc_w cf =? 0)%Z; [injection 1 as <- <-; apply hp_refl|]. intros H. ob H. injection H as <- <-.
  destruct (s_in (o_s o)); [now apply search_h in E|]. apply sref_h in E. rewrite E. apply hp_refl.
Qed.

Lemma select_keys_h cf r o o' k : HandleCompleteSelect cf r o = Ok (o', k) -> o_h o' = o_h o.
Proof.
  unfold HandleCompleteSelect. intros H.
  assert (N : forall x, (y <- x ;; o1 <- CompleteRefresh cf (with_c y o) ;; Ok (o1, true)) = Ok (o', k) -> o_h o' = o_h o).
  { intros x X. ob X. injection X as <- _. apply refresh_keeps in E0. destruct E0 as (E0 & _). exact E0. }
  repeat match type of H with
  | (if ?b then _ else _) = Ok _ => destruct b
  end; try discriminate H; try (apply N in H; exact H); try (injection H as <- _; reflexivity).
  - ob H. now injection H as <- _.
  - ob H. injection H as <- _. apply select_keeps in E. apply refresh_keeps in E0. destruct E, E0. congruence.
Qed.

(** Lines returned by the switch; how often New may have been called. *)
Definition sw_grows (cf : ocfg) (o : op) (x : swres) : Prop :=
  let '(o', a, _, _, _) := x in hpath (oc_h cf) (if oc_nosave cf then 0 else length (lines_of a)) (o_h o) (o_h o').

Lemma sw_easy cf o x : (let '(o', _, _, _, _) := x in hpath (oc_h cf) 0 (o_h o) (o_h o')) -> sw_grows cf o x.
Proof. destruct x as [[[[o' a] p] q] r]. cbn. apply hp_more. lia. Qed.

Lemma edit_h cf e o x : edit_buf e o = Ok x -> sw_grows cf o x.
Proof. unfold edit_buf. intros H. ob H. injection H as <-. apply sw_easy. cbn. apply hp_refl. Qed.

Lemma enter_h cf o x : key_enter cf o = Ok x -> sw_grows cf o x.
Proof.
  unfold key_enter. intros H. ob H. rename a into o1.
  assert (G : hpath (oc_h cf) 0 (o_h o) (o_h o1)) by (destruct (s_in (o_s o)); [now apply (exit_h cf) in E|injection E as <-; apply hp_refl]).
  cbn [o_h with_b] in H. unfold sw_grows. destruct (oc_nosave cf) eqn:N; cbn [negb] in H.
  - injection H as <-. cbn. exact G.
  - ob H. injection H as <-. cbn [o_h with_h lines_of flat_map app length]. apply hp_new in E2. exact (hp_trans (oc_h cf) 0 1 _ _ _ G E2).
Qed.

Lemma delete_h cf o x : key_delete cf o = Ok x -> sw_grows cf o x.
Proof.
  unfold key_delete. intros H. destruct ((0 <? length (rb_buf (o_b o))) || negb (IsNormalMode o)); ob H; injection H as <-; apply sw_easy.
  - cbn. apply hp_refl.
  - cbn. apply hp_rev.
Qed.

Lemma interrupt_h cf o x : key_interrupt cf o = Ok x -> sw_grows cf o x.
Proof.
  unfold key_interrupt. intros H. destruct (s_in (o_s o)).
  - ob H. injection H as <-. apply sw_easy. cbn. now apply (exit_h cf) in E.
  - destruct (c_in (o_c o)); [injection H as <-; apply sw_easy; cbn; apply hp_refl|]. ob H. injection H as <-. apply sw_easy. cbn. apply hp_rev.
Qed.

Lemma bell_h cf o1 a b c : hpath (oc_h cf) 0 (o_h o1) (o_h o1) -> sw_grows cf o1 (o1, a, b, c, true).
Proof. intros _. apply sw_easy. cbn. apply hp_refl. Qed.

Lemma tab_h cf o x o1 a b c d : OnComplete cf x o = Ok o1 -> sw_grows cf o (o1, a, b, c, d).
Proof. intros H. apply complete_keeps in H. destruct H as (H & _). apply sw_easy. cbn. rewrite H. apply hp_refl. Qed.

Lemma walk_h cf o x y : (exists id y, deref (o_h o) id = Ok y /\ snd x = set_cur (Some id) (o_h o)) \/ snd x = o_h o ->
  match fst x with
  | Some l => Ok (with_b (Set_ l (o_b o)) (with_h (snd x) o), [], false, false, true)
  | None => Ok (with_h (snd x) o, [ABell], false, false, true)
  end = Ok y -> sw_grows cf o y.
Proof.
  intros K H.
  assert (G : hpath (oc_h cf) 0 (o_h o) (snd x)) by (destruct K as [(id & z & Z & ->)| ->]; [eapply hp_cur; exact Z|apply hp_refl]).
  destruct (fst x); injection H as <-; apply sw_easy; cbn; exact G.
Qed.

Lemma deref_any h id : In id (map it_id (elems h)) -> exists y, deref h id = Ok y.
Proof. intros H. destruct (deref_ok h id H) as (y & Y & _). eauto. Qed.

Lemma prev_h h x : Prev h = Ok x -> (exists id y, deref h id = Ok y /\ snd x = set_cur (Some id) h) \/ snd x = h.
Proof.
  unfold Prev. destruct (h_cur h); [|injection 1 as <-; now right]. destruct (older n h) eqn:E; injection 1 as <-; cbn; [now right|].
  apply older_in in E. apply deref_any in E. destruct E as (y & E). left. eauto.
Qed.
Lemma next_h h x : Next h = Ok x -> (exists id y, deref h id = Ok y /\ snd x = set_cur (Some id) h) \/ snd x = h.
Proof.
  unfold Next. destruct (h_cur h); [|injection 1 as <-; now right]. destruct (newer n h) eqn:E; injection 1 as <-; cbn; [now right|].
  apply newer_in in E. apply deref_any in E. destruct E as (y & E). left. eauto.
Qed.

Lemma smode_h cf b o x : (x <- SearchMode cf b o ;; Ok (fst x, if snd x then [] else [ABell], snd x, false, true)) = Ok x -> sw_grows cf o x.
Proof. intros H. ob H. destruct a as (o1, k). apply mode_h in E. injection H as <-. apply sw_easy. exact E. Qed.

Lemma switch_h cf r o x : key_switch cf r o = Ok x -> sw_grows cf o x.
Proof.
  unfold key_switch. intros H.
  repeat first
    [ match type of H with edit_buf _ _ = _ => apply (edit_h cf) in H; exact H end
    | match type of H with key_enter _ _ = _ => apply enter_h in H; exact H end
    | match type of H with key_delete _ _ = _ => apply delete_h in H; exact H end
    | match type of H with key_interrupt _ _ = _ => apply interrupt_h in H; exact H end
    | match type of H with obind (SearchMode _ _ _) _ = _ => apply smode_h in H; exact H end
    | match type of H with obind (Prev _) _ = _ => ob H; eapply walk_h; [|exact H]; now apply prev_h end
    | match type of H with obind (Next _) _ = _ => ob H; eapply walk_h; [|exact H]; now apply next_h end
    | match type of H with obind (if s_in _ then ExitSearchMode _ _ else _) _ = _ => idtac end; fail
    | match type of H with Ok _ = Ok _ => injection H as <-; apply sw_easy; cbn; apply hp_refl end
    | match type of H with (if ?b then _ else _) = Ok _ => let B := fresh "B" in destruct b eqn:B; clear B end ].
  all: try discriminate H.
  - ob H. injection H as <-. apply sw_easy. assert (G : hpath (oc_h cf) 0 (o_h o) (o_h a)).
    { destruct (s_in (o_s o)); [now apply (exit_h cf) in E|injection E as <-; apply hp_refl]. }
    destruct (c_in (o_c a)); exact G.
  - destruct (oc_auto cf) as [Do|]; [|injection H as <-; apply sw_easy; cbn; apply hp_refl].
    destruct (oc_w cf =? 0)%Z; [injection H as <-; apply sw_easy; cbn; apply hp_refl|]. ob H. injection H as <-. eapply tab_h; eauto.
  - ob H. injection H as <-. apply sw_easy. cbn. apply hp_refl.
  - ob H. injection H as <-. apply sw_easy. cbn. unfold SearchBackspace in E. destruct (s_data (o_s o)); [injection E as <-; apply hp_refl|]. apply search_h in E. exact E.
  - ob H. injection H as <-. apply sw_easy. cbn. destruct (c_in (o_c (with_b a o))); [|injection E0 as <-; cbn; apply hp_refl].
    destruct (oc_auto cf) as [Do|]; [|discriminate]. apply complete_keeps in E0. destruct E0 as (-> & _). cbn. apply hp_refl.
  - ob H. injection H as <-. apply sw_easy. cbn. unfold SearchChar in E. apply search_h in E. exact E.
  - ob H. destruct (c_in (o_c (with_b a o))); [|injection H as <-; apply sw_easy; cbn; apply hp_refl].
    destruct (oc_auto cf) as [Do|]; [|discriminate]. ob H. injection H as <-. apply complete_keeps in E0. destruct E0 as (E0 & _).
    apply sw_easy. rewrite E0. cbn. apply hp_refl.
Qed.

Definition st_grows (cf : ocfg) (o : op) (x : op * list act) : Prop :=
  hpath (oc_h cf) (if oc_nosave cf then 0 else length (lines_of (snd x))) (o_h o) (o_h (fst x)).

Lemma after_h cf r o x y : sw_grows cf o x -> after_switch cf r x = Ok y -> st_grows cf o y.
Proof.
  destruct x as [[[[o1 a] kS] kC] upd]. unfold sw_grows, after_switch, st_grows. intros G H.
  set (o2 := match oc_listen cf with Some _ => _ | None => _ end) in H.
  assert (L : o_h o2 = o_h o1).
  { unfold o2. destruct (oc_listen cf); [|reflexivity]. destruct (o0 _ _ _) as [[l p]|]; reflexivity. }
  clearbody o2. ob H. injection H as <-. cbn [fst snd].
  assert (G1 : hpath (oc_h cf) 0 (o_h o2) (o_h a0)).
  { destruct (negb kS && s_in (o_s o2)); [now apply (exit_h cf) in E|]. destruct (c_in (o_c o2)); [|injection E as <-; apply hp_refl].
    destruct kC; cbn [negb] in E; [|injection E as <-; apply hp_refl]. apply refresh_keeps in E. destruct E as (-> & _). apply hp_refl. }
  assert (G2 : hpath (oc_h cf) 0 (o_h a0) (o_h a1)).
  { destruct (upd && negb (s_in (o_s a0))); [|injection E0 as <-; apply hp_refl]. ob E0. injection E0 as <-. eapply hp_upd; eassumption. }
  rewrite L in G1. pose proof (hp_trans (oc_h cf) _ _ _ _ _ G (hp_trans (oc_h cf) _ _ _ _ _ G1 G2)) as K. rewrite !Nat.add_0_r in K. exact K.
Qed.

Lemma st_easy cf o x : o_h (fst x) = o_h o -> st_grows cf o x.
Proof. intros E. unfold st_grows. rewrite E. apply hp_refl. Qed.

Lemma vim_h r o o' v a : HandleVim r o = Ok (o', v, a) -> o_h o' = o_h o /\ lines_of a = [].
Proof.
  unfold HandleVim. destruct (o_vn o).
  - unfold HandleVimNormal. intros H.
    repeat match type of H with
      | (if ?b then _ else _) = Ok _ => let B := fresh "B" in destruct b eqn:B; clear B
      | obind ?x _ = Ok _ => destruct x; cbn [obind] in H; try discriminate H
      end; injection H as <- _ <-; split; reflexivity.
  - destruct (r =? CharEsc)%Z; injection 1 as <- _ <-; split; reflexivity.
Qed.

Lemma both_h cf r o x : vim_and_switch cf r o = Ok x -> st_grows cf o x.
Proof.
  unfold vim_and_switch. destruct (oc_vim cf); intros H.
  - ob H. apply vim_h in E. destruct E as (E & _). destruct v.
    + destruct (r0 =? 0)%Z; [injection H as <-; now apply st_easy|]. ob H. apply switch_h in E0. apply (after_h _ _ _ _ _ E0) in H.
      unfold st_grows in *. now rewrite <- E.
    + injection H as <-. now apply st_easy.
    + injection H as <-. now apply st_easy.
  - ob H. apply switch_h in E. exact (after_h _ _ _ _ _ E H).
Qed.

Lemma handle_h cf r o x : handle_key cf r o = Ok x -> st_grows cf o x.
Proof.
  unfold handle_key. destruct ((r =? 0)%Z && (length (rb_buf (o_b o)) =? 0)); [injection 1 as <-; now apply st_easy|].
  destruct (c_sel (o_c o)); [|apply both_h]. intros H. ob H. apply select_keys_h in E. destruct b; [injection H as <-; now apply st_easy|].
  destruct (((if r =? 0 then CharEnter else r) =? CharEnter) || ((if r =? 0 then CharEnter else r) =? CharCtrlJ))%Z.
  - ob H. injection H as <-. unfold st_grows. cbn [fst snd o_h with_h]. rewrite <- E. eapply hp_more; [|eapply hp_upd; eassumption]. lia.
  - destruct ((if r =? 0 then CharEnter else r) =? CharInterrupt)%Z; [injection H as <-; now apply st_easy|].
    destruct ((if r =? 0 then CharEnter else r) =? CharBell)%Z; [injection H as <-; now apply st_easy|].
    apply both_h in H. unfold st_grows in *. now rewrite <- E.
Qed.

Lemma step_h cf r o x : op_step cf r o = Ok x -> st_grows cf o x.
Proof.
  unfold op_step. destruct (o_end o); [injection 1 as <-; now apply st_easy|]. destruct (o_vp o).
  - intros H. ob H. injection H as <-. apply st_easy. cbn. unfold vim_next in E. destruct v; ob E; injection E as <-; reflexivity.
  - destruct (oc_filter cf); [|apply handle_h]. destruct (o0 r); [apply handle_h|]. injection 1 as <-. now apply st_easy.
Qed.

