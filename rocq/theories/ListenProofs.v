(** Proofs about the listener. *)
From Verif Require Import Base RunesModel RuneBufModel HistoryModel HistoryProofs RuneBufSpec OpModel OpSpec OpProofs OpKeys OpModes ListenSpec.
Open Scope Z_scope.

Lemma switch_unlistened cf r o : key_switch (unlistened cf) r o = key_switch cf r o.
Proof. destruct cf. reflexivity. Qed.
Lemma select_unlistened cf r o : HandleCompleteSelect (unlistened cf) r o = HandleCompleteSelect cf r o.
Proof. destruct cf. reflexivity. Qed.

(** ** a listener that never answers *)
Lemma after_silent cf f r x : oc_listen cf = Some f -> (forall l p k, f l p k = None) -> after_switch cf r x = after_switch (unlistened cf) r x.
Proof.
  intros L N. destruct x as [[[[o acts] ks] kc] upd]. unfold after_switch. rewrite L, N. cbn [oc_listen unlistened oc_h]. destruct cf. reflexivity.
Qed.
Lemma vim_silent cf f r o : oc_listen cf = Some f -> (forall l p k, f l p k = None) -> vim_and_switch cf r o = vim_and_switch (unlistened cf) r o.
Proof.
  intros L N. unfold vim_and_switch. cbn [oc_vim unlistened]. destruct (oc_vim cf).
  - destruct (HandleVim r o) as [[[o1 v] a]| |]; cbn [obind]; try reflexivity. destruct v; try reflexivity. destruct (r0 =? 0); [reflexivity|].
    rewrite switch_unlistened. destruct (key_switch cf r0 o1); cbn [obind]; try reflexivity. now apply after_silent with (f := f).
  - rewrite switch_unlistened. destruct (key_switch cf r o); cbn [obind]; try reflexivity. now apply after_silent with (f := f).
Qed.
Lemma handle_silent cf f r o : oc_listen cf = Some f -> (forall l p k, f l p k = None) -> handle_key cf r o = handle_key (unlistened cf) r o.
Proof.
  intros L N. unfold handle_key. destruct ((r =? 0) && (length (rb_buf (o_b o)) =? 0)%nat); [reflexivity|]. rewrite select_unlistened.
  destruct (c_sel (o_c o)); [|now apply vim_silent with (f := f)].
  destruct (HandleCompleteSelect cf (if r =? 0 then CharEnter else r) o) as [[o1 keep]| |]; cbn [obind]; try reflexivity. destruct keep; [reflexivity|].
  cbn [oc_h unlistened]. rewrite (vim_silent cf f (if r =? 0 then CharEnter else r) o1 L N). reflexivity.
Qed.
Lemma step_silent cf f r o : oc_listen cf = Some f -> (forall l p k, f l p k = None) -> op_step cf r o = op_step (unlistened cf) r o.
Proof.
  intros L N. unfold op_step. cbn [oc_filter unlistened]. destruct (o_end o); [reflexivity|]. destruct (o_vp o); [reflexivity|].
  destruct (oc_filter cf) as [g|]; [destruct (g r)|]; try reflexivity; now apply handle_silent with (f := f).
Qed.

(** ** a key at the prompt neither opens nor closes anything, Tab, Ctrl-R and Ctrl-S apart *)
Definition calm (o : op) (e : outcome swres) : Prop := forall o1 a ks kc upd, e = Ok (o1, a, ks, kc, upd) -> ks = false /\ o_s o1 = o_s o /\ o_c o1 = o_c o /\ hwf (o_h o1).
Lemma calm_if o (c : bool) A B : calm o A -> calm o B -> calm o (if c then A else B). Proof. destruct c; auto. Qed.
Lemma calm_bind {X} o (e : outcome X) (g : X -> outcome swres) : (forall x, e = Ok x -> calm o (g x)) -> calm o (x <- e ;; g x).
Proof. intros H. destruct e; cbn [obind]; auto; intros ? ? ? ? ? E; discriminate. Qed.
Lemma calm_ok o o1 a kc upd : o_s o1 = o_s o -> o_c o1 = o_c o -> hwf (o_h o1) -> calm o (Ok (o1, a, false, kc, upd)).
Proof. intros S C W ? ? ? ? ? E. injection E as <- <- <- <- <-. auto. Qed.
Lemma calm_edit o e : hwf (o_h o) -> calm o (edit_buf e o).
Proof. intros W. apply calm_bind. intros b _. now apply calm_ok. Qed.

Lemma prev_hwf h x : Prev h = Ok x -> hwf h -> hwf (snd x).
Proof.
  unfold Prev. intros E W. destruct (h_cur h) as [id|]; [|injection E as <-; exact W]. destruct (older id h) as [|y l] eqn:O; injection E as <-; [exact W|].
  apply hwf_set_cur; [exact W|]. now apply older_in in O.
Qed.
Lemma next_hwf h x : Next h = Ok x -> hwf h -> hwf (snd x).
Proof.
  unfold Next. intros E W. destruct (h_cur h) as [id|]; [|injection E as <-; exact W]. destruct (newer id h) as [|y l] eqn:O; injection E as <-; [exact W|].
  apply hwf_set_cur; [exact W|]. now apply newer_in in O.
Qed.
Lemma revert_hwf h : hwf h -> hwf (Revert h).
Proof.
  intros W. unfold Revert, back_id. destruct (back h) as [b|] eqn:B; cbn [option_map].
  - apply hwf_set_cur; [now apply hwf_bump|]. now apply back_in.
  - apply back_none in B. pose proof (hwf_bump h W) as W'. constructor; cbn; try apply W'. exact B.
Qed.

Lemma switch_calm cf k o : s_in (o_s o) = false -> c_in (o_c o) = false -> k <> 9 -> k <> 18 -> k <> 19 -> hwf (o_h o) -> calm o (key_switch cf k o).
Proof.
  intros S C K1 K2 K3 W. unfold key_switch.
  replace (k =? CharTab) with false by (unfold CharTab; lia). replace (k =? CharBckSearch) with false by (unfold CharBckSearch; lia).
  replace (k =? CharFwdSearch) with false by (unfold CharFwdSearch; lia). rewrite S. cbn [obind]. rewrite C.
  apply calm_if; [now apply calm_ok|]. apply calm_if; [apply calm_edit; exact W|]. apply calm_if; [apply calm_bind; intros; now apply calm_ok|].
  do 6 (apply calm_if; [apply calm_edit; exact W|]).
  apply calm_if. { apply calm_if; [now apply calm_ok|]. apply calm_bind; intros b _. cbn [with_b o_c]. rewrite C. now apply calm_ok. }
  apply calm_if; [now apply calm_ok|]. apply calm_if; [now apply calm_ok|]. do 2 (apply calm_if; [apply calm_edit; exact W|]).
  apply calm_if. { unfold key_enter. rewrite S. cbn [obind]. apply calm_bind; intros b _. apply calm_bind; intros [d b'] _.
    apply calm_if; [apply calm_bind; intros h E; apply calm_ok; [reflexivity..|exact (New_hwf _ _ _ _ W E)]|now apply calm_ok]. }
  do 2 (apply calm_if; [apply calm_edit; exact W|]).
  apply calm_if; [apply calm_bind; intros x E; apply prev_hwf in E; [|exact W]; destruct (fst x); now apply calm_ok|].
  apply calm_if; [apply calm_bind; intros x E; apply next_hwf in E; [|exact W]; destruct (fst x); now apply calm_ok|].
  apply calm_if; [unfold key_delete; apply calm_if; apply calm_bind; intros x _; apply calm_ok; try reflexivity; [exact W|now apply revert_hwf]|].
  apply calm_if. { unfold key_interrupt. rewrite S, C. apply calm_bind; intros b _. apply calm_bind; intros b1 _. destruct (Reset b1) as [d b2].
    apply calm_bind; intros d' _. apply calm_ok; try reflexivity. now apply revert_hwf. }
  apply calm_bind; intros b _. cbn [with_b o_c]. rewrite C. now apply calm_ok.
Qed.

Lemma update_alike c l1 l2 h : match Update c l1 false h with
  | Ok _ => exists h2, Update c l2 false h = Ok h2 | Panic => Update c l2 false h = Panic | Hang => Update c l2 false h = Hang end.
Proof.
  unfold Update. destruct (h_cur h); [|eauto]. destruct (deref h n); cbn [obind]; eauto.
Qed.

Lemma after_calm cf f k o1 a kc upd : oc_listen cf = Some f -> s_in (o_s o1) = false -> c_in (o_c o1) = false -> hwf (o_h o1) ->
  match after_switch (unlistened cf) k (o1, a, false, kc, upd) with
  | Ok (o2, a2) => exists h, after_switch cf k (o1, a, false, kc, upd) = Ok (with_h h (heard f k o2), a2) /\ hwf h
  | Panic => after_switch cf k (o1, a, false, kc, upd) = Panic
  | Hang => after_switch cf k (o1, a, false, kc, upd) = Hang
  end.
Proof.
  intros L S C W. unfold after_switch. cbn [oc_listen unlistened oc_h]. rewrite L.
  set (o1' := match f _ _ _ with Some (l, pos) => _ | None => o1 end).
  assert (Q : exists l p, answer f k (rb_buf (o_b o1), rb_idx (o_b o1)) = (l, p) /\ o1' = with_b {| rb_buf := l; rb_idx := p; rb_kill := rb_kill (o_b o1) |} o1).
  { unfold o1', answer. cbn [fst snd]. destruct (f _ _ _) as [[l p]|].
    - exists l, p. split; reflexivity.
    - do 2 eexists. split; [reflexivity|]. destruct o1 as [b ? ? ? ? ? ?]; destruct b; reflexivity. }
  destruct Q as (l & p & An & ->). cbn [o_s with_b o_c o_b rb_buf o_h]. rewrite S, C. cbn [negb andb obind]. cbn [o_s with_b o_b o_h rb_buf]. rewrite S. cbn [negb].
  rewrite andb_true_r. destruct upd.
  - pose proof (update_alike (oc_h cf) (rb_buf (o_b o1)) l (o_h o1)) as U. destruct (Update (oc_h cf) (rb_buf (o_b o1)) false (o_h o1)) as [h1| |]; cbn [obind].
    + destruct U as (h2 & U). rewrite U. exists h2. cbn [obind]. split; [|exact (Update_hwf _ _ _ _ _ W U)]. unfold heard. cbn [o_b with_h]. rewrite An. reflexivity.
    + rewrite U. reflexivity.
    + rewrite U. reflexivity.
  - cbn [obind]. exists (o_h o1). split; [|exact W]. unfold heard. rewrite An. reflexivity.
Qed.

Lemma step_heard cf f k o : oc_listen cf = Some f -> oc_filter cf = None -> typing o -> k <> 0 -> k <> 27 -> k <> 9 -> k <> 18 -> k <> 19 ->
  match op_step (unlistened cf) k o with
  | Ok (o1, a) => exists h, op_step cf k o = Ok (with_h h (heard f k o1), a) /\ hwf h
  | Panic => op_step cf k o = Panic
  | Hang => op_step cf k o = Hang
  end.
Proof.
  intros L F T K0 K27 K9 K18 K19. unfold op_step. cbn [oc_filter unlistened]. rewrite (ty_end _ T), (ty_vp _ T), F. unfold handle_key.
  replace (k =? 0) with false by lia. cbn [andb]. rewrite (ty_sel _ T).
  rewrite (vim_passes (unlistened cf) k o) by (auto; apply T). rewrite (vim_passes cf k o) by (auto; apply T). rewrite switch_unlistened.
  pose proof (switch_calm cf k o (ty_s _ T) (ty_c _ T) K9 K18 K19 (ty_h _ T)) as Q. destruct (key_switch cf k o) as [[[[[o1 a] ks] kc] upd]| |]; cbn [obind]; try reflexivity.
  destruct (Q _ _ _ _ _ eq_refl) as (-> & Es & Ec & W). apply after_calm; [exact L|rewrite Es; apply T|rewrite Ec; apply T|exact W].
Qed.

(** ** typing before a listener *)
Lemma heard_typing f k o h : sane f -> typing o -> hwf h -> typing (with_h h (heard f k o)).
Proof.
  intros Sa T W. unfold heard, answer. cbn [fst snd]. destruct (f _ _ _) as [[l p]|] eqn:E; destruct T; constructor; cbn; try assumption.
  unfold inside. cbn. now apply Sa in E.
Qed.

Lemma heard_line f k o h : let o' := with_h h (heard f k o) in
  (rb_buf (o_b o'), rb_idx (o_b o')) = answer f k (rb_buf (o_b o), rb_idx (o_b o)).
Proof. cbn [with_h o_b]. unfold heard. destruct (answer _ _ _) as [l p]. reflexivity. Qed.

Lemma ordinary_heard cf f r o : oc_listen cf = Some f -> oc_filter cf = None -> sane f -> typing o -> ordinary r ->
  exists o', op_step cf r o = Ok (o', []) /\ typing o' /\ (rb_buf (o_b o'), rb_idx (o_b o')) = type_heard f (rb_buf (o_b o), rb_idx (o_b o)) r.
Proof.
  intros L F Sa T R. assert (Pl : plain (unlistened cf)) by (split; [reflexivity|exact F]).
  destruct (ordinary_step (unlistened cf) r o Pl T R) as (o1 & E & T1 & _ & B & I).
  pose proof (step_heard cf f r o L F T) as H. destruct R as (R1 & R2). rewrite E in H. destruct H as (h & H & W); try lia.
  eexists. split; [exact H|]. split; [now apply heard_typing|]. rewrite heard_line. unfold type_heard. cbn [fst snd]. rewrite B, I. reflexivity.
Qed.

Lemma enter_heard cf f k o : oc_listen cf = Some f -> oc_filter cf = None -> sane f -> typing o -> k = 13 \/ k = 10 ->
  exists o', op_step cf k o = Ok (o', [ALine (rb_buf (o_b o))]) /\ typing o' /\ (rb_buf (o_b o'), rb_idx (o_b o')) = answer f k ([], 0%nat).
Proof.
  intros L F Sa T K. assert (Pl : plain (unlistened cf)) by (split; [reflexivity|exact F]).
  destruct (enter_step (unlistened cf) k o Pl T K) as (o1 & E & R & _).
  pose proof (step_heard cf f k o L F T) as H. rewrite E in H. destruct H as (h & H & W); try lia.
  apply rest_typing in R. destruct R as (T1 & B & I).
  eexists. split; [exact H|]. split; [now apply heard_typing|]. rewrite heard_line, B, I. reflexivity.
Qed.

Lemma text_heard cf f l : oc_listen cf = Some f -> oc_filter cf = None -> sane f -> Forall ordinary l -> forall o, typing o ->
  exists o', op_run cf l o = Ok (o', []) /\ typing o' /\
    (rb_buf (o_b o'), rb_idx (o_b o')) = fold_left (type_heard f) l (rb_buf (o_b o), rb_idx (o_b o)).
Proof.
  intros L F Sa. induction l as [|r l IH]; intros O o T; [exists o; auto|]. inversion O as [|? ? R O']; subst.
  destruct (ordinary_heard cf f r o L F Sa T R) as (o1 & E & T1 & B). destruct (IH O' o1 T1) as (o2 & E2 & T2 & B2).
  exists o2. cbn [op_run]. rewrite E. cbn [obind fst snd]. rewrite E2. cbn [obind fst snd app]. split; [reflexivity|]. split; [exact T2|].
  cbn [fold_left]. rewrite <- B. exact B2.
Qed.
