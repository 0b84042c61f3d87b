(** Proofs for OutProps.v. *)
From Verif Require Import Base ListAux RunesModel RunesSpec RunesProofs RuneBufModel RuneBufSpec RuneBufProofs HistoryModel HistorySpec HistoryProofs TerminalModel ScreenModel RenderModel RenderSpec RenderProofs RenderDraw RenderSession RenderMore OpModel OpSpec OutModel OutSpec.
From Coq Require Import ZifyBool.
Open Scope Z_scope.
Notation plainr := RenderSpec.plain.

(** ** History: the texts stay of the given kind *)
Section H.
Variable P : Z -> Prop.

Lemma find_item_of id l x : Forall (item_of P) l -> find_item id l = Some x -> item_of P x.
Proof.
  induction l as [|y l IH]; intros F E; [discriminate|]. cbn in E. inversion F; subst.
  destruct (it_id y =? id)%nat; [injection E as <-; assumption|auto].
Qed.
Lemma deref_of h id x : hist_of P h -> deref h id = Ok x -> item_of P x.
Proof.
  intros (A & B) E. unfold deref in E. destruct (find_item id (h_items h ++ h_dead h)) eqn:F; [|discriminate].
  injection E as <-. apply (find_item_of id (h_items h ++ h_dead h)); [|exact F]. apply Forall_app. auto.
Qed.
Lemma map_item_of id f l : (forall x, item_of P x -> item_of P (f x)) -> Forall (item_of P) l -> Forall (item_of P) (map_item id f l).
Proof.
  intros H F. induction F; cbn; [constructor|]. constructor; [|exact IHF]. destruct (_ =? _)%nat; auto.
Qed.
Lemma modify_of id f h : (forall x, item_of P x -> item_of P (f x)) -> hist_of P h -> hist_of P (modify id f h).
Proof. intros H (A & B). split; cbn; now apply map_item_of. Qed.
Lemma push_of s h : Forall P s -> hist_of P h -> hist_of P (Push s h).
Proof. intros S (A & B). split; [|exact B]. cbn. apply Forall_app. split; [exact A|]. repeat constructor; auto. Qed.
Lemma compact_loop_of z : forall l d, Forall (item_of P) l -> Forall (item_of P) d ->
  Forall (item_of P) (fst (compact_loop z l d)) /\ Forall (item_of P) (snd (compact_loop z l d)).
Proof.
  induction l as [|x l IH]; intros d A B; cbn [compact_loop]; [auto|]. destruct (_ <? _)%Z; [|auto].
  inversion A; subst. apply IH; [assumption|]. apply Forall_app. auto.
Qed.
Lemma compact_of c h : hist_of P h -> hist_of P (Compact c h).
Proof.
  intros (A & B). unfold Compact. pose proof (compact_loop_of (hc_limit c) _ _ A B) as X.
  destruct (compact_loop _ _ _). exact X.
Qed.
Lemma write_fd_of bs h : hist_of P h -> hist_of P (write_fd bs h).
Proof. intros H. unfold write_fd. destruct (h_fd h); exact H. Qed.
Lemma update_of c s commit h h' : Forall P s -> hist_of P h -> Update c s commit h = Ok h' -> hist_of P h'.
Proof.
  intros S H E. unfold Update in E. destruct (h_cur h).
  - apply obind_ok in E. destruct E as (x & _ & E). injection E as <-. apply compact_of.
    assert (M : hist_of P (modify n (fun x0 => if commit
      then {| it_id := it_id x0; it_src := s; it_ver := h_ver h; it_tmp := it_tmp x0 |}
      else {| it_id := it_id x0; it_src := it_src x0; it_ver := h_ver h; it_tmp := s |}) h)).
    { apply modify_of; [|exact H]. intros y (Y1 & Y2). destruct commit; split; assumption. }
    destruct commit; [apply write_fd_of|]; exact M.
  - injection E as <-. apply compact_of, push_of; assumption.
Qed.
Lemma clean_back_of id h : hist_of P h -> hist_of P (clean_back id h).
Proof.
  intros H. unfold clean_back. change (hist_of P (modify id clean_item (set_cur (Some id) h))).
  apply modify_of; [|exact H]. intros x _. split; constructor.
Qed.
Lemma new_commit_of c s h h' : Forall P s -> hist_of P h -> new_commit c s h = Ok h' -> hist_of P h'.
Proof.
  intros S H E. unfold new_commit in E. apply obind_ok in E. destruct E as ([s1 h1] & A & E).
  assert (X : Forall P s1 /\ hist_of P h1).
  { destruct (opt_eqb _ _); [injection A as <- <-; auto|]. destruct (h_cur h); [|discriminate].
    apply obind_ok in A. destruct A as (x & D & A). injection A as <- <-. split; [apply (deref_of h n x H D)|exact H]. }
  destruct X as (X1 & X2). apply obind_ok in E. destruct E as (h2 & U & E). injection E as <-.
  apply push_of; [constructor|]. exact (update_of c s1 true h1 h2 X1 X2 U).
Qed.
Lemma new_of c s h h' : Forall P s -> hist_of P h -> New c s h = Ok h' -> hist_of P h'.
Proof.
  intros S H E. unfold New in E. destruct (negb (h_enable h)); [now injection E as <-|].
  destruct (match rev (h_items h) with | [] => _ | _ => _ end) as [id|]; [injection E as <-; now apply clean_back_of|].
  destruct (length s =? 0)%nat.
  - destruct (back_id h); [injection E as <-; now apply clean_back_of|]. now apply (new_commit_of c s (set_cur None h)).
  - now apply (new_commit_of c s h).
Qed.
Lemma revert_of h : hist_of P h -> hist_of P (Revert h).
Proof. intros H. exact H. Qed.
Lemma split_at_of id : forall l pre a x b, Forall (item_of P) l -> Forall (item_of P) pre ->
  split_at_id id pre l = Some (a, x, b) -> Forall (item_of P) a /\ Forall (item_of P) b.
Proof.
  induction l as [|y l IH]; intros pre a x b F G E; [discriminate|]. cbn in E. inversion F; subst.
  destruct (it_id y =? id)%nat; [injection E as <- <- <-; auto|]. apply (IH (y :: pre) a x b); auto.
Qed.
Lemma show_of h x : item_of P x -> Forall P (showItem h x).
Proof. intros (A & B). unfold showItem. destruct (_ =? _)%nat; assumption. Qed.
Lemma prev_of h x : hist_of P h -> Prev h = Ok x -> hist_of P (snd x) /\ forall l, fst x = Some l -> Forall P l.
Proof.
  intros (A & B) E. unfold Prev in E. destruct (h_cur h) as [id|]; [|injection E as <-; split; [now split|discriminate]].
  unfold older in E. destruct (split_at_id id [] (h_items h)) as [[[pre y] post]|] eqn:Sp.
  - destruct (split_at_of id _ _ _ _ _ A (Forall_nil _) Sp) as (F & _). destruct pre as [|z pre].
    + injection E as <-. split; [now split|discriminate].
    + injection E as <-. split; [now split|]. cbn. intros l L. injection L as <-. inversion F; subst. now apply show_of.
  - injection E as <-. split; [now split|discriminate].
Qed.
Lemma next_of h x : hist_of P h -> Next h = Ok x -> hist_of P (snd x) /\ forall l, fst x = Some l -> Forall P l.
Proof.
  intros (A & B) E. unfold Next in E. destruct (h_cur h) as [id|]; [|injection E as <-; split; [now split|discriminate]].
  unfold newer in E. destruct (split_at_id id [] (h_items h)) as [[[pre y] post]|] eqn:Sp.
  - destruct (split_at_of id _ _ _ _ _ A (Forall_nil _) Sp) as (_ & F). destruct post as [|z post].
    + injection E as <-. split; [now split|discriminate].
    + injection E as <-. split; [now split|]. cbn. intros l L. injection L as <-. inversion F; subst. now apply show_of.
  - injection E as <-. split; [now split|discriminate].
Qed.
End H.

(** ** What the drawing events of OutModel.v should show *)
Inductive olooks (u : uenv) (v : list Z) : look -> oev -> look -> Prop :=
| OLDraw k e k' : looks u v k e k' -> olooks u v k (ODraw e) k'
| OLBell k : olooks u v k OBell k
| OLEof k hint : k_reading k = true -> Forall (plainr u) hint ->
    olooks u v k (OEof hint) {| k_done := k_done k ++ [v ++ k_line k ++ hint]; k_line := []; k_idx := 0; k_reading := false |}
| OLClean k : k_reading k = true -> k_line k = [] ->
    olooks u v k OClean {| k_done := k_done k; k_line := []; k_idx := 0; k_reading := false |}.
Inductive olooks_all (u : uenv) (v : list Z) : look -> list oev -> look -> Prop :=
| OLNil k : olooks_all u v k [] k
| OLCons k e k1 es k2 : olooks u v k e k1 -> olooks_all u v k1 es k2 -> olooks_all u v k (e :: es) k2.

Lemma olooks_app u v a : forall b k k1 k2, olooks_all u v k a k1 -> olooks_all u v k1 b k2 -> olooks_all u v k (a ++ b) k2.
Proof.
  induction a as [|e a IH]; intros b k k1 k2 A B; inversion A; subst; [exact B|]. cbn [app].
  econstructor; [eassumption|]. now apply (IH b k3 k1 k2).
Qed.

Section Draw.
Variable u : uenv.
Variable w : Z.
Hypothesis W : 0 < w <= 9223372036854775807.
Hypothesis U : uenv_ok u.
Variable ps : list piece.
Let v := visible ps.
Hypothesis PD : Forall sgr_digits ps.
Hypothesis PV : Forall (plainr u) v.
Hypothesis PS : Z.of_nat (length v) + 1 < w.
Notation agrees := (agrees u w ps).

Lemma ostep_agrees y0 k st s0 s e k' : agrees y0 k st s0 s -> olooks u v k e k' ->
  exists st' o, ostep u st e = Ok (st', o) /\ agrees y0 k' st' s0 (sexecs u w s o).
Proof.
  intros A K. inversion K as [? d ? L|?|? hint Rd' Fh|? Rd' Ln]; subst; clear K.
  - exact (dstep_agrees u w W U ps PD PV PS y0 k st s0 s d k' A L).
  - eexists st, [7]. split; [reflexivity|].
    destruct A as (S & B & I & Rd & F & L & H & N & (St & Sc) & Ab).
    assert (Pg : s_par s = PGround).
    { cbn zeta in Sc. destruct (k_reading k'); destruct Sc as (_ & Sc); unfold cursor_at in Sc; tauto. }
    assert (E : sexecs u w s [7] = s).
    { unfold sexecs. cbn [fold_left]. unfold sexec. rewrite Pg. reflexivity. }
    rewrite E. repeat (split; [assumption|]). split; [split; assumption|assumption].
  - pose proof (agrees_ready u w ps _ _ _ _ _ A) as R.
    destruct A as (S & B & I & Rd & F & L & H & N & (St & Sc) & Ab). destruct st as [reading d]. cbn [fst snd] in *.
    assert (D : drawable u ps d) by (apply (static_drawable0 u w W ps PD PV PS); [exact S|now rewrite B|now rewrite B, I]).
    set (y1 := y0 + height w (k_done k)) in *. pose proof (height_nonneg w (k_done k)) as Hh.
    cbn [ostep snd]. unfold eof_draw, refresh. rewrite (st_inter _ _ _ _ S). cbn [negb].
    destruct (clean_ready u ps d y1 s D R) as (o2 & C1 & C2 & C3). rewrite (st_width _ _ _ _ S) in C2, C3.
    rewrite C1. cbn [obind fst snd].
    set (bb := d_buf d ++ hint ++ [10]).
    assert (Eb : bb = (d_buf d ++ hint) ++ [10]) by (unfold bb; now rewrite app_assoc).
    set (d2 := with_line bb (length bb) (with_had true d)).
    assert (S2 : static u w ps d2) by apply (static_line u w ps d bb (length bb) true S).
    destruct (output_submits u w W U ps PD PV PS d2 (d_buf d ++ hint) y1 (sexecs u w s o2) S2) as (o3 & P1 & P2 & P3 & P4).
    { exact Eb. }
    { cbn. now rewrite Eb. }
    { apply Forall_app. split; [now rewrite B|assumption]. }
    { exact C2. }
    unfold print. rewrite P1. cbn [obind fst snd app]. eexists _, _. split; [reflexivity|].
    rewrite !sexecs_app. set (s3 := sexecs u w (sexecs u w s o2) o3) in *.
    assert (Ab3 : same_above y1 s s3) by (eapply same_above_trans; [exact C3|exact P4]).
    unfold RenderSession.agrees. cbn [fst snd k_line k_idx k_reading k_done].
    split; [apply (static_line u w ps (with_had false d2) [] 0 false); now apply (static_line u w ps d2 (d_buf d2) (d_idx d2) false)|].
    cbn. repeat (split; [first [reflexivity|apply Forall_nil|apply le_n|congruence]|]).
    split; [split|].
    + cbn [k_done]. apply stacked_app. split; [apply (stacked_above w _ _ s); assumption|].
      rewrite <- B. fold y1. exact P2.
    + cbn [k_done k_reading]. rewrite height_app. cbn [height fold_right]. rewrite Z.add_0_r, Z.add_assoc. fold y1.
      rewrite <- B. exact P3.
    + eapply same_above_trans; [exact Ab|]. intros a b C. apply Ab3. unfold y1. lia.
  - pose proof (agrees_ready u w ps _ _ _ _ _ A) as R.
    destruct A as (S & B & I & Rd & F & L & H & N & (St & Sc) & Ab). destruct st as [reading d]. cbn [fst snd] in *.
    assert (D : drawable u ps d) by (apply (static_drawable0 u w W ps PD PV PS); [exact S|now rewrite B|now rewrite B, I]).
    set (y1 := y0 + height w (k_done k)) in *. pose proof (height_nonneg w (k_done k)) as Hh.
    destruct (clean_ready u ps d y1 s D R) as (o2 & C1 & C2 & C3). rewrite (st_width _ _ _ _ S) in C2, C3.
    assert (Ed : with_line [] 0 d = d).
    { rewrite Ln in L, B. cbn in L. assert (I0 : d_idx d = 0%nat) by lia. clear - B I0. unfold with_line. destruct d; cbn in *. congruence. }
    cbn [ostep snd]. rewrite Ed, C1. cbn [obind fst snd]. eexists _, _. split; [reflexivity|].
    unfold RenderSession.agrees. cbn [fst snd k_line k_idx k_reading k_done].
    split; [pose proof (static_line u w ps d (d_buf d) (d_idx d) true S) as X; destruct d; exact X|].
    split; [cbn; congruence|]. split; [cbn; rewrite I; rewrite Ln in L; cbn in L; lia|].
    repeat (split; [first [reflexivity|apply Forall_nil|apply le_n|congruence]|]).
    split; [split|].
    + apply (stacked_above w _ _ s); assumption.
    + fold y1. exact C2.
    + eapply same_above_trans; [exact Ab|]. intros a b C. apply C3. unfold y1. lia.
Qed.

Lemma orun_agrees es : forall y0 k st s0 s k', agrees y0 k st s0 s -> olooks_all u v k es k' ->
  exists st' o, orun u st es = Ok (st', o) /\ agrees y0 k' st' s0 (sexecs u w s o).
Proof.
  induction es as [|e es IH]; intros y0 k st s0 s k' A K; inversion K; subst; cbn [orun].
  - eexists _, _. split; [reflexivity|exact A].
  - destruct (ostep_agrees _ _ _ _ _ _ _ A H2) as (st1 & o1 & E1 & A1). rewrite E1. cbn [obind fst snd].
    destruct (IH _ _ _ _ _ _ A1 H4) as (st2 & o2 & E2 & A2). rewrite E2. cbn [obind fst snd].
    eexists _, _. split; [reflexivity|]. now rewrite sexecs_app.
Qed.
End Draw.

(** ** One key *)
Definition look_of (done : list (list Z)) (o : op) (acts : list act) : look :=
  {| k_done := done; k_line := rb_buf (o_b o); k_idx := rb_idx (o_b o);
     k_reading := match results acts with [] => true | _ => false end |}.

Lemma prompt_b cf o b : at_prompt cf o -> inside b -> Forall (plainr (oc_u cf)) (rb_buf b) ->
  Forall (plainr (oc_u cf)) (rb_kill b) -> at_prompt cf (with_b b o).
Proof. intros [] I B K. constructor; assumption. Qed.
Lemma prompt_h cf o h : at_prompt cf o -> hist_of (plainr (oc_u cf)) h -> at_prompt cf (with_h h o).
Proof. intros [] H. constructor; assumption. Qed.

Section Key.
Variable cf : ocfg.
Hypothesis C : plain_session cf.
Variable v : list Z.
Notation u := (oc_u cf).

(** an editing command drawn once *)
Lemma once_case e o b' done : at_prompt cf o -> run_edit e (o_b o) = Ok b' -> Forall (plainr u) (inserts e) -> e <> EReset ->
  (e = ETranspose -> length (rb_buf (o_b o)) <> 1%nat) ->
  at_prompt cf (with_b b' o) /\
  olooks_all u v (look_of done o []) [ODraw (VLine (rb_buf b') (rb_idx b'))] (look_of done (with_b b' o) []).
Proof.
  intros A E F N T. destruct (edit_keeps (plainr u) e (o_b o) b' E (ap_buf _ _ A) (ap_kill _ _ A) F) as (B1 & K1).
  assert (I1 : inside b').
  { apply (edits_inside [e] (o_b o) b' (ap_inside _ _ A)); [|cbn; now rewrite E].
    split; [|intros; exact Logic.I]. exact T. }
  split; [apply prompt_b; assumption|]. econstructor; [|apply OLNil]. apply OLDraw.
  apply (LLine u v (look_of done o []) (rb_buf b') (rb_idx b')); [reflexivity|exact B1|exact I1].
Qed.

(** the state after the line has been taken *)
Definition emptied (o : op) : op := with_b {| rb_buf := []; rb_idx := 0; rb_kill := rb_kill (o_b o) |} o.
Lemma emptied_prompt o : at_prompt cf o -> at_prompt cf (emptied o).
Proof. intros A. apply prompt_b; [exact A|unfold inside; cbn; lia|constructor|apply (ap_kill _ _ A)]. Qed.

Lemma write_at_end t b : WriteRunes t (with_idx (length (rb_buf b)) b) =
  Ok {| rb_buf := rb_buf b ++ t; rb_idx := length (rb_buf b) + length t; rb_kill := rb_kill b |}.
Proof.
  unfold WriteRunes. cbn [with_idx rb_buf rb_idx rb_kill]. unfold slice. rewrite !Nat.leb_refl. cbn [andb obind Nat.leb].
  rewrite Nat.sub_diag, Nat.sub_0_r, skipn_O, firstn_all. cbn [firstn]. now rewrite app_nil_r.
Qed.

Lemma enter_case o o1 acts kS kC upd : at_prompt cf o -> key_enter cf o = Ok (o1, acts, kS, kC, upd) ->
  exists h, o1 = with_h h (emptied o) /\ hist_of (plainr u) h /\ acts = [ALine (rb_buf (o_b o))].
Proof.
  intros A E. unfold key_enter in E. rewrite (ap_s _ _ A) in E. cbn [obind] in E. unfold MoveToLineEnd in E. cbn [obind] in E.
  assert (Em : with_b {| rb_buf := []; rb_idx := 0; rb_kill := rb_kill (o_b o) |} o = emptied o) by reflexivity.
  destruct (oc_unique cf); cbn [negb] in E;
    [cbn [obind Reset with_idx rb_buf rb_kill] in E|
     rewrite write_at_end in E; cbn [obind Reset rb_buf rb_kill] in E;
     unfold slice in E; rewrite app_length in E; cbn [length] in E;
     replace (_ && _)%bool with true in E by (cbn; lia); cbn [obind] in E; rewrite Nat.sub_0_r in E;
     replace (length (rb_buf (o_b o)) + 1 - 1)%nat with (length (rb_buf (o_b o)) + 0)%nat in E by lia;
     rewrite skipn_O, firstn_app_2 in E; cbn [firstn] in E; rewrite app_nil_r in E];
  rewrite Em in E; destruct (negb (oc_nosave cf)).
  - apply obind_ok in E. destruct E as (h & N & E). injection E as <- <- _ _ _. exists h. split; [reflexivity|]. split; [|reflexivity].
    apply (new_of _ (oc_h cf) (rb_buf (o_b o)) (o_h o)); [apply (ap_buf _ _ A)|apply (ap_hist _ _ A)|exact N].
  - injection E as <- <- _ _ _. exists (o_h o). split; [now destruct o|]. split; [apply (ap_hist _ _ A)|reflexivity].
  - apply obind_ok in E. destruct E as (h & N & E). injection E as <- <- _ _ _. exists h. split; [reflexivity|]. split; [|reflexivity].
    apply (new_of _ (oc_h cf) (rb_buf (o_b o)) (o_h o)); [apply (ap_buf _ _ A)|apply (ap_hist _ _ A)|exact N].
  - injection E as <- <- _ _ _. exists (o_h o). split; [now destruct o|]. split; [apply (ap_hist _ _ A)|reflexivity].
Qed.

Lemma interrupt_case o o1 acts kS kC upd : oc_unique cf = false -> at_prompt cf o -> key_interrupt cf o = Ok (o1, acts, kS, kC, upd) ->
  o1 = with_h (Revert (o_h o)) (emptied o) /\ acts = [AIntr (rb_buf (o_b o))].
Proof.
  intros Un A E. unfold key_interrupt in E. rewrite (ap_s _ _ A), (ap_in _ _ A) in E. cbn [obind] in E.
  unfold MoveToLineEnd in E. cbn [obind] in E. rewrite Un in E. cbn [negb] in E. rewrite write_at_end in E.
  cbn [obind Reset rb_buf rb_kill] in E. rewrite !app_length in E. cbn [length] in E.
  replace (_ <? _)%nat with false in E by lia. unfold slice in E. rewrite !app_length in E. cbn [length] in E.
  replace (_ && _)%bool with true in E by (cbn; lia). cbn [obind] in E. rewrite Nat.sub_0_r in E.
  replace (length (rb_buf (o_b o)) + (length (oc_intp cf) + 1) - (length (oc_intp cf) + 1))%nat with (length (rb_buf (o_b o)) + 0)%nat in E by lia.
  rewrite skipn_O, firstn_app_2 in E. cbn [firstn] in E. rewrite app_nil_r in E. fold (emptied o) in E.
  injection E as <- <- _ _ _. auto.
Qed.

Definition drawn (o : op) (r : Z) (done : list (list Z)) (o1 : op) (acts : list act) : Prop :=
  at_prompt cf o1 /\ (results acts = [] \/ (ending r /\ rb_buf (o_b o1) = [] /\ rb_idx (o_b o1) = 0%nat)) /\
  exists es, switch_draws cf r o = Ok es /\
    olooks_all u v (look_of done o []) es (look_of (done ++ flat_map (text_of cf v) acts) o1 acts).

Lemma bell_case o done : olooks_all u v (look_of done o []) [OBell] (look_of done o []).
Proof. econstructor; [apply OLBell|apply OLNil]. Qed.

Ltac same_none := rewrite app_nil_r.

Lemma switch_case o r o1 acts kS kC upd done : at_prompt cf o -> prompt_key cf r ->
  (r = CharTranspose -> length (rb_buf (o_b o)) <> 1%nat) -> (oc_unique cf = true -> r <> CharInterrupt) ->
  key_switch cf r o = Ok (o1, acts, kS, kC, upd) -> drawn o r done o1 acts.
Proof.
  intros A K KT KU E. unfold drawn.
  assert (X : (r =? CharBckSearch) = false /\ (r =? CharFwdSearch) = false /\ (r =? CharCtrlZ) = false /\ (r =? CharCtrlL) = false).
  { destruct K as [(K & _)|[K|[K|(K & _)]]].
    - unfold CharBckSearch, CharFwdSearch, CharCtrlZ, CharCtrlL. lia.
    - unfold command_keys in K. cbn [In] in K.
      repeat (destruct K as [<-|K]; [repeat split; reflexivity|]). contradiction.
    - subst r. repeat split; reflexivity.
    - subst r. repeat split; reflexivity. }
  destruct X as (X1 & X2 & X3 & X4).
  unfold key_switch in E. unfold switch_draws. rewrite X1, X2, X3, X4 in E. cbn zeta in E |- *.
  rewrite (ap_s _ _ A) in E. cbn [obind] in E. rewrite (ap_in _ _ A) in E. unfold edit_buf in E.
  (* commands drawn once *)
  assert (O : forall e b', run_edit e (o_b o) = Ok b' -> o1 = with_b b' o -> acts = [] -> inserts e = [] -> e <> EReset ->
    (e = ETranspose -> length (rb_buf (o_b o)) <> 1%nat) ->
    forall x, x = Ok b' ->
    at_prompt cf o1 /\ (results acts = [] \/ (ending r /\ rb_buf (o_b o1) = [] /\ rb_idx (o_b o1) = 0%nat)) /\
    exists es, once x = Ok es /\ olooks_all u v (look_of done o []) es (look_of (done ++ flat_map (text_of cf v) acts) o1 acts)).
  { intros e b' R -> -> I N T x ->. destruct (once_case e o b' done A R ltac:(rewrite I; constructor) N T) as (P1 & P2).
    split; [exact P1|]. split; [now left|]. eexists. split; [reflexivity|]. cbn [flat_map]. rewrite app_nil_r. exact P2. }
  destruct (r =? CharBell) eqn:K1.
  { injection E as <- <- _ _ _. split; [exact A|]. split; [now left|]. eexists. split; [reflexivity|]. cbn. rewrite app_nil_r. apply OLNil. }
  destruct (r =? CharTab) eqn:K2.
  { destruct (oc_auto cf) eqn:Au.
    - destruct K as [(K & _)|[K|[K|(_ & K)]]]; try (unfold CharTab in K2; lia); [|apply Z.eqb_eq in K2; subst r; discriminate|congruence].
      apply Z.eqb_eq in K2. subst r. unfold command_keys in K. cbn [In] in K. repeat (destruct K as [K|K]; [discriminate K|]). contradiction.
    - injection E as <- <- _ _ _. split; [exact A|]. split; [now left|]. eexists. split; [reflexivity|]. cbn. rewrite app_nil_r. apply bell_case. }
  destruct (r =? CharCtrlU) eqn:K3.
  { apply obind_ok in E. destruct E as (b' & R & E). injection E as <- <- _ _ _. now apply (O EKillFront b'). }
  destruct (r =? CharKill) eqn:K4.
  { apply obind_ok in E. destruct E as (b' & R & E). injection E as <- <- _ _ _. now apply (O EKill b'). }
  destruct (r =? MetaForward) eqn:K5.
  { apply obind_ok in E. destruct E as (b' & R & E). injection E as <- <- _ _ _. now apply (O ENextWord b'). }
  destruct (r =? CharTranspose) eqn:K6.
  { apply obind_ok in E. destruct E as (b' & R & E). injection E as <- <- _ _ _. apply (O ETranspose b'); auto; try discriminate.
    intros _. apply KT. now apply Z.eqb_eq. }
  destruct (r =? MetaBackward) eqn:K7.
  { apply obind_ok in E. destruct E as (b' & R & E). injection E as <- <- _ _ _. now apply (O EPrevWord b'). }
  destruct (r =? MetaDelete) eqn:K8.
  { apply obind_ok in E. destruct E as (b' & R & E). injection E as <- <- _ _ _.
    destruct (rb_idx (o_b o) =? length (rb_buf (o_b o)))%nat eqn:Ei; [|now apply (O EDeleteWord b')].
    unfold DeleteWord in R. rewrite Ei in R. injection R as <-. replace (with_b (o_b o) o) with o by now destruct o.
    split; [exact A|]. split; [now left|]. eexists. split; [reflexivity|]. cbn. rewrite app_nil_r. apply OLNil. }
  destruct (r =? CharLineStart) eqn:K9.
  { apply obind_ok in E. destruct E as (b' & R & E). injection E as <- <- _ _ _. now apply (O ELineStart b'). }
  destruct (r =? CharLineEnd) eqn:K10.
  { apply obind_ok in E. destruct E as (b' & R & E). injection E as <- <- _ _ _. now apply (O ELineEnd b'). }
  destruct ((r =? CharBackspace) || (r =? CharCtrlH)) eqn:K11.
  { destruct (length (rb_buf (o_b o)) =? 0)%nat eqn:L0.
    - injection E as <- <- _ _ _. split; [exact A|]. split; [now left|]. eexists. split; [reflexivity|]. cbn. rewrite app_nil_r. apply bell_case.
    - apply obind_ok in E. destruct E as (b' & R & E). change (c_in (o_c (with_b b' o))) with (c_in (o_c o)) in E.
      rewrite (ap_in _ _ A) in E. cbn [obind] in E. injection E as <- <- _ _ _. now apply (O EBackspace b'). }
  destruct ((r =? MetaBackspace) || (r =? CharCtrlW)) eqn:K12.
  { apply obind_ok in E. destruct E as (b' & R & E). injection E as <- <- _ _ _. now apply (O EBackEscapeWord b'). }
  destruct (r =? CharCtrlY) eqn:K13.
  { apply obind_ok in E. destruct E as (b' & R & E). injection E as <- <- _ _ _.
    destruct (rb_kill (o_b o)) eqn:Ek; [|now apply (O EYank b')].
    unfold Yank in R. rewrite Ek in R. injection R as <-. replace (with_b (o_b o) o) with o by now destruct o.
    split; [exact A|]. split; [now left|]. eexists. split; [reflexivity|]. cbn. rewrite app_nil_r. apply OLNil. }
  destruct ((r =? CharEnter) || (r =? CharCtrlJ)) eqn:K14.
  { destruct (enter_case o o1 acts kS kC upd A E) as (h & -> & Hh & ->). split; [apply prompt_h; [now apply emptied_prompt|exact Hh]|].
    split; [right; split; [clear - K14; apply orb_prop in K14; unfold ending; cbn [In]; rewrite !Z.eqb_eq in K14; intuition congruence|split; reflexivity]|]. eexists. split; [reflexivity|].
    econstructor; [|apply OLNil]. apply OLDraw. cbn [flat_map text_of app].
    destruct (oc_unique cf).
    { cbn [app]. rewrite app_nil_r. exact (LUnique u v (look_of done o []) eq_refl). }
    pose proof (LSubmit u v (look_of done o []) [] eq_refl (Forall_nil _)) as L. cbn [look_of k_done k_line] in L.
    rewrite app_nil_r in L. exact L. }
  destruct (r =? CharBackward) eqn:K15.
  { apply obind_ok in E. destruct E as (b' & R & E). injection E as <- <- _ _ _. now apply (O EBackward b'). }
  destruct (r =? CharForward) eqn:K16.
  { apply obind_ok in E. destruct E as (b' & R & E). injection E as <- <- _ _ _. now apply (O EForward b'). }
  destruct (r =? CharPrev) eqn:K17.
  { apply obind_ok in E. destruct E as (x & R & E). destruct (prev_of _ _ x (ap_hist _ _ A) R) as (Hx & Hl). rewrite R. cbn [obind].
    destruct (fst x) as [l|]; injection E as <- <- _ _ _.
    - destruct (once_case (ESet l) (with_h (snd x) o) (Set_ l (o_b o)) done (prompt_h _ _ _ A Hx) eq_refl (Hl l eq_refl) ltac:(discriminate) ltac:(discriminate)) as (P1 & P2).
      split; [exact P1|]. split; [now left|]. eexists. split; [reflexivity|]. cbn [flat_map]. rewrite app_nil_r. exact P2.
    - split; [now apply prompt_h|]. split; [now left|]. eexists. split; [reflexivity|]. cbn [flat_map text_of app]. rewrite app_nil_r.
      apply (bell_case (with_h (snd x) o)). }
  destruct (r =? CharNext) eqn:K18.
  { apply obind_ok in E. destruct E as (x & R & E). destruct (next_of _ _ x (ap_hist _ _ A) R) as (Hx & Hl). rewrite R. cbn [obind].
    destruct (fst x) as [l|]; injection E as <- <- _ _ _.
    - destruct (once_case (ESet l) (with_h (snd x) o) (Set_ l (o_b o)) done (prompt_h _ _ _ A Hx) eq_refl (Hl l eq_refl) ltac:(discriminate) ltac:(discriminate)) as (P1 & P2).
      split; [exact P1|]. split; [now left|]. eexists. split; [reflexivity|]. cbn [flat_map]. rewrite app_nil_r. exact P2.
    - split; [now apply prompt_h|]. split; [now left|]. eexists. split; [reflexivity|]. cbn [flat_map text_of app]. rewrite app_nil_r.
      apply (bell_case (with_h (snd x) o)). }
  destruct (r =? CharDelete) eqn:K19.
  { unfold key_delete in E. replace (negb (IsNormalMode o)) with false in E
      by (unfold IsNormalMode; rewrite (ap_s _ _ A), (ap_in _ _ A); reflexivity). rewrite orb_false_r in E.
    destruct (0 <? length (rb_buf (o_b o)))%nat eqn:L0.
    - apply obind_ok in E. destruct E as (x & R & E). injection E as <- <- _ _ _. rewrite R. cbn [obind].
      destruct (once_case EDelete o (fst x) done A) as (P1 & P2); [cbn; now rewrite R|constructor|discriminate|discriminate|].
      split; [exact P1|]. split; [left; destruct (snd x); reflexivity|]. eexists. split; [reflexivity|].
      replace (flat_map (text_of cf v) (AKick :: (if snd x then [] else [ABell]))) with (@nil (list Z)) by now destruct (snd x).
      rewrite app_nil_r. change (ODraw ?e :: ?t) with ([ODraw e] ++ t). apply (olooks_app u v _ _ _ _ _ P2).
      destruct (snd x); [apply OLNil|apply bell_case].
    - apply obind_ok in E. destruct E as (b & R & E). injection E as <- <- _ _ _.
      assert (Bn : rb_buf (o_b o) = []) by (destruct (rb_buf (o_b o)); [reflexivity|cbn in L0; lia]).
      assert (Kb : rb_kill b = rb_kill (o_b o)).
      { destruct (oc_unique cf); cbn [negb] in R; [now injection R as <-|]. unfold WriteRunes in R. repeat (apply obind_ok in R; destruct R as (? & _ & R)). injection R as <-. reflexivity. }
      split.
      { apply prompt_h; [|exact (ap_hist _ _ A)]. apply prompt_b; [exact A|unfold inside; cbn; lia|constructor|cbn; rewrite Kb; apply (ap_kill _ _ A)]. }
      split; [right; split; [clear - K19; apply Z.eqb_eq in K19; unfold ending; cbn [In]; auto|split; reflexivity]|]. eexists. split; [reflexivity|].
      econstructor; [|apply OLNil]. cbn [flat_map text_of app].
      destruct (oc_unique cf).
      { cbn [app]. rewrite app_nil_r. exact (OLClean u v (look_of done o []) eq_refl Bn). }
      pose proof (OLEof u v (look_of done o []) (oc_eofp cf) eq_refl (pc_eofp _ C)) as L. cbn [look_of k_done k_line] in L.
      rewrite Bn in L. exact L. }
  destruct (r =? CharInterrupt) eqn:K20.
  { assert (Un : oc_unique cf = false) by (destruct (oc_unique cf); [|reflexivity]; apply Z.eqb_eq in K20; now destruct (KU eq_refl)).
    destruct (interrupt_case o o1 acts kS kC upd Un A E) as (-> & ->). rewrite Un.
    split; [apply prompt_h; [now apply emptied_prompt|exact (ap_hist _ _ A)]|].
    split; [right; split; [clear - K20; apply Z.eqb_eq in K20; unfold ending; cbn [In]; auto|split; reflexivity]|]. eexists. split; [reflexivity|].
    econstructor; [apply OLDraw; apply LLine; [reflexivity|apply (ap_buf _ _ A)|apply le_n]|].
    econstructor; [|apply OLNil]. apply OLDraw. cbn [flat_map text_of app].
    apply (LSubmit u v {| k_done := done; k_line := rb_buf (o_b o); k_idx := length (rb_buf (o_b o)); k_reading := true |} (oc_intp cf) eq_refl (pc_intp _ C)). }
  (* a character *)
  apply obind_ok in E. destruct E as (b' & R & E). change (c_in (o_c (with_b b' o))) with (c_in (o_c o)) in E.
  rewrite (ap_in _ _ A) in E. injection E as <- <- _ _ _.
  assert (Pr : plainr u r).
  { destruct K as [K|[K|[K|(K & _)]]]; [exact K| |subst r; discriminate|subst r; discriminate].
    exfalso. rewrite !orb_false_iff in *. rewrite !Z.eqb_neq in *. unfold command_keys in K. cbn [In] in K. intuition congruence. }
  destruct (once_case (EWrite [r]) o b' done A R) as (P1 & P2); [repeat constructor; apply Pr|discriminate|discriminate|].
  split; [exact P1|]. split; [now left|]. rewrite R. eexists. split; [reflexivity|]. cbn [flat_map]. rewrite app_nil_r. exact P2.
Qed.

Lemma after_case r o1 acts kS kC upd o' acts' : at_prompt cf o1 -> after_switch cf r (o1, acts, kS, kC, upd) = Ok (o', acts') ->
  acts' = acts /\ exists b h, o' = with_h h (with_b b o1) /\ hist_of (plainr u) h /\
    ((b = o_b o1 /\ listener_draws cf r o1 = []) \/
     exists l p, b = SetWithIdx p l (o_b o1) /\ listener_draws cf r o1 = [ODraw (VLine l p)] /\ ~ ending r /\
       Forall (plainr u) l /\ (p <= length l)%nat).
Proof.
  intros A E. unfold after_switch in E. unfold listener_draws.
  assert (G : forall b, (forall z, In z (rb_buf b) -> plainr u z) -> forall x, x = with_b b o1 ->
    (o2 <- (if negb kS && s_in (o_s x) then ExitSearchMode false x
            else if c_in (o_c x) then if negb kC then Ok (with_c (ExitCompleteMode (o_c x)) x) else CompleteRefresh cf x else Ok x) ;;
     o3 <- (if upd && negb (s_in (o_s o2)) then h <- Update (oc_h cf) (rb_buf (o_b o2)) false (o_h o2) ;; Ok (with_h h o2) else Ok o2) ;;
     Ok (o3, acts)) = Ok (o', acts') ->
    acts' = acts /\ exists h, o' = with_h h (with_b b o1) /\ hist_of (plainr u) h).
  { intros b Fb x -> X. change (s_in (o_s (with_b b o1))) with (s_in (o_s o1)) in X. rewrite (ap_s _ _ A), andb_false_r in X.
    change (c_in (o_c (with_b b o1))) with (c_in (o_c o1)) in X. rewrite (ap_in _ _ A) in X. cbn [obind] in X.
    destruct (upd && _).
    - apply obind_ok in X. destruct X as (o3 & X & Y). injection Y as <- <-. apply obind_ok in X. destruct X as (h & X & Y).
      injection Y as <-. split; [reflexivity|]. exists h. split; [reflexivity|].
      apply (update_of _ (oc_h cf) (rb_buf b) false (o_h o1)); [apply Forall_forall; exact Fb|apply (ap_hist _ _ A)|exact X].
    - cbn [obind] in X. injection X as <- <-. split; [reflexivity|]. exists (o_h o1). split; [reflexivity|apply (ap_hist _ _ A)]. }
  pose proof (proj1 (Forall_forall _ _) (ap_buf _ _ A)) as Fo.
  assert (Eo : o1 = with_b (o_b o1) o1) by now destruct o1.
  destruct (oc_listen cf) as [f|] eqn:Lf.
  - destruct (f (rb_buf (o_b o1)) (rb_idx (o_b o1)) r) as [[l p]|] eqn:Ef.
    + destruct (pc_listen _ C f _ _ r l p Lf (ap_buf _ _ A) (ap_inside _ _ A) Ef) as (N & Fl & Ip).
      destruct (G (SetWithIdx p l (o_b o1)) (proj1 (Forall_forall _ _) Fl) _ eq_refl E) as (-> & h & -> & Hh).
      split; [reflexivity|]. exists (SetWithIdx p l (o_b o1)), h. split; [reflexivity|]. split; [exact Hh|]. right. exists l, p. auto.
    + destruct (G (o_b o1) Fo _ Eo E) as (-> & h & -> & Hh). split; [reflexivity|]. exists (o_b o1), h. auto.
  - destruct (G (o_b o1) Fo _ Eo E) as (-> & h & -> & Hh). split; [reflexivity|]. exists (o_b o1), h. auto.
Qed.

Lemma prompt_nonzero r : prompt_key cf r -> (r =? 0) = false.
Proof.
  intros [(K & _)|[K|[K|(K & _)]]]; [lia| |subst r; reflexivity|subst r; reflexivity].
  apply Z.eqb_neq. intros ->. unfold command_keys in K. cbn [In] in K. repeat (destruct K as [K|K]; [discriminate K|]). contradiction.
Qed.

Definition followed (o : op) (done : list (list Z)) (x : outcome (list oev)) (o' : op) (acts : list act) : Prop :=
  at_prompt cf o' /\ exists es, x = Ok es /\
    olooks_all u v (look_of done o []) es (look_of (done ++ flat_map (text_of cf v) acts) o' acts).

Lemma prompt_v o n p : at_prompt cf o -> at_prompt cf (with_v n p o).
Proof. intros []. constructor; assumption. Qed.

(** from the switch on *)
Lemma tail_case o n p r o' acts done : at_prompt cf o -> prompt_key cf r ->
  (r = CharTranspose -> length (rb_buf (o_b o)) <> 1%nat) -> (oc_unique cf = true -> r <> CharInterrupt) ->
  (y <- key_switch cf r (with_v n p o) ;; after_switch cf r y) = Ok (o', acts) ->
  followed o done (after_vim cf r (with_v n p o)) o' acts.
Proof.
  intros A0 Kr KT KU X. assert (A : at_prompt cf (with_v n p o)) by now apply prompt_v.
  apply obind_ok in X. destruct X as ([[[[o1 a1] kS] kC] upd] & S & X).
  destruct (switch_case (with_v n p o) r o1 a1 kS kC upd done A Kr KT KU S) as (A1 & Q & es & D & L).
  destruct (after_case r o1 a1 kS kC upd o' acts A1 X) as (-> & b & h & -> & Hh & B).
  unfold followed, after_vim. rewrite D, S. cbn [obind]. destruct B as [(-> & B)|(l & q & -> & B & Ne & Fl & Ip)].
  - replace (with_b (o_b o1) o1) with o1 by now destruct o1. split; [now apply prompt_h|].
    eexists. split; [reflexivity|]. rewrite B, app_nil_r. exact L.
  - destruct Q as [Q|Q]; [|destruct Q; contradiction]. split.
    + apply prompt_h; [|exact Hh]. apply prompt_b; [exact A1|exact Ip|exact Fl|exact (ap_kill _ _ A1)].
    + eexists. split; [reflexivity|]. rewrite B. apply (olooks_app u v es _ _ _ _ L). econstructor; [|apply OLNil]. apply OLDraw.
      unfold look_of. rewrite Q. refine (LLine u v {| k_done := _; k_line := rb_buf (o_b o1); k_idx := rb_idx (o_b o1); k_reading := true |} l q eq_refl Fl Ip).
Qed.

Lemma tail_case' o r o' acts done : at_prompt cf o -> prompt_key cf r ->
  (r = CharTranspose -> length (rb_buf (o_b o)) <> 1%nat) -> (oc_unique cf = true -> r <> CharInterrupt) ->
  (y <- key_switch cf r o ;; after_switch cf r y) = Ok (o', acts) ->
  followed o done (after_vim cf r o) o' acts.
Proof.
  intros A Kr KT KU X. pose proof (tail_case o (o_vn o) (o_vp o) r o' acts done A Kr KT KU) as T.
  replace (with_v (o_vn o) (o_vp o) o) with o in T by now destruct o. now apply T.
Qed.

(** commands of vim *)
Lemma vonce e o n p b' done x : at_prompt cf o -> run_edit e (o_b o) = Ok b' -> Forall (plainr u) (inserts e) -> e <> EReset ->
  e <> ETranspose -> x = Ok b' -> followed o done (once x) (with_v n p (with_b b' o)) [].
Proof.
  intros A R I N T ->. destruct (once_case e o b' done A R I N) as (P1 & P2); [intros X; contradiction|].
  split; [now apply prompt_v|]. eexists. split; [reflexivity|]. cbn [flat_map]. rewrite app_nil_r. exact P2.
Qed.
Lemma vnone o n p done : at_prompt cf o -> followed o done (Ok []) (with_v n p (with_b (o_b o) o)) [].
Proof.
  intros A. replace (with_b (o_b o) o) with o by now destruct o. split; [now apply prompt_v|]. eexists. split; [reflexivity|].
  cbn. rewrite app_nil_r. apply OLNil.
Qed.
Lemma vsame o n p done : at_prompt cf o -> followed o done (Ok []) (with_v n p o) [].
Proof. intros A. replace (with_v n p o) with (with_v n p (with_b (o_b o) o)) by now destruct o. now apply vnone. Qed.
Lemma vword o n p b' done : at_prompt cf o -> DeleteWord (o_b o) = Ok b' ->
  followed o done (word_draws (o_b o)) (with_v n p (with_b b' o)) [].
Proof.
  intros A R. unfold word_draws. destruct (rb_idx (o_b o) =? length (rb_buf (o_b o)))%nat eqn:Ei.
  - unfold DeleteWord in R. rewrite Ei in R. injection R as <-. now apply vnone.
  - apply (vonce EDeleteWord); auto; try discriminate. constructor.
Qed.
Lemma vdelete o n p x done : at_prompt cf o -> Delete (o_b o) = Ok x ->
  followed o done (delete_draws (o_b o)) (with_v n p (with_b (fst x) o)) [].
Proof.
  intros A R. unfold delete_draws. apply (vonce EDelete); auto; try discriminate; [cbn; now rewrite R|constructor|now rewrite R].
Qed.
Lemma vdel o n p next b' done : at_prompt cf o -> vim_del next (o_b o) = Ok b' ->
  followed o done (vim_del_draws next (o_b o)) (with_v n p (with_b b' o)) [].
Proof.
  intros A R. unfold vim_del in R. unfold vim_del_draws.
  destruct (next =? 119); [now apply vword|]. destruct (next =? 104).
  { apply (vonce EBackspace); auto; try discriminate. constructor. }
  destruct (next =? 108).
  { apply obind_ok in R. destruct R as (x & R & E). injection E as <-. now apply vdelete. }
  injection R as <-. now apply vnone.
Qed.

Lemma next_case p r o o' done : at_prompt cf o -> (p = VReplace -> plainr u r) -> vim_next p r o = Ok o' ->
  followed o done (vim_next_draws p r (o_b o)) o' [].
Proof.
  intros A Pr E. destruct p; cbn [vim_next vim_next_draws] in *; apply obind_ok in E; destruct E as (b & R & E); injection E as <-.
  - change (with_b b (with_v (o_vn o) None o)) with (with_v (o_vn o) None (with_b b o)).
    apply (vonce (EReplace r)); auto; try discriminate. repeat constructor; now apply Pr.
  - change (with_b b (with_v (o_vn o) None o)) with (with_v (o_vn o) None (with_b b o)).
    destruct (r =? 100); [|now apply vdel]. apply (vonce EErase); auto; try discriminate. constructor.
  - change (with_b b (with_v false None o)) with (with_v false None (with_b b o)).
    destruct (r =? 99); [|now apply vdel]. apply (vonce EErase); auto; try discriminate. constructor.
  - change (with_b b (with_v (o_vn o) None o)) with (with_v (o_vn o) None (with_b b o)).
    destruct (r =? CharEsc); [injection R as <-; now apply vnone|].
    apply (vonce (EMoveTo r prevChar reverse)); auto; try discriminate. constructor.
Qed.

Lemma vim_case r o o1 res a1 done : at_prompt cf o -> o_vn o = true -> HandleVimNormal r o = Ok (o1, res, a1) ->
  match res with
  | VKey r' => In r' command_keys /\ r' <> CharTranspose /\ (r' = CharInterrupt -> r = CharInterrupt) /\ a1 = [] /\ exists n p, o1 = with_v n p o
  | VDone => followed o done (vim_draws r (o_b o)) o1 a1
  | VWait q => followed o done (vim_draws r (o_b o)) (with_v (o_vn o1) (Some q) o1) a1
  end.
Proof.
  intros A Vn E. unfold HandleVimNormal in E. cbn zeta in E.
  assert (Eo : o = with_v (o_vn o) (o_vp o) o) by now destruct o.
  assert (O : forall e b' n p x, run_edit e (o_b o) = Ok b' -> inserts e = [] -> e <> EReset -> e <> ETranspose -> x = Ok b' ->
    followed o done (once x) (with_v n p (with_b b' o)) []).
  { intros e b' n p x R I N T X. apply (vonce e); auto. rewrite I. constructor. }
  assert (Q : forall b, with_b b o = with_v (o_vn o) (o_vp o) (with_b b o)) by (intros; now destruct o).
  unfold vim_draws.
  destruct ((r =? CharEnter) || (r =? CharInterrupt)) eqn:K0.
  { injection E as <- <- <-. apply orb_prop in K0. rewrite !Z.eqb_eq in K0. split; [|split; [|split; [auto|split; [reflexivity|eauto]]]].
    - destruct K0; subst r; vm_compute; tauto.
    - destruct K0; subst r; discriminate. }
  destruct (r =? 104) eqn:K1; [injection E as <- <- <-; split; [vm_compute; tauto|split; [discriminate|split; [discriminate|split; [reflexivity|eauto]]]]|].
  destruct (r =? 106) eqn:K2; [injection E as <- <- <-; split; [vm_compute; tauto|split; [discriminate|split; [discriminate|split; [reflexivity|eauto]]]]|].
  destruct (r =? 107) eqn:K3; [injection E as <- <- <-; split; [vm_compute; tauto|split; [discriminate|split; [discriminate|split; [reflexivity|eauto]]]]|].
  destruct (r =? 108) eqn:K4; [injection E as <- <- <-; split; [vm_compute; tauto|split; [discriminate|split; [discriminate|split; [reflexivity|eauto]]]]|].
  destruct ((r =? 48) || (r =? 94)) eqn:K5.
  { apply obind_ok in E. destruct E as (b & R & E). injection E as <- <- <-. rewrite Q. now apply (O ELineStart). }
  destruct (r =? 36) eqn:K6.
  { apply obind_ok in E. destruct E as (b & R & E). injection E as <- <- <-. rewrite Q. now apply (O ELineEnd). }
  destruct (r =? 120) eqn:K7.
  { apply obind_ok in E. destruct E as (b & R & E). injection E as <- <- <-. apply obind_ok in R. destruct R as (x & D & R).
    rewrite D. cbn [obind]. destruct (once_case EDelete o (fst x) done A) as (P1 & P2); [cbn; now rewrite D|constructor|discriminate|discriminate|].
    destruct (IsCursorInEnd (fst x)).
    - destruct (once_case EBackward (with_b (fst x) o) b done P1 R) as (P3 & P4); [constructor|discriminate|discriminate|].
      split; [exact P3|]. rewrite R. eexists. split; [reflexivity|]. cbn [flat_map]. rewrite app_nil_r.
      change (ODraw (VLine (rb_buf (fst x)) (rb_idx (fst x))) :: ?t) with ([ODraw (VLine (rb_buf (fst x)) (rb_idx (fst x)))] ++ t).
      apply (olooks_app u v _ _ _ _ _ P2). exact P4.
    - injection R as <-. split; [exact P1|]. eexists. split; [reflexivity|]. cbn [flat_map]. rewrite app_nil_r. exact P2. }
  destruct (r =? 114) eqn:K8.
  { injection E as <- <- <-. apply Z.eqb_eq in K8. subst r. cbn -[followed]. now apply vsame. }
  destruct (r =? 100) eqn:K9.
  { injection E as <- <- <-. apply Z.eqb_eq in K9. subst r. cbn -[followed]. now apply vsame. }
  destruct (r =? 112) eqn:K10.
  { apply obind_ok in E. destruct E as (b & R & E). injection E as <- <- <-. rewrite Q. unfold yank_draws.
    destruct (rb_kill (o_b o)) eqn:Ek; [|now apply (O EYank)]. unfold Yank in R. rewrite Ek in R. injection R as <-. now apply vnone. }
  destruct ((r =? 98) || (r =? 66)) eqn:K11.
  { apply obind_ok in E. destruct E as (b & R & E). injection E as <- <- <-. rewrite Q. now apply (O EPrevWord). }
  destruct ((r =? 119) || (r =? 87)) eqn:K12.
  { apply obind_ok in E. destruct E as (b & R & E). injection E as <- <- <-. rewrite Q. now apply (O ENextWord). }
  destruct ((r =? 101) || (r =? 69)) eqn:K13.
  { apply obind_ok in E. destruct E as (b & R & E). injection E as <- <- <-. rewrite Q. now apply (O EEndWord). }
  cbn [orb].
  destruct ((r =? 102) || (r =? 70) || (r =? 116) || (r =? 84)) eqn:K14.
  { injection E as <- <- <-. destruct ((r =? 99) || (r =? 105)); now apply vsame. }
  destruct (r =? 105) eqn:K15.
  { injection E as <- <- <-. destruct (r =? 99); cbn -[followed]; now apply vnone. }
  destruct (r =? 73) eqn:K16.
  { apply obind_ok in E. destruct E as (b & R & E). injection E as <- <- <-. apply Z.eqb_eq in K16. subst r. cbn -[followed once]. now apply (O ELineStart). }
  destruct (r =? 97) eqn:K17.
  { apply obind_ok in E. destruct E as (b & R & E). injection E as <- <- <-. apply Z.eqb_eq in K17. subst r. cbn -[followed once]. now apply (O EForward). }
  destruct (r =? 65) eqn:K18.
  { apply obind_ok in E. destruct E as (b & R & E). injection E as <- <- <-. apply Z.eqb_eq in K18. subst r. cbn -[followed once]. now apply (O ELineEnd). }
  destruct (r =? 115) eqn:K19.
  { apply obind_ok in E. destruct E as (b & R & E). injection E as <- <- <-. apply obind_ok in R. destruct R as (x & D & R). injection R as <-.
    apply Z.eqb_eq in K19. subst r. cbn -[followed once delete_draws]. now apply vdelete. }
  destruct (r =? 83) eqn:K20.
  { apply obind_ok in E. destruct E as (b & R & E). injection E as <- <- <-. apply Z.eqb_eq in K20. subst r. cbn -[followed once]. now apply (O EErase). }
  destruct (r =? 99) eqn:K21.
  { injection E as <- <- <-. cbn -[followed]. now apply vsame. }
  injection E as <- <- <-. cbn [orb]. split; [exact A|]. eexists. split; [reflexivity|]. cbn [flat_map text_of app]. rewrite app_nil_r. apply bell_case.
Qed.

Lemma key_case o r o' acts done : at_prompt cf o -> may_press cf o r -> op_step cf r o = Ok (o', acts) ->
  followed o done (key_draws cf r o) o' acts.
Proof.
  intros A K E. unfold op_step in E. rewrite (ap_end _ _ A) in E. unfold key_draws. unfold may_press in K.
  assert (Eo : o = with_v (o_vn o) (o_vp o) o) by now destruct o.
  destruct (o_vp o) as [p|] eqn:Vp.
  { apply obind_ok in E. destruct E as (o1 & N & E). injection E as <- <-. apply next_case; [exact A| |exact N]. intros ->. apply K. }
  assert (Hk : forall r', ~ trips cf o r' -> (oc_unique cf = true -> r' <> CharInterrupt) ->
    (if oc_vim cf && o_vn o then r' <> 0 else prompt_key cf r' \/ (oc_vim cf = true /\ r' = CharEsc)) ->
    handle_key cf r' o = Ok (o', acts) -> followed o done (handle_draws cf r' o) o' acts).
  { intros r' T Ku Kr X. unfold handle_key in X.
    assert (R0 : (r' =? 0) = false).
    { destruct (oc_vim cf && o_vn o); [now apply Z.eqb_neq|]. destruct Kr as [Kr|(_ & ->)]; [now apply prompt_nonzero|reflexivity]. }
    rewrite R0 in X. cbn [andb] in X. rewrite (ap_sel _ _ A) in X. unfold vim_and_switch in X. unfold handle_draws.
    unfold trips in T. rewrite Vp in T.
    destruct (oc_vim cf) eqn:Vi; cbn [andb] in *.
    - unfold HandleVim in *. destruct (o_vn o) eqn:Vn.
      + apply obind_ok in X. destruct X as ([[o1 res] a1] & N & X). rewrite N. cbn [obind].
        pose proof (vim_case r' o o1 res a1 done A Vn N) as V. destruct res as [r2| |q].
        * destruct V as (V1 & V2 & V3 & -> & n & p & ->). destruct (r2 =? 0) eqn:Z2.
          { apply Z.eqb_eq in Z2. subst r2. unfold command_keys in V1. cbn [In] in V1. repeat (destruct V1 as [V1|V1]; [discriminate V1|]). contradiction. }
          apply tail_case; [exact A|right; now left|intros; contradiction|intros Un X3; apply (Ku Un); auto|exact X].
        * injection X as <- <-. exact V.
        * injection X as <- <-. exact V.
      + destruct (r' =? CharEsc) eqn:Es.
        * cbn [obind] in X |- *. injection X as <- <-. replace (with_v true None o) with (with_v true None (with_b (o_b o) o)) by now destruct o. now apply vnone.
        * cbn [obind] in X |- *. rewrite R0 in *. destruct Kr as [Kr|(_ & ->)]; [|discriminate].
          apply tail_case'; [exact A|exact Kr| |exact Ku|exact X].
          intros -> L. apply T. left. auto.
    - destruct Kr as [Kr|(Kr & _)]; [|discriminate]. apply tail_case'; [exact A|exact Kr| |exact Ku|exact X].
      intros -> L. apply T. left. auto. }
  destruct (oc_filter cf) as [f|].
  - destruct (f r) as [r'|] eqn:Fr.
    + destruct (K r' eq_refl) as (K1 & K2 & K3). now apply Hk.
    + injection E as <- <-. split; [exact A|]. eexists. split; [reflexivity|]. cbn [flat_map text_of app]. rewrite app_nil_r.
      econstructor; [|apply OLNil]. apply OLDraw.
      apply (LLine u v (look_of done o []) (rb_buf (o_b o)) (rb_idx (o_b o))); [reflexivity|apply (ap_buf _ _ A)|apply (ap_inside _ _ A)].
  - destruct (K r eq_refl) as (K1 & K2 & K3). now apply Hk.
Qed.
End Key.

(** ** Sessions *)
Section Sess.
Variable cf : ocfg.
Hypothesis C : plain_session cf.
Hypothesis W : 0 < oc_w cf <= 9223372036854775807.
Hypothesis U : uenv_ok (oc_u cf).
Variable ps : list piece.
Let v := visible ps.
Hypothesis PD : Forall sgr_digits ps.
Hypothesis PV : Forall (plainr (oc_u cf)) v.
Hypothesis PS : Z.of_nat (length v) + 1 < oc_w cf.
Notation agrees := (agrees (oc_u cf) (oc_w cf) ps).
Notation u := (oc_u cf).
Notation w := (oc_w cf).

Lemma session_agrees is : forall o reading done st y0 s0 s t o' acts, at_prompt cf o -> in_turn cf is o reading ->
  leaves cf v is o t o' acts ->
  agrees y0 {| k_done := done; k_line := rb_buf (o_b o); k_idx := rb_idx (o_b o); k_reading := reading |} st s0 s ->
  exists st' out, ses_run cf (o, st) is = Ok ((o', st'), out, acts) /\ at_prompt cf o' /\
    agrees y0 {| k_done := done ++ t; k_line := rb_buf (o_b o'); k_idx := rb_idx (o_b o'); k_reading := fst st' |} st' s0 (sexecs u w s out).
Proof.
  induction is as [|i is IH]; intros o reading done st y0 s0 s t o' acts A T L G; inversion L; subst; clear L.
  - exists st, []. cbn [ses_run]. split; [reflexivity|]. split; [exact A|]. rewrite app_nil_r.
    assert (R : fst st = reading) by apply G. rewrite R. exact G.
  - match goal with H : leaves _ _ is _ _ _ _ |- _ => rename H into HL end. destruct T as (-> & T). destruct (ostep_agrees u w W U ps PD PV PS y0 _ st s0 s (ODraw VRead) _ G (OLDraw _ _ _ _ _ (LRead _ _ _)))
      as (st1 & o1 & E1 & G1). cbn [ses_run ses_step]. rewrite E1. cbn [obind fst snd].
    destruct (IH o true done st1 y0 s0 _ t o' acts A T HL G1) as (st' & out & E2 & A2 & G2). rewrite E2. cbn [obind].
    eexists _, _. split; [reflexivity|]. split; [exact A2|]. now rewrite sexecs_app.
  - match goal with H : leaves _ _ is _ _ _ _ |- _ => rename H into HL end.
    match goal with H : Forall (Forall _) ls |- _ => rename H into HF end. destruct T as (_ & T). destruct (ostep_agrees u w W U ps PD PV PS y0 _ st s0 s (ODraw (VOut (flat_map (fun l => l ++ [10]) ls))) _ G
      (OLDraw _ _ _ _ _ (LOut _ _ _ ls HF))) as (st1 & o1 & E1 & G1). cbn [ses_run ses_step]. rewrite E1. cbn [obind fst snd].
    destruct (IH o reading (done ++ ls) st1 y0 s0 _ t0 o' acts A T HL G1) as (st' & out & E2 & A2 & G2). rewrite E2. cbn [obind].
    eexists _, _. split; [reflexivity|]. split; [exact A2|]. rewrite sexecs_app, app_assoc. exact G2.
  - match goal with H : leaves _ _ is _ _ _ _ |- _ => rename H into HL end.
    match goal with H : op_step _ _ _ = _ |- _ => rename H into HS end. destruct T as (-> & K & T). destruct (key_case cf C v o r o1 a1 done A K HS) as (A1 & es & D & Lk).
    destruct (orun_agrees u w W U ps PD PV PS es y0 _ st s0 s _ G Lk) as (st1 & out1 & E1 & G1).
    cbn [ses_run ses_step]. rewrite D. cbn [obind]. rewrite E1. cbn [obind]. rewrite HS. cbn [obind fst snd].
    destruct (IH o1 _ _ st1 y0 s0 _ t0 o' acts0 A1 (T o1 a1 HS) HL G1) as (st' & out & E2 & A2 & G2). rewrite E2. cbn [obind].
    eexists _, _. split; [reflexivity|]. split; [exact A2|]. rewrite sexecs_app, app_assoc. exact G2.
Qed.
End Sess.
