(** What single keys do at the prompt: ordinary runes, Enter, Ctrl-C, Ctrl-D, end of input; whole lines. *)
From Verif Require Import Base ListAux RunesModel RunesSpec RunesProofs RuneBufModel RuneBufSpec RuneBufProofs
  HistoryModel HistorySpec HistoryProofs RenderModel OpModel OpSpec OpProofs.
From Coq Require Import ZifyBool.
Open Scope Z_scope.

(** At the prompt, possibly with text typed. *)
Record typing (o : op) : Prop := {
  ty_in : inside (o_b o);
  ty_s : s_in (o_s o) = false;
  ty_c : c_in (o_c o) = false;
  ty_sel : c_sel (o_c o) = false;
  ty_vn : o_vn o = false;
  ty_vp : o_vp o = None;
  ty_end : o_end o = false;
  ty_h : hwf (o_h o)
}.

Lemma rest_typing o : at_rest o <-> typing o /\ rb_buf (o_b o) = [] /\ rb_idx (o_b o) = 0%nat.
Proof.
  split.
  - intros A. destruct A. split; [|auto]. constructor; try assumption. unfold inside. lia.
  - intros (T & B & I). destruct T. constructor; assumption.
Qed.

(** Same editor, except for the line and the history. *)
Record same_modes (o o' : op) : Prop := {
  sm_s : o_s o' = o_s o; sm_c : o_c o' = o_c o; sm_vn : o_vn o' = o_vn o; sm_vp : o_vp o' = o_vp o; sm_end : o_end o' = o_end o }.

Lemma after_quiet cf r o a upd : plain cf -> s_in (o_s o) = false -> c_in (o_c o) = false -> hwf (o_h o) ->
  exists h, after_switch cf r (o, a, false, false, upd) = Ok (with_h h o, a) /\ hwf h.
Proof.
  intros (L & _) S C W. unfold after_switch. rewrite L, S, C. cbn [negb andb obind]. rewrite S. cbn [negb]. rewrite andb_true_r.
  destruct upd.
  - destruct (Update_ok (oc_h cf) (rb_buf (o_b o)) false (o_h o) W) as (h & -> & W' & _). cbn [obind]. eauto.
  - exists (o_h o). split; [|exact W]. destruct o; reflexivity.
Qed.

Lemma vim_passes cf r o : r <> 27 -> r <> 0 -> o_vn o = false ->
  vim_and_switch cf r o = (y <- key_switch cf r o ;; after_switch cf r y).
Proof.
  intros N N0 V. unfold vim_and_switch. destruct (oc_vim cf); [|reflexivity]. unfold HandleVim. rewrite V.
  replace (r =? CharEsc) with false by (unfold CharEsc; lia). cbn [obind]. now replace (r =? 0) with false by lia.
Qed.

Lemma step_passes cf r o : plain cf -> typing o -> r <> 27 -> r <> 0 ->
  op_step cf r o = (y <- key_switch cf r o ;; after_switch cf r y).
Proof.
  intros (L & F) T N N0. unfold op_step. rewrite (ty_end _ T), (ty_vp _ T), F. unfold handle_key.
  replace (r =? 0) with false by lia. cbn [andb]. rewrite (ty_sel _ T). apply vim_passes; [exact N|exact N0|apply (ty_vn _ T)].
Qed.

Lemma switch_ordinary cf r o : ordinary r -> s_in (o_s o) = false -> c_in (o_c o) = false ->
  key_switch cf r o = (b <- WriteRunes [r] (o_b o) ;; Ok (with_b b o, [], false, false, true)).
Proof.
  intros (R1 & R2) S C. unfold key_switch.
  repeat match goal with
         | |- context [r =? ?k] => replace (r =? k) with false by (clear - R1 R2; unfold k; lia)
         end.
  cbn [orb]. rewrite S. destruct (WriteRunes [r] (o_b o)); cbn [obind]; try reflexivity. cbn [with_b o_c]. now rewrite C.
Qed.

Lemma write_spec t b : inside b -> WriteRunes t b =
  Ok {| rb_buf := firstn (rb_idx b) (rb_buf b) ++ t ++ skipn (rb_idx b) (rb_buf b);
        rb_idx := (rb_idx b + length t)%nat; rb_kill := rb_kill b |}.
Proof.
  intros I. unfold inside in I. unfold WriteRunes. rewrite slice_to, slice_from by lia. reflexivity.
Qed.

(** an ordinary rune is inserted at the cursor *)
Lemma ordinary_step cf r o : plain cf -> typing o -> ordinary r ->
  exists o', op_step cf r o = Ok (o', []) /\ typing o' /\ same_modes o o' /\
    rb_buf (o_b o') = firstn (rb_idx (o_b o)) (rb_buf (o_b o)) ++ [r] ++ skipn (rb_idx (o_b o)) (rb_buf (o_b o)) /\
    rb_idx (o_b o') = S (rb_idx (o_b o)).
Proof.
  intros P T R. rewrite (step_passes cf r o P T) by (destruct R; lia).
  rewrite switch_ordinary by (try assumption; apply T). rewrite write_spec by apply T. cbn [obind].
  destruct (after_quiet cf r (with_b {| rb_buf := firstn (rb_idx (o_b o)) (rb_buf (o_b o)) ++ [r] ++ skipn (rb_idx (o_b o)) (rb_buf (o_b o));
     rb_idx := (rb_idx (o_b o) + length [r])%nat; rb_kill := rb_kill (o_b o) |} o) [] true P (ty_s _ T) (ty_c _ T) (ty_h _ T)) as (h & -> & W).
  eexists. split; [reflexivity|]. split; [|split; [constructor; reflexivity|split; [reflexivity|cbn; lia]]].
  destruct T. constructor; cbn; try assumption. unfold inside in *. cbn. rewrite app_length, firstn_length. cbn.
  rewrite skipn_length. lia.
Qed.

(** Enter and Ctrl-J *)
Lemma enter_step cf r o : plain cf -> typing o -> r = 13 \/ r = 10 ->
  exists o', op_step cf r o = Ok (o', [ALine (rb_buf (o_b o))]) /\ at_rest o' /\ same_modes o o'.
Proof.
  intros P T R. rewrite (step_passes cf r o P T) by lia.
  assert (K : key_switch cf r o = key_enter cf o) by (destruct R as [-> | ->]; reflexivity). rewrite K.
  unfold key_enter. rewrite (ty_s _ T). cbn [obind MoveToLineEnd].
  assert (E : (r0 <- (if negb (oc_unique cf) then
     b <- WriteRunes [10] (with_idx (length (rb_buf (o_b o))) (o_b o)) ;;
     (let '(data, b') := Reset b in d <- slice 0 (length data - 1) data ;; Ok (d, b'))
     else Ok (Reset (with_idx (length (rb_buf (o_b o))) (o_b o)))) ;; Ok r0) =
     Ok (rb_buf (o_b o), snd (Reset (o_b o)))).
  { destruct (negb (oc_unique cf)); [|reflexivity]. rewrite write_spec by (unfold inside; cbn; lia). cbn [obind rb_buf rb_idx with_idx Reset].
    rewrite firstn_all, skipn_all. cbn [app]. rewrite slice_to by lia. cbn [obind]. rewrite app_length. cbn [length].
    replace (length (rb_buf (o_b o)) + 1 - 1)%nat with (length (rb_buf (o_b o)) + 0)%nat by lia.
    rewrite firstn_app_2, firstn_O, app_nil_r. reflexivity. }
  destruct (if negb (oc_unique cf) then _ else _) as [[d b']| |]; cbn [obind] in E; try discriminate.
  injection E as -> Eb. cbn [obind].
  assert (Q : exists h, (if negb (oc_nosave cf) then
     h <- New (oc_h cf) (rb_buf (o_b o)) (o_h (with_b b' o)) ;;
     Ok (with_h h (with_b b' o), [ALine (rb_buf (o_b o))], false, false, true)
     else Ok (with_b b' o, [ALine (rb_buf (o_b o))], false, false, false)) =
     Ok (with_h h (with_b b' o), [ALine (rb_buf (o_b o))], false, false, negb (oc_nosave cf)) /\ hwf h).
  { destruct (negb (oc_nosave cf)).
    - destruct (New_ok (oc_h cf) (rb_buf (o_b o)) (o_h o) (ty_h _ T)) as (h & E & W). exists h. cbn [o_h with_b]. rewrite E. auto.
    - exists (o_h o). split; [destruct o; reflexivity|apply T]. }
  destruct Q as (h & -> & W). cbn [obind].
  destruct (after_quiet cf r (with_h h (with_b b' o)) [ALine (rb_buf (o_b o))] (negb (oc_nosave cf)) P (ty_s _ T) (ty_c _ T) W)
    as (h' & -> & W'). eexists. split; [reflexivity|]. split; [|constructor; reflexivity].
  destruct T. constructor; cbn; try assumption; now rewrite Eb.
Qed.

(** a whole line typed from rest, or appended to what is there *)
Lemma text_steps cf l : plain cf -> Forall ordinary l -> forall o, typing o -> rb_idx (o_b o) = length (rb_buf (o_b o)) ->
  exists o', op_run cf l o = Ok (o', []) /\ typing o' /\ rb_buf (o_b o') = rb_buf (o_b o) ++ l /\
    rb_idx (o_b o') = length (rb_buf (o_b o')).
Proof.
  intros P. induction l as [|r l IH]; intros F o T I.
  - exists o. rewrite app_nil_r. auto.
  - inversion F; subst. destruct (ordinary_step cf r o P T) as (o1 & E & T1 & _ & B & J); [assumption|].
    rewrite I, firstn_all, skipn_all in B. cbn [app] in B.
    destruct (IH ltac:(assumption) o1 T1) as (o2 & E2 & T2 & B2 & J2).
    + rewrite J, B, app_length, I. cbn. lia.
    + exists o2. cbn [op_run]. rewrite E. cbn [obind fst snd]. rewrite E2. cbn [obind fst snd app]. split; [reflexivity|].
      split; [exact T2|]. split; [|exact J2]. rewrite B2, B, <- app_assoc. reflexivity.
Qed.

Lemma op_run_app cf l1 l2 o : op_run cf (l1 ++ l2) o =
  (x <- op_run cf l1 o ;; y <- op_run cf l2 (fst x) ;; Ok (fst y, snd x ++ snd y)).
Proof.
  revert o. induction l1 as [|r l1 IH]; intros o; cbn [app op_run obind fst snd].
  - destruct (op_run cf l2 o) as [[o' a]| |]; reflexivity.
  - destruct (op_step cf r o) as [[o1 a1]| |]; cbn [obind fst snd]; try reflexivity. rewrite IH.
    destruct (op_run cf l1 o1) as [[o2 a2]| |]; cbn [obind fst snd]; try reflexivity.
    destruct (op_run cf l2 o2) as [[o3 a3]| |]; cbn [obind fst snd]; try reflexivity. now rewrite app_assoc.
Qed.

(** the keys of a list of lines, each with its end-of-line key *)
Fixpoint typed (ls : list (list Z * Z)) : list Z :=
  match ls with [] => [] | (l, e) :: ls' => l ++ e :: typed ls' end.

Lemma lines_steps cf ls : plain cf -> Forall (fun le => Forall ordinary (fst le) /\ (snd le = 13 \/ snd le = 10)) ls ->
  forall o, at_rest o -> exists o', op_run cf (typed ls) o = Ok (o', map (fun le => ALine (fst le)) ls) /\ at_rest o'.
Proof.
  intros P. induction ls as [|[l e] ls IH]; intros F o A; cbn [typed map fst].
  - exists o. auto.
  - inversion F as [|x y (H1 & H2) H3]; subst. cbn [fst snd] in H1, H2. apply rest_typing in A. destruct A as (T & B & I).
    destruct (text_steps cf l P H1 o T) as (o1 & E1 & T1 & B1 & J1); [rewrite B; exact I|]. rewrite B in B1. cbn [app] in B1.
    destruct (enter_step cf e o1 P T1 H2) as (o2 & E2 & A2 & _). rewrite B1 in E2.
    destruct (IH H3 o2 A2) as (o3 & E3 & A3). exists o3. split; [|exact A3].
    rewrite op_run_app, E1. cbn [obind fst snd op_run]. rewrite E2. cbn [obind fst snd]. rewrite E3. reflexivity.
Qed.

(** end of input *)
Lemma eof_step cf o : plain cf -> at_rest o -> exists o', op_step cf 0 o = Ok (o', [AEof]) /\ o_end o' = true.
Proof.
  intros (_ & F) A. destruct A. unfold op_step. rewrite ar_end, ar_vp, F. unfold handle_key. rewrite ar_buf. cbn. eauto.
Qed.

Lemma eof_enter cf o : plain cf -> typing o -> rb_buf (o_b o) <> [] -> op_step cf 0 o = op_step cf 13 o.
Proof.
  intros (_ & F) T N. unfold op_step. rewrite (ty_end _ T), (ty_vp _ T), F. unfold handle_key. cbn [Z.eqb andb].
  destruct (rb_buf (o_b o)) as [|x l] eqn:B; [contradiction|]. reflexivity.
Qed.

(** Ctrl-C *)
Lemma interrupt_step cf o : plain cf -> inside (o_b o) -> hwf (o_h o) -> s_in (o_s o) = false -> c_in (o_c o) = false ->
  c_sel (o_c o) = false -> o_vp o = None -> o_end o = false -> (o_vn o = true -> oc_vim cf = true) ->
  exists o', op_step cf 3 o = Ok (o', [AIntr (rb_buf (o_b o))]) /\ at_rest o'.
Proof.
  intros P I W S C L Vp En Vv.
  assert (Q : forall v o1, o1 = with_v v None o -> v = false ->
    exists o', (y <- key_switch cf 3 o1 ;; after_switch cf 3 y) = Ok (o', [AIntr (rb_buf (o_b o))]) /\ at_rest o').
  { intros v o1 -> ->. change (key_switch cf 3 (with_v false None o)) with (key_interrupt cf (with_v false None o)).
    unfold key_interrupt. cbn [with_v o_s o_c o_b o_h]. rewrite S, C. cbn [MoveToLineEnd obind].
    assert (E : exists b, (if negb (oc_unique cf) then WriteRunes (oc_intp cf ++ [10]) (with_idx (length (rb_buf (o_b o))) (o_b o))
       else Ok (with_idx (length (rb_buf (o_b o))) (o_b o))) = Ok b /\
       rb_buf b = rb_buf (o_b o) ++ (if negb (oc_unique cf) then oc_intp cf ++ [10] else [])).
    { destruct (negb (oc_unique cf)).
      - rewrite write_spec by (unfold inside; cbn; lia). eexists. split; [reflexivity|]. cbn [rb_buf rb_idx with_idx].
        rewrite firstn_all, skipn_all, app_nil_r. reflexivity.
      - eexists. split; [reflexivity|]. cbn. now rewrite app_nil_r. }
    destruct E as (b & -> & B). cbn [obind Reset].
    assert (E : (if negb (oc_unique cf) then if (length (rb_buf b) <? length (oc_intp cf ++ [10%Z]))%nat then Panic
          else slice 0 (length (rb_buf b) - length (oc_intp cf ++ [10%Z])) (rb_buf b) else Ok (rb_buf b)) = Ok (rb_buf (o_b o))).
    { rewrite B. destruct (negb (oc_unique cf)); [|now rewrite app_nil_r].
      rewrite (app_length (rb_buf (o_b o))).
      replace (length (rb_buf (o_b o)) + length (oc_intp cf ++ [10%Z]) <? length (oc_intp cf ++ [10%Z]))%nat with false by lia.
      rewrite slice_to by (rewrite (app_length (rb_buf (o_b o))); lia). f_equal.
      replace (length (rb_buf (o_b o)) + length (oc_intp cf ++ [10%Z]) - length (oc_intp cf ++ [10%Z]))%nat with (length (rb_buf (o_b o)) + 0)%nat by lia.
      now rewrite firstn_app_2, firstn_O, app_nil_r. }
    rewrite E. cbn [obind].
    match goal with |- context [after_switch cf 3 (?x, _, _, _, _)] => set (o2 := x) end.
    assert (W2 : hwf (o_h o2)).
    { destruct (run_hcall_ok (oc_h cf) HRevert (o_h o) W) as (h' & E' & W'). cbn in E'. injection E' as <-. exact W'. }
    destruct (after_quiet cf 3 o2 [AIntr (rb_buf (o_b o))] false P S C W2) as (h & -> & Wh).
    eexists. split; [reflexivity|]. constructor; cbn; try assumption; reflexivity. }
  destruct P as (Pl & Pf). unfold op_step. rewrite En, Vp, Pf. unfold handle_key. cbn [Z.eqb andb]. rewrite L. unfold vim_and_switch.
  destruct (oc_vim cf) eqn:Vi.
  - unfold HandleVim. destruct (o_vn o) eqn:V; cbn [obind].
    + change (HandleVimNormal 3 o) with (Ok (with_v false None o, VKey 3, []) : outcome (op * vres * list act)).
      cbn [obind Z.eqb]. apply (Q false); reflexivity.
    + cbn [Z.eqb CharEsc obind]. apply (Q false); [|reflexivity]. destruct o; cbn in *; subst; reflexivity.
  - destruct (o_vn o) eqn:V; [specialize (Vv eq_refl); discriminate|].
    apply (Q false); [|reflexivity]. destruct o; cbn in *; subst; reflexivity.
Qed.

(** Ctrl-D *)
Lemma delete_empty_step cf o : plain cf -> at_rest o -> exists o', op_step cf 4 o = Ok (o', [AEof]) /\ at_rest o'.
Proof.
  intros P A. pose proof A as A'. apply rest_typing in A'. destruct A' as (T & B & I).
  rewrite (step_passes cf 4 o P T) by lia. change (key_switch cf 4 o) with (key_delete cf o). unfold key_delete, IsNormalMode.
  rewrite B, (ty_c _ T), (ty_s _ T). cbn [length Nat.ltb Nat.leb negb andb orb].
  assert (E : exists b, (if negb (oc_unique cf) then WriteRunes (oc_eofp cf ++ [10]) (o_b o) else Ok (o_b o)) = Ok b).
  { destruct (negb (oc_unique cf)); [|eauto]. rewrite write_spec by apply T. eauto. }
  destruct E as (b & ->). cbn [obind].
  assert (W2 : hwf (Revert (o_h o))).
  { destruct (run_hcall_ok (oc_h cf) HRevert (o_h o) (ty_h _ T)) as (h' & E' & W'). cbn in E'. injection E' as <-. exact W'. }
  destruct (after_quiet cf 4 (with_h (Revert (o_h o)) (with_b (snd (Reset b)) o)) [AEof] false P (ty_s _ T) (ty_c _ T) W2) as (h & -> & Wh).
  eexists. split; [reflexivity|]. destruct T. constructor; cbn; try assumption; reflexivity.
Qed.

Lemma delete_text_step cf o : plain cf -> typing o -> rb_buf (o_b o) <> [] ->
  exists o' a, op_step cf 4 o = Ok (o', a) /\ results a = [] /\ filter resumes a = [AKick] /\ typing o' /\
    rb_buf (o_b o') = firstn (rb_idx (o_b o)) (rb_buf (o_b o)) ++ skipn (S (rb_idx (o_b o))) (rb_buf (o_b o)) /\
    rb_idx (o_b o') = rb_idx (o_b o).
Proof.
  intros P T N. rewrite (step_passes cf 4 o P T) by lia. change (key_switch cf 4 o) with (key_delete cf o). unfold key_delete.
  replace (0 <? length (rb_buf (o_b o)))%nat with true by (destruct (rb_buf (o_b o)); [contradiction|reflexivity]). cbn [orb].
  assert (E : exists b ok, Delete (o_b o) = Ok (b, ok) /\
     rb_buf b = firstn (rb_idx (o_b o)) (rb_buf (o_b o)) ++ skipn (S (rb_idx (o_b o))) (rb_buf (o_b o)) /\ rb_idx b = rb_idx (o_b o) /\ inside b).
  { pose proof (ty_in _ T) as I. unfold inside in I. unfold Delete. destruct (rb_idx (o_b o) =? length (rb_buf (o_b o)))%nat eqn:Z0.
    - do 2 eexists. split; [reflexivity|]. assert (Z1 : rb_idx (o_b o) = length (rb_buf (o_b o))) by lia. rewrite Z1.
      rewrite firstn_all, skipn_all2 by lia. rewrite app_nil_r. unfold inside. repeat split; try reflexivity; lia.
    - rewrite slice_ok, slice_to, slice_from by lia. cbn [obind]. do 2 eexists. split; [reflexivity|].
      cbn [rb_buf rb_idx]. rewrite Nat.add_1_r. split; [reflexivity|]. split; [reflexivity|]. unfold inside.
      change (rb_idx (o_b o) <= length (firstn (rb_idx (o_b o)) (rb_buf (o_b o)) ++ skipn (S (rb_idx (o_b o))) (rb_buf (o_b o))))%nat.      rewrite app_length, firstn_length, ?skipn_length. lia. }
  destruct E as (b & ok & -> & B & J & I). cbn [obind fst snd].
  destruct (after_quiet cf 4 (with_b b o) (AKick :: (if ok then [] else [ABell])) true P (ty_s _ T) (ty_c _ T) (ty_h _ T)) as (h & -> & W).
  do 2 eexists. split; [reflexivity|]. split; [destruct ok; reflexivity|]. split; [destruct ok; reflexivity|].
  split; [destruct T; constructor; cbn; assumption|]. split; [exact B|exact J].
Qed.
