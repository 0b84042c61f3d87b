(** Property C94 with a Listener and an input filter. *)
From Verif Require Import Base RunesModel RuneBufModel RuneBufSpec HistoryModel HistoryProofs OpModel OpSpec OpProofs OpModes OpKeys OpProps OpTableSpec OpTable OpTableProps FilterSpec ListenSpec.
From Coq Require Import ZifyBool.
Open Scope Z_scope.

(** The configuration without Listener and filter. *)
Definition bare (cf : ocfg) : ocfg := unlistened (unfiltered cf).
Definition lets_pass (cf : ocfg) (k : Z) : Prop := match oc_filter cf with None => True | Some f => f k = Some k end.

Lemma filter_passed cf k o : lets_pass cf k -> op_step cf k o = op_step (unfiltered cf) k o.
Proof.
  intros P. unfold op_step, lets_pass in *. destruct (o_end o); [reflexivity|]. destruct (o_vp o); [reflexivity|]. cbn [unfiltered oc_filter].
  destruct (oc_filter cf) as [f|] eqn:F; [rewrite P|]; unfold handle_key, vim_and_switch, HandleCompleteSelect; reflexivity.
Qed.

(** In command mode, every key but the six that stand for a control key, and every second key (even one the filter would change): Listener and filter make
    no difference, so that C94_one_key (but h and l), C94_x, C94_insert, C94_two_keys, C94_other and C94_escape hold with them. *)
Theorem C94_hooks : forall cf k o, oc_vim cf = true ->
  (commanding o /\ lets_pass cf k /\ k <> 0 /\ ~ In k [13; 3; 104; 106; 107; 108]) \/ (typing o /\ lets_pass cf k /\ k = 27) \/ o_vp o <> None ->
  op_step cf k o = op_step (bare cf) k o.
Proof.
  intros cf k o V [(C & P & N & I)|[(T & P & ->)|W]].
  - rewrite filter_passed by exact P. unfold op_step. rewrite (cm_end _ C), (cm_vp _ C). unfold bare; cbn [unlistened unfiltered oc_filter]. unfold handle_key.
    replace (k =? 0) with false by lia. cbn [andb]. rewrite (cm_sel _ C). unfold vim_and_switch. change (oc_vim (unfiltered cf)) with (oc_vim cf). change (oc_vim (unlistened (unfiltered cf))) with (oc_vim cf). rewrite V. unfold HandleVim. rewrite (cm_vn _ C).
    assert (X : forall o1 r a, HandleVimNormal k o <> Ok (o1, VKey r, a)).
    { intros o1 r a. unfold HandleVimNormal. cbn [In] in I. unfold CharEnter, CharInterrupt.
      replace ((k =? 13) || (k =? 3)) with false by lia. replace (k =? 104) with false by lia. replace (k =? 106) with false by lia.
      replace (k =? 107) with false by lia. replace (k =? 108) with false by lia.
      repeat match goal with |- context [if ?c then _ else _] => destruct c; cbn [obind]; try discriminate end;
      repeat match goal with |- context [obind ?g _] => destruct g; cbn [obind fst snd]; try discriminate end;
      repeat match goal with |- context [if ?c then _ else _] => destruct c; cbn [obind]; try discriminate end;
      repeat match goal with |- context [obind ?g _] => destruct g; cbn [obind fst snd]; try discriminate end. }
    destruct (HandleVimNormal k o) as [[[o1 v] a]| |]; cbn [obind]; try reflexivity. destruct v; try reflexivity. exfalso. exact (X _ _ _ eq_refl).
  - rewrite filter_passed by exact P. unfold op_step. rewrite (ty_end _ T), (ty_vp _ T). unfold bare; cbn [unlistened unfiltered oc_filter]. unfold handle_key. cbn [Z.eqb andb].
    rewrite (ty_sel _ T). unfold vim_and_switch. change (oc_vim (unfiltered cf)) with (oc_vim cf). change (oc_vim (unlistened (unfiltered cf))) with (oc_vim cf). rewrite V. unfold HandleVim. rewrite (ty_vn _ T). reflexivity.
  - unfold op_step. destruct (o_end o); [reflexivity|]. destruct (o_vp o); [reflexivity|congruence].
Qed.
Print Assumptions C94_hooks.

Lemma command_passes_any cf r o : oc_filter cf = None -> oc_vim cf = true -> commanding o -> r <> 0 ->
  op_step cf r o = (x <- HandleVimNormal r o ;; let '(o1, v, acts) := x in
    match v with VDone => Ok (o1, acts) | VWait p => Ok (with_v (o_vn o1) (Some p) o1, acts)
    | VKey r' => if r' =? 0 then Ok (o1, acts) else y <- key_switch cf r' o1 ;; after_switch cf r' y end).
Proof.
  intros F V C N. unfold op_step. rewrite (cm_end _ C), (cm_vp _ C), F. unfold handle_key. replace (r =? 0) with false by lia. cbn [andb].
  rewrite (cm_sel _ C). unfold vim_and_switch. rewrite V. unfold HandleVim. now rewrite (cm_vn _ C).
Qed.
Lemma typing_passes_any cf r o : oc_filter cf = None -> typing o -> r <> 27 -> r <> 0 ->
  op_step cf r o = (y <- key_switch cf r o ;; after_switch cf r y).
Proof.
  intros F T N N0. unfold op_step. rewrite (ty_end _ T), (ty_vp _ T), F. unfold handle_key.
  replace (r =? 0) with false by lia. cbn [andb]. rewrite (ty_sel _ T). apply vim_passes; [exact N|exact N0|apply (ty_vn _ T)].
Qed.

(** The control key each of h, j, k and l stands for. *)
Inductive stands : Z -> Z -> Prop := st_h : stands 104 2 | st_j : stands 106 14 | st_k : stands 107 16 | st_l : stands 108 6.

Lemma motion_v cf r k v o : stands k r ->
  key_switch cf r (with_v v None o) = (x <- key_switch cf r o ;; let '(o', a, ks, kc, u) := x in Ok (with_v v None o', a, ks, kc, u)).
Proof.
  intros S. destruct S; unfold key_switch; cbn [Z.eqb Pos.eqb orb CharBell CharTab CharBckSearch CharCtrlU CharFwdSearch CharKill MetaForward CharTranspose MetaBackward MetaDelete CharLineStart
    CharLineEnd CharBackspace CharCtrlH CharCtrlZ CharCtrlL MetaBackspace CharCtrlW CharCtrlY CharEnter CharCtrlJ CharBackward CharForward CharPrev CharNext]; cbn [o_h with_v o_b].
  - unfold edit_buf. cbn [o_b with_v]. destruct (MoveBackward (o_b o)); reflexivity.
  - destruct (Next (o_h o)) as [[[x|] h]| |]; reflexivity.
  - destruct (Prev (o_h o)) as [[[x|] h]| |]; reflexivity.
  - unfold edit_buf. cbn [o_b with_v]. destruct (MoveForward (o_b o)); reflexivity.
Qed.
Lemma motion_modes cf r k o o' a ks kc u : stands k r -> key_switch cf r o = Ok (o', a, ks, kc, u) ->
  ks = false /\ kc = false /\ o_s o' = o_s o /\ o_c o' = o_c o /\ o_vn o' = o_vn o /\ o_vp o' = o_vp o.
Proof.
  intros S E. destruct S; unfold key_switch in E; cbn [Z.eqb Pos.eqb orb CharBell CharTab CharBckSearch CharCtrlU CharFwdSearch CharKill MetaForward CharTranspose MetaBackward MetaDelete CharLineStart
    CharLineEnd CharBackspace CharCtrlH CharCtrlZ CharCtrlL MetaBackspace CharCtrlW CharCtrlY CharEnter CharCtrlJ CharBackward CharForward CharPrev CharNext] in E.
  - unfold edit_buf in E. destruct (MoveBackward (o_b o)); cbn [obind] in E; try discriminate; injection E as <- <- <- <- <-; auto 8.
  - destruct (Next (o_h o)) as [[[x|] h]| |]; cbn [obind fst snd] in E; try discriminate; injection E as <- <- <- <- <-; auto 8.
  - destruct (Prev (o_h o)) as [[[x|] h]| |]; cbn [obind fst snd] in E; try discriminate; injection E as <- <- <- <- <-; auto 8.
  - unfold edit_buf in E. destruct (MoveForward (o_b o)); cbn [obind] in E; try discriminate; injection E as <- <- <- <- <-; auto 8.
Qed.

(** h, j, k and l do what Ctrl-B, Ctrl-N, Ctrl-P and Ctrl-F do when typing, and the Listener is told of that key. *)
Theorem C94_motions : forall cf k c o, oc_vim cf = true -> lets_pass cf k -> commanding o -> stands k c ->
  op_step cf k o = (x <- op_step (unfiltered cf) c (with_v false None o) ;; Ok (with_v true None (fst x), snd x)).
Proof.
  intros cf k c o V P C S. rewrite filter_passed by exact P. set (cg := unfiltered cf). assert (G : oc_filter cg = None) by reflexivity.
  assert (V' : oc_vim cg = true) by exact V. assert (T : typing (with_v false None o)) by (destruct C; constructor; cbn; auto).
  rewrite (command_passes_any cg k o G V' C) by (destruct S; discriminate). rewrite (typing_passes_any cg c _ G T) by (destruct S; discriminate).
  replace (HandleVimNormal k o) with (Ok (o, VKey c, @nil act)) by (destruct S; reflexivity).
  cbn [obind]. replace (c =? 0) with false by (destruct S; reflexivity). rewrite (motion_v cg c k _ _ S).
  destruct (key_switch cg c o) as [[[[[o1 a] ks] kc] u]| |] eqn:E; cbn [obind]; try reflexivity.
  destruct (motion_modes cg c k o o1 a ks kc u S E) as (-> & -> & Ss & Sc & Vn & Vp). rewrite (cm_vn _ C) in Vn. rewrite (cm_vp _ C) in Vp.
  unfold after_switch. cbn [with_v o_b].
  set (b2 := match oc_listen cg with Some f => match f (rb_buf (o_b o1)) (rb_idx (o_b o1)) c with Some (l, pos) => SetWithIdx pos l (o_b o1) | None => o_b o1 end | None => o_b o1 end).
  assert (X1 : (match oc_listen cg with Some f => match f (rb_buf (o_b o1)) (rb_idx (o_b o1)) c with Some (l, pos) => with_b (SetWithIdx pos l (o_b o1)) o1 | None => o1 end | None => o1 end) = with_b b2 o1).
  { unfold b2. destruct (oc_listen cg) as [f|]; [destruct (f _ _ _) as [[l p]|]|]; try reflexivity; destruct o1; reflexivity. }
  assert (X2 : (match oc_listen cg with Some f => match f (rb_buf (o_b o1)) (rb_idx (o_b o1)) c with Some (l, pos) => with_b (SetWithIdx pos l (o_b o1)) (with_v false None o1) | None => with_v false None o1 end
    | None => with_v false None o1 end) = with_v false None (with_b b2 o1)).
  { unfold b2. destruct (oc_listen cg) as [f|]; [destruct (f _ _ _) as [[l p]|]|]; try reflexivity; destruct o1; reflexivity. }
  rewrite X1, X2. clear X1 X2. clearbody b2. cbn [o_s o_c with_v with_b negb andb]. rewrite Ss, Sc, (cm_s _ C), (cm_c _ C). cbn [obind o_s with_v with_b].
  rewrite Ss, (cm_s _ C). cbn [negb]. rewrite andb_true_r. destruct u.
  - cbn [o_b o_h with_v with_b]. destruct (Update (oc_h cg) (rb_buf b2) false (o_h o1)) as [h| |]; cbn [obind fst snd]; try reflexivity.
    destruct o1; cbn in Vn, Vp; subst; reflexivity.
  - cbn [obind fst snd]. destruct o1; cbn in Vn, Vp; subst; reflexivity.
Qed.
Print Assumptions C94_motions.

(** Enter and Ctrl-C, with Listener and filter. *)
Theorem C94_enter_hooks : forall cf k o, oc_vim cf = true -> lets_pass cf k -> commanding o -> k = 13 \/ k = 3 -> op_step cf k o = op_step cf k (with_v false None o).
Proof.
  intros cf k o V P C K. assert (T : typing (with_v false None o)) by (destruct C; constructor; cbn; auto). rewrite (filter_passed cf k o P), (filter_passed cf k (with_v false None o) P).
  rewrite (command_passes_any (unfiltered cf) k o eq_refl V C), (typing_passes_any (unfiltered cf) k _ eq_refl T) by lia. destruct K as [-> | ->]; reflexivity.
Qed.
Print Assumptions C94_enter_hooks.

(** A listener that takes away everything it is told of is not told of x. *)
Definition hooked : ocfg :=
  {| oc_u := oc_u (excf ascii 80 None true); oc_h := oc_h (excf ascii 80 None true); oc_w := oc_w (excf ascii 80 None true); oc_prompt := oc_prompt (excf ascii 80 None true);
     oc_auto := None; oc_vim := true; oc_unique := false; oc_nosave := false; oc_listen := Some (fun _ _ _ => Some ([], 0%nat));
     oc_filter := Some (fun r => if r =? 122 then None else Some r); oc_eofp := []; oc_intp := [] |}.
Example C94_hooks_ex : commanding abc_esc /\ lets_pass hooked 48 /\
  (exists o, op_run hooked [48; 120] abc_esc = Ok (o, []) /\ rb_buf (o_b o) = [98; 99]) /\
  (exists o, op_run hooked [48; 108] abc_esc = Ok (o, []) /\ rb_buf (o_b o) = []) /\
  (exists o, op_run hooked [48; 114; 122] abc_esc = Ok (o, []) /\ rb_buf (o_b o) = [122; 98; 99]).
Proof.
  split; [apply C94_ex|]. split; [reflexivity|]. split; [|split]; eexists; (split; [vm_compute; reflexivity|]); vm_compute; reflexivity.
Qed.
