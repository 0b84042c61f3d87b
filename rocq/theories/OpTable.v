(** Proofs about single keys: shortcuts and vim commands. *)
From Verif Require Import Base ListAux RunesModel RuneBufModel RuneBufSpec RuneBufProofs HistoryModel HistorySpec HistoryProofs RenderModel
  OpModel OpSpec OpProofs OpKeys OpTableSpec.
From Coq Require Import ZifyBool.
Open Scope Z_scope.

Lemma switch_shortcut cf k e o b : shortcut k e -> typing o -> run_edit e (o_b o) = Ok b ->
  exists a kc, key_switch cf k o = Ok (with_b b o, a, false, kc, true) /\ results a = [].
Proof.
  intros S T E. destruct S; cbn [run_edit] in E; unfold key_switch; 
  cbn [Z.eqb Pos.eqb orb CharBell CharTab CharBckSearch CharCtrlU CharFwdSearch CharKill MetaForward CharTranspose MetaBackward MetaDelete CharLineStart
    CharLineEnd CharBackspace CharCtrlH CharCtrlZ CharCtrlL MetaBackspace CharCtrlW CharCtrlY CharEnter CharCtrlJ CharBackward CharForward];
  unfold edit_buf; rewrite ?E; cbn [obind]; try (do 2 eexists; split; reflexivity);
  rewrite (ty_s _ T); (destruct (length (rb_buf (o_b o)) =? 0)%nat eqn:L;
    [apply Nat.eqb_eq in L; pose proof (ty_in _ T) as I; unfold inside in I; unfold BufBackspace in E;
     replace (rb_idx (o_b o) =? 0)%nat with true in E by lia; injection E as <-; do 2 eexists; split; [destruct o; reflexivity|reflexivity]
    |rewrite ?E; cbn [obind with_b o_c]; rewrite (ty_c _ T); do 2 eexists; split; reflexivity]).
Qed.

Lemma after_quiet' cf r o a kc upd : plain cf -> s_in (o_s o) = false -> c_in (o_c o) = false -> hwf (o_h o) ->
  exists h, after_switch cf r (o, a, false, kc, upd) = Ok (with_h h o, a) /\ hwf h.
Proof.
  intros (L & _) S C W. unfold after_switch. rewrite L, S, C. cbn [negb andb obind]. rewrite S. cbn [negb]. rewrite andb_true_r.
  destruct upd.
  - destruct (Update_ok (oc_h cf) (rb_buf (o_b o)) false (o_h o) W) as (h & -> & W' & _). cbn [obind]. eauto.
  - exists (o_h o). split; [|exact W]. destruct o; reflexivity.
Qed.

Lemma shortcut_becomes cf k e o b : plain cf -> typing o -> shortcut k e -> run_edit e (o_b o) = Ok b -> becomes cf k o b.
Proof.
  intros P T S E. destruct (switch_shortcut cf k e o b S T E) as (a & kc & Ex & Ra).
  assert (N : k <> 27 /\ k <> 0) by (destruct S; split; discriminate). unfold becomes. rewrite (step_passes cf k o P T) by apply N. rewrite Ex. cbn [obind].
  destruct (after_quiet' cf k (with_b b o) a kc true P (ty_s _ T) (ty_c _ T) (ty_h _ T)) as (h & -> & W).
  do 2 eexists. split; [reflexivity|]. destruct T. cbn. auto 12.
Qed.

(** ** vim commands *)
Lemma command_passes cf r o : plain cf -> oc_vim cf = true -> commanding o -> r <> 0 ->
  op_step cf r o = (x <- HandleVimNormal r o ;; let '(o1, v, acts) := x in
    match v with VDone => Ok (o1, acts) | VWait p => Ok (with_v (o_vn o1) (Some p) o1, acts)
    | VKey r' => if r' =? 0 then Ok (o1, acts) else y <- key_switch cf r' o1 ;; after_switch cf r' y end).
Proof.
  intros (L & F) V C N. unfold op_step. rewrite (cm_end _ C), (cm_vp _ C), F. unfold handle_key. replace (r =? 0) with false by lia. cbn [andb].
  rewrite (cm_sel _ C). unfold vim_and_switch. rewrite V. unfold HandleVim. now rewrite (cm_vn _ C).
Qed.

Lemma vim1_becomes cf k e o b : plain cf -> oc_vim cf = true -> commanding o -> vim1 k e -> run_edit e (o_b o) = Ok b -> becomes cf k o b.
Proof.
  intros P V C S E. unfold becomes. assert (N : k <> 0) by (destruct S; discriminate). rewrite (command_passes cf k o P V C N).
  destruct C.
  destruct S; cbn [run_edit] in E; unfold HandleVimNormal; cbn [Z.eqb Pos.eqb orb CharEnter CharInterrupt];
    rewrite ?E; cbn [obind]; try (do 2 eexists; split; [reflexivity|]; cbn; auto 12; fail).
  - cbn [Z.eqb CharBackward]. unfold key_switch. cbn [Z.eqb Pos.eqb orb CharBell CharTab CharBckSearch CharCtrlU CharFwdSearch CharKill MetaForward CharTranspose MetaBackward MetaDelete CharLineStart
    CharLineEnd CharBackspace CharCtrlH CharCtrlZ CharCtrlL MetaBackspace CharCtrlW CharCtrlY CharEnter CharCtrlJ CharBackward CharForward]. unfold edit_buf. rewrite E. cbn [obind].
    destruct (after_quiet' cf CharBackward (with_b b o) [] false true P) as (h & -> & W); try assumption. do 2 eexists. split; [reflexivity|]. cbn. auto 12.
  - cbn [Z.eqb CharForward]. unfold key_switch. cbn [Z.eqb Pos.eqb orb CharBell CharTab CharBckSearch CharCtrlU CharFwdSearch CharKill MetaForward CharTranspose MetaBackward MetaDelete CharLineStart
    CharLineEnd CharBackspace CharCtrlH CharCtrlZ CharCtrlL MetaBackspace CharCtrlW CharCtrlY CharEnter CharCtrlJ CharBackward CharForward]. unfold edit_buf. rewrite E. cbn [obind].
    destruct (after_quiet' cf CharForward (with_b b o) [] false true P) as (h & -> & W); try assumption. do 2 eexists. split; [reflexivity|]. cbn. auto 12.
Qed.

Lemma vim_insert_ok cf k e o b : plain cf -> oc_vim cf = true -> commanding o -> vim_insert k e -> apply_edit e (o_b o) = Ok b ->
  op_step cf k o = Ok (with_v false None (with_b b o), []).
Proof.
  intros P V C S E. assert (N : k <> 0) by (destruct S; discriminate). rewrite (command_passes cf k o P V C N).
  destruct S; cbn [apply_edit run_edit] in E; unfold HandleVimNormal; cbn [Z.eqb Pos.eqb orb CharEnter CharInterrupt];
    rewrite ?E; cbn [obind]; reflexivity.
Qed.

Lemma vim2_ok cf k1 k2 e ins o b : plain cf -> oc_vim cf = true -> commanding o -> vim2 k1 k2 e ins -> apply_edit e (o_b o) = Ok b ->
  op_run cf [k1; k2] o = Ok (with_v (negb ins) None (with_b b o), []).
Proof.
  intros P V C S E. pose proof (cm_vn _ C) as Vn. pose proof (cm_end _ C) as Ve.
  assert (X : exists p, op_step cf k1 o = Ok (with_v true (Some p) o, []) /\
     vim_next p k2 (with_v true (Some p) o) = Ok (with_v (negb ins) None (with_b b o))).
  { assert (N : k1 <> 0) by (destruct S; try discriminate; match goal with H : In ?k _ |- _ => destruct H as [<-|[<-|[<-|[<-|[]]]]] end; discriminate).
    rewrite (command_passes cf k1 o P V C N).
    destruct S; cbn [apply_edit run_edit] in E; try injection E as <-;
      try (match goal with H : In ?k _ |- _ => destruct H as [<-|[<-|[<-|[<-|[]]]]] end);
      eexists; (split; [unfold HandleVimNormal; cbn [Z.eqb Pos.eqb orb CharEnter CharInterrupt obind]; rewrite ?Vn; reflexivity|]);
      unfold vim_next, vim_del; cbn [Z.eqb Pos.eqb o_b with_v o_vn CharEsc]; rewrite ?E; try reflexivity.
    all: try (match goal with H : ?ch <> 27 |- _ => replace (ch =? CharEsc) with false by (unfold CharEsc; lia) end; reflexivity).
    all: match goal with H : ~ In ?ch _ |- _ => cbn in H;
      repeat (match goal with |- context [ch =? ?k] => replace (ch =? k) with false by (apply eq_sym, Z.eqb_neq; intros ->; tauto) end) end; destruct o; reflexivity. }
  destruct X as (p & E1 & E2). cbn [op_run]. rewrite E1. cbn [obind fst snd]. unfold op_step. cbn [with_v o_end o_vp]. rewrite Ve, E2. reflexivity.
Qed.

Lemma vim_other cf k o : plain cf -> oc_vim cf = true -> commanding o -> k <> 0 -> ~ In k (13 :: 3 :: vim_keys) -> op_step cf k o = Ok (o, [ABell]).
Proof.
  intros P V C N H. rewrite (command_passes cf k o P V C N). unfold HandleVimNormal. cbn in H.
  unfold CharEnter, CharInterrupt. clear - H.
  repeat (match goal with |- context [k =? ?j] => replace (k =? j) with false by (clear - H; lia) end). reflexivity.
Qed.
