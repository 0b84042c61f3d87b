(** Proofs about masked lines: two sessions that differ only in the characters typed write the same. *)
From Verif Require Import Base ListAux RunesModel RunesSpec RuneBufModel HistoryModel HistoryProofs RenderModel RenderSpec RenderProofs RenderMore OpModel OutModel HideSpec.
Open Scope Z_scope.

Definition orel {A B} (R : A -> B -> Prop) (x : outcome A) (y : outcome B) : Prop :=
  match x, y with Ok a, Ok b => R a b | Panic, Panic | Hang, Hang => True | _, _ => False end.
Lemma orel_bind {A B C D} (R : A -> B -> Prop) (Q : C -> D -> Prop) x y f g :
  orel R x y -> (forall a b, R a b -> orel Q (f a) (g b)) -> orel Q (obind x f) (obind y g).
Proof. destruct x, y; cbn; intros H K; try contradiction; auto. Qed.
Lemma orel_ok {A B} (R : A -> B -> Prop) a b : R a b -> orel R (Ok a) (Ok b).
Proof. auto. Qed.

Section U.
Variable u : uenv.
Notation shape := (shape u).

Lemma shape_len a b : shape a = shape b -> length a = length b.
Proof. intros H. apply (f_equal (@length _)) in H. unfold HideSpec.shape in H. now rewrite !map_length in H. Qed.
Lemma shape_width a b : shape a = shape b -> map (Width u) a = map (Width u) b.
Proof. intros H. apply (f_equal (map fst)) in H. unfold HideSpec.shape in H. now rewrite !map_map in H. Qed.
Lemma shape_last a : forall b, shape a = shape b -> (last a 0 =? 10) = (last b 0 =? 10).
Proof.
  induction a as [|x a IH]; intros [|y b] H; try discriminate; [reflexivity|]. injection H as H1 H2 H3.
  destruct a as [|x' a], b as [|y' b]; try discriminate; [exact H2|]. exact (IH _ H3).
Qed.
Lemma shape_app a b c d : shape a = shape c -> shape b = shape d -> shape (a ++ b) = shape (c ++ d).
Proof. unfold HideSpec.shape. intros. rewrite !map_app. congruence. Qed.

Lemma slice_rel i j a b : shape a = shape b -> orel (fun x y => shape x = shape y) (slice i j a) (slice i j b).
Proof.
  intros H. unfold slice. rewrite (shape_len _ _ H). destruct (_ && _)%nat; [|exact I]. cbn. unfold HideSpec.shape in *.
  now rewrite <- !firstn_map, <- !skipn_map, H.
Qed.
Definition cell_alike (x y : Z) : Prop := Width u x = Width u y /\ (x =? 10) = (y =? 10).
Lemma get_rel i a b : shape a = shape b -> orel cell_alike (get a i) (get b i).
Proof.
  intros H. unfold get. pose proof (f_equal (fun l => nth_error l i) H) as E. unfold HideSpec.shape in E. cbn beta in E. rewrite !nth_error_map in E.
  destruct (nth_error a i), (nth_error b i); cbn in E; try discriminate; [|exact I]. injection E as E1 E2. split; assumption.
Qed.
Lemma set_rel i a b x y : shape a = shape b -> cell_alike x y -> orel (fun x y => shape x = shape y) (set a i x) (set b i y).
Proof.
  intros H (C1 & C2). unfold set. rewrite (shape_len _ _ H). destruct (_ <? _)%nat; [|exact I]. cbn [orel]. unfold HideSpec.shape in *.
  rewrite !map_app. cbn [map]. rewrite C1, C2, <- !firstn_map, <- !skipn_map, H. reflexivity.
Qed.

(** ** Editing *)
Notation bufs := (orel (same_shape u)).
Ltac ob := eapply orel_bind; [|intros].
Ltac len H := rewrite ?(shape_len _ _ (sh_buf _ _ _ H)), ?(sh_idx _ _ _ H), ?(shape_len _ _ (sh_kill _ _ _ H)).
Ltac sl H := first [apply slice_rel; exact (sh_buf _ _ _ H)|apply get_rel; exact (sh_buf _ _ _ H)].
Ltac mk H := apply orel_ok; constructor; cbn; rewrite ?(sh_idx _ _ _ H); try (repeat apply shape_app); try assumption; try exact (sh_kill _ _ _ H); try exact (sh_buf _ _ _ H); try reflexivity.

Lemma with_idx_rel i b1 b2 : same_shape u b1 b2 -> same_shape u (with_idx i b1) (with_idx i b2).
Proof. intros []. constructor; cbn; assumption || reflexivity. Qed.
Lemma write_rel t1 t2 b1 b2 : same_shape u b1 b2 -> shape t1 = shape t2 -> bufs (WriteRunes t1 b1) (WriteRunes t2 b2).
Proof. intros H T. unfold WriteRunes. len H. ob; [sl H|]. ob; [sl H|]. mk H. all: now rewrite (shape_len _ _ T). Qed.
Lemma killfront_rel b1 b2 : same_shape u b1 b2 -> bufs (KillFront b1) (KillFront b2).
Proof. intros H. unfold KillFront. len H. destruct (_ =? _)%nat; [exact H|]. ob; [sl H|]. ob; [sl H|]. mk H. Qed.
Lemma kill_rel b1 b2 : same_shape u b1 b2 -> bufs (Kill b1) (Kill b2).
Proof. intros H. unfold Kill. len H. ob; [sl H|]. ob; [sl H|]. mk H. Qed.
Lemma back_rel b1 b2 : same_shape u b1 b2 -> bufs (BufBackspace b1) (BufBackspace b2).
Proof. intros H. unfold BufBackspace. len H. destruct (_ =? _)%nat; [exact H|]. ob; [sl H|]. ob; [sl H|]. mk H. Qed.
Lemma yank_rel b1 b2 : same_shape u b1 b2 -> bufs (Yank b1) (Yank b2).
Proof. intros H. unfold Yank. len H. destruct (_ =? _)%nat; [exact H|]. ob; [sl H|]. ob; [sl H|]. mk H. all: now rewrite (shape_len _ _ (sh_kill _ _ _ H)). Qed.
Lemma delete_rel b1 b2 : same_shape u b1 b2 -> orel (fun x y => same_shape u (fst x) (fst y) /\ snd x = snd y) (Delete b1) (Delete b2).
Proof.
  intros H. unfold Delete. len H. destruct (_ =? _)%nat; [split; [exact H|reflexivity]|]. ob; [sl H|]. ob; [sl H|]. ob; [sl H|].
  split; [|reflexivity]. cbn [fst]. constructor; cbn; [now apply shape_app|reflexivity|assumption].
Qed.
Lemma transpose_rel b1 b2 : same_shape u b1 b2 -> bufs (Transpose b1) (Transpose b2).
Proof.
  intros H. unfold Transpose. len H. destruct (_ <? _)%nat; [now apply with_idx_rel|].
  ob; [sl H|]. ob; [sl H|]. ob; [apply set_rel; [exact (sh_buf _ _ _ H)|eassumption]|]. ob; [apply set_rel; eassumption|]. mk H.
Qed.
Lemma start_rel b1 b2 : same_shape u b1 b2 -> bufs (MoveToLineStart b1) (MoveToLineStart b2).
Proof. intros H. now apply with_idx_rel. Qed.
Lemma end_rel b1 b2 : same_shape u b1 b2 -> bufs (MoveToLineEnd b1) (MoveToLineEnd b2).
Proof. intros H. unfold MoveToLineEnd. len H. now apply with_idx_rel. Qed.
Lemma backward_rel b1 b2 : same_shape u b1 b2 -> bufs (MoveBackward b1) (MoveBackward b2).
Proof. intros H. unfold MoveBackward. len H. destruct (_ =? _)%nat; [exact H|now apply with_idx_rel]. Qed.
Lemma forward_rel b1 b2 : same_shape u b1 b2 -> bufs (MoveForward b1) (MoveForward b2).
Proof. intros H. unfold MoveForward. len H. destruct (_ =? _)%nat; [exact H|now apply with_idx_rel]. Qed.
Lemma reset_rel b1 b2 : same_shape u b1 b2 -> same_shape u (snd (Reset b1)) (snd (Reset b2)) /\ shape (fst (Reset b1)) = shape (fst (Reset b2)).
Proof. intros []. unfold Reset. split; [constructor; cbn; try assumption; reflexivity|assumption]. Qed.

(** ** Drawing *)
Record same_draw (d1 d2 : rdr) : Prop := { sd_m : masked_alike d1 d2; sd_b : shape (d_buf d1) = shape (d_buf d2) }.
Definition same_state (x y : bool * rdr) : Prop := fst x = fst y /\ same_draw (snd x) (snd y).
Definition drew {A} (R : A -> A -> Prop) (x y : A * list Z) : Prop := R (fst x) (fst y) /\ snd x = snd y.

Lemma with_line_rel b1 b2 i d1 d2 : same_draw d1 d2 -> shape b1 = shape b2 -> same_draw (with_line b1 i d1) (with_line b2 i d2).
Proof. intros [[]] H. constructor; [constructor; cbn; assumption || reflexivity|exact H]. Qed.

Lemma clean_rel d1 d2 : same_draw d1 d2 -> orel (drew same_draw) (clean u d1) (clean u d2).
Proof.
  intros [M B]. pose proof (clean_alike u d1 d2 M (shape_width _ _ B)) as C.
  destruct (clean u d1) as [[d1' o1]| |]; destruct (clean u d2) as [[d2' o2]| |]; try contradiction; try exact I.
  destruct C as (-> & Hh & Q1 & Q2). split; [|reflexivity]. cbn [fst]. rewrite Q1, Q2, Hh. destruct M. constructor; [constructor; cbn; assumption || reflexivity|exact B].
Qed.

Lemma refresh_rel d1 d2 b1 b2 i own : same_draw d1 d2 -> shape b1 = shape b2 ->
  orel (drew same_draw) (refresh u d1 b1 i own) (refresh u d2 b2 i own).
Proof.
  intros D H. unfold refresh. rewrite (ma_inter _ _ (sd_m _ _ D)). destruct (negb _).
  - split; [now apply with_line_rel|reflexivity].
  - ob; [exact (clean_rel _ _ D)|]. destruct H0 as (D' & ->).
    pose proof (with_line_rel b1 b2 i _ _ D' H) as [M' B'].
    unfold print. rewrite (output_alike u _ _ M'); [|cbn; now apply shape_len|cbn; apply WidthAll_alike, shape_width, H|cbn; now apply shape_last].
    destruct (output u (with_line b2 i (fst b))); cbn [obind]; try exact I.
    split; [|reflexivity]. cbn [fst]. destruct M'. constructor; [constructor; cbn; assumption || reflexivity|exact B'].
Qed.

Inductive same_ev : oev -> oev -> Prop :=
| SLine b1 b2 i : shape b1 = shape b2 -> same_ev (ODraw (VLine b1 i)) (ODraw (VLine b2 i))
| SSame e : same_ev e e.

Ltac dr := repeat match goal with H : drew _ _ _ |- _ => destruct H as (? & ?) end.

Lemma submit_rel d1 d2 hint : same_draw d1 d2 -> orel (drew same_draw) (submit u d1 hint) (submit u d2 hint).
Proof.
  intros D. unfold submit. rewrite (shape_len _ _ (sd_b _ _ D)). ob; [apply refresh_rel; [exact D|exact (sd_b _ _ D)]|]. dr.
  assert (X : shape (d_buf d1 ++ hint ++ [10]) = shape (d_buf d2 ++ hint ++ [10])) by (apply shape_app; [exact (sd_b _ _ D)|reflexivity]).
  rewrite (shape_len _ _ X). ob; [apply refresh_rel; [assumption|exact X]|]. dr. split; [|cbn; congruence]. now apply with_line_rel.
Qed.
Lemma unique_rel d1 d2 : same_draw d1 d2 -> orel (drew same_draw) (submit_unique u d1) (submit_unique u d2).
Proof.
  intros D. unfold submit_unique. rewrite (shape_len _ _ (sd_b _ _ D)). ob; [apply refresh_rel; [exact D|exact (sd_b _ _ D)]|]. dr.
  ob; [apply clean_rel; assumption|]. dr. split; [|cbn; congruence]. now apply with_line_rel.
Qed.
Lemma eof_rel d1 d2 hint : same_draw d1 d2 -> orel (drew same_draw) (eof_draw u d1 hint) (eof_draw u d2 hint).
Proof.
  intros D. unfold eof_draw.
  assert (X : shape (d_buf d1 ++ hint ++ [10]) = shape (d_buf d2 ++ hint ++ [10])) by (apply shape_app; [exact (sd_b _ _ D)|reflexivity]).
  rewrite (shape_len _ _ X). ob; [apply refresh_rel; [exact D|exact X]|]. dr. split; [|cbn; congruence]. now apply with_line_rel.
Qed.

Lemma ostep_rel st1 st2 e1 e2 : same_state st1 st2 -> same_ev e1 e2 -> orel (drew same_state) (ostep u st1 e1) (ostep u st2 e2).
Proof.
  destruct st1 as [r1 d1], st2 as [r2 d2]. intros (R & D) E. cbn in R, D. subst r2.
  assert (I : d_idx d1 = d_idx d2) by exact (ma_idx _ _ (sd_m _ _ D)).
  destruct E as [b1 b2 i B|e].
  - cbn. ob; [apply refresh_rel; eassumption|]. dr. split; [split; [reflexivity|assumption]|assumption].
  - destruct e as [[|b i|hint| |t]| |hint| |]; cbn [ostep dstep snd].
    + rewrite I. ob; [apply refresh_rel; [exact D|exact (sd_b _ _ D)]|]. dr. split; [split; [reflexivity|assumption]|assumption].
    + ob; [apply refresh_rel; [exact D|reflexivity]|]. dr. split; [split; [reflexivity|assumption]|assumption].
    + ob; [apply submit_rel; exact D|]. dr. split; [split; [reflexivity|assumption]|assumption].
    + ob; [apply unique_rel; exact D|]. dr. split; [split; [reflexivity|assumption]|assumption].
    + destruct r1.
      * rewrite I. ob; [apply refresh_rel; [exact D|exact (sd_b _ _ D)]|]. dr. split; [split; [reflexivity|assumption]|assumption].
      * split; [split; [reflexivity|exact D]|reflexivity].
    + split; [split; [reflexivity|exact D]|reflexivity].
    + ob; [apply eof_rel; exact D|]. dr. split; [split; [reflexivity|assumption]|assumption].
    + ob; [apply clean_rel, with_line_rel; [exact D|reflexivity]|]. dr. split; [split; [reflexivity|assumption]|assumption].
    + split; [split; [reflexivity|]|reflexivity]. now apply with_line_rel.
Qed.
Lemma orun_rel es1 es2 : Forall2 same_ev es1 es2 -> forall st1 st2, same_state st1 st2 -> orel (drew same_state) (orun u st1 es1) (orun u st2 es2).
Proof.
  induction 1 as [|e1 e2 es1 es2 E _ IH]; intros st1 st2 S; cbn [orun]; [split; [exact S|reflexivity]|].
  ob; [apply ostep_rel; eassumption|]. dr. ob; [apply IH; assumption|]. dr. split; [assumption|cbn; congruence].
Qed.
End U.

(** ** Keys *)
Section Keys.
Variable cf : ocfg.
Hypothesis C : secret_config cf.
Notation u := (oc_u cf).
Ltac ob := eapply orel_bind; [|intros].
Ltac dr := repeat match goal with H : drew _ _ _ |- _ => destruct H as (? & ?) end.

Definition same_switch (x y : swres) : Prop :=
  let '(o1, _, ks1, kc1, up1) := x in let '(o2, _, ks2, kc2, up2) := y in
  same_prompt u o1 o2 /\ ks1 = ks2 /\ kc1 = kc2 /\ up1 = up2.

Lemma prompt_with_b o1 o2 b1 b2 : same_prompt u o1 o2 -> same_shape u b1 b2 -> same_prompt u (with_b b1 o1) (with_b b2 o2).
Proof. intros [] B. constructor; assumption. Qed.
Lemma prompt_with_h o1 o2 h1 h2 : same_prompt u o1 o2 -> hwf h1 -> hwf h2 -> same_prompt u (with_h h1 o1) (with_h h2 o2).
Proof. intros [] H1 H2. constructor; assumption. Qed.
Lemma prompt_with_h0 o1 o2 : same_prompt u o1 o2 -> same_prompt u (with_h (o_h o1) o1) (with_h (o_h o2) o2).
Proof. intros []. constructor; assumption. Qed.

Lemma after_rel r1 r2 x y : same_switch x y -> orel (fun x y => same_prompt u (fst x) (fst y)) (after_switch cf r1 x) (after_switch cf r2 y).
Proof.
  destruct x as [[[[o1 a1] ks] kc] up], y as [[[[o2 a2] ks2] kc2] up2]. intros (P & -> & -> & ->). unfold after_switch.
  rewrite (sc_listen _ C), (sp_s1 _ _ _ P), (sp_s2 _ _ _ P), (sp_c1 _ _ _ P), (sp_c2 _ _ _ P), !andb_false_r. cbn [obind].
  rewrite (sp_s1 _ _ _ P), (sp_s2 _ _ _ P). destruct up2; cbn [andb negb obind]; [|exact P].
  destruct (Update_ok (oc_h cf) (rb_buf (o_b o1)) false (o_h o1) (sp_h1 _ _ _ P)) as (h1 & -> & W1 & _).
  destruct (Update_ok (oc_h cf) (rb_buf (o_b o2)) false (o_h o2) (sp_h2 _ _ _ P)) as (h2 & -> & W2 & _).
  cbn. now apply prompt_with_h.
Qed.

Lemma edit_rel x y o1 o2 : same_prompt u o1 o2 -> orel (same_shape u) x y -> orel same_switch (edit_buf x o1) (edit_buf y o2).
Proof. intros P R. unfold edit_buf. ob; [exact R|]. cbn. split; [now apply prompt_with_b|auto]. Qed.
Lemma once_rel x y : orel (same_shape u) x y -> orel (Forall2 (same_ev u)) (once x) (once y).
Proof. intros R. unfold once. ob; [exact R|]. cbn. destruct H. rewrite sh_idx. repeat constructor. assumption. Qed.

Lemma revert_hwf h : hwf h -> hwf (Revert h).
Proof.
  intros W. unfold Revert, back_id. destruct (back h) as [b|] eqn:B; cbn [option_map].
  - apply hwf_set_cur; [now apply hwf_bump|]. now apply back_in.
  - apply back_none in B. pose proof (hwf_bump h W) as W'. constructor; cbn; try apply W'. exact B.
Qed.

Lemma enter_rel o1 o2 : same_prompt u o1 o2 -> orel same_switch (key_enter cf o1) (key_enter cf o2).
Proof.
  intros P. unfold key_enter. rewrite (sp_s1 _ _ _ P), (sp_s2 _ _ _ P). cbn [obind].
  ob; [apply end_rel; exact (sp_b _ _ _ P)|]. rename a into b1, b into b2.
  ob.
  - instantiate (1 := fun x y => same_shape u (snd x) (snd y)). destruct (negb (oc_unique cf)); [|apply reset_rel; exact H].
    ob; [apply write_rel; [exact H|reflexivity]|]. destruct (reset_rel _ _ _ H0) as (R1 & R2).
    destruct (Reset a) as [d1 c1], (Reset b) as [d2 c2]. cbn [fst snd] in *. rewrite (shape_len _ _ _ R2). ob; [apply slice_rel; exact R2|]. exact R1.
  - destruct a as [d1 c1], b as [d2 c2]. cbn [snd] in H0.
    assert (P2 : same_prompt u (with_b c1 o1) (with_b c2 o2)) by now apply prompt_with_b.
    destruct (negb (oc_nosave cf)); [|cbn; auto].
    destruct (New_ok (oc_h cf) d1 (o_h (with_b c1 o1)) (sp_h1 _ _ _ P2)) as (h1 & -> & W1).
    destruct (New_ok (oc_h cf) d2 (o_h (with_b c2 o2)) (sp_h2 _ _ _ P2)) as (h2 & -> & W2).
    cbn. split; [now apply prompt_with_h|auto].
Qed.

Lemma kdelete_rel o1 o2 : same_prompt u o1 o2 -> orel same_switch (key_delete cf o1) (key_delete cf o2).
Proof.
  intros P. unfold key_delete, IsNormalMode. rewrite (sp_s1 _ _ _ P), (sp_s2 _ _ _ P), (sp_c1 _ _ _ P), (sp_c2 _ _ _ P). cbn [negb andb]. rewrite !orb_false_r.
  rewrite (shape_len _ _ _ (sh_buf _ _ _ (sp_b _ _ _ P))). destruct (_ <? _)%nat.
  - ob; [apply delete_rel; exact (sp_b _ _ _ P)|]. destruct H as (B & _). cbn. split; [now apply prompt_with_b|auto].
  - ob.
    + instantiate (1 := same_shape u). destruct (negb (oc_unique cf)); [apply write_rel; [exact (sp_b _ _ _ P)|reflexivity]|exact (sp_b _ _ _ P)].
    + cbn. split; [|auto]. apply prompt_with_h; [apply prompt_with_b; [exact P|now apply reset_rel]| |]; apply revert_hwf; [exact (sp_h1 _ _ _ P)|exact (sp_h2 _ _ _ P)].
Qed.

Lemma kintr_rel o1 o2 : same_prompt u o1 o2 -> orel same_switch (key_interrupt cf o1) (key_interrupt cf o2).
Proof.
  intros P. unfold key_interrupt. rewrite (sp_s1 _ _ _ P), (sp_s2 _ _ _ P), (sp_c1 _ _ _ P), (sp_c2 _ _ _ P).
  ob; [apply end_rel; exact (sp_b _ _ _ P)|]. ob.
  { instantiate (1 := same_shape u). destruct (negb (oc_unique cf)); [apply write_rel; [exact H|reflexivity]|exact H]. }
  destruct (reset_rel _ _ _ H0) as (R1 & R2). destruct (Reset a0) as [d1 c1], (Reset b0) as [d2 c2]. cbn [fst snd] in *. rewrite (shape_len _ _ _ R2).
  ob.
  { instantiate (1 := fun x y => shape u x = shape u y). destruct (negb (oc_unique cf)); [|exact R2]. destruct (_ <? _)%nat; [exact I|]. apply slice_rel; exact R2. }
  cbn. split; [|auto]. apply prompt_with_h; [now apply prompt_with_b| |]; apply revert_hwf; [exact (sp_h1 _ _ _ P)|exact (sp_h2 _ _ _ P)].
Qed.

Lemma typed_switch r o : typed r -> s_in (o_s o) = false -> c_in (o_c o) = false ->
  key_switch cf r o = (b' <- WriteRunes [r] (o_b o) ;; Ok (with_b b' o, [], false, false, true)) /\
  switch_draws cf r o = once (WriteRunes [r] (o_b o)).
Proof.
  intros (T1 & T2) S Ci. unfold key_switch, switch_draws.
  repeat match goal with |- context [r =? ?c] => replace (r =? c) with false by (symmetry; apply Z.eqb_neq; intros ->; vm_compute in T1, T2; congruence) end.
  cbn [orb]. rewrite S. split; [|reflexivity]. destruct (WriteRunes [r] (o_b o)) as [b'| |]; cbn [obind]; try reflexivity. cbn. now rewrite Ci.
Qed.

Lemma switch_rel r1 r2 o1 o2 : same_prompt u o1 o2 -> same_key u r1 r2 ->
  orel (Forall2 (same_ev u)) (switch_draws cf r1 o1) (switch_draws cf r2 o2) /\
  orel same_switch (key_switch cf r1 o1) (key_switch cf r2 o2).
Proof.
  intros P [(<- & K)|(T1 & T2 & W)].
  - pose proof (sp_b _ _ _ P) as B.
    assert (L : length (rb_buf (o_b o1)) = length (rb_buf (o_b o2))) by exact (shape_len _ _ _ (sh_buf _ _ _ B)).
    unfold blind_keys in K. cbn [In] in K. unfold switch_draws, key_switch.
    repeat (destruct K as [<-|K]; [cbn -[orel obind KillFront Kill Transpose BufBackspace Yank Delete MoveToLineStart MoveToLineEnd MoveForward MoveBackward WriteRunes key_enter key_delete key_interrupt once edit_buf]|]); [..|contradiction].
    (* LineStart, Backward, Interrupt, Delete, LineEnd, Forward, Bell, CtrlH, Tab, CtrlJ, Kill, Enter, Transpose, CtrlU, CtrlY, Backspace *)
    + split; [apply once_rel, start_rel, B|apply edit_rel; [exact P|apply start_rel, B]].
    + split; [apply once_rel, backward_rel, B|apply edit_rel; [exact P|apply backward_rel, B]].
    + split; [|now apply kintr_rel]. rewrite L. assert (X : forall i, same_ev u (ODraw (VLine (rb_buf (o_b o1)) i)) (ODraw (VLine (rb_buf (o_b o2)) i))) by (intros; constructor; exact (sh_buf _ _ _ B)).
      destruct (oc_unique cf); cbn; repeat (constructor; [first [apply X|apply SSame]|]); constructor.
    + split; [|now apply kdelete_rel]. rewrite L. destruct (length (rb_buf (o_b o2))) as [|n].
      * cbn. destruct (oc_unique cf); repeat constructor.
      * ob; [apply delete_rel; exact B|]. destruct H as ([] & ->). rewrite sh_idx. cbn. constructor; [now constructor|]. destruct (snd b); repeat constructor.
    + split; [apply once_rel, end_rel, B|apply edit_rel; [exact P|apply end_rel, B]].
    + split; [apply once_rel, forward_rel, B|apply edit_rel; [exact P|apply forward_rel, B]].
    + split; [constructor|]. rewrite (sp_s1 _ _ _ P), (sp_s2 _ _ _ P). cbn. rewrite (sp_c1 _ _ _ P), (sp_c2 _ _ _ P). auto.
    + rewrite L, (sp_s1 _ _ _ P), (sp_s2 _ _ _ P). destruct (_ =? _)%nat; [split; cbn; [repeat constructor|auto]|]. split; [apply once_rel, back_rel, B|].
      ob; [apply back_rel; exact B|]. cbn. rewrite (sp_c1 _ _ _ P), (sp_c2 _ _ _ P). cbn. split; [now apply prompt_with_b|auto].
    + rewrite (sc_auto _ C). split; cbn; [repeat constructor|auto].
    + split; [|now apply enter_rel]. cbn. repeat constructor.
    + split; [apply once_rel, kill_rel, B|]. ob; [apply kill_rel; exact B|]. cbn. split; [now apply prompt_with_b|auto].
    + split; [|now apply enter_rel]. cbn. repeat constructor.
    + split; [apply once_rel, transpose_rel, B|apply edit_rel; [exact P|apply transpose_rel, B]].
    + split; [apply once_rel, killfront_rel, B|apply edit_rel; [exact P|apply killfront_rel, B]].
    + split; [|apply edit_rel; [exact P|apply yank_rel, B]]. pose proof (shape_len _ _ _ (sh_kill _ _ _ B)) as Lk.
      destruct (rb_kill (o_b o1)), (rb_kill (o_b o2)); try discriminate Lk; [constructor|]. apply once_rel, yank_rel, B.
    + rewrite L, (sp_s1 _ _ _ P), (sp_s2 _ _ _ P). destruct (_ =? _)%nat; [split; cbn; [repeat constructor|auto]|]. split; [apply once_rel, back_rel, B|].
      ob; [apply back_rel; exact B|]. cbn. rewrite (sp_c1 _ _ _ P), (sp_c2 _ _ _ P). cbn. split; [now apply prompt_with_b|auto].
  - destruct (typed_switch r1 o1 T1 (sp_s1 _ _ _ P) (sp_c1 _ _ _ P)) as (-> & ->). destruct (typed_switch r2 o2 T2 (sp_s2 _ _ _ P) (sp_c2 _ _ _ P)) as (-> & ->).
    assert (X : orel (same_shape u) (WriteRunes [r1] (o_b o1)) (WriteRunes [r2] (o_b o2))).
    { apply write_rel; [exact (sp_b _ _ _ P)|]. unfold shape. cbn [map]. rewrite W. destruct T1, T2. replace (r1 =? 10) with false by lia. now replace (r2 =? 10) with false by lia. }
    split; [now apply once_rel|]. ob; [exact X|]. cbn. split; [now apply prompt_with_b|auto].
Qed.

Lemma same_key_nonzero r1 r2 : same_key u r1 r2 -> (r1 =? 0) = false /\ (r2 =? 0) = false.
Proof.
  intros [(<- & K)|((T1 & _) & (T2 & _) & _)]; [|split; lia]. unfold blind_keys in K. cbn [In] in K.
  repeat (destruct K as [<-|K]; [split; reflexivity|]). contradiction.
Qed.

Lemma key_rel r1 r2 o1 o2 : same_prompt u o1 o2 -> same_key u r1 r2 ->
  orel (Forall2 (same_ev u)) (key_draws cf r1 o1) (key_draws cf r2 o2) /\
  orel (fun x y => same_prompt u (fst x) (fst y)) (op_step cf r1 o1) (op_step cf r2 o2).
Proof.
  intros P K. destruct (switch_rel r1 r2 o1 o2 P K) as (D & S). destruct (same_key_nonzero _ _ K) as (N1 & N2).
  unfold key_draws, op_step. rewrite (sp_end1 _ _ _ P), (sp_end2 _ _ _ P), (sp_v1 _ _ _ P), (sp_v2 _ _ _ P), (sc_filter _ C).
  unfold handle_draws, handle_key. rewrite N1, N2, (sp_e1 _ _ _ P), (sp_e2 _ _ _ P). cbn [andb]. unfold vim_and_switch. rewrite (sc_vim _ C).
  split.
  - unfold after_vim. ob; [exact D|]. ob; [exact S|]. destruct a0 as [[[[? ?] ?] ?] ?], b0 as [[[[? ?] ?] ?] ?]. unfold listener_draws. rewrite (sc_listen _ C), !app_nil_r. exact H.
  - ob; [exact S|]. now apply after_rel.
Qed.

Lemma session_rel is1 is2 : Forall2 (same_inp u) is1 is2 -> forall o1 o2 st1 st2, same_prompt u o1 o2 -> same_state u st1 st2 ->
  same_output (ses_run cf (o1, st1) is1) (ses_run cf (o2, st2) is2).
Proof.
  induction 1 as [|i1 i2 is1 is2 I _ IH]; intros o1 o2 st1 st2 P S; [reflexivity|].
  assert (X : orel (fun x y => same_prompt u (fst (fst (fst x))) (fst (fst (fst y))) /\ same_state u (snd (fst (fst x))) (snd (fst (fst y))) /\ snd (fst x) = snd (fst y))
    (ses_step cf (o1, st1) i1) (ses_step cf (o2, st2) i2)).
  { destruct I as [|t|r1 r2 K]; unfold ses_step.
    - ob; [apply ostep_rel; [exact S|apply SSame]|]. destruct H as (H1 & H2). cbn. auto.
    - ob; [apply ostep_rel; [exact S|apply SSame]|]. destruct H as (H1 & H2). cbn. auto.
    - destruct (key_rel r1 r2 o1 o2 P K) as (D & E). ob; [exact D|]. ob; [apply orun_rel; eassumption|]. destruct H0 as (H1 & H2). ob; [exact E|]. cbn. auto. }
  cbn [ses_run]. destruct (ses_step cf (o1, st1) i1) as [[[[o1' st1'] out1] a1]| |], (ses_step cf (o2, st2) i2) as [[[[o2' st2'] out2] a2]| |]; try contradiction; try exact Logic.I.
  destruct X as (P' & S' & Eo). cbn [fst snd obind] in *. subst out2. specialize (IH o1' o2' st1' st2' P' S').
  destruct (ses_run cf (o1', st1') is1) as [[[[? ?] ?] ?]| |], (ses_run cf (o2', st2') is2) as [[[[? ?] ?] ?]| |]; try contradiction; try exact Logic.I. cbn in *. congruence.
Qed.
End Keys.
