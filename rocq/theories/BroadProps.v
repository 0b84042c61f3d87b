(** Property C131: sessions with double-width characters. *)
From Verif Require Import Base ListAux RunesModel RunesSpec RuneBufModel RuneBufSpec HistoryModel HistoryProofs ScreenModel RenderModel RenderSpec RenderProofs RenderSession RenderProps OpModel OpSpec OpProofs OpStep OpProps OutModel OutSpec OutProofs OutProps PipeSpec WideSpec WideProps BroadSpec BroadProofs.
Open Scope Z_scope.

(** C123 with characters of one or two columns in prompt, lines, history and output, as long as each text fits a row: the
    screen shows, one row each, the texts left, then prompt and line as the editor holds them; nothing above changes.
    The cursor is one column too far right for each character of two columns behind it. *)
Theorem C131_screen : forall cf ps paint is o y0 s t o' acts, broad_session cf -> uenv_ok (oc_u cf) -> (1 <= u_tab (oc_u cf))%nat ->
  0 < oc_w cf <= 9223372036854775807 -> Forall sgr_digits ps -> Forall (glyph (oc_u cf)) (visible ps) ->
  columns (oc_u cf) (visible ps) + 1 < oc_w cf -> broad_colouring (oc_u cf) paint ->
  broad_prompt cf o -> rb_buf (o_b o) = [] -> rb_idx (o_b o) = 0%nat ->
  broad_turn cf (visible ps) is o false -> broad_leaves cf (visible ps) is o t o' acts -> free_from (oc_w cf) y0 s ->
  exists st out, ses_run cf (o, (false, new_rdr cf ps paint)) is = Ok ((o', st), out, acts) /\
    let s' := sexecs (oc_u cf) (oc_w cf) s out in
    broad_screen (oc_u cf) (oc_w cf) (visible ps) y0
      {| k_done := t; k_line := rb_buf (o_b o'); k_idx := rb_idx (o_b o'); k_reading := fst st |} s' /\
    same_above y0 s s' /\ d_buf (snd st) = rb_buf (o_b o') /\ d_idx (snd st) = rb_idx (o_b o').
Proof.
  intros cf ps paint is o y0 s t o' acts C U T W PD PV PS Pt A B I Tn L F.
  assert (F0 : one_line cf (visible ps ++ [])) by (unfold one_line; rewrite app_nil_r; lia).
  destruct (broad_agrees cf C U T W ps PD PV PS is o false [] (false, new_rdr cf ps paint) y0 s s t o' acts A) as (st & out & E & _ & G).
  - now rewrite B.
  - exact Tn.
  - exact L.
  - unfold bagrees. cbn. rewrite B, I. split; [constructor; cbn; auto|].
    repeat (split; [first [reflexivity|apply Forall_nil|apply le_n|discriminate|exact F0]|]).
    split; [|apply same_above_refl]. split; [exact Logic.I|]. cbn. rewrite Z.add_0_r. exact F.
  - exists st, out. split; [exact E|]. destruct G as (_ & G1 & G2 & _ & _ & _ & _ & _ & _ & _ & G3 & G4). auto.
Qed.
Print Assumptions C131_screen.

(** So the cursor is where it belongs if and only if no character behind it takes two columns. *)
Theorem C131_cursor_partial : forall u w v y0 k s, broad_screen u w v y0 k s -> k_reading k = true ->
  (s_col s = columns u (v ++ firstn (k_idx k) (k_line k)) <-> Forall (fun r => Width u r <> 2%nat) (skipn (k_idx k) (k_line k))).
Proof.
  intros u w v y0 k s (_ & S) R. cbn zeta in S. rewrite R in S. destruct S as (_ & _ & _ & _ & ->). unfold doubles. split.
  - intros E. apply Forall_forall. intros r I W.
    assert (X : In r (filter (fun r => Nat.eqb (Width u r) 2) (skipn (k_idx k) (k_line k)))) by (apply filter_In; split; [exact I|now rewrite W]).
    destruct (filter _ _); [destruct X|cbn [length] in E; lia].
  - intros F. assert (filter (fun r => Nat.eqb (Width u r) 2) (skipn (k_idx k) (k_line k)) = []) as ->; [|cbn; lia].
    induction F as [|r l N F IH]; [reflexivity|]. cbn [filter]. apply Nat.eqb_neq in N. now rewrite N.
Qed.
Print Assumptions C131_cursor_partial.

(** Such sessions run to their end. *)
Theorem C131_no_crash : forall cf ps is o reading, broad_session cf -> (1 <= u_tab (oc_u cf))%nat -> 0 < oc_w cf <= 9223372036854775807 -> good_config cf -> started o ->
  hist_of (glyph (oc_u cf)) (o_h o) -> Forall (glyph (oc_u cf)) (rb_kill (o_b o)) ->
  broad_turn cf (visible ps) is o reading -> exists t o' acts, broad_leaves cf (visible ps) is o t o' acts.
Proof.
  intros cf ps is o reading C TB W G S H K.
  assert (R : owf cf o).
  { right. clear H K. destruct S as [[] ? ? ?]. constructor; try assumption; try congruence.
    - unfold inside. rewrite ar_idx. lia.
    - now split.
    - now split.
    - intros [X|X]; congruence. }
  assert (A : broad_prompt cf o).
  { destruct S as [[] ? ? ?]. constructor; try assumption; [unfold inside; rewrite ar_idx; lia|rewrite ar_buf; constructor]. }
  clear S H K. revert o reading R A. induction is as [|i is IH]; intros o reading R A T; [do 3 eexists; apply BlNil|].
  destruct i as [|txt|r]; cbn [broad_turn] in T.
  - destruct (IH o true R A (proj2 T)) as (t & o' & acts & L). do 3 eexists. apply BlRead. exact L.
  - destruct T as ((ls & Fl & ->) & T). destruct (IH o reading R A T) as (t & o' & acts & L). do 3 eexists. apply BlPrint; eassumption.
  - destruct T as (_ & Kr & N & Q & T).
    destruct (step_ok cf G r o R N) as (o1 & a1 & E & R1).
    destruct (broad_case cf C TB W ps o r o1 a1 [] A Kr N Q E) as (A1 & _).
    destruct (T o1 a1 E) as (_ & _ & T1).
    destruct (IH o1 _ R1 A1 T1) as (t & o' & acts & L). do 3 eexists. eapply BlKey; eassumption.
Qed.
Print Assumptions C131_no_crash.

(** "shi jie" (two characters of two columns) entered, "hao" printed, the line recalled, "a" typed and the cursor moved before it. *)
Definition c131_cf : ocfg :=
  {| oc_u := u0; oc_h := {| hc_limit := 500; hc_fold := false; hc_file := false |}; oc_w := 10; oc_prompt := [62;32];
     oc_auto := None; oc_vim := false; oc_unique := false; oc_nosave := false; oc_listen := None; oc_filter := None;
     oc_eofp := [94;68]; oc_intp := [94;67] |}.
Definition c131_in : list inp :=
  [IRead; IKey 19990; IKey 30028; IKey 13; IPrint [22909; 10]; IRead; IKey 16; IKey 97; IKey 2].
Definition c131_seen (is : list inp) (n : nat) : option (list (list Z) * Z * Z * list Z * nat) :=
  match ses_run c131_cf (fresh, (false, new_rdr c131_cf [Vis 62; Vis 32] (fun b _ => b))) is with
  | Ok ((o, _), out, _) => let s := sexecs u0 10 scr0 out in Some (cells s n 10, s_row s, s_col s, rb_buf (o_b o), rb_idx (o_b o))
  | _ => None
  end.
Example C131_ex : broad_session c131_cf /\ broad_prompt c131_cf fresh /\ broad_turn c131_cf [62;32] c131_in fresh false /\
  (exists t o' acts, broad_leaves c131_cf [62;32] c131_in fresh t o' acts) /\
  c131_seen c131_in 4 = Some
    ([[62; 32; 19990; -1; 30028; -1; 32; 32; 32; 32]; [22909; -1; 32; 32; 32; 32; 32; 32; 32; 32];
      [62; 32; 19990; -1; 30028; -1; 97; 32; 32; 32]; [32; 32; 32; 32; 32; 32; 32; 32; 32; 32]], 2, 6, [19990; 30028; 97], 2%nat).
Proof.
  assert (G : forall r, In r [94; 67; 68; 19990; 30028; 22909; 97; 62; 32] -> glyph u0 r).
  { intros r I. cbn [In] in I. repeat destruct I as [<-|I]; try tauto; (split; [lia|]); (split; [lia|]); vm_compute; auto. }
  split; [|split; [|split; [|split]]].
  - constructor; try reflexivity; repeat constructor; apply G; cbn; tauto.
  - constructor; cbn; try reflexivity; try constructor; repeat constructor.
  - unfold c131_in.
    repeat lazymatch goal with
    | |- broad_turn _ _ [] _ _ => exact I
    | |- broad_turn _ _ (IRead :: _) _ _ => split; [reflexivity|]
    | |- broad_turn _ _ (IPrint [?a; 10] :: _) _ _ => split; [exists [[a]]; split; [constructor; [split; [constructor; [apply G; cbn; tauto|constructor]|vm_compute; reflexivity]|constructor]|reflexivity]|]
    | |- broad_turn _ _ (IKey ?r :: _) _ _ =>
        split; [reflexivity|split; [first [left; apply G; cbn; tauto|right; left; vm_compute; tauto]|
          split; [vm_compute; intuition discriminate|split; [discriminate|
          let o' := fresh "o" in let a := fresh "a" in let E := fresh "E" in
          intros o' a E; vm_compute in E; injection E as <- <-; cbn [results filter is_result];
          split; [vm_compute; reflexivity|split; [repeat constructor; vm_compute; reflexivity|]]]]]]
    end.
  - do 3 eexists. unfold c131_in.
    repeat first [apply BlNil | apply BlRead | apply (BlPrint _ _ [[22909]]); [constructor; [split; [constructor; [apply G; cbn; tauto|constructor]|vm_compute; reflexivity]|constructor]|]
      | eapply BlKey; [vm_compute; reflexivity|]].
  - vm_compute. reflexivity.
Qed.

(** With the cursor before characters of two columns it is shown too far right: Ctrl-B over one such character moves it by a single
    column, into the middle of the character. *)
Theorem C131_cursor_refuted : exists is, c131_seen is 1 = Some ([[62; 32; 19990; -1; 32; 32; 32; 32; 32; 32]], 0, 3, [19990], 0%nat).
Proof. exists [IRead; IKey 19990; IKey 2]. vm_compute. reflexivity. Qed.

