(** Property C123: the screen after any keys. *)
From Verif Require Import Base ListAux RunesModel RunesSpec RuneBufModel RuneBufSpec HistoryModel HistoryProofs ScreenModel RenderModel RenderSpec RenderProofs RenderSession RenderProps OpModel OpSpec OpProofs OpStep OpKeys OpProps OutModel OutSpec OutProofs.
Open Scope Z_scope.

(** The drawing state a session starts with: width, prompt and painter as configured, nothing drawn yet. *)
Definition new_rdr (cf : ocfg) (ps : list piece) (paint : list Z -> nat -> list Z) : rdr :=
  {| d_prompt := prompt_runes ps; d_buf := []; d_idx := 0; d_width := oc_w cf; d_had := false; d_inter := true;
     d_mask := None; d_paint := paint |}.

(** After any Readline calls, keys and printed lines in a possible order the screen shows, from the row the session
    started on: what was entered and printed so far, then prompt and line of the editor with the cursor in place. *)
Theorem C123_screen : forall cf ps paint is o y0 s t o' acts, plain_session cf -> uenv_ok (oc_u cf) ->
  0 < oc_w cf <= 9223372036854775807 -> Forall sgr_digits ps -> Forall (RenderSpec.plain (oc_u cf)) (visible ps) ->
  Z.of_nat (length (visible ps)) + 1 < oc_w cf -> colouring (oc_u cf) paint ->
  at_prompt cf o -> rb_buf (o_b o) = [] -> rb_idx (o_b o) = 0%nat ->
  in_turn cf is o false -> leaves cf (visible ps) is o t o' acts -> free_from (oc_w cf) y0 s ->
  exists st out, ses_run cf (o, (false, new_rdr cf ps paint)) is = Ok ((o', st), out, acts) /\
    let s' := sexecs (oc_u cf) (oc_w cf) s out in
    screen_is (oc_w cf) (visible ps) y0
      {| k_done := t; k_line := rb_buf (o_b o'); k_idx := rb_idx (o_b o'); k_reading := fst st |} s' /\
    same_above y0 s s' /\ d_buf (snd st) = rb_buf (o_b o') /\ d_idx (snd st) = rb_idx (o_b o').
Proof.
  intros cf ps paint is o y0 s t o' acts C U W PD PV PS Pt A B I T L F.
  destruct (session_agrees cf C W U ps PD PV PS is o false [] (false, new_rdr cf ps paint) y0 s s t o' acts A T L) as (st & out & E & _ & G).
  - unfold agrees. cbn. rewrite B, I. split; [constructor; cbn; auto|].
    repeat (split; [first [reflexivity|apply Forall_nil|apply le_n|discriminate]|]).
    split; [|apply same_above_refl]. split; [exact Logic.I|]. cbn. rewrite Z.add_0_r. exact F.
  - exists st, out. split; [exact E|]. destruct G as (_ & G1 & G2 & _ & _ & _ & _ & _ & G3 & G4). auto.
Qed.
Print Assumptions C123_screen.

(** Such a session exists for every order of events: no key of it crashes the editor (without listener and filter). *)
Theorem C123_no_crash : forall cf v is o reading, plain_session cf -> good_config cf -> started o ->
  hist_of (RenderSpec.plain (oc_u cf)) (o_h o) -> Forall (RenderSpec.plain (oc_u cf)) (rb_kill (o_b o)) ->
  in_turn cf is o reading -> exists t o' acts, leaves cf v is o t o' acts.
Proof.
  intros cf v is o reading C G S H K.
  assert (R : owf cf o).
  { right. clear H K. destruct S as [[] ? ? ?]. constructor; try assumption; try congruence.
    - unfold inside. rewrite ar_idx. lia.
    - now split.
    - now split.
    - intros [X|X]; congruence. }
  assert (A : at_prompt cf o).
  { destruct S as [[] ? ? ?]. constructor; try assumption; [unfold inside; rewrite ar_idx; lia|rewrite ar_buf; constructor]. }
  clear S H K. revert o reading R A. induction is as [|i is IH]; intros o reading R A T; [do 3 eexists; apply LvNil|].
  destruct i as [|txt|r]; cbn [in_turn] in T.
  - destruct (IH o true R A (proj2 T)) as (t & o' & acts & L). do 3 eexists. apply LvRead. exact L.
  - destruct T as ((ls & Fl & ->) & T). destruct (IH o reading R A T) as (t & o' & acts & L). do 3 eexists. apply LvPrint; eassumption.
  - destruct T as (_ & Kr & T).
    assert (N : ~ trips cf o r).
    { unfold may_press in Kr. destruct (o_vp o) as [[]|] eqn:Vp; [apply Kr|unfold trips; rewrite Vp; tauto..|].
      rewrite (gc_filter _ G) in Kr. apply (Kr r eq_refl). }
    destruct (step_ok cf G r o R N) as (o1 & a1 & E & R1).
    destruct (key_case cf C v o r o1 a1 [] A) as (A1 & _); [exact Kr|exact E|].
    destruct (IH o1 _ R1 A1 (T o1 a1 E)) as (t & o' & acts & L). do 3 eexists. eapply LvKey; eassumption.
Qed.
Print Assumptions C123_no_crash.

(** "ab" entered, "xy" printed, then the previous line called up, one character deleted from its middle and the line
    interrupted; screen of 6 columns. *)
Definition c123_cf : ocfg :=
  {| oc_u := u0; oc_h := {| hc_limit := 500; hc_fold := false; hc_file := false |}; oc_w := 6; oc_prompt := [62;32];
     oc_auto := None; oc_vim := false; oc_unique := false; oc_nosave := false; oc_listen := None; oc_filter := None;
     oc_eofp := [94;68]; oc_intp := [94;67] |}.
Definition c123_in : list inp :=
  [IRead; IKey 97; IKey 98; IKey 99; IKey 13; IPrint [120; 121; 10]; IRead; IKey 16; IKey 2; IKey 127; IPrint [122; 10]; IKey 9; IKey 3;
   IRead; IKey 100; IKey 101; IKey 102; IKey 103; IKey 104; IKey 2].
Lemma c123_plain l : forallb (fun r => (32 <=? r) && (r <? 127)) l = true -> Forall (RenderSpec.plain u0) l.
Proof. intros H. apply u0_plain. apply Forall_forall. intros x X. rewrite forallb_forall in H. specialize (H x X). apply andb_prop in H. destruct H. lia. Qed.
Example C123_ex :
  plain_session c123_cf /\ uenv_ok (oc_u c123_cf) /\ Forall (RenderSpec.plain u0) [62;32] /\ at_prompt c123_cf fresh /\
  in_turn c123_cf c123_in fresh false /\
  exists o' st out acts, ses_run c123_cf (fresh, (false, new_rdr c123_cf [Vis 62; Vis 32] (fun b _ => b))) c123_in = Ok ((o', st), out, acts) /\
    leaves c123_cf [62;32] c123_in fresh [[62;32;97;98;99]; [120;121]; [122]; [62;32;97;99;94;67]] o' acts /\
    cells (sexecs u0 6 scr0 out) 7 6 =
      [[62;32;97;98;99;32]; [120;121;32;32;32;32]; [122;32;32;32;32;32]; [62;32;97;99;94;67]; [62;32;100;101;102;103]; [104;32;32;32;32;32]; [32;32;32;32;32;32]] /\
    s_row (sexecs u0 6 scr0 out) = 5 /\ s_col (sexecs u0 6 scr0 out) = 0.
Proof.
  split; [constructor; try reflexivity; try (apply c123_plain; reflexivity); discriminate|]. split; [apply u0_ok|].
  split; [apply c123_plain; reflexivity|].
  split; [constructor; try reflexivity; try constructor; constructor|].
  split.
  - unfold c123_in.
    repeat lazymatch goal with
    | |- in_turn _ [] _ _ => exact I
    | |- in_turn _ (IRead :: _) _ _ => split; [reflexivity|]
    | |- in_turn _ (IPrint [?a; 10] :: _) _ _ => split; [exists [[a]]; split; [repeat constructor; vm_compute; intuition congruence|reflexivity]|]
    | |- in_turn _ (IPrint [?a; ?b; 10] :: _) _ _ => split; [exists [[a; b]]; split; [repeat constructor; vm_compute; intuition congruence|reflexivity]|]
    | |- in_turn _ (IKey ?r :: _) _ _ =>
        split; [reflexivity|split; [intros r' X; injection X as <-; split; [vm_compute; intuition discriminate|split; [discriminate|left]];
          first [left; repeat split; vm_compute; congruence
                |right; left; vm_compute; tauto
                |right; right; right; split; reflexivity]|
          let o' := fresh "o" in let a := fresh "a" in let E := fresh "E" in
          intros o' a E; vm_compute in E; injection E as <- <-; cbn [results filter is_result]]]
    end.
  - do 4 eexists. split; [vm_compute; reflexivity|]. split; [|vm_compute; repeat split].
    set (t := [[62;32;97;98;99]; [120;121]; [122]; [62;32;97;99;94;67]]).
    match goal with |- leaves _ _ _ _ _ ?o ?a => enough (X : exists t' a', leaves c123_cf [62;32] c123_in fresh t' o a' /\ t' = t /\ a' = a) end.
    { destruct X as (t' & a' & X & -> & ->). exact X. }
    do 2 eexists. split; [|split].
    + unfold c123_in.
      repeat lazymatch goal with
      | |- leaves _ _ [] _ _ _ _ => apply LvNil
      | |- leaves _ _ (IRead :: _) _ _ _ _ => apply LvRead
      | |- leaves _ _ (IPrint [?a; 10] :: _) _ _ _ _ =>
          apply (LvPrint c123_cf [62;32] [[a]]); [repeat constructor; vm_compute; congruence|]
      | |- leaves _ _ (IPrint [?a; ?b; 10] :: _) _ _ _ _ =>
          apply (LvPrint c123_cf [62;32] [[a; b]]); [repeat constructor; vm_compute; congruence|]
      | |- leaves _ _ (IKey ?r :: _) _ _ _ _ => eapply LvKey; [vm_compute; reflexivity|]
      end.
    + reflexivity.
    + reflexivity.
Qed.

(** With UniqueEditLine and vim keys: "qr" entered, "abc" typed, then Esc, to the line start, the first word's last letter replaced, a letter deleted, a
    key without meaning, and "d" "l". *)
Definition c123_vcf : ocfg :=
  {| oc_u := u0; oc_h := {| hc_limit := 500; hc_fold := false; hc_file := false |}; oc_w := 6; oc_prompt := [62;32];
     oc_auto := None; oc_vim := true; oc_unique := true; oc_nosave := false; oc_listen := None; oc_filter := None;
     oc_eofp := [94;68]; oc_intp := [94;67] |}.
Definition c123_vin : list inp :=
  [IRead; IKey 113; IKey 114; IKey 13; IRead; IKey 97; IKey 98; IKey 99; IKey 100; IKey 101; IKey 27; IKey 48; IKey 120; IKey 114; IKey 122; IKey 7; IKey 108; IKey 100; IKey 108].
Example C123_vim_ex :
  plain_session c123_vcf /\ at_prompt c123_vcf fresh /\ in_turn c123_vcf c123_vin fresh false /\
  exists o' st out acts, ses_run c123_vcf (fresh, (false, new_rdr c123_vcf [Vis 62; Vis 32] (fun b _ => b))) c123_vin = Ok ((o', st), out, acts) /\
    leaves c123_vcf [62;32] c123_vin fresh [] o' acts /\ o_vn o' = true /\
    cells (sexecs u0 6 scr0 out) 2 6 = [[62;32;122;100;101;32]; [32;32;32;32;32;32]] /\
    s_row (sexecs u0 6 scr0 out) = 0 /\ s_col (sexecs u0 6 scr0 out) = 3.
Proof.
  split; [constructor; try reflexivity; try (apply c123_plain; reflexivity); discriminate|].
  split; [constructor; try reflexivity; try constructor; constructor|].
  split.
  - unfold c123_vin.
    repeat lazymatch goal with
    | |- in_turn _ [] _ _ => exact I
    | |- in_turn _ (IRead :: _) _ _ => split; [reflexivity|]
    | |- in_turn _ (IKey ?r :: _) _ _ =>
        split; [reflexivity|split; [
          first [exact I
                |left; vm_compute; repeat split; congruence
                |split; [repeat split; vm_compute; congruence|vm_compute; discriminate]
                |intros r' X; injection X as <-; split; [vm_compute; intuition discriminate|split; [discriminate|]];
                 first [discriminate
                       |right; split; reflexivity
                       |left; left; repeat split; vm_compute; congruence
                       |left; right; left; vm_compute; tauto]]|
          let o' := fresh "o" in let a := fresh "a" in let E := fresh "E" in
          intros o' a E; vm_compute in E; injection E as <- <-; cbn [results filter is_result]]]
    end.
  - do 4 eexists. split; [vm_compute; reflexivity|]. split; [|vm_compute; repeat split].
    match goal with |- leaves _ _ _ _ _ ?o ?a => enough (X : exists t' a', leaves c123_vcf [62;32] c123_vin fresh t' o a' /\ t' = [] /\ a' = a) end.
    { destruct X as (t' & a' & X & -> & ->). exact X. }
    do 2 eexists. split; [|split].
    + unfold c123_vin.
      repeat lazymatch goal with
      | |- leaves _ _ [] _ _ _ _ => apply LvNil
      | |- leaves _ _ (IRead :: _) _ _ _ _ => apply LvRead
      | |- leaves _ _ (IKey ?r :: _) _ _ _ _ => eapply LvKey; [vm_compute; reflexivity|]
      end.
    + reflexivity.
    + reflexivity.
Qed.
