(** Property C128: the screen of a terminal with a given number of rows, Ctrl-L included. *)
From Verif Require Import Base ListAux RunesModel RunesSpec RuneBufModel RuneBufSpec HistoryModel TerminalModel ScreenModel RenderModel RenderSpec RenderProofs RenderSession RenderProps ClearModel OpModel OpSpec OpProps OutModel OutSpec OutProofs OutProps ViewModel ViewSpec ViewProofs.
Open Scope Z_scope.

(** After any Readline calls, keys (Ctrl-L among them) and printed lines in a possible order, on a terminal of [H] rows on which
    everything drawn fits: from some row on the screen shows what was entered and printed, since the last Ctrl-L if there
    was one, then prompt and line with the cursor in place; prompt and line are in view as a whole, nothing from before the
    last Ctrl-L is in view.  Without Ctrl-L the screen is the one of C123. *)
Theorem C128_view : forall H cf ps paint is o y0 s top c t o' acts, 0 < H -> plain_session cf -> uenv_ok (oc_u cf) ->
  0 < oc_w cf <= 9223372036854775807 -> Forall sgr_digits ps -> Forall (RenderSpec.plain (oc_u cf)) (visible ps) ->
  Z.of_nat (length (visible ps)) + 1 < oc_w cf -> colouring (oc_u cf) paint ->
  at_prompt cf o -> rb_buf (o_b o) = [] -> rb_idx (o_b o) = 0%nat ->
  vturn H cf (visible ps) is o false -> vleaves cf (visible ps) is o c t o' acts ->
  free_from (oc_w cf) y0 s -> top <= y0 <= top + H - 1 ->
  exists st out y0', vses_run cf (o, (false, new_rdr cf ps paint)) is = Ok ((o', st), out, acts) /\
    let x := xexecs H (oc_u cf) (oc_w cf) (s, top) out in
    let k := {| k_done := t; k_line := rb_buf (o_b o'); k_idx := rb_idx (o_b o'); k_reading := fst st |} in
    screen_is (oc_w cf) (visible ps) y0' k (fst x) /\ in_sight H (oc_w cf) (visible ps) y0' k (snd x) /\
    (c = false -> y0' = y0 /\ same_above y0 s (fst x) /\ fst x = sexecs (oc_u cf) (oc_w cf) s out) /\
    (c = true -> top <= y0' <= snd x).
Proof.
  intros H cf ps paint is o y0 s top c t o' acts HP C U W PD PV PS Pt A B I T L F Tp.
  destruct (view_agrees H cf HP C W U ps PD PV PS is o false [] (false, new_rdr cf ps paint) y0 s s top c t o' acts A T L)
    as (st & out & s' & top' & y0' & s0' & E & _ & V & G & IS & _ & Ca & Cb).
  - unfold agrees. cbn. rewrite B, I. split; [constructor; cbn; auto|].
    repeat (split; [first [reflexivity|apply Forall_nil|apply le_n|discriminate]|]).
    split; [|apply same_above_refl]. split; [exact Logic.I|]. cbn. rewrite Z.add_0_r. exact F.
  - unfold in_sight. cbn. lia.
  - cbn zeta in *. replace (if c then t else [] ++ t) with t in G, IS by (now destruct c).
    exists st, out, y0'. split; [exact E|]. cbn zeta. rewrite V. cbn [fst snd]. destruct G as (_ & _ & _ & _ & _ & _ & _ & _ & G3 & G4).
    split; [exact G3|]. split; [exact IS|]. split; [|exact Cb]. intros Q. destruct (Ca Q) as (-> & -> & X). auto.
Qed.
Print Assumptions C128_view.

(** Without a listener it is enough that prompt and line fit after every key. *)
Theorem C128_lines : forall H cf ps paint is o y0 s top c t o' acts, 0 < H -> plain_session cf -> oc_listen cf = None -> uenv_ok (oc_u cf) ->
  0 < oc_w cf <= 9223372036854775807 -> Forall sgr_digits ps -> Forall (RenderSpec.plain (oc_u cf)) (visible ps) ->
  Z.of_nat (length (visible ps)) + 1 < oc_w cf -> colouring (oc_u cf) paint ->
  at_prompt cf o -> rb_buf (o_b o) = [] -> rb_idx (o_b o) = 0%nat ->
  lturn H cf (visible ps) is o false -> vleaves cf (visible ps) is o c t o' acts ->
  free_from (oc_w cf) y0 s -> top <= y0 <= top + H - 1 ->
  exists st out y0', vses_run cf (o, (false, new_rdr cf ps paint)) is = Ok ((o', st), out, acts) /\
    let x := xexecs H (oc_u cf) (oc_w cf) (s, top) out in
    let k := {| k_done := t; k_line := rb_buf (o_b o'); k_idx := rb_idx (o_b o'); k_reading := fst st |} in
    screen_is (oc_w cf) (visible ps) y0' k (fst x) /\ in_sight H (oc_w cf) (visible ps) y0' k (snd x) /\
    (c = false -> y0' = y0 /\ same_above y0 s (fst x) /\ fst x = sexecs (oc_u cf) (oc_w cf) s out) /\
    (c = true -> top <= y0' <= snd x).
Proof.
  intros H cf ps paint is o y0 s top c t o' acts HP C N U W PD PV PS Pt A B I T L F Tp.
  apply (C128_view H); try assumption. apply (lines_turn H cf (visible ps) is C N o false c t o' acts A); [|exact T|exact L].
  unfold fits. rewrite B. cbn [length]. rewrite Z.div_small by lia. exact HP.
Qed.
Print Assumptions C128_lines.

(** The screen is cleared by Ctrl-L only. *)
Theorem C128_only : forall cf o r o' acts, plain_session cf -> at_prompt cf o -> op_step cf r o = Ok (o', acts) ->
  (In AClear acts <-> clears cf r o = true).
Proof.
  intros cf o r o' acts C A E. split; [exact (step_clears cf o r o' acts A E)|].
  intros X. destruct (clear_case cf C o r o' acts A X E) as (-> & _). now left.
Qed.
Print Assumptions C128_only.

(** "ab" entered, "xy" and "w" printed, "cd" typed, Ctrl-L, "e" typed, "z" printed, "fg" typed, "h" inserted before the
    "g"; 6 columns, 3 rows.  At Ctrl-L the view starts at row 1. *)
Definition c128_in : list inp :=
  [IRead; IKey 97; IKey 98; IKey 13; IPrint [120; 121; 10]; IPrint [119; 10]; IRead; IKey 99; IKey 100; IKey 12; IKey 101; IPrint [122; 10];
   IKey 102; IKey 103; IKey 2; IKey 104].
Example C128_ex :
  plain_session c123_cf /\ at_prompt c123_cf fresh /\ lturn 3 c123_cf [62;32] c128_in fresh false /\
  exists o' st out acts, vses_run c123_cf (fresh, (false, new_rdr c123_cf [Vis 62; Vis 32] (fun b _ => b))) c128_in = Ok ((o', st), out, acts) /\
    vleaves c123_cf [62;32] c128_in fresh true [[122]] o' acts /\
    let x := xexecs 3 u0 6 (scr0, 0) out in
    cells (fst x) 5 6 =
      [[62;32;97;98;32;32]; [122;32;32;32;32;32]; [62;32;99;100;101;102]; [104;103;32;32;32;32]; [32;32;32;32;32;32]] /\
    s_row (fst x) = 3 /\ s_col (fst x) = 1 /\ snd x = 1.
Proof.
  destruct C123_ex as (P & _ & _ & A & _). split; [exact P|]. split; [exact A|]. split.
  - unfold c128_in.
    repeat lazymatch goal with
    | |- lturn _ _ _ [] _ _ => exact I
    | |- lturn _ _ _ (IRead :: _) _ _ => split; [reflexivity|]
    | |- lturn _ _ _ (IPrint [?a; 10] :: _) _ _ => split; [exists [[a]]; split; [repeat constructor; vm_compute; intuition congruence|reflexivity]|]
    | |- lturn _ _ _ (IPrint [?a; ?b; 10] :: _) _ _ => split; [exists [[a; b]]; split; [repeat constructor; vm_compute; intuition congruence|reflexivity]|]
    | |- lturn _ _ _ (IKey ?r :: _) _ _ =>
        split; [reflexivity|split; [first [right; vm_compute; reflexivity|left; intros r' X; injection X as <-; split; [vm_compute; intuition discriminate|split; [discriminate|left]];
          first [left; repeat split; vm_compute; congruence
                |right; left; vm_compute; tauto
                |right; right; right; split; reflexivity]]|
          let o' := fresh "o" in let a := fresh "a" in let E := fresh "E" in
          intros o' a E; vm_compute in E; injection E as <- <-; split; [vm_compute; reflexivity|cbn [results filter is_result]]]]
    end.
  - do 4 eexists. split; [vm_compute; reflexivity|]. split; [|vm_compute; repeat split].
    set (t := [[122]]).
    match goal with |- vleaves _ _ _ _ _ _ ?o ?a => enough (X : exists c' t' a', vleaves c123_cf [62;32] c128_in fresh c' t' o a' /\ c' = true /\ t' = t /\ a' = a) end.
    { destruct X as (c' & t' & a' & X & -> & -> & ->). exact X. }
    do 3 eexists. split; [|split; [|split]].
    + unfold c128_in.
      repeat lazymatch goal with
      | |- vleaves _ _ [] _ _ _ _ _ => apply VLNil
      | |- vleaves _ _ (IRead :: _) _ _ _ _ _ => apply VLRead
      | |- vleaves _ _ (IPrint [?a; 10] :: _) _ _ _ _ _ =>
          apply (VLPrint c123_cf [62;32] [[a]]); [repeat constructor; vm_compute; congruence|]
      | |- vleaves _ _ (IPrint [?a; ?b; 10] :: _) _ _ _ _ _ =>
          apply (VLPrint c123_cf [62;32] [[a; b]]); [repeat constructor; vm_compute; congruence|]
      | |- vleaves _ _ (IKey 12 :: _) _ _ _ _ _ => eapply VLClear; [vm_compute; reflexivity|now left|]
      | |- vleaves _ _ (IKey ?r :: _) _ _ _ _ _ => eapply VLKey; [vm_compute; reflexivity|vm_compute; intuition discriminate|]
      end.
    + reflexivity.
    + reflexivity.
    + reflexivity.
Qed.

(** A line too long for the screen is not redrawn in place: on 2 rows of 6 columns, after eleven characters and one step back, the
    first row of prompt and line is on the screen three times. *)
Theorem C128_tall_refuted : exists is o' st out acts,
  is = IRead :: map IKey [97;98;99;100;101;102;103;104;105;106;107;2] /\
  vses_run c123_cf (fresh, (false, new_rdr c123_cf [Vis 62; Vis 32] (fun b _ => b))) is = Ok ((o', st), out, acts) /\
  rb_buf (o_b o') = [97;98;99;100;101;102;103;104;105;106;107] /\
  cells (fst (xexecs 2 u0 6 (scr0, 0) out)) 5 6 =
    [[62;32;97;98;99;100]; [62;32;97;98;99;100]; [62;32;97;98;99;100]; [101;102;103;104;105;106]; [107;32;32;32;32;32]] /\
  cells (sexecs u0 6 scr0 out) 5 6 =
    [[62;32;97;98;99;100]; [101;102;103;104;105;106]; [107;32;32;32;32;32]; [32;32;32;32;32;32]; [32;32;32;32;32;32]].
Proof. do 5 eexists. split; [reflexivity|]. split; [vm_compute; reflexivity|]. vm_compute. repeat split. Qed.
Print Assumptions C128_tall_refuted.

(** Ctrl-C with UniqueEditLine, left out of C123: the key draws what [interrupt_unique] of RenderModel.v draws, and the next
    prompt is drawn over the start of the interrupted line, which stays. *)
Theorem C123_unique_draws : forall cf o d es, oc_unique cf = true -> d_buf d = rb_buf (o_b o) -> switch_draws cf CharInterrupt o = Ok es ->
  orun (oc_u cf) (true, d) es = (x <- interrupt_unique (oc_u cf) d ;; Ok ((false, fst x), snd x)).
Proof.
  intros cf o d es Un B E. unfold switch_draws in E. cbn -[orun] in E. rewrite Un in E. injection E as <-.
  unfold interrupt_unique. cbn [orun ostep dstep]. rewrite <- B.
  destruct (refresh (oc_u cf) d (d_buf d) (length (d_buf d)) []) as [[d1 o1]| |] eqn:E1; [|reflexivity..]. cbn [obind fst snd].
  assert (D1 : d_buf d1 = d_buf d /\ d_idx d1 = length (d_buf d)).
  { unfold refresh in E1. destruct (negb (d_inter d)); [injection E1 as <- _; split; reflexivity|].
    destruct (clean (oc_u cf) d) as [[d0 o0]| |] eqn:C; cbn [obind fst] in E1; try discriminate.
    unfold print in E1. destruct (output _ _); cbn [obind fst snd] in E1; try discriminate. injection E1 as <- _. split; reflexivity. }
  destruct D1 as (-> & ->).
  cbn [orun ostep dstep obind fst snd].
  destruct (refresh (oc_u cf) d1 (d_buf d) (length (d_buf d)) []) as [[d2 o2]| |]; [|reflexivity..]. cbn [obind fst snd app]. now rewrite app_nil_r.
Qed.
Print Assumptions C123_unique_draws.
Example C123_unique_ex : exists cf es, oc_unique cf = true /\ d_buf (snd (true, new_rdr cf [Vis 62; Vis 32] (fun b _ => b))) = rb_buf (o_b fresh) /\
  switch_draws cf CharInterrupt fresh = Ok es /\ length es = 3%nat.
Proof.
  exists {| oc_u := u0; oc_h := oc_h c123_cf; oc_w := 6; oc_prompt := [62;32]; oc_auto := None; oc_vim := false; oc_unique := true; oc_nosave := false;
    oc_listen := None; oc_filter := None; oc_eofp := []; oc_intp := [] |}. eexists. repeat split.
Qed.
