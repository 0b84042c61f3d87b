(** Property C125: the screen while completing. *)
From Verif Require Import Base ListAux RunesModel RunesSpec RuneBufModel RuneBufSpec HistoryModel HistoryProofs ScreenModel RenderModel RenderSpec RenderProofs RenderSession RenderProps MenuSpec OpModel OpSpec OpProofs OpStep OpKeys OpProps OutModel OutSpec OutProofs OutProps SeekModel SeekSpec SeekProofs SeekProps CompModel CompSpec CompDraw CompProofs.
Open Scope Z_scope.

(** After any Readline calls, keys (Tab, arrows among candidates and searches among them) and printed lines in a
    possible order: no key crashes the editor, and the screen shows, from the row the session started on, what was
    entered and printed so far, then prompt and line of the editor with the cursor in place, and below the line the
    candidates while completing, in the columns the arrow keys count with, or the status of a search while searching;
    nothing else from there on. *)
Theorem C125_screen : forall cf ps paint is o y0 s, comp_session cf ps -> uenv_ok (oc_u cf) ->
  oc_w cf <= 9223372036854775807 -> Forall sgr_digits ps -> Forall (RenderSpec.plain (oc_u cf)) (visible ps) ->
  Z.of_nat (length (visible ps)) + 1 < oc_w cf -> colouring (oc_u cf) paint ->
  started o -> hist_of (RenderSpec.plain (oc_u cf)) (o_h o) -> Forall (RenderSpec.plain (oc_u cf)) (rb_kill (o_b o)) ->
  comp_turn cf (visible ps) is o false -> free_from (oc_w cf) y0 s ->
  exists st out t o' acts, comp_run cf (o, (false, new_rdr cf ps paint)) is = Ok ((o', st), out, acts) /\
    leaves cf (visible ps) is o t o' acts /\
    let s' := sexecs (oc_u cf) (oc_w cf) s out in
    comp_screen (oc_w cf) (visible ps) y0
      {| k_done := t; k_line := rb_buf (o_b o'); k_idx := rb_idx (o_b o'); k_reading := fst st |} (under_of o') s' /\
    same_above y0 s s' /\ d_buf (snd st) = rb_buf (o_b o') /\ d_idx (snd st) = rb_idx (o_b o').
Proof.
  intros cf ps paint is o y0 s C U W PD PV PS Pt S H K T F. pose proof (gc_w _ (ss_good _ _ (cs_seek _ _ C))) as W0.
  assert (R : owf cf o).
  { right. clear H K F. destruct S as [[] ? ? ?]. constructor; try assumption; try congruence.
    - unfold inside. rewrite ar_idx. lia.
    - now split.
    - now split.
    - intros [X|X]; congruence. }
  assert (A : at_seek cf o).
  { destruct S as [[] ? ? ?]. constructor; [constructor; try assumption; try reflexivity; [unfold inside; cbn; rewrite ar_idx; lia|cbn; rewrite ar_buf; constructor]|rewrite <- ?st_data; cbn|].
    - match goal with X : s_data (o_s o) = [] |- _ => rewrite X end. constructor.
    - match goal with X : o_vp o = None |- _ => exact X end. }
  assert (Si : s_in (o_s o) = false) by (destruct S as [[] ? ? ?]; assumption).
  assert (Ci : c_in (o_c o) = false) by (destruct S as [[] ? ? ?]; assumption).
  assert (So : under_of o = UNone) by (apply under_none; assumption).
  assert (B : rb_buf (o_b o) = [] /\ rb_idx (o_b o) = 0%nat) by (destruct S as [[] ? ? ?]; auto). destruct B as (B & I).
  destruct (comp_agrees cf ps C (conj W0 W) U PD PV PS is o false [] (false, new_rdr cf ps paint) y0 s s R (or_introl A)) as (st & out & t & o' & acts & E & L & A' & G).
  - intros X. congruence.
  - intros X. congruence.
  - exact T.
  - rewrite So. unfold cagrees, sagrees, agrees. cbn. rewrite B, I. split; [constructor; cbn; auto|].
    repeat (split; [first [reflexivity|apply Forall_nil|apply le_n|discriminate]|]).
    split; [|apply same_above_refl]. split; [exact Logic.I|]. cbn. rewrite Z.add_0_r. exact F.
  - exists st, out, t, o', acts. split; [exact E|]. split; [exact L|]. cbn zeta. cbn [app] in G.
    destruct (under_of o') as [|x|c ws]; cbn [cagrees sagrees] in G.
    + destruct G as (_ & G1 & G2 & _ & _ & _ & _ & _ & G3 & G4). auto.
    + destruct G as (_ & G1 & G2 & _ & _ & _ & _ & _ & G3 & G4). auto.
    + destruct G as ((_ & G1 & G2 & _ & _ & _ & _ & _ & _ & _ & G4) & G3). auto.
Qed.
Print Assumptions C125_screen.

(** Completions of "a" are "abc" and "ad".  Tab shows them, Tab again marks the first, Ctrl-F the second, "hi" is printed,
    Enter takes the second.  Screen of 30 columns. *)
Definition c125_do (line : list Z) (pos : nat) : list (list Z) * nat :=
  match line, pos with [97], 1%nat => ([[98; 99]; [100]], 1%nat) | _, _ => ([], 0%nat) end.
Definition c125_cf : ocfg :=
  {| oc_u := u0; oc_h := {| hc_limit := 500; hc_fold := false; hc_file := false |}; oc_w := 30; oc_prompt := [62;32];
     oc_auto := Some c125_do; oc_vim := false; oc_unique := false; oc_nosave := false; oc_listen := None; oc_filter := None;
     oc_eofp := [94;68]; oc_intp := [94;67] |}.
Definition c125_o : op := match op_run c125_cf [120; 13] fresh with Ok (o, _) => o | _ => fresh end.
Definition c125_in : list inp := [IRead; IKey 97; IKey 9; IKey 9; IKey 6; IPrint [104; 105; 10]].
Definition c125_seen (is : list inp) (n : nat) : option (list (list Z) * Z * Z * bool * bool) :=
  match comp_run c125_cf (c125_o, (false, new_rdr c125_cf [Vis 62; Vis 32] (fun b _ => b))) is with
  | Ok ((o, _), out, _) => let s := sexecs u0 30 scr0 out in Some (cells s n 30, s_row s, s_col s, c_in (o_c o), s_in (o_s o))
  | _ => None
  end.
Example C125_ex :
  comp_session c125_cf [Vis 62; Vis 32] /\ started c125_o /\ hist_of (RenderSpec.plain u0) (o_h c125_o) /\
  comp_turn c125_cf [62;32] (c125_in ++ [IKey 13; IKey 13]) c125_o false /\
  (* "hi", the line, and below it both candidates in seven columns of four cells *)
  c125_seen c125_in 4 = Some
    ([row30 [104;105]; row30 [62;32;97]; row30 [97;98;99;32;97;100]; row30 []], 1, 3, true, false) /\
  (* Enter takes the second candidate, the menu is gone; Enter submits *)
  c125_seen (c125_in ++ [IKey 13]) 4 = Some
    ([row30 [104;105]; row30 [62;32;97;100]; row30 []; row30 []], 1, 4, false, false) /\
  c125_seen (c125_in ++ [IKey 13; IKey 13]) 4 = Some
    ([row30 [104;105]; row30 [62;32;97;100]; row30 []; row30 []], 2, 0, false, false).
Proof.
  assert (Do : forall line pos cands off, c125_do line pos = (cands, off) -> cands = [] \/ line = [97] /\ pos = 1%nat /\ cands = [[98; 99]; [100]] /\ off = 1%nat).
  { intros line pos cands off E. unfold c125_do in E.
    destruct line as [|r [|? ?]]; [injection E as <- <-; auto| |]; [|repeat match type of E with context [match ?x with _ => _ end] => destruct x end; injection E as <- <-; auto].
    destruct (Z.eq_dec r 97) as [->|Hr]; [|left; repeat match type of E with context [match ?x with _ => _ end] => destruct x; try congruence end].
    destruct pos as [|[|?]]; injection E as <- <-; auto. }
  split.
  { constructor.
    - constructor.
      + constructor; try reflexivity; try discriminate; [eexists; vm_compute; reflexivity|].
        intros D line pos cands off A _ E. injection A as <-. destruct (Do _ _ _ _ E) as [->|(-> & -> & -> & ->)]; [now left|]. right. constructor; [discriminate|vm_compute; intuition discriminate|intros c [<-|[<-|[]]]; vm_compute; discriminate|vm_compute; discriminate].
      + reflexivity.
      + apply c123_plain; reflexivity.
      + apply c123_plain; reflexivity.
      + reflexivity.
      + intros r H. pose proof (u0_plain [r]) as X. apply (Forall_inv (X ltac:(repeat constructor; lia))).
    - discriminate.
    - intros D line pos cands off A _ E. injection A as <-. destruct (Do _ _ _ _ E) as [->|(-> & -> & -> & ->)]; [now left|]. right.
      split; [constructor; [apply c123_plain; reflexivity|constructor; [apply c123_plain; reflexivity|constructor]]|vm_compute; discriminate]. }
  split.
  { vm_compute. constructor; try reflexivity; try discriminate. constructor; try reflexivity.
    constructor; cbn; [repeat constructor; cbn; intuition discriminate| | |tauto]; repeat constructor; cbn; lia. }
  split; [split; apply Forall_forall; intros x X; vm_compute in X; intuition (subst x; split; cbn; apply c123_plain; reflexivity)|].
  split; [|repeat split; vm_compute; reflexivity].
  unfold c125_in. cbn [app].
  repeat lazymatch goal with
  | |- comp_turn _ _ [] _ _ => exact I
  | |- comp_turn _ _ (IRead :: _) _ _ => split; [reflexivity|]
  | |- comp_turn _ _ (IPrint [?a; ?b; 10] :: _) _ _ => split; [exists [[a; b]]; split; [repeat constructor; vm_compute; intuition congruence|reflexivity]|]
  | |- comp_turn _ _ (IKey ?r :: _) _ _ =>
      split; [reflexivity|split; [split; [vm_compute; intuition discriminate|split; [discriminate|
          first [left; left; repeat split; vm_compute; congruence
                |left; right; left; vm_compute; tauto
                |right; right; split; reflexivity]]]|
        let o' := fresh "o" in let a := fresh "a" in let E := fresh "E" in
        intros o' a E; vm_compute in E; injection E as <- <-; cbn [results filter is_result];
        split; [vm_compute; intuition (try congruence; try discriminate; try lia)|
        split; [vm_compute; intuition (try congruence; try discriminate; try lia)|]]]]
  end.
Qed.

(** Tab during a search: candidates are asked for and drawn, but leaving the search redraws the line over them: the
    editor is in complete mode, the next Tab chooses, and nothing is shown. *)
Theorem C125_search_tab_refuted : exists is,
  is = [IRead; IKey 97; IKey 18; IKey 9] /\ c125_seen is 3 = Some ([row30 [62;32;97]; row30 []; row30 []], 0, 3, true, false).
Proof. eexists. split; [reflexivity|]. vm_compute. reflexivity. Qed.
Print Assumptions C125_search_tab_refuted.

(** Ctrl-R while candidates are shown: a search is on, but the redraw on leaving complete mode wipes out its status. *)
Theorem C125_menu_search_refuted : exists is,
  is = [IRead; IKey 97; IKey 9; IKey 18] /\ c125_seen is 3 = Some ([row30 [62;32;97]; row30 []; row30 []], 0, 3, false, true).
Proof. eexists. split; [reflexivity|]. vm_compute. reflexivity. Qed.
Print Assumptions C125_menu_search_refuted.

(** Enter while candidates are shown, if the terminal goroutine has not yet noticed that reading is over (isReading is
    still 1, operation.go:354-356, 503-507): the prompt is drawn once more, below the line just submitted. *)
Theorem C125_enter_race_refuted : exists o st es y a,
  comp_run c125_cf (c125_o, (false, new_rdr c125_cf [Vis 62; Vis 32] (fun b _ => b))) [IRead; IKey 97; IKey 9] = Ok ((o, st), fst a, []) /\
  comp_draws c125_cf 13 o = Ok es /\ op_step c125_cf 13 o = Ok y /\ results (snd y) = [ALine [97]] /\
  (exists z, crun c125_cf st (es ++ [cline (fst y)]) = Ok (z, snd a)) /\
  let s := sexecs u0 30 scr0 (fst a ++ snd a) in
  cells s 3 30 = [row30 [62;32;97]; row30 [62;32]; row30 []] /\ s_row s = 1 /\ s_col s = 2.
Proof.
  destruct (comp_run c125_cf (c125_o, (false, new_rdr c125_cf [Vis 62; Vis 32] (fun b _ => b))) [IRead; IKey 97; IKey 9]) as [[[[o st] out] acts]| |] eqn:E; [|vm_compute in E; discriminate..].
  destruct (comp_draws c125_cf 13 o) as [es| |] eqn:D; vm_compute in E; try discriminate; injection E as <- <- <- <-; vm_compute in D; try discriminate; injection D as <-.
  do 3 eexists. eexists. eexists (_, _). split; [cbn [fst]; reflexivity|]. split; [vm_compute; reflexivity|].
  split; [vm_compute; reflexivity|]. split; [reflexivity|]. split; [eexists; vm_compute; reflexivity|]. vm_compute. auto.
Qed.
Print Assumptions C125_enter_race_refuted.
