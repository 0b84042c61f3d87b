(** Property C132: changing the prompt. *)
From Verif Require Import Base ListAux RunesModel RunesSpec RuneBufModel RuneBufSpec HistoryModel HistoryProofs ScreenModel RenderModel RenderSpec RenderProofs RenderSession RenderProps OpModel OpSpec OpProofs OpStep OpProps OutModel OutSpec OutProofs OutProps SwapModel SwapSpec SwapProofs.
Open Scope Z_scope.

(** C123's sessions with SetPrompt, Refresh and Clean at any moment: nothing above the session changes, the texts left stay, each
    line with the prompt it was entered at; after Refresh, output or the next Readline call (and after a line is returned, and
    always if no prompt was changed while a line was read) the screen shows the last prompt set and the line. *)
Theorem C132_screen_partial : forall cf ps paint is o y0 s t o' acts v' h', plain_session cf -> uenv_ok (oc_u cf) ->
  0 < oc_w cf <= 9223372036854775807 -> good_prompt cf ps -> colouring (oc_u cf) paint ->
  at_prompt cf o -> rb_buf (o_b o) = [] -> rb_idx (o_b o) = 0%nat ->
  swap_turn cf (visible ps) is o false Shown -> swap_leaves cf (visible ps) is o false Shown t o' acts v' h' -> free_from (oc_w cf) y0 s ->
  exists st out, pses_run cf (o, (false, new_rdr cf ps paint)) (map calls is) = Ok ((o', st), out, acts) /\
    let s' := sexecs (oc_u cf) (oc_w cf) s out in
    stacked (oc_w cf) y0 t s' /\ same_above y0 s s' /\ d_buf (snd st) = rb_buf (o_b o') /\ d_idx (snd st) = rb_idx (o_b o') /\
    (h' = Shown -> screen_is (oc_w cf) v' y0
      {| k_done := t; k_line := rb_buf (o_b o'); k_idx := rb_idx (o_b o'); k_reading := fst st |} s') /\
    (h' = Cleaned -> free_from (oc_w cf) (y0 + height (oc_w cf) t) s').
Proof.
  intros cf ps paint is o y0 s t o' acts v' h' C U W P Pt A B I T L F.
  destruct (swap_session cf C W U is ps o false Shown [] (false, new_rdr cf ps paint) y0 s s t o' acts v' h' P A T L) as (ps' & st & out & -> & P' & E & _ & G).
  - cbn [sagrees]. unfold agrees. cbn. rewrite B, I. split; [constructor; cbn; auto|].
    repeat (split; [first [reflexivity|apply Forall_nil|apply le_n|discriminate]|]).
    split; [|apply same_above_refl]. split; [exact Logic.I|]. cbn. rewrite Z.add_0_r. exact F.
  - exists st, out. split; [exact E|]. cbn zeta. cbn [app] in G. destruct h'; cbn [sagrees] in G.
    + destruct G as (_ & G1 & G2 & _ & _ & _ & _ & _ & G3 & G4). split; [apply G3|]. repeat (split; [assumption|]). split; [auto|discriminate].
    + destruct G as (_ & G1 & G2 & _ & _ & _ & _ & G3 & G4 & _). repeat (split; [assumption|]). split; discriminate.
    + destruct G as ((_ & G1 & G2 & _ & _ & _ & _ & G3 & G4 & _ & o1 & C1 & C2 & _) & H). repeat (split; [assumption|]). split; [discriminate|].
      intros _. unfold clean in C1. destruct (idxLine _ _ _); cbn [obind] in C1; try discriminate. rewrite H in C1. cbn [orb] in C1.
      injection C1 as _ <-. exact C2.
Qed.
Print Assumptions C132_screen_partial.

(** No such session crashes the editor (without listener and filter). *)
Theorem C132_no_crash : forall cf is v o reading h, plain_session cf -> good_config cf -> started o ->
  hist_of (RenderSpec.plain (oc_u cf)) (o_h o) -> Forall (RenderSpec.plain (oc_u cf)) (rb_kill (o_b o)) ->
  swap_turn cf v is o reading h -> exists t o' acts v' h', swap_leaves cf v is o reading h t o' acts v' h'.
Proof.
  intros cf is v o reading h C G S H K.
  assert (R : owf cf o).
  { right. clear H K. destruct S as [[] ? ? ?]. constructor; try assumption; try congruence.
    - unfold inside. rewrite ar_idx. lia.
    - now split.
    - now split.
    - intros [X|X]; congruence. }
  assert (A : at_prompt cf o).
  { destruct S as [[] ? ? ?]. constructor; try assumption; [unfold inside; rewrite ar_idx; lia|rewrite ar_buf; constructor]. }
  clear S H K. revert v o reading h R A. induction is as [|i is IH]; intros v o reading h R A T; [do 5 eexists; apply SlNil|].
  destruct i as [[|txt|r]|ps| |]; cbn [swap_turn] in T.
  - destruct T as (-> & T). destruct (IH v o true _ R A T) as (t & o' & acts & v' & h' & L). do 5 eexists. apply SlRead. exact L.
  - destruct T as ((ls & Fl & ->) & T). destruct (IH v o reading _ R A T) as (t & o' & acts & v' & h' & L). do 5 eexists. apply SlPrint; eassumption.
  - destruct T as (-> & Kr & T).
    assert (N : ~ trips cf o r).
    { unfold may_press in Kr. destruct (o_vp o) as [[]|] eqn:Vp; [apply Kr|unfold trips; rewrite Vp; tauto..|].
      rewrite (gc_filter _ G) in Kr. apply (Kr r eq_refl). }
    destruct (step_ok cf G r o R N) as (o1 & a1 & E & R1).
    destruct (key_case cf C v o r o1 a1 [] A) as (A1 & _); [exact Kr|exact E|].
    destruct (IH v o1 _ _ R1 A1 (T o1 a1 E)) as (t & o' & acts & v' & h' & L). do 5 eexists. eapply SlKey; eassumption.
  - destruct T as (_ & _ & T). destruct (IH _ o reading _ R A T) as (t & o' & acts & v' & h' & L). do 5 eexists. apply SlPrompt. exact L.
  - destruct (IH _ o reading _ R A T) as (t & o' & acts & v' & h' & L). do 5 eexists. apply SlRefresh. exact L.
  - destruct (IH _ o reading _ R A T) as (t & o' & acts & v' & h' & L). do 5 eexists. apply SlClean. exact L.
Qed.
Print Assumptions C132_no_crash.

(** Prompt "> " replaced by "a: " while "bc" is typed, shown by Refresh; entered; the prompt set again between the calls; then, with the
    line on two rows, changed between Clean and Refresh. *)
Definition c132_in : list sin :=
  [SIn IRead; SIn (IKey 98); SIn (IKey 99); SPrompt [Vis 97; Vis 58; Vis 32]; SRefresh; SIn (IKey 13); SPrompt [Vis 100; Vis 62]; SIn IRead;
   SIn (IKey 101); SIn (IKey 102); SIn (IKey 103); SIn (IKey 104); SIn (IKey 105); SClean; SPrompt [Vis 62]; SRefresh].
Definition c132_seen (is : list sin) (n : nat) : option (list (list Z) * Z * Z * list Z * nat) :=
  match pses_run c123_cf (fresh, (false, new_rdr c123_cf [Vis 62; Vis 32] (fun b _ => b))) (map calls is) with
  | Ok ((o, _), out, _) => let s := sexecs u0 6 scr0 out in Some (cells s n 6, s_row s, s_col s, rb_buf (o_b o), rb_idx (o_b o))
  | _ => None
  end.
Example C132_ex : plain_session c123_cf /\ good_prompt c123_cf [Vis 62; Vis 32] /\ at_prompt c123_cf fresh /\
  swap_turn c123_cf [62; 32] c132_in fresh false Shown /\
  (exists o' acts, swap_leaves c123_cf [62; 32] c132_in fresh false Shown [[97; 58; 32; 98; 99]] o' acts [62] Shown) /\
  c132_seen (firstn 5 c132_in) 2 = Some ([[97; 58; 32; 98; 99; 32]; [32; 32; 32; 32; 32; 32]], 0, 5, [98; 99], 2%nat) /\
  c132_seen (firstn 13 c132_in) 4 = Some ([[97; 58; 32; 98; 99; 32]; [100; 62; 101; 102; 103; 104]; [105; 32; 32; 32; 32; 32]; [32; 32; 32; 32; 32; 32]], 2, 1,
    [101; 102; 103; 104; 105], 5%nat) /\
  c132_seen c132_in 4 = Some ([[97; 58; 32; 98; 99; 32]; [62; 101; 102; 103; 104; 105]; [32; 32; 32; 32; 32; 32]; [32; 32; 32; 32; 32; 32]], 2, 0,
    [101; 102; 103; 104; 105], 5%nat).
Proof.
  split; [constructor; try reflexivity; try (apply c123_plain; reflexivity); discriminate|].
  assert (G : forall ps, Forall sgr_digits ps -> forallb (fun r => (32 <=? r) && (r <? 127)) (visible ps) = true -> Z.of_nat (length (visible ps)) + 1 < 6 -> good_prompt c123_cf ps).
  { intros ps A B D. split; [exact A|]. split; [now apply c123_plain|exact D]. }
  split; [apply G; [repeat constructor|reflexivity|reflexivity]|].
  split; [constructor; try reflexivity; try constructor; constructor|].
  split.
  - unfold c132_in.
    repeat lazymatch goal with
    | |- swap_turn _ _ [] _ _ _ => exact I
    | |- swap_turn _ _ (SIn IRead :: _) _ _ _ => split; [reflexivity|]
    | |- swap_turn _ _ (SPrompt _ :: _) _ _ _ =>
        split; [apply G; [repeat constructor|reflexivity|reflexivity]|split; [first [discriminate|intros _ X; first [now destruct X|vm_compute; reflexivity]]|]]
    | |- swap_turn ?a ?b (SRefresh :: ?c) ?d ?e _ => change (swap_turn a b c d e Shown)
    | |- swap_turn ?a ?b (SClean :: ?c) ?d true _ => change (swap_turn a b c d true Cleaned)
    | |- swap_turn _ _ (SIn (IKey ?r) :: _) _ _ _ =>
        split; [reflexivity|split; [intros r' X; injection X as <-; split; [vm_compute; intuition discriminate|split; [discriminate|left]];
          first [left; repeat split; vm_compute; congruence
                |right; left; vm_compute; tauto]|
          let o' := fresh "o" in let a := fresh "a" in let E := fresh "E" in
          intros o' a E; vm_compute in E; injection E as <- <-; cbn [results filter is_result negb next_shown]]]
    end.
  - split; [|vm_compute; repeat split].
    match goal with |- exists o a, swap_leaves _ _ _ _ _ _ ?t _ _ ?v ?h =>
      enough (X : exists t' o a v' h', swap_leaves c123_cf [62;32] c132_in fresh false Shown t' o a v' h' /\ t' = t /\ v' = v /\ h' = h) end.
    { destruct X as (t' & o & a & v' & h' & X & -> & -> & ->). eauto. }
    do 5 eexists. split; [|split; [|split]].
    + unfold c132_in.
      repeat first [apply SlNil|apply SlRead|apply SlPrompt|apply SlRefresh|apply SlClean|eapply SlKey; [vm_compute; reflexivity|]].
    + reflexivity.
    + reflexivity.
    + reflexivity.
Qed.

(** A shorter prompt set while the line is on two rows: the old prompt and the line's first row stay on the screen. *)
Theorem C132_shorter_refuted : exists is, map calls is = map calls (firstn 8 is ++ [SPrompt [Vis 62]; SRefresh]) /\
  c132_seen is 4 = Some ([[62; 32; 97; 32; 32; 32]; [62; 32; 97; 98; 99; 100]; [62; 97; 98; 99; 100; 32]; [32; 32; 32; 32; 32; 32]], 2, 5,
    [97; 98; 99; 100], 4%nat).
Proof.
  exists ([SIn IRead; SIn (IKey 97); SIn (IKey 13); SIn IRead; SIn (IKey 97); SIn (IKey 98); SIn (IKey 99); SIn (IKey 100); SPrompt [Vis 62]; SRefresh]).
  split; vm_compute; reflexivity.
Qed.

(** A longer prompt with which the line would take two rows: Refresh erases the row above, here the line entered before. *)
Theorem C132_longer_refuted : exists is, map calls is = map calls (firstn 7 is ++ [SPrompt [Vis 97; Vis 58; Vis 32]; SRefresh]) /\
  c132_seen (firstn 3 is) 1 = Some ([[62; 32; 97; 32; 32; 32]], 1, 0, [], 0%nat) /\
  c132_seen is 2 = Some ([[97; 58; 32; 97; 98; 99]; [32; 32; 32; 32; 32; 32]], 1, 0, [97; 98; 99], 3%nat).
Proof.
  exists ([SIn IRead; SIn (IKey 97); SIn (IKey 13); SIn IRead; SIn (IKey 97); SIn (IKey 98); SIn (IKey 99); SPrompt [Vis 97; Vis 58; Vis 32]; SRefresh]).
  repeat split; vm_compute; reflexivity.
Qed.
