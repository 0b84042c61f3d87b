(** Property C124: the screen during a history search. *)
From Verif Require Import Base ListAux RunesModel RunesSpec RuneBufModel RuneBufSpec HistoryModel HistoryProofs ScreenModel RenderModel RenderSpec RenderProofs RenderSession RenderProps MenuSpec OpModel OpSpec OpProofs OpStep OpKeys OpProps OutModel OutSpec OutProofs OutProps SeekModel SeekSpec SeekProofs.
Open Scope Z_scope.

(** After any Readline calls, keys (searches among them) and printed lines in a possible order: no key crashes the
    editor, and the screen shows, from the row the session started on, what was entered and printed so far, then prompt
    and line of the editor with the cursor in place, and while a search is on the status of the search in the row below
    the line; nothing else from there on. *)
Theorem C124_screen : forall cf ps paint is o y0 s, seek_session cf ps -> uenv_ok (oc_u cf) ->
  oc_w cf <= 9223372036854775807 -> Forall sgr_digits ps -> Forall (RenderSpec.plain (oc_u cf)) (visible ps) ->
  Z.of_nat (length (visible ps)) + 1 < oc_w cf -> colouring (oc_u cf) paint ->
  started o -> hist_of (RenderSpec.plain (oc_u cf)) (o_h o) -> Forall (RenderSpec.plain (oc_u cf)) (rb_kill (o_b o)) ->
  seek_turn cf (visible ps) is o false -> free_from (oc_w cf) y0 s ->
  exists st out t o' acts, seek_run cf (o, (false, new_rdr cf ps paint)) is = Ok ((o', st), out, acts) /\
    leaves cf (visible ps) is o t o' acts /\
    let s' := sexecs (oc_u cf) (oc_w cf) s out in
    seek_screen (oc_w cf) (visible ps) y0
      {| k_done := t; k_line := rb_buf (o_b o'); k_idx := rb_idx (o_b o'); k_reading := fst st |} (status_of o') s' /\
    same_above y0 s s' /\ d_buf (snd st) = rb_buf (o_b o') /\ d_idx (snd st) = rb_idx (o_b o').
Proof.
  intros cf ps paint is o y0 s C U W PD PV PS Pt S H K T F. pose proof (gc_w _ (ss_good _ _ C)) as W0.
  assert (R : owf cf o).
  { right. clear H K F. destruct S as [[] ? ? ?]. constructor; try assumption; try congruence.
    - unfold inside. rewrite ar_idx. lia.
    - now split.
    - now split.
    - intros [X|X]; congruence. }
  assert (A : at_seek cf o).
  { destruct S as [[] ? ? ?]. constructor; [constructor; try assumption; try reflexivity; [unfold inside; cbn; rewrite ar_idx; lia|cbn; rewrite ar_buf; constructor]|rewrite <- ?st_data; cbn|].
    - match goal with X : s_data (o_s o) = [] |- _ => rewrite X end. constructor.
    - match goal with X : o_vp o = None |- _ => exact X end. }
  assert (Si : s_in (o_s o) = false) by (destruct S as [[] ? ? ?]; assumption).
  assert (So : status_of o = None) by (unfold status_of; now rewrite Si).
  assert (B : rb_buf (o_b o) = [] /\ rb_idx (o_b o) = 0%nat) by (destruct S as [[] ? ? ?]; auto). destruct B as (B & I).
  destruct (seek_agrees cf ps C (conj W0 W) U PD PV PS is o false [] (false, new_rdr cf ps paint) y0 s s R A) as (st & out & t & o' & acts & E & L & A' & G).
  - intros X. congruence.
  - exact T.
  - rewrite So. unfold sagrees, agrees. cbn. rewrite B, I. split; [constructor; cbn; auto|].
    repeat (split; [first [reflexivity|apply Forall_nil|apply le_n|discriminate]|]).
    split; [|apply same_above_refl]. split; [exact Logic.I|]. cbn. rewrite Z.add_0_r. exact F.
  - exists st, out, t, o', acts. split; [exact E|]. split; [exact L|]. cbn zeta. unfold sagrees in G. cbn [app] in G.
    destruct (status_of o') as [x|].
    + destruct G as (_ & G1 & G2 & _ & _ & _ & _ & _ & G3 & G4). auto.
    + destruct G as (_ & G1 & G2 & _ & _ & _ & _ & _ & G3 & G4). auto.
Qed.
Print Assumptions C124_screen.

(** "abc" was entered before, now "xbz"; Ctrl-R, "b" finds the second, "hi" is printed, Ctrl-R finds the first, "q" finds nothing.
    Screen of 30 columns. *)
Definition c124_cf : ocfg :=
  {| oc_u := u0; oc_h := {| hc_limit := 500; hc_fold := false; hc_file := false |}; oc_w := 30; oc_prompt := [62;32];
     oc_auto := None; oc_vim := false; oc_unique := false; oc_nosave := false; oc_listen := None; oc_filter := None;
     oc_eofp := [94;68]; oc_intp := [94;67] |}.
Definition c124_o : op := match op_run c124_cf [97; 98; 99; 13] fresh with Ok (o, _) => o | _ => fresh end.
Definition c124_in : list inp :=
  [IRead; IKey 120; IKey 98; IKey 122; IKey 13; IRead; IKey 18; IKey 98; IPrint [104; 105; 10]; IKey 18; IKey 113].
Definition c124_seen (is : list inp) (n : nat) : option (list (list Z) * Z * Z) :=
  match seek_run c124_cf (c124_o, (false, new_rdr c124_cf [Vis 62; Vis 32] (fun b _ => b))) is with
  | Ok (_, out, _) => let s := sexecs u0 30 scr0 out in Some (cells s n 30, s_row s, s_col s)
  | _ => None
  end.
Definition row30 (l : list Z) : list Z := l ++ repeat 32 (30 - length l).
Example C124_ex :
  seek_session c124_cf [Vis 62; Vis 32] /\ started c124_o /\ hist_of (RenderSpec.plain u0) (o_h c124_o) /\ seek_turn c124_cf [62;32] (c124_in ++ [IKey 127; IKey 1; IKey 13]) c124_o false /\
  (* "failing bck-i-search: bq" below the line "abc", the cursor at its "b" *)
  c124_seen c124_in 5 = Some
    ([row30 [62;32;120;98;122]; row30 [104;105]; row30 [62;32;97;98;99];
      row30 [102;97;105;108;105;110;103;32;98;99;107;45;105;45;115;101;97;114;99;104;58;32;98;113]; row30 []], 2, 3) /\
  (* Backspace: "bck-i-search: b" *)
  c124_seen (c124_in ++ [IKey 127]) 5 = Some
    ([row30 [62;32;120;98;122]; row30 [104;105]; row30 [62;32;97;98;99];
      row30 [98;99;107;45;105;45;115;101;97;114;99;104;58;32;98]; row30 []], 2, 3) /\
  (* then Ctrl-A and Enter: the line is entered, the status gone *)
  c124_seen (c124_in ++ [IKey 127; IKey 1; IKey 13]) 5 = Some
    ([row30 [62;32;120;98;122]; row30 [104;105]; row30 [62;32;97;98;99]; row30 []; row30 []], 3, 0).
Proof.
  split.
  { constructor.
    - constructor; try reflexivity; try discriminate. eexists. vm_compute. reflexivity.
    - reflexivity.
    - apply c123_plain; reflexivity.
    - apply c123_plain; reflexivity.
    - reflexivity.
    - intros r H. pose proof (u0_plain [r]) as X. apply (Forall_inv (X ltac:(repeat constructor; lia))). }
  split.
  { vm_compute. constructor; try reflexivity; try discriminate. constructor; try reflexivity.
    constructor; cbn; [repeat constructor; cbn; intuition discriminate| | |tauto]; repeat constructor; cbn; lia. }
  split; [split; apply Forall_forall; intros x X; vm_compute in X; intuition (subst x; split; cbn; apply c123_plain; reflexivity)|].
  split; [|repeat split; vm_compute; reflexivity].
  unfold c124_in. cbn [app].
  repeat lazymatch goal with
  | |- seek_turn _ _ [] _ _ => exact I
  | |- seek_turn _ _ (IRead :: _) _ _ => split; [reflexivity|]
  | |- seek_turn _ _ (IPrint [?a; ?b; 10] :: _) _ _ => split; [exists [[a; b]]; split; [repeat constructor; vm_compute; intuition congruence|reflexivity]|]
  | |- seek_turn _ _ (IKey ?r :: _) _ _ =>
      split; [reflexivity|split; [split; [vm_compute; intuition discriminate|split; [discriminate|
          first [left; left; repeat split; vm_compute; congruence
                |left; right; left; vm_compute; tauto
                |right; vm_compute; tauto]]]|
        let o' := fresh "o" in let a := fresh "a" in let E := fresh "E" in
        intros o' a E; vm_compute in E; injection E as <- <-; cbn [results filter is_result];
        split; [vm_compute; intuition (try congruence; try discriminate; try lia)|]]]
  end.
Qed.
