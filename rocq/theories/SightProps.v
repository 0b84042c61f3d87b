(** Property C130: searching and completing on a terminal with a given number of rows. *)
From Verif Require Import Base ListAux RunesModel RunesSpec RuneBufModel RuneBufSpec HistoryModel HistoryProofs TerminalModel ScreenModel RenderModel RenderSpec RenderProofs RenderSession RenderProps MenuSpec OpModel OpSpec OpProofs OpStep OpKeys OpProps OutModel OutSpec OutProofs OutProps SeekModel SeekSpec SeekProofs SeekProps CompModel CompSpec CompDraw CompProofs CompProps ViewModel ViewSpec SightSpec SightProofs.
Open Scope Z_scope.

(** The sessions of C125 (Tab, arrows among candidates and searches among the keys) on a terminal of [H] rows none of the
    drawings is higher than: the rows are those of C125, and prompt, line and the status or the candidates below it are in
    view as a whole. *)
Theorem C130_screen : forall H cf ps paint is o y0 s top, 0 < H -> comp_session cf ps -> uenv_ok (oc_u cf) ->
  oc_w cf <= 9223372036854775807 -> Forall sgr_digits ps -> Forall (RenderSpec.plain (oc_u cf)) (visible ps) ->
  Z.of_nat (length (visible ps)) + 1 < oc_w cf -> colouring (oc_u cf) paint ->
  started o -> hist_of (RenderSpec.plain (oc_u cf)) (o_h o) -> Forall (RenderSpec.plain (oc_u cf)) (rb_kill (o_b o)) ->
  comp_turn cf (visible ps) is o false -> room H cf (visible ps) is o ->
  free_from (oc_w cf) y0 s -> top <= y0 <= top + H - 1 ->
  exists st out t o' acts, comp_run cf (o, (false, new_rdr cf ps paint)) is = Ok ((o', st), out, acts) /\
    leaves cf (visible ps) is o t o' acts /\
    let x := xexecs H (oc_u cf) (oc_w cf) (s, top) out in
    let k := {| k_done := t; k_line := rb_buf (o_b o'); k_idx := rb_idx (o_b o'); k_reading := fst st |} in
    comp_screen (oc_w cf) (visible ps) y0 k (under_of o') (fst x) /\
    all_in_sight H (oc_w cf) (visible ps) y0 k (under_of o') (snd x) /\
    same_above y0 s (fst x) /\ top <= snd x /\ fst x = sexecs (oc_u cf) (oc_w cf) s out.
Proof.
  intros H cf ps paint is o y0 s top HP C U W PD PV PS Pt S Hh K T Rm F Tp. pose proof (gc_w _ (ss_good _ _ (cs_seek _ _ C))) as W0.
  assert (R : owf cf o).
  { right. clear Hh K F Rm T. destruct S as [[] ? ? ?]. constructor; try assumption; try congruence.
    - unfold inside. rewrite ar_idx. lia.
    - now split.
    - now split.
    - intros [X|X]; congruence. }
  assert (A : at_seek cf o).
  { destruct S as [[] ? ? ?]. constructor; [constructor; try assumption; try reflexivity; [unfold inside; cbn; rewrite ar_idx; lia|cbn; rewrite ar_buf; constructor]|rewrite <- ?st_data; cbn|].
    - match goal with X : s_data (o_s o) = [] |- _ => rewrite X end. constructor.
    - match goal with X : o_vp o = None |- _ => exact X end. }
  assert (Si : s_in (o_s o) = false) by (destruct S as [[] ? ? ?]; assumption).
  assert (Ci : c_in (o_c o) = false) by (destruct S as [[] ? ? ?]; assumption).
  assert (So : under_of o = UNone) by (apply under_none; assumption).
  assert (B : rb_buf (o_b o) = [] /\ rb_idx (o_b o) = 0%nat) by (destruct S as [[] ? ? ?]; auto). destruct B as (B & I).
  destruct (comp_view H HP cf ps C (conj W0 W) U PD PV PS is o false [] (false, new_rdr cf ps paint) y0 s s top R (or_introl A))
    as (st & out & t & o' & acts & top' & E & L & V & Tp' & G & Sg).
  - intros X. congruence.
  - intros X. congruence.
  - exact T.
  - exact Rm.
  - rewrite So. unfold cagrees, sagrees, agrees. cbn. rewrite B, I. split; [constructor; cbn; auto|].
    repeat (split; [first [reflexivity|apply Forall_nil|apply le_n|discriminate]|]).
    split; [|apply same_above_refl]. split; [exact Logic.I|]. cbn. rewrite Z.add_0_r. exact F.
  - rewrite So. unfold all_in_sight. cbn. lia.
  - exists st, out, t, o', acts. split; [exact E|]. split; [exact L|]. cbn zeta. cbn [app] in G, Sg. rewrite V. cbn [fst snd].
    destruct (under_of o') as [|x|c ws]; cbn [cagrees sagrees] in G.
    + destruct G as (_ & G1 & G2 & _ & _ & _ & _ & _ & G3 & G4). auto.
    + destruct G as (_ & G1 & G2 & _ & _ & _ & _ & _ & G3 & G4). auto.
    + destruct G as ((_ & G1 & G2 & _ & _ & _ & _ & _ & _ & _ & G4) & G3). auto.
Qed.
Print Assumptions C130_screen.

Definition c130_seen (H : Z) (cf : ocfg) (is : list inp) (n : nat) : option (list (list Z) * Z * Z * Z) :=
  match comp_run cf (c125_o, (false, new_rdr cf [Vis 62; Vis 32] (fun b _ => b))) is with
  | Ok (_, out, _) => let x := xexecs H u0 30 (scr0, 0) out in Some (cells (fst x) n 30, s_row (fst x), s_col (fst x), snd x)
  | _ => None
  end.

(** The keys of C125_ex, then a search for "x", on a screen of two rows. *)
Definition c130_in : list inp := c125_in ++ [IKey 13; IKey 18; IKey 120].
Example C130_ex :
  comp_turn c125_cf [62;32] c130_in c125_o false /\ room 2 c125_cf [62;32] c130_in c125_o /\
  (* "hi" has scrolled out: line and candidates are in view *)
  c130_seen 2 c125_cf c125_in 4 = Some
    ([row30 [104;105]; row30 [62;32;97]; row30 [97;98;99;32;97;100]; row30 []], 1, 3, 1) /\
  (* the line found, and the status *)
  c130_seen 2 c125_cf c130_in 4 = Some
    ([row30 [104;105]; row30 [62;32;120]; row30 [98;99;107;45;105;45;115;101;97;114;99;104;58;32;120]; row30 []], 1, 2, 1).
Proof.
  split; [|split; [|split; vm_compute; reflexivity]].
  - unfold c130_in, c125_in. cbn [app].
    repeat lazymatch goal with
    | |- comp_turn _ _ [] _ _ => exact I
    | |- comp_turn _ _ (IRead :: _) _ _ => split; [reflexivity|]
    | |- comp_turn _ _ (IPrint [?a; ?b; 10] :: _) _ _ => split; [exists [[a; b]]; split; [repeat constructor; vm_compute; intuition congruence|reflexivity]|]
    | |- comp_turn _ _ (IKey ?r :: _) _ _ =>
        split; [reflexivity|split; [split; [vm_compute; intuition discriminate|split; [discriminate|
            first [left; left; repeat split; vm_compute; congruence
                  |left; right; left; vm_compute; tauto
                  |right; left; split; [vm_compute; tauto|reflexivity]
                  |right; right; split; reflexivity]]]|
          let o' := fresh "o" in let a := fresh "a" in let E := fresh "E" in
          intros o' a E; vm_compute in E; injection E as <- <-; cbn [results filter is_result];
          split; [vm_compute; intuition (try congruence; try discriminate; try lia)|
          split; [vm_compute; intuition (try congruence; try discriminate; try lia)|]]]]
    end.
  - unfold c130_in, c125_in. cbn [app].
    repeat lazymatch goal with
    | |- room _ _ _ [] _ => exact I
    | |- room ?H ?cf ?v (IRead :: ?is) ?o => change (room H cf v is o)
    | |- room ?H ?cf ?v (IPrint _ :: ?is) ?o => change (room H cf v is o)
    | |- room _ _ _ (IKey ?r :: _) _ => split;
        [let es := fresh "es" in let E := fresh "E" in intros es E; vm_compute in E; injection E as <-;
         repeat (constructor; [try exact I; try (vm_compute; reflexivity);
           let out := fresh "out" in let n := fresh "n" in let M := fresh "M" in intros out n M; vm_compute in M; injection M as <- <-; vm_compute; reflexivity|]); constructor
        |let o' := fresh "o" in let a := fresh "a" in let E := fresh "E" in intros o' a E; vm_compute in E; injection E as <- <-]
    end.
Qed.

(** A table of candidates higher than the screen: the movement back up stops at the top row, and what is drawn next is not
    where the line was. *)
Definition c130_wide : list Z -> nat -> list (list Z) * nat := fun _ _ =>
  (map (fun c => repeat c 12) [98;99;100;101], 1%nat).
Definition c130_cf : ocfg :=
  {| oc_u := u0; oc_h := {| hc_limit := 500; hc_fold := false; hc_file := false |}; oc_w := 30; oc_prompt := [62;32];
     oc_auto := Some c130_wide; oc_vim := false; oc_unique := false; oc_nosave := false; oc_listen := None; oc_filter := None;
     oc_eofp := [94;68]; oc_intp := [94;67] |}.
Theorem C130_menu_refuted : exists H cf is, 0 < H /\
  (* the session of C125's terminal ends with the line on row 0 *)
  c130_seen 100 cf is 4 = Some ([row30 [62;32;97]; row30 []; row30 []; row30 []], 0, 3, 0) /\
  (* here the line "a" stands on three rows, drawn again by each redraw *)
  c130_seen H cf is 4 = Some ([row30 [62;32;97]; row30 [62;32;97]; row30 [62;32;97]; row30 []], 2, 3, 2).
Proof. exists 3, c130_cf, [IRead; IKey 97; IKey 9; IKey 7]. repeat split; vm_compute; reflexivity. Qed.

(** A line over all the rows: the status of the search scrolls its first row away, and the row of the prompt is drawn twice. *)
Theorem C130_status_refuted : exists H cf is, 0 < H /\
  c130_seen 100 cf is 3 = Some ([[62;32] ++ repeat 97 28; row30 [97;97]; row30 []], 1, 2, 0) /\
  c130_seen H cf is 3 = Some ([[62;32] ++ repeat 97 28; [62;32] ++ repeat 97 28; row30 [97;97]], 2, 2, 1).
Proof. exists 2, c130_cf, (IRead :: map IKey (repeat 97 30 ++ [18; 7])). repeat split; vm_compute; reflexivity. Qed.
