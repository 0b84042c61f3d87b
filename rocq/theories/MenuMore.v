(** Proofs about the highlighted candidate and redrawing. *)
From Verif Require Import Base ListAux RunesModel RunesSpec RunesProofs RuneBufModel RuneBufSpec TerminalModel ScreenModel RenderModel RenderSpec RenderProofs RenderDraw OpModel MenuSpec MenuProofs.
From Coq Require Import ZifyBool.
Open Scope Z_scope.
(** *** the highlighted candidate *)
Lemma cells_before u same cw cols ch sel sel' cs : forall i j, ch < i \/ i + Z.of_nat (length cs) <= ch ->
  cells_out u same cw cols ch sel cs i j = cells_out u same cw cols ch sel' cs i j.
Proof.
  induction cs as [|c cs IH]; intros i j H; [reflexivity|]. cbn [length] in H. cbn [cells_out]. replace (i =? ch) with false by lia. cbn [andb].
  destruct (Repeat 32 _); cbn [obind]; [|reflexivity..]. now rewrite IH by lia.
Qed.

Lemma cells_chosen u same cw cols ch cs c : forall i j out m, cells_out u same cw cols ch true cs i j = Ok (out, m) -> i <= ch ->
  nth_error cs (Z.to_nat (ch - i)) = Some c ->
  exists a z sp, out = a ++ [27; 91; 51; 48; 59; 52; 55; 109] ++ (same ++ c ++ repeat 32 sp) ++ [27; 91; 48; 109] ++ z /\
    cells_out u same cw cols ch false cs i j = Ok (a ++ (same ++ c ++ repeat 32 sp) ++ z, m).
Proof.
  induction cs as [|x cs IH]; intros i j out m E L N; [destruct (Z.to_nat _); discriminate|]. cbn [cells_out] in *.
  unfold Repeat in *. destruct (_ <? 0); cbn [obind] in *; try discriminate.
  destruct (Z.eqb_spec i ch) as [->|Ne]; cbn [andb] in *.
  - replace (Z.to_nat (ch - ch)) with 0%nat in N by lia. cbn in N. injection N as ->.
    rewrite <- (cells_before u same cw cols ch true false cs) by lia. destruct (cells_out _ _ _ _ _ _ _ _ _) as [[o1 m1]| |]; cbn [obind fst snd] in *; try discriminate.
    injection E as <- <-. eexists [], _, _. split; [cbn [app]; rewrite <- !app_assoc; reflexivity|]. cbn [app]. now rewrite <- !app_assoc.
  - destruct (cells_out u same cw cols ch true cs _ _) as [[o1 m1]| |] eqn:E1; cbn [obind fst snd] in *; try discriminate. injection E as <- <-.
    replace (Z.to_nat (ch - i)) with (S (Z.to_nat (ch - (i + 1)))) in N by lia. cbn in N.
    destruct (IH _ _ _ _ E1 ltac:(lia) N) as (a & z & sp & -> & E2). rewrite E2. cbn [obind fst snd].
    cbn [app]. match goal with |- context [same ++ x ++ ?y ++ ?t ++ a ++ ?q] => exists ((same ++ x ++ y ++ t) ++ a), z, sp end.
    cbn [app]. rewrite <- !app_assoc. split; reflexivity.
Qed.

Definition no_select (c : comp) : comp :=
  {| c_in := c_in c; c_sel := false; c_cand := c_cand c; c_src := c_src c; c_off := c_off c; c_choice := c_choice c; c_col := c_col c |}.

Lemma menu_chosen cf c b out n x : menu_out cf c b = Ok (out, n) -> c_sel c = true -> 0 <= c_choice c -> nth_error (c_cand c) (Z.to_nat (c_choice c)) = Some x ->
  exists a z sp same, RuneSlice (- c_off c) b = Ok same /\
    out = a ++ [27; 91; 51; 48; 59; 52; 55; 109] ++ (same ++ x ++ repeat 32 sp) ++ [27; 91; 48; 109] ++ z /\
    menu_out cf (no_select c) b = Ok (a ++ (same ++ x ++ repeat 32 sp) ++ z, n).
Proof.
  intros E S Ch N. unfold menu_out, no_select in *. cbn [c_off c_cand c_choice c_sel] in *. rewrite S in E.
  destruct (CursorLineCount cf b) as [lc| |]; cbn [obind] in *; try discriminate.
  destruct (RuneSlice _ _) as [same| |]; cbn [obind] in *; try discriminate. destruct (_ =? 0); [discriminate|].
  destruct (Repeat 10 lc) as [nl| |]; cbn [obind] in *; try discriminate.
  destruct (cells_out _ _ _ _ _ _ _ _ _) as [[o1 m1]| |] eqn:E1; cbn [obind] in E; try discriminate.
  destruct (cells_chosen _ _ _ _ _ _ x _ _ _ _ E1 Ch ltac:(rewrite Z.sub_0_r; exact N)) as (a & z & sp & -> & E2). rewrite E2. cbn [obind].
  destruct (promptLen _ _) as [p| |]; cbn [obind fst snd] in *; try discriminate.
  match type of E with Ok (nl ++ ?q ++ ?r ++ ?t, ?n) = _ => set (tail := t) in *; set (hd := q) in * end. clearbody tail hd. injection E as <- <-.
  exists (nl ++ hd ++ a), (z ++ tail), sp, same. split; [reflexivity|].
  cbn [app]. do 12 (rewrite <- ?app_assoc; cbn [app]). split; reflexivity.
Qed.

Lemma cells_unselected u same cw cols ch cs : forall i j out m, cells_out u same cw cols ch false cs i j = Ok (out, m) ->
  ~ In 27 same -> Forall (fun c => ~ In 27 c) cs -> ~ In 27 out.
Proof.
  induction cs as [|x cs IH]; intros i j out m E S F; cbn [cells_out] in E; [injection E as <- <-; auto|].
  unfold Repeat in E. destruct (_ <? 0); cbn [obind] in E; try discriminate. rewrite andb_false_r in E.
  destruct (cells_out _ _ _ _ _ _ cs _ _) as [[o1 m1]| |] eqn:E1; cbn [obind fst snd] in E; try discriminate. injection E as <- <-. cbn [app].
  inversion F as [|? ? F1 F2]; subst. specialize (IH _ _ _ _ E1 S F2). rewrite !in_app_iff. intros [H|[H|[H|[H|H]]]]; auto.
  - apply repeat_spec in H. discriminate.
  - destruct (_ =? _) in H; cbn in H; intuition discriminate.
Qed.

(** *** redrawing the line with something below it *)
Lemma refresh_over u ps d b i y0 s : uenv_ok u -> drawable u ps d -> drawable u ps (with_line b i d) -> d_had d = false ->
  cursor_at (d_width d) y0 (Z.of_nat (length (visible ps) + d_idx d)) s ->
  exists d' o, refresh u d b i [] = Ok (d', o) /\ d' = with_had false (with_line b i d) /\
    displayed ps d' y0 (sexecs u (d_width d) s o) /\ same_above y0 s (sexecs u (d_width d) s o).
Proof.
  intros U D D' H (C1 & C2 & C3 & C4). pose proof (dr_width _ _ _ D) as W.
  assert (X : exists o, clean u d = Ok (with_had true d, o) /\ free_from (d_width d) y0 (sexecs u (d_width d) s o) /\ same_above y0 s (sexecs u (d_width d) s o)).
  { unfold clean. rewrite (idxLine_ok u ps d D). cbn [obind]. rewrite H, (dr_inter _ _ _ D). cbn [orb negb].
    unfold cleanOutput. destruct (Z.eqb_spec (d_width d) 0); [lia|]. cbn [obind].
    eexists. split; [reflexivity|]. match goal with |- context [Z.to_nat ?l] => set (line := l) in * end.
    destruct (clean_all u (d_width d) s y0 line C4) as (A & B).
    - apply Z.div_pos; lia.
    - rewrite C1. unfold row_of, line. f_equal. f_equal. lia.
    - split; [apply (cleaned_free ps); [lia|exact A]|exact B]. }
  destruct X as (o1 & X1 & X2 & X3).
  unfold refresh. rewrite (dr_inter _ _ _ D). cbn [negb]. rewrite X1. cbn [obind fst snd app].
  change (with_line b i (with_had true d)) with (with_had true (with_line b i d)).
  destruct (output_shows u ps U (with_had true (with_line b i d)) y0 _ (drawable_had _ _ _ true D') X2) as (o2 & P1 & P2 & P3).
  unfold print. rewrite P1. cbn [obind fst snd].
  exists (with_had false (with_line b i d)), (o1 ++ o2). split; [reflexivity|]. split; [reflexivity|].
  rewrite sexecs_app. split; [exact P2|]. eapply same_above_trans; [exact X3|exact P3].
Qed.

Lemma displayed_line ps d y0 s : displayed ps d y0 s ->
  line_shown (d_width d) y0 (visible ps ++ d_buf d) (Z.of_nat (length (visible ps)) + Z.of_nat (d_idx d)) s.
Proof. intros (T & C). split; [intros y x Hy Hx; apply T; lia|]. now rewrite <- Nat2Z.inj_add. Qed.
