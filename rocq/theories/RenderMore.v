(** Row splitting, termination, masking, and the link from editing commands to redraws. *)
From Verif Require Import Base ListAux RunesModel RunesSpec RunesProofs TerminalModel RuneBufModel RuneBufSpec RuneBufProofs ScreenModel RenderModel RenderSpec RenderProofs RenderDraw RenderSession.
From Coq Require Import ZifyBool.
Open Scope Z_scope.

(** ** Splitting *)
Lemma split_concat u w rs : forall cur c, concat (split_loop u w rs cur c) = cur ++ rs.
Proof.
  induction rs as [|r rs IH]; intros cur c; cbn [split_loop].
  - cbn. reflexivity.
  - destruct (_ >=? _); cbn [concat]; rewrite IH; cbn [app]; now rewrite <- app_assoc.
Qed.

Lemma WidthAll_snoc u l r : WidthAll u (l ++ [r]) = (WidthAll u l + Width u r)%nat.
Proof. unfold WidthAll. now rewrite fold_left_app. Qed.

Lemma app_snoc_split {A} (a b l : list A) x : a ++ b = l ++ [x] -> b <> [] -> exists b', b = b' ++ [x] /\ l = a ++ b'.
Proof.
  intros E N. destruct (rev b) as [|y q] eqn:R.
  - apply (f_equal (@rev A)) in R. rewrite rev_involutive in R. cbn in R. contradiction.
  - apply (f_equal (@rev A)) in R. rewrite rev_involutive in R. cbn in R. subst b. rewrite app_assoc in E.
    apply app_inj_tail in E. destruct E as (E & ->). exists (rev q). now split.
Qed.

Lemma split_rows u w rs : forall start cur, (forall a b, cur = a ++ b -> a <> [] -> ~ filled u w start a) ->
  rows_ok u w start (split_loop u w rs cur (start + Z.of_nat (WidthAll u cur))).
Proof.
  induction rs as [|r rs IH]; intros start cur H; cbn [split_loop].
  - cbn [rows_ok]. destruct cur as [|x cur]; [now left|right]. apply (H (x :: cur) []); [now rewrite app_nil_r|discriminate].
  - replace (start + Z.of_nat (WidthAll u cur) + Z.of_nat (Width u r)) with (start + Z.of_nat (WidthAll u (cur ++ [r])))
      by (rewrite WidthAll_snoc; lia).
    assert (P : forall a b, cur ++ [r] = a ++ b -> a <> [] -> b <> [] -> ~ filled u w start a).
    { intros a b E A B. symmetry in E. apply app_snoc_split in E; [|exact B]. destruct E as (b' & -> & ->). now apply (H a b'). }
    destruct (_ >=? w) eqn:G.
    + assert (K : rows_ok u w 0 (split_loop u w rs [] 0)).
      { apply (IH 0 []). intros a b E A. destruct a; [congruence|discriminate]. }
      cbn [rows_ok]. destruct (split_loop u w rs [] 0) eqn:Sp; [destruct K|].
      split; [unfold filled; lia|]. split; [exact P|]. split; [destruct cur; discriminate|exact K].
    + apply IH. intros a b E A. destruct b as [|y b].
      * rewrite app_nil_r in E. subst a. unfold filled. lia.
      * apply (P a (y :: b)); [exact E|exact A|discriminate].
Qed.

(** ** Termination *)
Lemma split_last_some u w rs cur c : exists l q, rev (split_loop u w rs cur c) = l :: q.
Proof.
  assert (N : split_loop u w rs cur c <> []).
  { revert cur c. induction rs as [|r rs IH]; intros cur c; cbn [split_loop]; [discriminate|]. destruct (_ >=? _); [discriminate|apply IH]. }
  destruct (rev (split_loop u w rs cur c)) as [|l q] eqn:E; [|now exists l, q].
  apply (f_equal (@rev _)) in E. rewrite rev_involutive in E. now elim N.
Qed.

Definition redraw_ends (u : uenv) (d : rdr) (p : Z) : Prop :=
  (length (d_buf d) <= d_idx d)%nat \/ WidthAll u (d_buf d) = 0%nat \/
  (0 < d_width d /\ (p = 0 \/ p mod d_width d <> 0)).

Lemma redraw_ends_dec u d p : redraw_ends u d p \/ ~ redraw_ends u d p.
Proof.
  unfold redraw_ends. destruct (le_lt_dec (length (d_buf d)) (d_idx d)); [tauto|].
  destruct (Nat.eq_dec (WidthAll u (d_buf d)) 0); [tauto|].
  destruct (Z_lt_dec 0 (d_width d)); [|right; lia].
  destruct (Z.eq_dec p 0); [tauto|]. destruct (Z.eq_dec (p mod d_width d) 0); [right; lia|tauto].
Qed.

Lemma output_hang u d f : ColorFilter (d_prompt d) = Ok f ->
  let p := Z.of_nat (WidthAll u f) in
  (redraw_ends u d p -> exists o, output u d = Ok o) /\
  (~ redraw_ends u d p -> output u d = Hang /\
     forall fuel, sep_loop fuel (Z.of_nat (WidthAll u (d_buf d))) p (d_width d) 0 [] = None).
Proof.
  intros F p. assert (Pl : promptLen u d = Ok p) by (unfold promptLen; now rewrite F).
  assert (Eg : exists e, isInLineEdge u d = Ok e).
  { unfold isInLineEdge, getSplitByLine. rewrite Pl. cbn [obind]. unfold SplitByLine.
    destruct (split_last_some u (d_width d) (d_buf d) [] p) as (l & q & ->). eexists. reflexivity. }
  destruct Eg as (e & Eg). split.
  - intros R. unfold output.
    assert (B : exists back, (if (d_idx d <? length (d_buf d))%nat then getBackspaceSequence u d else Ok []) = Ok back).
    { destruct (Nat.ltb_spec (d_idx d) (length (d_buf d))) as [L|L]; [|eexists; reflexivity].
      unfold getBackspaceSequence. rewrite Pl. cbn [obind].
      destruct (sep_loop_fuel (Z.of_nat (WidthAll u (d_buf d))) p (d_width d)) as (sep & A & _); [lia|lia| |rewrite A; eexists; reflexivity].
      unfold sep_done. destruct R as [R|[R|R]]; [lia|left; lia|right; exact R]. }
    destruct B as (back & B). rewrite B. cbn [obind]. rewrite Eg. cbn [obind].
    destruct (d_mask d); destruct (d_buf d); eexists; reflexivity.
  - intros R. assert (D : ~ sep_done (Z.of_nat (WidthAll u (d_buf d))) p (d_width d)).
    { unfold redraw_ends, sep_done in *. intros D. apply R. destruct D as [D|D]; [right; left; lia|right; right; exact D]. }
    pose proof (sep_loop_never _ p (d_width d) (Nat2Z.is_nonneg _) (Nat2Z.is_nonneg _) D) as N. split; [|exact N].
    unfold output. replace (d_idx d <? length (d_buf d))%nat with true by (unfold redraw_ends in R; lia).
    unfold getBackspaceSequence. rewrite Pl. cbn [obind]. rewrite N. reflexivity.
Qed.

(** ** Masking *)
(** Two states that differ only in the characters of the line. *)
Record masked_alike (d1 d2 : rdr) : Prop := {
  ma_prompt : d_prompt d1 = d_prompt d2; ma_idx : d_idx d1 = d_idx d2; ma_width : d_width d1 = d_width d2;
  ma_had : d_had d1 = d_had d2; ma_inter : d_inter d1 = d_inter d2; ma_paint : d_paint d1 = d_paint d2;
  ma_mask : exists m, d_mask d1 = Some m /\ d_mask d2 = Some m
}.

Lemma promptLen_alike u d1 d2 : masked_alike d1 d2 -> promptLen u d1 = promptLen u d2.
Proof. intros []. unfold promptLen. now rewrite ma_prompt0. Qed.

Lemma back_alike u d1 d2 : masked_alike d1 d2 -> length (d_buf d1) = length (d_buf d2) ->
  WidthAll u (d_buf d1) = WidthAll u (d_buf d2) -> getBackspaceSequence u d1 = getBackspaceSequence u d2.
Proof.
  intros M L A. unfold getBackspaceSequence. rewrite (promptLen_alike u d1 d2 M), L, A.
  now rewrite (ma_idx _ _ M), (ma_width _ _ M).
Qed.

Lemma output_alike u d1 d2 : masked_alike d1 d2 -> length (d_buf d1) = length (d_buf d2) ->
  WidthAll u (d_buf d1) = WidthAll u (d_buf d2) -> (last (d_buf d1) 0 =? 10) = (last (d_buf d2) 0 =? 10) ->
  output u d1 = output u d2.
Proof.
  intros M L A E. unfold output. rewrite (back_alike u d1 d2 M L A), (ma_prompt _ _ M), (ma_idx _ _ M), L.
  destruct (ma_mask _ _ M) as (m & -> & ->).
  destruct (d_buf d1) as [|x1 b1] eqn:B1; destruct (d_buf d2) as [|x2 b2] eqn:B2; try discriminate.
  - unfold isInLineEdge, getSplitByLine. rewrite (promptLen_alike u d1 d2 M), B1, B2, (ma_width _ _ M), (ma_paint _ _ M).
    reflexivity.
  - rewrite E. reflexivity.
Qed.

Lemma split_alike u w : forall a b cur1 cur2 c, map (Width u) a = map (Width u) b ->
  length (split_loop u w a cur1 c) = length (split_loop u w b cur2 c).
Proof.
  induction a as [|x a IH]; intros [|y b] cur1 cur2 c H; cbn [map] in H; try discriminate; [reflexivity|].
  injection H as H1 H2. cbn [split_loop]. rewrite H1. destruct (_ >=? _); cbn [length]; [f_equal|]; now apply IH.
Qed.

Lemma WidthAll_alike u : forall a b, map (Width u) a = map (Width u) b -> WidthAll u a = WidthAll u b.
Proof. intros a b H. rewrite !WidthAll_sum. now rewrite H. Qed.

Lemma clean_alike u d1 d2 : masked_alike d1 d2 -> map (Width u) (d_buf d1) = map (Width u) (d_buf d2) ->
  match clean u d1, clean u d2 with
  | Ok (d1', o1), Ok (d2', o2) => o1 = o2 /\ d_had d1' = d_had d2' /\ d1' = with_had (d_had d1') d1 /\ d2' = with_had (d_had d2') d2
  | Panic, Panic => True | Hang, Hang => True | _, _ => False
  end.
Proof.
  intros M H. assert (L : length (d_buf d1) = length (d_buf d2)) by (apply (f_equal (@length nat)) in H; now rewrite !map_length in H).
  assert (I : idxLine u d1 (d_width d1) = idxLine u d2 (d_width d2)).
  { unfold idxLine. rewrite (ma_width _ _ M), (ma_idx _ _ M). destruct (d_width d2 =? 0); [reflexivity|].
    unfold slice. rewrite L. destruct (_ && _)%nat; [|reflexivity]. cbn [obind].
    unfold getSplitByLine. rewrite (promptLen_alike u d1 d2 M). destruct (promptLen u d2); [|reflexivity|reflexivity].
    cbn [obind]. rewrite (ma_width _ _ M). unfold SplitByLine. rewrite !skipn_O.
    rewrite (split_alike u (d_width d2) _ (firstn (d_idx d2 - 0) (d_buf d2)) [] []); [reflexivity|].
    now rewrite <- !firstn_map, H. }
  unfold clean. rewrite I. destruct (idxLine u d2 (d_width d2)) as [line| |]; cbn [obind]; [|exact Logic.I|exact Logic.I].
  rewrite (ma_had _ _ M), (ma_inter _ _ M). destruct (d_had d2 || negb (d_inter d2)) eqn:E.
  - rewrite (ma_had _ _ M). repeat split.
    + destruct d1; cbn in *. f_equal. now rewrite <- (ma_had _ _ M).
    + now destruct d2.
  - unfold cleanOutput. rewrite (ma_width _ _ M), (promptLen_alike u d1 d2 M), L.
    destruct (d_width d2 =? 0).
    + destruct (promptLen u d2); cbn [obind]; [|exact Logic.I|exact Logic.I]. repeat split.
    + cbn [obind]. repeat split.
Qed.

(** One redraw of two masked lines, before and after the change. *)
Lemma refresh_alike u d1 d2 b1 b2 i : masked_alike d1 d2 -> map (Width u) (d_buf d1) = map (Width u) (d_buf d2) ->
  map (Width u) b1 = map (Width u) b2 -> (last b1 0 =? 10) = (last b2 0 =? 10) ->
  match refresh u d1 b1 i [], refresh u d2 b2 i [] with
  | Ok (d1', o1), Ok (d2', o2) => o1 = o2 /\ masked_alike d1' d2' /\ d_buf d1' = b1 /\ d_buf d2' = b2
  | Panic, Panic => True | Hang, Hang => True | _, _ => False
  end.
Proof.
  intros M H1 H2 E. unfold refresh. rewrite (ma_inter _ _ M).
  destruct (negb (d_inter d2)).
  - split; [reflexivity|]. split; [|split; reflexivity]. destruct M. constructor; cbn; assumption || reflexivity.
  - pose proof (clean_alike u d1 d2 M H1) as C.
    destruct (clean u d1) as [[d1' o1]| |]; destruct (clean u d2) as [[d2' o2]| |]; try contradiction; cbn [obind fst snd]; try exact Logic.I.
    destruct C as (-> & Hh & Q1 & Q2).
    assert (M' : masked_alike (with_line b1 i d1') (with_line b2 i d2')).
    { rewrite Q1, Q2, Hh. destruct M. constructor; cbn; assumption || reflexivity. }
    unfold print. rewrite (output_alike u _ _ M').
    + destruct (output u (with_line b2 i d2')); cbn [obind fst snd]; try exact Logic.I.
      split; [reflexivity|]. split; [|split; reflexivity].
      destruct M'. constructor; cbn; assumption || reflexivity.
    + cbn. apply (f_equal (@length nat)) in H2. now rewrite !map_length in H2.
    + cbn. now apply WidthAll_alike.
    + exact E.
Qed.

(** Any number of redraws: the outputs agree. *)
Fixpoint redraws (u : uenv) (d : rdr) (ls : list (list Z * nat)) : outcome (list Z) :=
  match ls with
  | [] => Ok []
  | (b, i) :: ls' => r <- refresh u d b i [] ;; o <- redraws u (fst r) ls' ;; Ok (snd r ++ o)
  end.

Lemma redraws_alike u ls1 : forall ls2 d1 d2, masked_alike d1 d2 -> map (Width u) (d_buf d1) = map (Width u) (d_buf d2) ->
  Forall2 (fun x y => snd x = snd y /\ map (Width u) (fst x) = map (Width u) (fst y) /\
                      (last (fst x) 0 =? 10) = (last (fst y) 0 =? 10)) ls1 ls2 ->
  redraws u d1 ls1 = redraws u d2 ls2.
Proof.
  induction ls1 as [|[b1 i1] ls1 IH]; intros ls2 d1 d2 M H F; inversion F as [|? [b2 i2] ? ? (P & Q & R) F']; subst; [reflexivity|].
  cbn in P, Q, R. subst i2. cbn [redraws]. pose proof (refresh_alike u d1 d2 b1 b2 i1 M H Q R) as X.
  destruct (refresh u d1 b1 i1 []) as [[d1' o1]| |]; destruct (refresh u d2 b2 i1 []) as [[d2' o2]| |]; try contradiction; try reflexivity.
  destruct X as (-> & M' & B1 & B2). cbn [obind fst snd]. rewrite (IH l' d1' d2' M'); [reflexivity| |exact F'].
  now rewrite B1, B2.
Qed.

(** ** Editing commands *)
Lemma obind_ok {A B} (x : outcome A) (f : A -> outcome B) b : obind x f = Ok b -> exists a, x = Ok a /\ f a = Ok b.
Proof. destruct x; cbn; intros H; try discriminate. eauto. Qed.

Section Keep.
Variable P : Z -> Prop.
Lemma slice_keeps a b (l r : list Z) : slice a b l = Ok r -> Forall P l -> Forall P r.
Proof.
  unfold slice. destruct (_ && _)%nat; intros H F; [|discriminate]. injection H as <-.
  rewrite Forall_forall in *. intros x Hx. apply F. rewrite <- (firstn_skipn a l). apply in_or_app. right.
  rewrite <- (firstn_skipn (b - a) (skipn a l)). apply in_or_app. now left.
Qed.
Lemma get_keeps (l : list Z) i x : get l i = Ok x -> Forall P l -> P x.
Proof.
  unfold get. destruct (nth_error l i) eqn:E; intros H F; [|discriminate]. injection H as <-.
  rewrite Forall_forall in F. apply F. now apply nth_error_In in E.
Qed.
Lemma set_keeps (l r : list Z) i x : set l i x = Ok r -> Forall P l -> P x -> Forall P r.
Proof.
  unfold set. destruct (_ <? _)%nat; intros H F X; [|discriminate]. injection H as <-.
  rewrite <- (firstn_skipn i l) in F. apply Forall_app in F. destruct F as (F1 & F2). apply Forall_app. split; [exact F1|].
  constructor; [exact X|]. rewrite <- (firstn_skipn 1 (skipn i l)) in F2. apply Forall_app in F2. destruct F2 as (_ & F2).
  rewrite skipn_skipn in F2. now rewrite Nat.add_1_r in F2.
Qed.

Lemma edit_keeps e s s' : run_edit e s = Ok s' -> Forall P (rb_buf s) -> Forall P (rb_kill s) -> Forall P (inserts e) ->
  Forall P (rb_buf s') /\ Forall P (rb_kill s').
Proof.
  intros E B K T.
  destruct (is_motion e) eqn:Mo; [destruct (motion_keeps e s s' Mo E) as (-> & ->); auto|].
  Ltac keep1 := match goal with
    | H : obind _ _ = Ok _ |- _ => apply obind_ok in H; let a := fresh "a" in let H1 := fresh in destruct H as (a & H1 & H)
    | H : (if ?c then _ else _) = Ok _ |- _ => destruct c
    | H : match ?o with Some _ => _ | None => _ end = Ok _ |- _ => destruct o
    | H : Ok _ = Ok _ |- _ => injection H as <-
    end.
  Ltac keep2 := repeat match goal with
    | |- _ /\ _ => split
    | |- Forall _ (_ ++ _) => apply Forall_app
    | |- Forall _ [] => apply Forall_nil
    | |- Forall _ _ => assumption
    | H : slice _ _ _ = Ok ?x |- Forall _ ?x => apply (slice_keeps _ _ _ _ H)
    | H : set _ _ _ = Ok ?x |- Forall _ ?x => apply (set_keeps _ _ _ _ H)
    | H : get _ _ = Ok ?x |- _ ?x => apply (get_keeps _ _ _ H)
    | H : Forall _ [?x] |- _ ?x => now inversion H
    end.
  destruct e; try discriminate Mo; cbn [run_edit inserts] in *;
    unfold WriteRunes, BufBackspace, Delete, DeleteWord, Kill, KillFront, Erase, Yank, BackEscapeWord, Transpose, Replace in E;
    repeat keep1; cbn [rb_buf rb_kill fst with_idx Reset snd Set_ SetWithIdx]; keep2.
Qed.
End Keep.

Lemma edits_look u v es : forall s k s', Forall (fun e => e <> EReset /\ Forall (plain u) (inserts e)) es ->
  no_short_transpose es s -> run_edits es s = Ok s' ->
  inside s -> Forall (plain u) (rb_buf s) -> Forall (plain u) (rb_kill s) ->
  k_reading k = true -> k_line k = rb_buf s -> k_idx k = rb_idx s ->
  exists evs, edit_events es s = Ok evs /\
    looks_all u v k evs {| k_done := k_done k; k_line := rb_buf s'; k_idx := rb_idx s'; k_reading := true |}.
Proof.
  induction es as [|e es IH]; intros s k s' F N R I B K Rd KL KI.
  - cbn in R. injection R as <-. exists []. split; [reflexivity|].
    replace {| k_done := k_done k; k_line := rb_buf s; k_idx := rb_idx s; k_reading := true |} with k by (destruct k; cbn in *; congruence).
    constructor.
  - inversion F as [|? ? (F1 & F2) F']; subst. cbn [run_edits] in R. apply obind_ok in R. destruct R as (s1 & E & R).
    cbn in N. destruct N as (N1 & N2).
    destruct (edit_keeps (plain u) e s s1 E B K F2) as (B1 & K1).
    assert (I1 : inside s1).
    { apply (edits_inside [e] s s1 I); [split; [exact N1|intros; exact Logic.I]|]. cbn. now rewrite E. }
    destruct (IH s1 {| k_done := k_done k; k_line := rb_buf s1; k_idx := rb_idx s1; k_reading := true |} s' F' (N2 s1 E) R I1 B1 K1 eq_refl eq_refl eq_refl)
      as (evs & X1 & X2).
    exists (VLine (rb_buf s1) (rb_idx s1) :: evs). split.
    + cbn [edit_events]. rewrite E. cbn [obind]. rewrite X1. reflexivity.
    + eapply LCons; [|exact X2]. apply LLine; assumption.
Qed.
