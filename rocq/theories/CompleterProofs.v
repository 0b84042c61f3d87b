From Verif Require Import Base ListAux RunesModel RunesSpec RunesProofs CompleterModel CompleterSpec.
From Coq Require Import ZifyBool.
Open Scope nat_scope.

Lemma strip_spec w n s : strip w n = Some s <-> n = w ++ s.
Proof.
  revert n. induction w as [|x w IH]; intros n; cbn.
  - split; congruence.
  - destruct n as [|y n]; [split; discriminate|].
    destruct (Z.eqb_spec x y) as [->|N].
    + rewrite IH. split; congruence.
    + split; [discriminate|]. intros E. congruence.
Qed.

Lemma blank_unique (n t v r : list Z) : ~ In 32%Z n -> ~ In 32%Z v ->
  n ++ 32%Z :: t = v ++ 32%Z :: r -> n = v.
Proof.
  revert v. induction n as [|x n IH]; intros [|y v] Hn Hv E; cbn in *.
  - reflexivity.
  - injection E as E1 _. elim Hv. auto.
  - injection E as E1 _. elim Hn. auto.
  - injection E as -> E. f_equal. apply IH; auto.
Qed.

Definition next_fn : Type := list Z -> list (list Z) * nat.

(** One step of the scan over (name with blank, continuation). *)
Definition scan1 (line : list Z) (st : scan_state) (e : list Z * next_fn) : scan_state :=
  let '(newLine, offset, goNext, lineCompleter) := st in
  let '(childName, child) := e in
  if length childName <=? length line then
    if HasPrefix line childName then
      (newLine ++ [if length line =? length childName then [32%Z] else childName],
       length childName, true, child)
    else st
  else
    if HasPrefix childName line then
      (newLine ++ [skipn (length line) childName], length line, goNext, child)
    else st.

Lemma scan_names_fold line child names st :
  scan_names line child names st = fold_left (scan1 line) (map (fun n => (n, child)) names) st.
Proof.
  revert st. induction names as [|n names IH]; intros st; cbn; [reflexivity|].
  destruct st as [[[nl off] gn] lc]. rewrite IH. reflexivity.
Qed.

Definition blanked (orig : list Z) (t : ctree) : list (list Z * next_fn) :=
  map (fun e => (fst e ++ [32%Z], doInternal (snd e) orig)) (entries orig t).

Definition init_state : scan_state := ([], 0, false, fun _ => ([], 0)).

Definition finish (line : list Z) (st : scan_state) : list (list Z) * nat :=
  let '(newLine, offset, goNext, lineCompleter) := st in
  if negb (length newLine =? 1) then (newLine, offset)
  else
    match skip_blanks (skipn offset line) with
    | [] => if goNext then lineCompleter [] else (newLine, offset)
    | tmpLine => lineCompleter tmpLine
    end.

Lemma child_names_blank orig c : child_names orig c = map (fun n => n ++ [32%Z]) (written_names orig c).
Proof. destruct c; reflexivity. Qed.

Lemma doInternal_eq p orig line :
  doInternal p orig line =
  finish (TrimSpaceLeft line) (fold_left (scan1 (TrimSpaceLeft line)) (blanked orig p) init_state).
Proof.
  set (L := TrimSpaceLeft line).
  assert (H : forall ks st,
    (fix loop (ks : list ctree) (st : scan_state) : scan_state :=
       match ks with
       | [] => st
       | c :: ks' => loop ks' (scan_names L (doInternal c orig) (child_names orig c) st)
       end) ks st =
    fold_left (scan1 L) (map (fun e => (fst e ++ [32%Z], doInternal (snd e) orig))
      (flat_map (fun c => map (fun n => (n, c)) (written_names orig c)) ks)) st).
  { induction ks as [|c ks IH]; intros st; [reflexivity|].
    rewrite IH. cbn [flat_map]. rewrite map_app, fold_left_app. f_equal.
    rewrite scan_names_fold. f_equal. rewrite child_names_blank, !map_map. reflexivity. }
  unfold blanked, entries, children. rewrite <- H. destruct p; reflexivity.
Qed.

Lemma doInternal_trim p orig a b : TrimSpaceLeft a = TrimSpaceLeft b ->
  doInternal p orig a = doInternal p orig b.
Proof. intros H. rewrite !doInternal_eq, H. reflexivity. Qed.

Lemma name_no_blank n : name_ok n -> ~ In 32%Z n.
Proof. intros (_ & F) I. rewrite Forall_forall in F. apply F in I. discriminate. Qed.

(** The line has a blank: only the name before the first blank matches. *)
Lemma scan1_word v rest n c st : ~ In 32%Z v -> ~ In 32%Z n ->
  scan1 (v ++ 32%Z :: rest) st (n ++ [32%Z], c) =
  if list_eq_dec Z.eq_dec n v
  then (fst (fst (fst st)) ++ [if length rest =? 0 then [32%Z] else v ++ [32%Z]], length v + 1, true, c)
  else st.
Proof.
  intros Hv Hn. destruct st as [[[nl off] gn] lc]. unfold scan1. cbn [fst].
  destruct (list_eq_dec Z.eq_dec n v) as [->|N].
  - rewrite !app_length. cbn [length].
    replace (length v + 1 <=? length v + S (length rest)) with true by lia.
    replace (HasPrefix (v ++ 32%Z :: rest) (v ++ [32%Z])) with true.
    2:{ symmetry. apply HasPrefix_spec. exists rest. rewrite <- app_assoc. reflexivity. }
    replace (length v + S (length rest) =? length v + 1) with (length rest =? 0) by lia.
    reflexivity.
  - destruct (length (n ++ [32%Z]) <=? length (v ++ 32%Z :: rest)) eqn:L.
    + destruct (HasPrefix (v ++ 32%Z :: rest) (n ++ [32%Z])) eqn:H; [|reflexivity].
      apply HasPrefix_spec in H. destruct H as (t & E). rewrite <- app_assoc in E. cbn in E.
      symmetry in E. apply blank_unique in E; auto. contradiction.
    + destruct (HasPrefix (n ++ [32%Z]) (v ++ 32%Z :: rest)) eqn:H; [|reflexivity].
      apply HasPrefix_spec in H. destruct H as (t & E).
      assert (I : In 32%Z n); [|contradiction].
      destruct (rev t) as [|y t'] eqn:R.
      * apply (f_equal (@rev Z)) in R. rewrite rev_involutive in R. cbn in R. subst t.
        rewrite app_nil_r in E. rewrite E in L. lia.
      * apply (f_equal (@rev Z)) in R. rewrite rev_involutive in R. cbn in R. subst t.
        rewrite app_assoc in E. apply app_inj_tail in E. destruct E as (-> & _).
        rewrite !in_app_iff. left. right. now left.
Qed.

Lemma scan_word_miss v rest (E : list (list Z * ctree)) orig st :
  ~ In 32%Z v -> Forall (fun e => name_ok (fst e)) E -> ~ In v (map fst E) ->
  fold_left (scan1 (v ++ 32%Z :: rest)) (map (fun e => (fst e ++ [32%Z], doInternal (snd e) orig)) E) st = st.
Proof.
  intros Hv. revert st. induction E as [|[n c] E IH]; intros st F N; [reflexivity|].
  cbn [map fst snd fold_left] in *. inversion F; subst.
  rewrite scan1_word; [|exact Hv|now apply name_no_blank].
  destruct (list_eq_dec Z.eq_dec n v) as [->|_]; [elim N; now left|].
  apply IH; [assumption|]. intros I. apply N. now right.
Qed.

Lemma scan_word_hit v rest (E : list (list Z * ctree)) orig c :
  ~ In 32%Z v -> Forall (fun e => name_ok (fst e)) E -> NoDup (map fst E) -> In (v, c) E ->
  exists x, fold_left (scan1 (v ++ 32%Z :: rest))
    (map (fun e => (fst e ++ [32%Z], doInternal (snd e) orig)) E) init_state
  = ([x], length v + 1, true, doInternal c orig).
Proof.
  intros Hv F ND I. apply in_split in I. destruct I as (E1 & E2 & ->).
  rewrite map_app in ND. cbn [map fst] in ND.
  apply NoDup_remove_2 in ND. rewrite in_app_iff in ND.
  apply Forall_app in F. destruct F as (F1 & F2). inversion F2; subst.
  rewrite map_app, fold_left_app. rewrite (scan_word_miss v rest E1); [|assumption..|tauto].
  cbn [map fst snd fold_left]. rewrite scan1_word; [|exact Hv|now apply name_no_blank].
  destruct (list_eq_dec Z.eq_dec v v) as [_|X]; [|contradiction].
  rewrite scan_word_miss; [|assumption..|tauto].
  eexists. reflexivity.
Qed.

(** The line has no blank: the names extending it match. *)
Lemma scan1_last w n c st : ~ In 32%Z w ->
  scan1 w st (n ++ [32%Z], c) =
  match strip w n with
  | Some s => (fst (fst (fst st)) ++ [s ++ [32%Z]], length w, snd (fst st), c)
  | None => st
  end.
Proof.
  intros Hw. destruct st as [[[nl off] gn] lc]. unfold scan1. cbn [fst snd].
  destruct (strip w n) as [s|] eqn:S.
  - apply strip_spec in S. subst n. rewrite !app_length. cbn [length].
    replace (length w + length s + 1 <=? length w) with false by lia.
    replace (HasPrefix ((w ++ s) ++ [32%Z]) w) with true.
    2:{ symmetry. apply HasPrefix_spec. exists (s ++ [32%Z]). now rewrite app_assoc. }
    rewrite <- app_assoc, skipn_app_exact. reflexivity.
  - destruct (length (n ++ [32%Z]) <=? length w) eqn:L.
    + destruct (HasPrefix w (n ++ [32%Z])) eqn:H; [|reflexivity].
      apply HasPrefix_spec in H. destruct H as (t & E). elim Hw. rewrite E, !in_app_iff.
      left. right. now left.
    + destruct (HasPrefix (n ++ [32%Z]) w) eqn:H; [|reflexivity].
      apply HasPrefix_spec in H. destruct H as (t & E).
      destruct (rev t) as [|y t'] eqn:R.
      * apply (f_equal (@rev Z)) in R. rewrite rev_involutive in R. cbn in R. subst t.
        rewrite app_nil_r in E. rewrite E in L. lia.
      * apply (f_equal (@rev Z)) in R. rewrite rev_involutive in R. cbn in R. subst t.
        rewrite app_assoc in E. apply app_inj_tail in E. destruct E as (-> & _).
        assert (X : strip w (w ++ rev t') = Some (rev t')) by now apply strip_spec. congruence.
Qed.

Lemma scan_last w (E : list (list Z * ctree)) orig st : ~ In 32%Z w ->
  let cs := flat_map (fun e => match strip w (fst e) with Some s => [s ++ [32%Z]] | None => [] end) E in
  exists lc, fold_left (scan1 w) (map (fun e => (fst e ++ [32%Z], doInternal (snd e) orig)) E) st
  = (fst (fst (fst st)) ++ cs, (match cs with [] => snd (fst (fst st)) | _ => length w end), snd (fst st), lc).
Proof.
  intros Hw. cbn zeta. revert st. induction E as [|[n c] E IH]; intros st.
  - cbn. exists (snd st). rewrite app_nil_r. now destruct st as [[[? ?] ?] ?].
  - cbn [map fst snd fold_left flat_map]. rewrite scan1_last by exact Hw.
    destruct (strip w n) as [s|].
    + destruct (IH (fst (fst (fst st)) ++ [s ++ [32%Z]], length w, snd (fst st), doInternal c orig)) as (lc & H).
      exists lc. etransitivity; [exact H|]. cbn [fst snd app]. rewrite <- app_assoc. cbn [app].
      destruct (flat_map _ E); reflexivity.
    + exact (IH st).
Qed.

Lemma trim_id w : word_ok w -> TrimSpaceLeft w = w.
Proof. destruct w as [|x w]; intros (_ & H); cbn; [reflexivity|now rewrite H]. Qed.

Lemma trim_space g l : all_space g -> TrimSpaceLeft (g ++ l) = TrimSpaceLeft l.
Proof. induction 1 as [|x g H _ IH]; cbn; [reflexivity|]. now rewrite H. Qed.

Lemma trim_skip_blanks l : TrimSpaceLeft (skip_blanks l) = TrimSpaceLeft l.
Proof.
  induction l as [|x l IH]; [reflexivity|]. cbn [skip_blanks].
  destruct (Z.eqb_spec x 32) as [->|N]; [exact IH|reflexivity].
Qed.

Lemma trim_app_word v l : word_ok v -> v <> [] -> TrimSpaceLeft (v ++ l) = v ++ l.
Proof. destruct v as [|x v]; intros (_ & H) N; [congruence|]. cbn. now rewrite H. Qed.

Lemma doInternal_last t orig w : word_ok w ->
  doInternal t orig w =
  (completions orig t w, match completions orig t w with [] => 0 | _ => length w end).
Proof.
  intros W. rewrite doInternal_eq, (trim_id w W). destruct W as (Hb & _).
  unfold blanked. destruct (scan_last w (entries orig t) orig init_state Hb) as (lc & ->).
  cbn [fst snd init_state app]. fold (completions orig t w). unfold finish.
  destruct (completions orig t w) as [|c1 [|c2 cs]]; cbn [length Nat.eqb negb]; try reflexivity.
  rewrite skipn_all. reflexivity.
Qed.

Lemma doInternal_word t orig v g l c : tree_ok orig t -> word_ok v -> v <> [] -> all_space g ->
  In (v, c) (entries orig t) ->
  doInternal t orig (v ++ 32%Z :: g ++ l) = doInternal c orig l.
Proof.
  intros T W N G I. inversion T as [t' ND F K]; subst t'.
  rewrite doInternal_eq, trim_app_word by assumption. unfold blanked.
  destruct (scan_word_hit v (g ++ l) (entries orig t) orig c (proj1 W) F ND I) as (x & ->).
  unfold finish. cbn [length Nat.eqb negb].
  replace (skipn (length v + 1) (v ++ 32%Z :: g ++ l)) with (g ++ l).
  2:{ replace (length v + 1) with (length (v ++ [32%Z])) by (rewrite app_length; reflexivity).
      replace (v ++ 32%Z :: g ++ l) with ((v ++ [32%Z]) ++ g ++ l) by (rewrite <- app_assoc; reflexivity).
      now rewrite skipn_app_exact. }
  transitivity (doInternal c orig (skip_blanks (g ++ l))).
  - destruct (skip_blanks (g ++ l)); reflexivity.
  - apply doInternal_trim. rewrite trim_skip_blanks. now apply trim_space.
Qed.

Lemma doInternal_unknown t orig v g l : tree_ok orig t -> word_ok v -> v <> [] ->
  (forall c, ~ In (v, c) (entries orig t)) ->
  doInternal t orig (v ++ 32%Z :: g ++ l) = ([], 0).
Proof.
  intros T W N I. inversion T as [t' ND F K]; subst t'.
  rewrite doInternal_eq, trim_app_word by assumption. unfold blanked.
  rewrite scan_word_miss; [reflexivity|exact (proj1 W)|exact F|].
  intros M. apply in_map_iff in M. destruct M as ([n c] & E & M). cbn in E. subst n. exact (I c M).
Qed.

Lemma entry_child orig t v c : In (v, c) (entries orig t) -> In c (children t).
Proof.
  unfold entries. rewrite in_flat_map. intros (c' & H & M). apply in_map_iff in M.
  destruct M as (n & E & _). congruence.
Qed.

Lemma prefix_complete orig ws w l : line_of_words ws w l -> forall t g, tree_ok orig t -> all_space g ->
  (forall t', reach orig t ws t' -> doInternal t orig (g ++ l) =
     (completions orig t' w, match completions orig t' w with [] => 0 | _ => length w end)) /\
  ((forall t', ~ reach orig t ws t') -> doInternal t orig (g ++ l) = ([], 0)).
Proof.
  induction 1 as [w W|v g' ws w l W N G' L IH]; intros t g T G.
  - rewrite (doInternal_trim t orig (g ++ w) w) by now apply trim_space.
    split.
    + intros t' R. inversion R; subst. now apply doInternal_last.
    + intros R. elim (R t). constructor.
  - rewrite (doInternal_trim t orig _ (v ++ 32%Z :: g' ++ l)) by now apply trim_space.
    split.
    + intros t' R. inversion R as [|? ? c ? ? I R']; subst.
      rewrite (doInternal_word t orig v g' l c) by assumption.
      inversion T as [t0 ND F K]; subst t0.
      apply (IH c [] (K c (entry_child _ _ _ _ I)) (Forall_nil _)). exact R'.
    + intros R. destruct (in_dec (list_eq_dec Z.eq_dec) v (map fst (entries orig t))) as [I|I].
      * apply in_map_iff in I. destruct I as ([n c] & E & I). cbn in E. subst n.
        rewrite (doInternal_word t orig v g' l c) by assumption.
        inversion T as [t0 ND F K]; subst t0.
        apply (IH c [] (K c (entry_child _ _ _ _ I)) (Forall_nil _)).
        intros t' R'. apply (R t'). econstructor; eassumption.
      * apply doInternal_unknown; try assumption. intros c M. apply I.
        apply in_map_iff. exists (v, c). auto.
Qed.

Lemma PrefixDo_correct t line pos ws w g : pos <= length line -> tree_ok line t ->
  all_space g -> forall l, firstn pos line = g ++ l -> line_of_words ws w l ->
  (forall t', reach line t ws t' -> PrefixDo t line pos =
     Ok (completions line t' w, match completions line t' w with [] => 0 | _ => length w end)) /\
  ((forall t', ~ reach line t ws t') -> PrefixDo t line pos = Ok ([], 0)).
Proof.
  intros P T G l E L. unfold PrefixDo. rewrite slice_to by exact P. cbn [obind]. rewrite E.
  destruct (prefix_complete line ws w l L t g T G) as (A & B).
  split; intros; f_equal; auto.
Qed.

Lemma space_decomp (l : list Z) : exists g l', l = g ++ l' /\ all_space g /\
  match l' with [] => True | x :: _ => IsSpace x = false end.
Proof.
  induction l as [|x l (g & l' & -> & G & H)]; [exists [], []; repeat split; constructor|].
  destruct (IsSpace x) eqn:E.
  - exists (x :: g), l'. repeat split; [constructor; assumption|exact H].
  - exists [], (x :: g ++ l'). repeat split; [constructor|exact E].
Qed.

Lemma blank_decomp (l : list Z) : (~ In 32%Z l) \/ exists v r, l = v ++ 32%Z :: r /\ ~ In 32%Z v.
Proof.
  induction l as [|x l IH]; [left; auto|].
  destruct (Z.eq_dec x 32) as [->|N].
  - right. exists [], l. split; [reflexivity|auto].
  - destruct IH as [I|(v & r & -> & I)].
    + left. intros [->|H]; auto.
    + right. exists (x :: v), r. split; [reflexivity|]. intros [->|H]; auto.
Qed.

Lemma line_decomp (l : list Z) : exists g ws w l', l = g ++ l' /\ all_space g /\ line_of_words ws w l'.
Proof.
  assert (M : forall n l, length l <= n -> exists g ws w l', l = g ++ l' /\ all_space g /\ line_of_words ws w l').
  { clear l. induction n as [|n IH]; intros l Hn.
    - destruct l; [|cbn in Hn; lia]. exists [], [], [], []. repeat split; [constructor|].
      constructor. split; auto.
    - destruct (space_decomp l) as (g & l1 & -> & G & H).
      destruct (blank_decomp l1) as [I|(v & r & -> & I)].
      + exists g, [], l1, l1. repeat split; [exact G|]. constructor. split; assumption.
      + destruct v as [|x v]; [cbn in H; discriminate|].
        destruct (IH r) as (g2 & ws & w & l2 & -> & G2 & L2).
        { rewrite app_length in Hn. cbn [app length] in Hn. rewrite app_length in Hn. cbn [length] in Hn. lia. }
        exists g, ((x :: v) :: ws), w, ((x :: v) ++ 32%Z :: g2 ++ l2).
        repeat split; [exact G|]. constructor; [|discriminate|exact G2|exact L2].
        split; [exact I|exact H]. }
  apply (M (length l)). lia.
Qed.

(** Segments *)
Lemma join_blank_app segs s t : segs <> [] -> join_blank (segs ++ [s]) ++ t = join_blank segs ++ 32%Z :: s ++ t.
Proof.
  induction segs as [|a segs IH]; intros N; [congruence|].
  destruct segs as [|b segs].
  - cbn. rewrite <- app_assoc. reflexivity.
  - change (join_blank ((a :: b :: segs) ++ [s])) with (a ++ 32%Z :: join_blank ((b :: segs) ++ [s])).
    change (join_blank (a :: b :: segs)) with (a ++ 32%Z :: join_blank (b :: segs)).
    rewrite <- !app_assoc. cbn [app]. do 2 f_equal. apply IH. discriminate.
Qed.

Lemma split_seg_spec rest : forall done cur segs,
  let line := done ++ cur ++ rest in
  ~ In 32%Z cur ->
  exists segs' last, split_seg line rest (length (done ++ cur)) (length done) (length cur) segs
    = Ok (segs ++ segs' ++ [last], length last) /\
    join_blank (segs' ++ [last]) = cur ++ rest /\ Forall (fun s => ~ In 32%Z s) (segs' ++ [last]).
Proof.
  induction rest as [|x rest IH]; intros done cur segs line Hc; cbn [split_seg].
  - exists [], cur. subst line. rewrite app_nil_r in *.
    rewrite slice_from by (rewrite app_length; lia). rewrite skipn_app_exact. cbn [obind app join_blank].
    split; [reflexivity|]. split; [reflexivity|]. constructor; auto.
  - destruct (Z.eqb_spec x 32) as [->|N].
    + rewrite slice_ok by (subst line; rewrite !app_length; cbn [length]; lia).
      subst line. rewrite skipn_app_exact, app_length.
      replace (length done + length cur - length done) with (length cur) by lia.
      rewrite firstn_app_exact. cbn [obind].
      replace (length done + length cur + 1) with (length (done ++ cur ++ [32%Z]))
        by (rewrite !app_length; cbn [length]; lia).
      destruct (IH (done ++ cur ++ [32%Z]) [] (segs ++ [cur])) as (segs' & last & E & J & F); [auto|].
      cbn zeta in E. rewrite app_nil_r in E. cbn [app length] in E.
      replace ((done ++ cur ++ [32%Z]) ++ rest) with (done ++ cur ++ 32%Z :: rest) in E
        by (rewrite <- !app_assoc; reflexivity).
      rewrite E. exists (cur :: segs'), last. split; [|split].
      * rewrite <- app_assoc. reflexivity.
      * cbn [app]. destruct (segs' ++ [last]) eqn:Q; [destruct segs'; discriminate|].
        change (cur ++ 32%Z :: join_blank (l :: l0) = cur ++ 32%Z :: rest). rewrite J. reflexivity.
      * constructor; assumption.
    + subst line.
      destruct (IH done (cur ++ [x]) segs) as (segs' & last & E & J & F).
      { rewrite in_app_iff. cbn. intros [I|[I|[]]]; auto. }
      cbn zeta in E.
      replace (done ++ (cur ++ [x]) ++ rest) with (done ++ cur ++ x :: rest) in E by (rewrite <- !app_assoc; reflexivity).
      replace (length (done ++ cur) + 1) with (length (done ++ cur ++ [x])) by (rewrite !app_length; cbn [length]; lia).
      replace (length cur + 1) with (length (cur ++ [x])) by (rewrite app_length; reflexivity).
      rewrite E. exists segs', last. split; [reflexivity|]. split; [|exact F].
      rewrite J, <- app_assoc. reflexivity.
Qed.

Lemma SplitSegment_spec line pos : pos <= length line ->
  exists segs last, SplitSegment line pos = Ok (segs ++ [last], length last) /\
    join_blank (segs ++ [last]) = firstn pos line /\ Forall (fun s => ~ In 32%Z s) (segs ++ [last]).
Proof.
  intros P. unfold SplitSegment. rewrite slice_to by exact P. cbn [obind].
  destruct (split_seg_spec (firstn pos line) [] [] []) as (segs & last & E & J & F); [auto|].
  cbn in E. exists segs, last. auto.
Qed.

Lemma RetSegment_spec segs last cands idx :
  RetSegment (segs ++ [last]) cands idx =
  Ok (flat_map (fun c => match strip last c with Some s => [s] | None => [] end) cands, idx).
Proof.
  unfold RetSegment. rewrite app_length. cbn [length].
  replace (length segs + 1 - 1) with (length segs) by lia.
  rewrite (get_nth _ _ last) by (rewrite nth_error_app2, Nat.sub_diag; auto). cbn [obind].
  do 2 f_equal.
  assert (H : forall acc, fold_left (fun ret cand => if negb (HasPrefix cand last) then ret
        else ret ++ [skipn (length last) cand]) cands acc
     = acc ++ flat_map (fun c => match strip last c with Some s => [s] | None => [] end) cands).
  { induction cands as [|c cands IH]; intros acc; cbn [fold_left flat_map]; [now rewrite app_nil_r|].
    rewrite IH. destruct (strip last c) as [s|] eqn:S.
    - apply strip_spec in S. subst c.
      replace (HasPrefix (last ++ s) last) with true.
      + cbn [negb]. rewrite skipn_app_exact, <- app_assoc. reflexivity.
      + symmetry. apply HasPrefix_spec. now exists s.
    - destruct (HasPrefix c last) eqn:H; [|reflexivity].
      apply HasPrefix_spec in H. destruct H as (t & E). subst c.
      assert (X : strip last (last ++ t) = Some t) by now apply strip_spec. congruence. }
  apply H.
Qed.

Lemma SegmentDo_spec f line pos : pos <= length line ->
  exists segs last, join_blank (segs ++ [last]) = firstn pos line /\
    Forall (fun s => ~ In 32%Z s) (segs ++ [last]) /\
    SegmentDo f line pos =
    Ok (flat_map (fun c => match strip last c with Some s => [s ++ [32%Z]] | None => [] end)
          (f (segs ++ [last]) (length last)), length last).
Proof.
  intros P. destruct (SplitSegment_spec line pos P) as (segs & last & E & J & F).
  exists segs, last. split; [exact J|]. split; [exact F|].
  unfold SegmentDo. rewrite E. cbn [obind]. rewrite RetSegment_spec. cbn [obind]. do 2 f_equal.
  induction (f (segs ++ [last]) (length last)) as [|c cs IH]; [reflexivity|].
  cbn [flat_map]. rewrite map_app, IH. destruct (strip last c); reflexivity.
Qed.

Lemma strip_exact w n s : strip w n = Some s <-> n = w ++ s.
Proof. exact (strip_spec w n s). Qed.
