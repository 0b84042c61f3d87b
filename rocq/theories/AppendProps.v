(** C119: the history file during a session; the file part of C97 for all keys and configurations. *)
From Coq Require Import Permutation.
From Verif Require Import Base ListAux RunesModel RuneBufModel RuneBufProofs HistoryModel HistorySpec HistoryProofs HistoryFileProofs
  OpModel OpSpec OpProofs OpProps SessionProps OpHist HistOffSpec AppendSpec AppendProofs.
Open Scope nat_scope.

(** [n] lines at most are appended; nothing while recording is off. *)
Definition grows (n : nat) (h h' : hist) : Prop :=
  h_enable h' = h_enable h /\ h_fd h' = h_fd h /\
  exists ws, length ws <= n /\ h_disk h' = h_disk h ++ flat_map file_line ws /\ (h_enable h = false -> ws = []).

Lemma grows_refl n h : grows n h h.
Proof. split; [reflexivity|]. split; [reflexivity|]. exists []. cbn. rewrite app_nil_r. split; [lia|]. split; reflexivity. Qed.
Lemma grows_same n h h' : h_enable h' = h_enable h -> h_fd h' = h_fd h -> h_disk h' = h_disk h -> grows n h h'.
Proof. intros A B C. split; [exact A|]. split; [exact B|]. exists []. cbn. rewrite app_nil_r. split; [lia|]. split; [exact C|reflexivity]. Qed.
Lemma grows_trans n m h h1 h2 : grows n h h1 -> grows m h1 h2 -> grows (n + m) h h2.
Proof.
  intros (A1 & A2 & w1 & A3 & A4 & A5) (B1 & B2 & w2 & B3 & B4 & B5). split; [congruence|]. split; [congruence|].
  exists (w1 ++ w2). rewrite app_length, flat_map_app, app_assoc. split; [lia|]. split; [congruence|].
  intros E. rewrite A5 by exact E. rewrite B5 by congruence. reflexivity.
Qed.
Lemma grows_more n m h h' : n <= m -> grows n h h' -> grows m h h'.
Proof. intros L (A & B & w & C & D). split; [exact A|]. split; [exact B|]. exists w. split; [lia|exact D]. Qed.

Lemma compact_file c h : h_enable (Compact c h) = h_enable h /\ h_fd (Compact c h) = h_fd h /\ h_disk (Compact c h) = h_disk h.
Proof. unfold Compact. destruct (compact_loop _ _ _). auto. Qed.

Lemma modify_file id f h : h_enable (modify id f h) = h_enable h /\ h_fd (modify id f h) = h_fd h /\ h_disk (modify id f h) = h_disk h.
Proof. auto. Qed.

Lemma update_edit c s h h' : Update c s false h = Ok h' -> grows 0 h h'.
Proof.
  unfold Update. destruct (h_cur h).
  - destruct (deref h n); cbn [obind]; try discriminate. injection 1 as <-. destruct (compact_file c (modify n (fun x => {| it_id := it_id x; it_src := it_src x; it_ver := h_ver h; it_tmp := s |}) h)) as (A & B & C).
    apply grows_same; [rewrite A|rewrite B|rewrite C]; reflexivity.
  - injection 1 as <-. destruct (compact_file c (Push s h)) as (A & B & C). apply grows_same; [rewrite A|rewrite B|rewrite C]; reflexivity.
Qed.

Lemma update_commit c s h h' : h_enable h = true -> Update c s true h = Ok h' -> grows 1 h h'.
Proof.
  intros E. unfold Update. destruct (h_cur h).
  - destruct (deref h n); cbn [obind]; try discriminate. injection 1 as <-.
    match goal with |- grows 1 h (Compact c (write_fd _ ?m)) => set (h1 := m); destruct (compact_file c (write_fd (file_line s) h1)) as (A & B & C) end.
    assert (F : h_enable h1 = h_enable h /\ h_fd h1 = h_fd h /\ h_disk h1 = h_disk h) by (repeat split). clearbody h1. destruct F as (F1 & F2 & F3).
    unfold grows. rewrite A, B, C. unfold write_fd. destruct (h_fd h1) eqn:D; cbn [h_enable h_fd h_disk set_file].
    + split; [exact F1|]. split; [congruence|]. exists []. cbn. rewrite app_nil_r. split; [lia|]. split; [exact F3|reflexivity].
    + split; [exact F1|]. split; [congruence|]. exists [s]. cbn. rewrite app_nil_r, F3. split; [lia|]. split; congruence.
    + split; [exact F1|]. split; [congruence|]. exists []. cbn. rewrite app_nil_r. split; [lia|]. split; [exact F3|reflexivity].
  - injection 1 as <-. destruct (compact_file c (Push s h)) as (A & B & C). apply grows_same; [rewrite A|rewrite B|rewrite C]; reflexivity.
Qed.

Lemma new_grows c s h h' : New c s h = Ok h' -> grows 1 h h'.
Proof.
  unfold New. destruct (h_enable h) eqn:E; cbn [negb]; [|injection 1 as <-; apply grows_refl].
  assert (K : forall h, h_enable h = true -> new_commit c s h = Ok h' -> grows 1 h h').
  { clear h E. intros h E H. unfold new_commit in H.
    match type of H with obind ?x _ = _ => destruct x as [(cur, h1)| |] eqn:X end; cbn [obind] in H; try discriminate.
    assert (F : h_enable h1 = h_enable h /\ h_fd h1 = h_fd h /\ h_disk h1 = h_disk h).
    { destruct (opt_eqb (h_cur h) (back_id h)); [injection X as <- <-; auto|]. destruct (h_cur h); [|discriminate].
      destruct (deref h n); cbn [obind] in X; try discriminate. injection X as <- <-. auto. }
    destruct (Update c cur true h1) as [h2| |] eqn:U; cbn [obind] in H; try discriminate. injection H as <-.
    destruct F as (F1 & F2 & F3). destruct (update_commit c cur h1 h2 ltac:(congruence) U) as (G1 & G2 & w & G3 & G4 & G5).
    split; [cbn; congruence|]. split; [cbn; congruence|]. exists w. split; [exact G3|]. split; [cbn; congruence|congruence]. }
  assert (B : forall id, grows 1 h (clean_back id h)) by (intros id; apply grows_same; reflexivity).
  intros H. destruct (match rev (h_items h) with b :: p :: _ => if Equal s (it_src p) then Some (it_id b) else None | _ => None end).
  - injection H as <-. apply B.
  - destruct (length s =? 0); [|now apply K]. destruct (back_id h); [injection H as <-; apply B|].
    destruct (K (set_cur None h) E H) as (G1 & G2 & w & G). split; [exact G1|]. split; [exact G2|]. now exists w.
Qed.

Lemma path_grows c n h h' : hpath c n h h' -> grows n h h'.
Proof.
  induction 1 as [n h|n m h h1 h2 _ I1 _ I2|id x h D|h|s h h' U|s h h' N].
  - apply grows_refl.
  - exact (grows_trans _ _ _ _ _ I1 I2).
  - apply grows_same; reflexivity.
  - apply grows_same; reflexivity.
  - exact (update_edit _ _ _ _ U).
  - exact (new_grows _ _ _ _ N).
Qed.

Lemma step_file cf r o x : op_step cf r o = Ok x -> grows (if oc_nosave cf then 0 else length (lines_of (snd x))) (o_h o) (o_h (fst x)).
Proof. intros H. apply step_h in H. exact (path_grows _ _ _ _ H). Qed.

(** ** C119 *)

Lemma run_h cf es : forall o o' a, f_run cf es o = Ok (o', a) ->
  h_fd (o_h o') = h_fd (o_h o) /\
  exists ws, length ws <= (if oc_nosave cf then 0 else length (lines_of a)) + saves es /\ h_disk (o_h o') = h_disk (o_h o) ++ flat_map file_line ws /\
    (writes_nothing cf es (o_h o) -> ws = []).
Proof.
  assert (J : forall es o h o' a n,
    (forall o o' a, f_run cf es o = Ok (o', a) -> h_fd (o_h o') = h_fd (o_h o) /\
      exists ws, length ws <= (if oc_nosave cf then 0 else length (lines_of a)) + saves es /\ h_disk (o_h o') = h_disk (o_h o) ++ flat_map file_line ws /\
      (writes_nothing cf es (o_h o) -> ws = [])) ->
    f_run cf es o = Ok (o', a) -> h_fd (o_h o) = h_fd h ->
    (exists ws, length ws <= n /\ h_disk (o_h o) = h_disk h ++ flat_map file_line ws /\ ((h_enable h = false \/ n = 0) -> ws = [])) ->
    h_fd (o_h o') = h_fd h /\ exists ws, length ws <= n + ((if oc_nosave cf then 0 else length (lines_of a)) + saves es) /\
      h_disk (o_h o') = h_disk h ++ flat_map file_line ws /\
      ((h_enable h = false \/ n = 0) /\ writes_nothing cf es (o_h o) -> ws = [])).
  { intros es' o h o' a n IH R F (w & W1 & W2 & W3). destruct (IH o o' a R) as (F' & w' & W4 & W5 & W6). split; [congruence|].
    exists (w ++ w'). rewrite app_length, flat_map_app, app_assoc, <- W2. split; [lia|]. split; [exact W5|].
    intros (X & Y). rewrite (W3 X), (W6 Y). reflexivity. }
  induction es as [|e es IH]; intros o o' a.
  { injection 1 as <- <-. split; [reflexivity|]. exists []. cbn. rewrite app_nil_r. split; [lia|]. split; reflexivity. }
  destruct e as [r|s| | |]; cbn [f_run]; intros H.
  - ob H. destruct a0 as (o1, x1). destruct a1 as (o2, a2). rename x1 into a1. cbn [fst snd] in *. injection H as <- <-. apply step_file in E. cbn [fst snd] in E.
    destruct E as (G1 & G2 & w & G3 & G4 & G5).
    destruct (J es o1 (o_h o) o2 a2 (if oc_nosave cf then 0 else length (lines_of a1)) IH E0 G2) as (K & ws & K1 & K2 & K3).
    { exists w. split; [exact G3|]. split; [exact G4|]. intros [X|X]; [auto|]. rewrite X in G3. now destruct w. }
    split; [exact K|]. exists ws. unfold lines_of in *. rewrite flat_map_app, app_length. change (saves (KKey r :: es)) with (saves es).
    split; [destruct (oc_nosave cf); lia|]. split; [exact K2|]. intros W. apply K3.
    destruct W as [(W1 & W2)|(W1 & W2)].
    + split; [now left|]. left. split; [congruence|]. intros X. apply W2. now right.
    + rewrite W1. split; [now right|]. right. split; [exact W1|exact W2].
  - ob H. apply new_grows in E. destruct E as (G1 & G2 & w & G3 & G4 & G5).
    destruct (J es (with_h a0 o) (o_h o) o' a 1 IH H G2) as (K & ws & K1 & K2 & K3).
    { exists w. split; [exact G3|]. split; [exact G4|]. intros [X|X]; [auto|discriminate]. }
    split; [exact K|]. exists ws. change (saves (KSave s :: es)) with (S (saves es)). split; [lia|]. split; [exact K2|].
    intros [(W1 & W2)|(W1 & W2)]; [|discriminate W2]. apply K3. split; [now left|]. left. split; [cbn; congruence|]. intros X. apply W2. now right.
  - destruct (IH _ _ _ H) as (K & ws & K1 & K2 & K3). split; [exact K|]. exists ws. split; [exact K1|]. split; [exact K2|].
    intros [(W1 & W2)|W]; apply K3; [left; split; [exact W1|]; intros X; apply W2; now right|now right].
  - destruct (IH _ _ _ H) as (K & ws & K1 & K2 & K3). split; [exact K|]. exists ws. split; [exact K1|]. split; [exact K2|].
    intros [(W1 & W2)|W]; apply K3; [left; split; [reflexivity|]; intros X; apply W2; now right|now right].
  - destruct (IH _ _ _ H) as (K & ws & K1 & K2 & K3). split; [exact K|]. exists ws. split; [exact K1|]. split; [exact K2|].
    intros [(W1 & W2)|W]; [exfalso; apply W2; now left|apply K3; now right].
Qed.


(** ** The list in memory *)

(** Entries fall off the old end; [n] at most come in at the new end. *)
Definition shifts (n : nat) (h h' : hist) : Prop :=
  exists k ws, length ws <= n /\ committed h' = skipn k (committed h ++ ws) /\ (h_enable h = false -> ws = []).

Lemma shifts_refl n h : shifts n h h.
Proof. exists 0%nat, []. cbn. rewrite app_nil_r. split; [lia|]. split; reflexivity. Qed.
Lemma shifts_skip n h h' k : committed h' = skipn k (committed h) -> shifts n h h'.
Proof. intros E. exists k, []. cbn. rewrite app_nil_r. split; [lia|]. split; [exact E|reflexivity]. Qed.
Lemma skipn_app_skipn {A} k (l w : list A) : exists m, skipn k l ++ w = skipn m (l ++ w).
Proof.
  exists (Nat.min k (length l)). rewrite skipn_app. replace (Nat.min k (length l) - length l)%nat with 0%nat by lia. cbn.
  f_equal. destruct (Nat.le_ge_cases k (length l)); [now rewrite Nat.min_l|]. rewrite Nat.min_r by lia. rewrite skipn_all. now apply skipn_all2.
Qed.
Lemma shifts_trans n m h h1 h2 : h_enable h1 = h_enable h -> shifts n h h1 -> shifts m h1 h2 -> shifts (n + m) h h2.
Proof.
  intros E (k1 & w1 & A1 & A2 & A3) (k2 & w2 & B1 & B2 & B3). rewrite A2 in B2.
  destruct (skipn_app_skipn k1 (committed h ++ w1) w2) as (k & K). rewrite K, skipn_skipn, <- app_assoc in B2.
  eexists _, (w1 ++ w2). split; [rewrite app_length; lia|]. split; [exact B2|]. intros X. rewrite A3, B3 by congruence. reflexivity.
Qed.

Lemma removelast_skipn {A} k : forall l : list A, exists m, removelast (skipn k l) = skipn m (removelast l).
Proof.
  induction k as [|k IH]; intros l; [now exists 0%nat|]. destruct l as [|x l]; [now exists 0%nat|]. cbn [skipn]. destruct (IH l) as (m & ->).
  destruct l as [|y l]; [exists 0%nat; cbn; now destruct m|]. exists (S m). reflexivity.
Qed.

Lemma committed_compact c h : exists k, committed (Compact c h) = skipn k (committed h).
Proof.
  unfold committed. rewrite Compact_items. unfold lastn. destruct (removelast_skipn (length (h_items h) - keep c) (h_items h)) as (m & ->).
  exists m. now rewrite skipn_map.
Qed.

Lemma removelast_map_item id f l : (forall x, it_src (f x) = it_src x) -> map it_src (removelast (map_item id f l)) = map it_src (removelast l).
Proof.
  intros F. unfold map_item. induction l as [|x l IH]; [reflexivity|]. destruct l as [|y l]; [reflexivity|].
  cbn [map removelast] in *. rewrite IH. f_equal. destruct (it_id x =? id); [apply F|reflexivity].
Qed.

Lemma update_shifts c s h h' : hwf h -> Update c s false h = Ok h' -> shifts 0 h h'.
Proof.
  intros W. unfold Update. pose proof (w_cur h W) as C. destruct (h_cur h).
  - destruct (deref h n); cbn [obind]; try discriminate. injection 1 as <-.
    match goal with |- shifts 0 h (Compact c ?m) => set (h1 := m) end. destruct (committed_compact c h1) as (k & K). eapply shifts_skip with (k := k). rewrite K. f_equal.
    unfold h1, committed. cbn [h_items modify set_lists]. now apply removelast_map_item.
  - injection 1 as <-. destruct (committed_compact c (Push s h)) as (k & K). eapply shifts_skip with (k := k). rewrite K. f_equal. unfold committed. cbn. rewrite C. reflexivity.
Qed.

Lemma new_shifts c s h h' : hwf h -> New c s h = Ok h' -> shifts 1 h h'.
Proof.
  intros W. unfold New. destruct (h_enable h) eqn:En; cbn [negb]; [|injection 1 as <-; apply shifts_refl].
  assert (K : forall h, hwf h -> new_commit c s h = Ok h' -> exists k w, committed h' = skipn k (committed h ++ [w])).
  { clear h W En. intros h W H. unfold new_commit in H.
    match type of H with obind ?x _ = _ => destruct x as [(cur, h1)| |] eqn:X end; cbn [obind] in H; try discriminate.
    assert (F : h_items h1 = h_items h /\ h_dead h1 = h_dead h /\ h_cur h1 = back_id h).
    { destruct (opt_eqb (h_cur h) (back_id h)) eqn:O.
      - injection X as <- <-. repeat split. destruct (h_cur h), (back_id h); cbn in O; try discriminate; [|reflexivity]. apply Nat.eqb_eq in O. congruence.
      - destruct (h_cur h); [|discriminate]. destruct (deref h n); cbn [obind] in X; try discriminate. injection X as <- <-. auto. }
    destruct F as (F1 & F2 & F3). destruct (Update c cur true h1) as [h2| |] eqn:U; cbn [obind] in H; try discriminate. injection H as <-.
    unfold Update in U. rewrite F3 in U. unfold back_id in U. destruct (back h) as [b|] eqn:B; cbn [option_map] in U.
    - destruct (deref h1 (it_id b)) as [y| |]; cbn [obind] in U; try discriminate. injection U as <-.
      destruct (back_spec h b B) as (l & L).
      match goal with |- exists k w, committed (Push [] (bump_ver (Compact c ?m))) = _ => set (h3 := m) end.
      assert (I : h_items h3 = l ++ [{| it_id := it_id b; it_src := cur; it_ver := h_ver h1; it_tmp := it_tmp b |}]).
      { unfold h3, write_fd. cbn [h_fd modify set_lists].
        assert (M : h_items (modify (it_id b) (fun x => {| it_id := it_id x; it_src := cur; it_ver := h_ver h1; it_tmp := it_tmp x |}) h1)
            = l ++ [{| it_id := it_id b; it_src := cur; it_ver := h_ver h1; it_tmp := it_tmp b |}]).
        { cbn [h_items modify set_lists]. rewrite F1, L. apply (map_item_last (fun x => {| it_id := it_id x; it_src := cur; it_ver := h_ver h1; it_tmp := it_tmp x |})).
          rewrite <- L. now apply nodup_items. }
        destruct (h_fd h1); exact M. }
      clearbody h3. exists (length (h_items h3) - keep c)%nat, cur. unfold committed. cbn [h_items Push bump_ver]. rewrite removelast_last.
      replace (h_items (bump_ver (Compact c h3))) with (h_items (Compact c h3)) by reflexivity. rewrite Compact_items. unfold lastn. rewrite <- skipn_map.
      f_equal. rewrite I, map_app, L, removelast_last. reflexivity.
    - injection U as <-. pose proof (back_none h B) as I. exists (length (h_items (Push cur h1)) - keep c)%nat, cur. unfold committed. cbn [h_items Push bump_ver]. rewrite removelast_last.
      replace (h_items (bump_ver (Compact c (Push cur h1)))) with (h_items (Compact c (Push cur h1))) by reflexivity. rewrite Compact_items. unfold lastn. rewrite <- skipn_map.
      cbn [h_items Push]. rewrite F1, I. reflexivity. }
  assert (B : forall b, back h = Some b -> shifts 1 h (clean_back (it_id b) h)).
  { intros b E. apply shifts_skip with (k := 0%nat). cbn [skipn]. destruct (back_spec h b E) as (l & L). unfold clean_back, committed.
    cbn [h_items bump_ver modify set_cur set_lists]. rewrite L. rewrite map_item_last by (rewrite <- L; now apply nodup_items). now rewrite !removelast_last. }
  intros H. destruct (match rev (h_items h) with b :: p :: _ => if Equal s (it_src p) then Some (it_id b) else None | _ => None end) as [id|] eqn:D.
  - injection H as <-. destruct (rev (h_items h)) as [|b [|p l]] eqn:R; try discriminate. destruct (Equal s (it_src p)); [|discriminate]. injection D as <-.
    apply B. unfold back. now rewrite R.
  - clear D. destruct (length s =? 0).
    + unfold back_id in H. destruct (back h) as [b|] eqn:E; cbn [option_map] in H; [injection H as <-; now apply B|].
      pose proof (back_none h E) as I. destruct (K (set_cur None h)) as (k & w & Q); [destruct W; constructor; auto|exact H|].
      exists k, [w]. split; [cbn; lia|]. split; [exact Q|congruence].
    + destruct (K h W H) as (k & w & Q). exists k, [w]. split; [cbn; lia|]. split; [exact Q|congruence].
Qed.

Lemma hwf_rev h : hwf h -> hwf (Revert h).
Proof.
  intros W. unfold Revert, back_id. destruct (back h) as [b|] eqn:E; cbn [option_map].
  - apply hwf_set_cur; [now apply hwf_bump|]. exact (back_in h b E).
  - apply hwf_bump in W. destruct W. constructor; auto. cbn. exact (back_none h E).
Qed.

Lemma path_shifts c n h h' : hpath c n h h' -> hwf h -> hwf h' /\ shifts n h h'.
Proof.
  induction 1 as [n h|n m h h1 h2 P1 I1 _ I2|id x h D|h|s h h' U|s h h' N]; intros W.
  - split; [exact W|apply shifts_refl].
  - destruct (I1 W) as (W1 & S1). destruct (I2 W1) as (W2 & S2). split; [exact W2|]. apply (shifts_trans n m h h1 h2); [|exact S1|exact S2].
    apply path_grows in P1. apply P1.
  - split; [apply hwf_set_cur; [exact W|now apply deref_in in D]|]. now apply shifts_skip with (k := 0%nat).
  - split; [now apply hwf_rev|]. now apply shifts_skip with (k := 0%nat).
  - split; [exact (Update_hwf _ _ _ _ _ W U)|exact (update_shifts _ _ _ _ W U)].
  - split; [exact (New_hwf _ _ _ _ W N)|exact (new_shifts _ _ _ _ W N)].
Qed.

Lemma run_m cf es : forall o o' a, hwf (o_h o) -> f_run cf es o = Ok (o', a) ->
  exists k ws, length ws <= (if oc_nosave cf then 0 else length (lines_of a)) + saves es /\ committed (o_h o') = skipn k (committed (o_h o) ++ ws) /\
    (writes_nothing cf es (o_h o) -> ws = []).
Proof.
  assert (J : forall (h h1 h2 : hist) n m (P Q R : Prop),
    (exists k ws, length ws <= n /\ committed h1 = skipn k (committed h ++ ws) /\ (P -> ws = [])) ->
    (exists k ws, length ws <= m /\ committed h2 = skipn k (committed h1 ++ ws) /\ (Q -> ws = [])) -> (R -> P /\ Q) ->
    exists k ws, length ws <= n + m /\ committed h2 = skipn k (committed h ++ ws) /\ (R -> ws = [])).
  { intros h h1 h2 n m P Q R (k1 & w1 & A1 & A2 & A3) (k2 & w2 & B1 & B2 & B3) PQ. rewrite A2 in B2.
    destruct (skipn_app_skipn k1 (committed h ++ w1) w2) as (k & K). rewrite K, skipn_skipn, <- app_assoc in B2.
    eexists _, (w1 ++ w2). split; [rewrite app_length; lia|]. split; [exact B2|]. intros X. destruct (PQ X). rewrite A3, B3 by assumption. reflexivity. }
  induction es as [|e es IH]; intros o o' a W.
  { injection 1 as <- <-. exists 0%nat, []. cbn. rewrite app_nil_r. split; [lia|]. split; reflexivity. }
  destruct e as [r|s| | |]; cbn [f_run]; intros H.
  - ob H. destruct a0 as (o1, x1). destruct a1 as (o2, a2). rename x1 into a1. cbn [fst snd] in *. injection H as <- <-.
    pose proof (step_file _ _ _ _ E) as (G & _). apply step_h in E. unfold st_grows in E. cbn [fst snd] in *. apply path_shifts in E; [|exact W]. destruct E as (W1 & S1).
    rewrite lines_app, app_length. change (saves (KKey r :: es)) with (saves es).
    assert (Q : ((if oc_nosave cf then 0 else length (lines_of a1) + length (lines_of a2)) + saves es
      = (if oc_nosave cf then 0 else length (lines_of a1)) + ((if oc_nosave cf then 0 else length (lines_of a2)) + saves es))%nat) by (destruct (oc_nosave cf); lia). rewrite Q. clear Q.
    eapply J with (P := h_enable (o_h o) = false \/ (if oc_nosave cf then 0 else length (lines_of a1)) = 0); [|exact (IH o1 o2 a2 W1 E0)|].
    + destruct S1 as (k & ws & A & B & C). exists k, ws. split; [exact A|]. split; [exact B|]. intros [X|X]; [auto|]. rewrite X in A. now destruct ws.
    + intros [(X1 & X2)|(X1 & X2)].
      * split; [now left|]. left. split; [congruence|]. intros X. apply X2. now right.
      * rewrite X1. split; [now right|]. right. split; [exact X1|exact X2].
  - ob H. pose proof (new_grows _ _ _ _ E) as (G & _). pose proof (New_hwf _ _ _ _ W E) as W1. apply new_shifts in E; [|exact W].
    change (saves (KSave s :: es)) with (S (saves es)).
    replace ((if oc_nosave cf then 0 else length (lines_of a)) + S (saves es))%nat with (1 + ((if oc_nosave cf then 0 else length (lines_of a)) + saves es))%nat by lia.
    eapply J; [exact E|exact (IH (with_h a0 o) o' a W1 H)|]. intros [(X1 & X2)|(X1 & X2)]; [|discriminate X2]. split; [exact X1|]. left. split; [cbn; congruence|].
    intros X. apply X2. now right.
  - assert (W1 : hwf (HReset (o_h o))).
    { destruct W as [W1 W2 W3 W4]. assert (P : Permutation (elems (HReset (o_h o))) (elems (o_h o))) by (unfold elems, HReset; cbn; apply Permutation_app_comm).
      constructor; cbn [h_ver h_fresh h_cur HReset set_cur set_lists].
      - apply (Permutation_NoDup (Permutation_map it_id (Permutation_sym P))). exact W1.
      - apply Forall_forall. intros x X. rewrite Forall_forall in W2. apply W2. now rewrite <- P.
      - apply Forall_forall. intros x X. rewrite Forall_forall in W3. apply W3. now rewrite <- P.
      - reflexivity. }
    destruct (IH (with_h (HReset (o_h o)) o) o' a W1 H) as (k & ws & A & B & C). cbn [o_h with_h] in *. change (committed (HReset (o_h o))) with (@nil (list Z)) in B. cbn [app] in B.
    exists (length (committed (o_h o)) + k)%nat, ws. split; [exact A|]. split.
    + rewrite B, skipn_app. replace (length (committed (o_h o)) + k - length (committed (o_h o)))%nat with k by lia.
      rewrite (skipn_all2 (committed (o_h o))) by lia. reflexivity.
    + intros [(X1 & X2)|X]; apply C; [left; split; [exact X1|]; intros X; apply X2; now right|now right].
  - destruct (IH (with_h (Disable (o_h o)) o) o' a (hwf_set_enable false _ W) H) as (k & ws & A & B & C). exists k, ws. split; [exact A|]. split; [exact B|].
    intros [(X1 & X2)|X]; apply C; [left; split; [reflexivity|]; intros X; apply X2; now right|now right].
  - destruct (IH (with_h (Enable (o_h o)) o) o' a (hwf_set_enable true _ W) H) as (k & ws & A & B & C). exists k, ws. split; [exact A|]. split; [exact B|].
    intros [(X1 & X2)|X]; [exfalso; apply X2; now left|apply C; now right].
Qed.

(** Whatever keys are pressed (searching, vim commands, completion, with any filter, listener and completer, from any
    state), and whatever calls of SaveHistory, ResetHistory, HistoryDisable and HistoryEnable are mixed in: the file
    keeps all it had, and what comes after it are whole lines, at most one for each line returned and each call of
    SaveHistory. *)
Theorem C119_appends : forall cf es o o' a, f_run cf es o = Ok (o', a) ->
  exists ws, h_disk (o_h o') = h_disk (o_h o) ++ flat_map file_line ws /\ length ws <= length (lines_of a) + saves es.
Proof.
  intros cf es o o' a H. destruct (run_h cf es o o' a H) as (_ & ws & A & B & _). exists ws. split; [exact B|]. destruct (oc_nosave cf); lia.
Qed.
Print Assumptions C119_appends.

(** At every moment between two keys: the file is what it was before them and some more. *)
Theorem C119_prefix : forall cf es1 es2 o o1 a1 o2 a2, f_run cf es1 o = Ok (o1, a1) -> f_run cf es2 o1 = Ok (o2, a2) ->
  exists more, h_disk (o_h o2) = h_disk (o_h o1) ++ more /\ firstn (length (h_disk (o_h o))) (h_disk (o_h o2)) = h_disk (o_h o).
Proof.
  intros cf es1 es2 o o1 a1 o2 a2 H1 H2. destruct (C119_appends _ _ _ _ _ H1) as (w1 & A & _). destruct (C119_appends _ _ _ _ _ H2) as (w2 & B & _).
  exists (flat_map file_line w2). split; [exact B|]. rewrite B, A, <- app_assoc, firstn_app, Nat.sub_diag, firstn_all. cbn. apply app_nil_r.
Qed.
Print Assumptions C119_prefix.

(** Nothing at all is written while recording is off, or with DisableAutoSaveHistory when SaveHistory is not called. *)
Theorem C119_off : forall cf es o o' a, f_run cf es o = Ok (o', a) ->
  (h_enable (o_h o) = false /\ ~ In KOn es) \/ (oc_nosave cf = true /\ saves es = 0) -> h_disk (o_h o') = h_disk (o_h o).
Proof.
  intros cf es o o' a H W. destruct (run_h cf es o o' a H) as (_ & ws & _ & B & C). rewrite (C W) in B. cbn in B. now rewrite app_nil_r in B.
Qed.
Print Assumptions C119_off.

(** The list of recorded lines, under the same conditions: it loses entries at the old end and gains them at the new
    end, at most one for each line returned and each call of SaveHistory; what is recorded is never changed.
    Partial: here a recorded line and the line being edited do not share memory (C61_keys_refuted). *)
Theorem C119_memory_partial : forall cf es o o' a, hwf (o_h o) -> f_run cf es o = Ok (o', a) ->
  exists k ws, committed (o_h o') = skipn k (committed (o_h o) ++ ws) /\ length ws <= length (lines_of a) + saves es /\
    ((h_enable (o_h o) = false /\ ~ In KOn es) \/ (oc_nosave cf = true /\ saves es = 0) -> ws = []).
Proof.
  intros cf es o o' a W H. destruct (run_m cf es o o' a W H) as (k & ws & A & B & C). exists k, ws. split; [exact B|]. split; [destruct (oc_nosave cf); lia|exact C].
Qed.
Print Assumptions C119_memory_partial.

(** "a" and "b" entered; recording off, "c" entered after a search; on again, "d" entered. *)
Example C119_memory_ex : hwf (newOpHistory []) /\ exists o, f_run cf0 (map KKey [97; 13; 98; 13] ++ [KOff] ++ map KKey [18; 97; 7; 99; 13] ++ [KOn] ++ map KKey [100; 13])%Z (op_new (newOpHistory [])) =
    Ok (o, [ALine [97]; ALine [98]; ALine [99]; ALine [100]]%Z) /\ committed (o_h o) = [[97]; [98]; [100]]%Z.
Proof. split; [apply hwf_new|]. eexists. split; vm_compute; reflexivity. Qed.

Open Scope Z_scope.
Definition f_ex (ls : list (list Z)) (es : list fevent) := f_run (filed cf0) es (op_new (openf (oc_h (filed cf0)) (flat_map file_line ls))).

(** "abc" and "x" are in the file; "abc" is searched and dropped, "p" entered, recording switched off for "q",
    "r" saved by a call, "t" entered, the history reset. *)
Example C119_ex : exists o, f_ex [[97; 98; 99]; [120]]
    (map KKey [18; 97; 3; 112; 13] ++ [KOff] ++ map KKey [113; 13] ++ [KOn; KSave [114]] ++ map KKey [116; 13] ++ [KReset]) = Ok (o, [AKick; ALine [112]; ALine [113]; ALine [116]]) /\
  h_disk (o_h o) = flat_map file_line [[97; 98; 99]; [120]; [112]; [114]; [116]].
Proof. eexists. split; vm_compute; reflexivity. Qed.

(** What is appended need not be the line that was returned: submitting the line "abc" found by a search appends an
    empty line to the file. *)
Theorem C119_same_line_refuted : exists ls es o, f_ex ls es = Ok (o, [ALine [97; 98; 99]]) /\ saves es = 0%nat /\
  h_disk (o_h o) = flat_map file_line (ls ++ [[]]).
Proof. exists [[97; 98; 99]; [120]], (map KKey [18; 97; 13]). eexists. split; [vm_compute; reflexivity|]. split; vm_compute; reflexivity. Qed.
Print Assumptions C119_same_line_refuted.

(** ** C97 for all keys and configurations *)

Definition as_f (e : hev) : fevent := match e with HKey r => KKey r | HOff => KOff | HOn => KOn end.
Lemma hev_f cf es : forall on o o' a l, hev_run cf es on o = Ok (o', a, l) -> f_run cf (map as_f es) o = Ok (o', a).
Proof.
  induction es as [|e es IH]; intros on o o' a l; cbn [hev_run map f_run].
  - injection 1 as <- <- _. reflexivity.
  - destruct e; cbn [as_f]; try (intros H; now apply IH in H). intros H. ob H. destruct a1 as ((o2, a2), l2). apply IH in E0. cbn [obind]. rewrite E0. cbn in *. now injection H as <- <- _.
Qed.
Lemma no_saves es : saves (map as_f es) = 0%nat.
Proof. unfold saves. induction es as [|[r| |] es IH]; [reflexivity|exact IH|exact IH|exact IH]. Qed.

(** Not a byte of the file changes from the moment recording is switched off until it is switched on again: any keys,
    any state of the editor, vim mode, filter, listener and completer included. *)
Theorem C97_file : forall cf es on o o' a l, ~ In HOn es -> hev_run cf (HOff :: es) on o = Ok (o', a, l) -> h_disk (o_h o') = h_disk (o_h o).
Proof.
  intros cf es on o o' a l N H. apply hev_f in H. cbn [map as_f f_run] in H. apply C119_off in H; [exact H|]. left. split; [reflexivity|].
  intros X. apply in_map_iff in X. destruct X as (e & X & Y). destruct e; try discriminate. contradiction.
Qed.
Print Assumptions C97_file.

(** With DisableAutoSaveHistory the file never changes, whatever keys are pressed and whether recording is on or off. *)
Theorem C97_nosave : forall cf es on o o' a l, oc_nosave cf = true -> hev_run cf es on o = Ok (o', a, l) -> h_disk (o_h o') = h_disk (o_h o).
Proof.
  intros cf es on o o' a l N H. apply hev_f in H. apply C119_off in H; [exact H|]. right. split; [exact N|apply no_saves].
Qed.
Print Assumptions C97_nosave.

(** Recording off: a line found by searching is submitted, another typed. *)
Example C97_file_ex : let cf := filed cf0 in let h := openf (oc_h cf) (flat_map file_line [[97; 98; 99]; [120]]) in
  exists o, hev_run cf (HOff :: map HKey [18; 97; 13; 113; 13]) true (op_new h) = Ok (o, [ALine [97; 98; 99]; ALine [113]], []) /\
  h_disk (o_h o) = h_disk h.
Proof. eexists. split; vm_compute; reflexivity. Qed.
