(** Properties of slices that share memory: C34, C60, C61 (heap part), C62, C86, C87, C88. *)
From Verif Require Import Base RunesModel RunesSpec RunesProofs RuneBufModel RuneBufSpec RuneBufProofs HeapModel HeapSpec HeapProofs HeapUse CompleterModel.
Open Scope nat_scope.

(** A growth policy for the examples (Go doubles small slices) and a tight one. *)
Definition g2 (old need : nat) : nat := Nat.max need (2 * old).
Definition gt (old need : nat) : nat := need.

(** C60: for every growth policy and every state whose line and kill buffer lie in different arrays, an edit on
    slices computes the line, cursor and kill buffer of the same edit on lists, panics when it panics, and
    leaves line and kill buffer in different arrays. *)
Theorem C60_edit : forall g e m b, hok m b ->
  match run_edit e (abs m b) with
  | Ok s => exists m' b', h_edit g e m b = Ok (m', b') /\ abs m' b' = s /\ hok m' b'
  | Panic => h_edit g e m b = Panic
  | Hang => h_edit g e m b = Hang
  end.
Proof.
  intros g e m b K. pose proof (edit_refines g e m b K) as R. unfold refines in R.
  destruct (run_edit e (abs m b)); [|exact R|exact R].
  destruct R as (m' & b' & E & K' & A & _). exists m', b'. auto.
Qed.
Print Assumptions C60_edit.

(** C60: the same for every sequence of edits, in particular from a new buffer on. *)
Theorem C60_edits : forall g es m b, hok m b ->
  match run_edits es (abs m b) with
  | Ok s => exists m' b', h_edits g es m b = Ok (m', b') /\ abs m' b' = s /\ hok m' b'
  | Panic => h_edits g es m b = Panic
  | Hang => h_edits g es m b = Hang
  end.
Proof.
  intros g es m b K. pose proof (edits_refine g es m b K) as R.
  destruct (run_edits es (abs m b)); [|exact R|exact R].
  destruct R as (m' & b' & E & K' & A & _). exists m', b'. auto.
Qed.
Print Assumptions C60_edits.

Theorem C60_new : forall g es,
  match run_edits es rb_empty with
  | Ok s => exists m' b', h_edits g es mem0 hbuf0 = Ok (m', b') /\ abs m' b' = s
  | Panic => h_edits g es mem0 hbuf0 = Panic
  | Hang => h_edits g es mem0 hbuf0 = Hang
  end.
Proof.
  intros g es. pose proof (C60_edits g es mem0 hbuf0 hok0) as R. change (abs mem0 hbuf0) with rb_empty in R.
  destruct (run_edits es rb_empty); [|exact R|exact R].
  destruct R as (m' & b' & E & A & _). exists m', b'. auto.
Qed.
Print Assumptions C60_new.

(** C60: where an edit writes.  Arrays that existed before keep their contents, except the line's own; the line
    stays in place, with its new text over the old, unless it outgrows its array (or is yanked or set). *)
Theorem C60_writes : forall g e m b m' b', hok m b -> h_edit g e m b = Ok (m', b') ->
  mm_new m <= mm_new m' /\
  (forall a, a < mm_new m -> a <> sl_a (h_buf b) -> mm m' a = mm m a) /\
  ((sl_a (h_buf b') = sl_a (h_buf b) /\ sl_off (h_buf b') = sl_off (h_buf b) /\ sl_cap (h_buf b') = sl_cap (h_buf b) /\
    mm m' (sl_a (h_buf b)) = put_at (sl_off (h_buf b)) (view m' (h_buf b')) (mm m (sl_a (h_buf b)))) \/
   (mm_new m <= sl_a (h_buf b') /\ mm m' (sl_a (h_buf b)) = mm m (sl_a (h_buf b)) /\
    (moves_freely e = true \/ sl_cap (h_buf b) < length (view m' (h_buf b'))))).
Proof.
  intros g e m b m' b' K H. pose proof (edit_refines g e m b K) as R. unfold refines in R.
  destruct (run_edit e (abs m b)) as [s| |]; [|congruence|congruence].
  destruct R as (m1 & b1 & E & K' & A & T & _). rewrite E in H. injection H as <- <-.
  destruct T as (T1 & T2 & T3). split; [exact T1|]. split; [exact T2|].
  destruct T3 as [T3|((T3 & T4) & T5)]; [left; exact T3|right; auto].
Qed.
Print Assumptions C60_writes.

Example C60_ex :
  h_edits g2 [EWrite [97; 98; 99; 32; 100]%Z; ELineStart; ENextWord; EKill; EBackspace; EYank; EYank; EBackward; ETranspose; EKillFront; EWrite [120]%Z] mem0 hbuf0
  <> Panic /\
  option_map (fun r : hst => abs (fst r) (snd r))
    (match h_edits gt [EWrite [97; 98; 99; 32; 100]%Z; EBackward; EKillFront; EYank; EBackspace; EDelete; EYank] mem0 hbuf0 with Ok r => Some r | _ => None end)
  = Some {| rb_buf := [97; 98; 99; 100]%Z; rb_idx := 4; rb_kill := [100]%Z |} /\
  run_edits [EWrite [97; 98; 99; 32; 100]%Z; EBackward; EKillFront; EYank; EBackspace; EDelete; EYank] rb_empty
  = Ok {| rb_buf := [97; 98; 99; 100]%Z; rb_idx := 4; rb_kill := [100]%Z |} /\
  run_edits [EWrite [97]%Z; EReplace 98%Z] rb_empty = Panic /\ h_edits g2 [EWrite [97]%Z; EReplace 98%Z] mem0 hbuf0 = Panic.
Proof. split; [vm_compute; discriminate|]. split; [vm_compute; reflexivity|]. split; vm_compute; auto. Qed.

(** ** C61, the part about memory *)

(** C61: a line recalled with Prev or Next is a copy (history.go:212, 225): no edits reach any slice that does not
    share memory with the old line, in particular no history entry. *)
Theorem C61_recalled : forall g es m b i entry m1 c m' b', hok m b ->
  valid m entry ->
  copy_of (view m entry) m = (m1, c) ->
  h_edits g es m1 (h_with_buf c i b) = Ok (m', b') ->
  view m' entry = view m entry.
Proof.
  intros g es m b i entry m1 c m' b' K Ve EC H.
  destruct (copy_of_spec _ _ _ _ EC) as (A & B & C & D & _). destruct K as (K1 & K2 & K3).
  assert (K' : hok m1 (h_with_buf c i b)).
  { split; [exact B|]. split; [eapply grows_valid; eauto|]. cbn. destruct K2 as (X & _). lia. }
  pose proof (edits_refine g es m1 _ K') as R. destruct (run_edits es _) as [s| |]; [|congruence|congruence].
  destruct R as (m2 & b2 & E & _ & _ & L & _). rewrite E in H. injection H as <- <-.
  rewrite (line_only_view _ _ _ _ entry L).
  - eapply grows_view; eauto.
  - eapply grows_valid; eauto.
  - cbn. destruct Ve as (X & _). lia.
Qed.
Print Assumptions C61_recalled.

(** Memory with one array, a history entry "hello" made by runes.Copy. *)
Definition m_hello : mem := {| mm := fun a => if a =? 2 then [104; 101; 108; 108; 111]%Z else []; mm_new := 3 |}.
Definition hello : slc := {| sl_a := 2; sl_off := 0; sl_len := 5; sl_cap := 5 |}.

Example C61_recalled_ex : exists m1 c m' b',
  copy_of (view m_hello hello) m_hello = (m1, c) /\
  h_edits g2 [ELineStart; EDelete; EDelete] m1 (h_with_buf c 5 hbuf0) = Ok (m', b') /\
  view m' (h_buf b') = [108; 108; 111]%Z /\ view m' hello = [104; 101; 108; 108; 111]%Z.
Proof. eexists _, _, _, _. split; [vm_compute; reflexivity|]. split; [vm_compute; reflexivity|]. split; vm_compute; reflexivity. Qed.

(** C61: a line brought by search is the entry itself (search.go:78 with history.go:195-201): deleting its first
    character turns the recorded "hello" into "elloo". *)
Theorem C61_slice_refuted : exists m b entry es m' b',
  hok m (h_with_buf entry 1 b) /\ valid m entry /\ view m entry = [104; 101; 108; 108; 111]%Z /\
  h_edits g2 es m (h_with_buf entry 1 b) = Ok (m', b') /\ es = [ELineStart; EDelete] /\
  view m' (h_buf b') = [101; 108; 108; 111]%Z /\ view m' entry = [101; 108; 108; 111; 111]%Z.
Proof.
  exists m_hello, hbuf0, hello, [ELineStart; EDelete]. eexists _, _.
  split; [unfold hok, valid; cbn; lia|]. split; [unfold valid; cbn; lia|]. split; [reflexivity|].
  split; [vm_compute; reflexivity|]. split; [reflexivity|]. split; vm_compute; reflexivity.
Qed.
Print Assumptions C61_slice_refuted.

(** ** C62 *)

Definition backup_restore (g : nat -> nat -> nat) (es : list edit) (m : mem) (b : hbuf) : outcome hst :=
  let '(m1, b1) := h_Backup m b in
  r <- h_edits g es m1 b1 ;; Ok (h_Restore (fst r) (snd r)).

Definition restored (g : nat -> nat -> nat) (es : list edit) (m : mem) (b : hbuf) : Prop :=
  forall m' b', backup_restore g es m b = Ok (m', b') ->
  view m' (h_buf b') = view m (h_buf b) /\ h_idx b' = h_idx b.

(** C62 is false: the backup shares the array of the line; deleting the first of "abc" makes it "bcc". *)
Theorem C62_refuted : exists g es m b m' b', hok m b /\ backup_restore g es m b = Ok (m', b') /\
  view m (h_buf b) = [97; 98; 99]%Z /\ es = [ELineStart; EDelete] /\ view m' (h_buf b') = [98; 99; 99]%Z.
Proof.
  exists g2, [ELineStart; EDelete].
  exists {| mm := fun a => if a =? 2 then [97; 98; 99]%Z else []; mm_new := 3 |}.
  exists {| h_buf := {| sl_a := 2; sl_off := 0; sl_len := 3; sl_cap := 3 |}; h_idx := 3; h_kill := nil_in 1; h_bck := None |}.
  eexists _, _. split; [unfold hok, valid; cbn; lia|]. split; [vm_compute; reflexivity|].
  split; [reflexivity|]. split; [reflexivity|]. vm_compute; reflexivity.
Qed.
Print Assumptions C62_refuted.

Lemma hok_backup : forall m b, hok m b -> hok (fst (h_Backup m b)) (snd (h_Backup m b)).
Proof. intros m b H. exact H. Qed.

Lemma motions_keep : forall g es m b m' b', forallb is_motion es = true -> h_edits g es m b = Ok (m', b') ->
  m' = m /\ h_buf b' = h_buf b /\ h_kill b' = h_kill b /\ h_bck b' = h_bck b.
Proof.
  intros g es; induction es as [|e es IH]; intros m b m' b' F H; cbn in F, H.
  { injection H as <- <-. auto. }
  apply andb_true_iff in F as [F1 F2].
  assert (E : h_edit g e m b = h_motion e m b) by (destruct e; try discriminate F1; reflexivity).
  rewrite E in H. unfold h_motion in H. destruct (run_edit e (abs m b)) as [s| |]; cbn in H; try discriminate.
  destruct (IH _ _ _ _ F2 H) as (A & B & C & D). auto.
Qed.

(** C62, the part that holds: after cursor motions alone, and whatever follows once the line has moved to another array
    (a yank, or a line set), Restore brings back text and cursor. *)
Theorem C62_motions_partial : forall g es m b, hok m b -> forallb is_motion es = true -> restored g es m b.
Proof.
  intros g es m b K F m' b' H. unfold backup_restore in H. cbn [h_Backup] in H.
  destruct (h_edits g es m _) as [[m1 b1]| |] eqn:E; cbn in H; try discriminate.
  destruct (motions_keep _ _ _ _ _ _ F E) as (A & B & C & D). subst m1. unfold h_Restore in H. rewrite D in H. cbn in H.
  injection H as <- <-. split; reflexivity.
Qed.
Print Assumptions C62_motions_partial.

Theorem C62_moved_partial : forall g es1 e es2 m b, hok m b -> forallb is_motion es1 = true ->
  (exists t, e = ESet t) \/ (e = EYank /\ view m (h_kill b) <> []) -> restored g (es1 ++ e :: es2) m b.
Proof.
  intros g es1 e es2 m b K F He m' b' H. unfold backup_restore in H. cbn [h_Backup] in H.
  set (b0 := {| h_buf := h_buf b; h_idx := h_idx b; h_kill := h_kill b; h_bck := Some (h_buf b, h_idx b) |}) in *.
  assert (K0 : hok m b0) by exact K.
  assert (S : forall es m1 b1, h_edits g (es ++ e :: es2) m1 b1 =
              obind (h_edits g es m1 b1) (fun r => h_edits g (e :: es2) (fst r) (snd r))).
  { intros es; induction es as [|e' es IH]; intros m1 b1; [reflexivity|]. cbn [h_edits app].
    destruct (h_edit g e' m1 b1) as [[m2 b2]| |]; cbn [obind fst snd]; try reflexivity. apply IH. }
  rewrite S in H. destruct (h_edits g es1 m b0) as [[m1 b1]| |] eqn:E1; cbn [obind] in H; try discriminate.
  destruct (motions_keep _ _ _ _ _ _ F E1) as (A & B & C & D). subst m1. cbn [fst snd h_edits] in H.
  assert (K1 : hok m b1). { unfold hok. rewrite B, C. exact K. }
  destruct (h_edit g e m b1) as [[m2 b2]| |] eqn:E2; cbn [obind fst snd] in H; try discriminate.
  pose proof (edit_refines g e m b1 K1) as R. unfold refines in R.
  destruct (run_edit e (abs m b1)) as [s| |] eqn:Er; [|congruence|congruence].
  destruct R as (m2' & b2' & E2' & K2 & Ea & T & _ & Eb). rewrite E2 in E2'. injection E2' as <- <-.
  assert (Mv : mm_new m <= sl_a (h_buf b2) /\ mm m2 (sl_a (h_buf b)) = mm m (sl_a (h_buf b))).
  { destruct He as [[t ->]|[-> Hk]].
    - cbn [h_edit] in E2. destruct (copy_of t m) as [m3 c] eqn:EC. unfold h_SetWithIdx in E2. injection E2 as <- <-.
      destruct (copy_of_spec _ _ _ _ EC) as (X1 & X2 & X3 & X4 & _). cbn. split; [lia|]. apply X1. apply K.
    - cbn [h_edit] in E2. unfold h_Yank in E2. rewrite C in E2.
      assert (Lk : sl_len (h_kill b) <> 0).
      { intro Z. apply Hk. apply length_zero_iff_nil. rewrite view_length; [exact Z|apply K]. }
      cbn [h_kill b0] in E2. destruct (Nat.eqb_spec (sl_len (h_kill b)) 0) as [Z|_]; [contradiction|].
      destruct (make 0 (hlen b1 + sl_len (h_kill b)) m) as [m3 s0] eqn:E0.
      destruct (make_spec _ _ _ _ E0) as (Y1 & Y2 & Y3 & Y4 & Y5 & Y6 & Y7).
      destruct (reslice 0 _ _) as [fr| |]; cbn [obind] in E2; try discriminate.
      destruct (append g s0 _ m3) as [m4 s1] eqn:EA1.
      destruct (append_new g m _ _ _ _ _ EA1 Y2 Y1) as (A1 & B1 & C1 & D1 & F1); [lia|].
      destruct (append g s1 _ m4) as [m5 s2] eqn:EA2.
      destruct (append_new g m _ _ _ _ _ EA2 B1 A1) as (A2 & B2 & C2 & D2 & F2); [lia|].
      destruct (reslice (h_idx b1) _ _) as [re| |]; cbn [obind] in E2; try discriminate.
      destruct (append g s2 _ m5) as [m6 s3] eqn:EA3.
      destruct (append_new g m _ _ _ _ _ EA3 B2 A2) as (A3 & B3 & C3 & D3 & F3); [lia|].
      injection E2 as <- <-. cbn. split; [exact D3|]. apply A3. apply K. }
  destruct (h_edits g es2 m2 b2) as [[m3 b3]| |] eqn:E3; cbn [obind] in H; try discriminate.
  pose proof (edits_refine g es2 m2 b2 K2) as R. destruct (run_edits es2 (abs m2 b2)) as [s'| |]; [|congruence|congruence].
  destruct R as (m3' & b3' & E3' & K3 & _ & L3 & Eb3). rewrite E3 in E3'. injection E3' as <- <-.
  unfold h_Restore in H. cbn [fst snd] in H. rewrite Eb3, Eb, D in H. cbn [h_bck b0] in H. injection H as <- <-.
  cbn. split; [|reflexivity].
  rewrite (line_only_view _ _ _ _ (h_buf b) L3).
  - apply view_ext. apply Mv.
  - destruct K as ((V1 & V2 & V3) & _). unfold valid. rewrite (proj2 Mv). destruct T as (T & _). lia.
  - destruct K as ((V1 & _) & _). destruct Mv as (Mv & _). lia.
Qed.
Print Assumptions C62_moved_partial.

Example C62_ex :
  option_map (fun r : hst => abs (fst r) (snd r))
    (match h_edits g2 [EWrite [97; 98]%Z; EErase; EYank] mem0 hbuf0 with
     | Ok (m, b) => match backup_restore g2 [EBackward; EYank; EBackspace; EKillFront] m b with Ok r => Some r | _ => None end
     | _ => None end)
  = Some {| rb_buf := [97; 98]%Z; rb_idx := 2; rb_kill := [97; 97]%Z |}.
Proof. vm_compute. reflexivity. Qed.

(** ** C34 *)

(** C34: if candidates with spare capacity do not share their arrays, the application's candidates are unchanged and
    the library offers exactly the matching ones, cut and with a blank. *)
Theorem C34_partial : forall g last m cands, Forall (valid m) cands ->
  ForallOrdPairs (fun c d => (sl_cap c = sl_len c \/ sl_a c <> sl_a d) /\ (sl_cap d = sl_len d \/ sl_a d <> sl_a c)) cands ->
  exists m' out, h_SegmentDo g last cands m = Ok (m', out) /\
    map (view m') out =
      map (fun c => skipn (length last) c ++ [32%Z]) (filter (fun c => HasPrefix c last) (map (view m) cands)) /\
    map (view m') cands = map (view m) cands.
Proof.
  intros g last m cands V O. destruct (SegmentDo_spec g last m cands V O) as (m' & ss & E & A & B).
  exists m', ss. split; [exact E|]. split; [|exact B]. rewrite A. unfold matching. now rewrite map_map.
Qed.
Print Assumptions C34_partial.

(** What is offered is what the list-level model of complete_segment.go offers. *)
Theorem C34_same_partial : forall g f line pos m cands segs idx last,
  SplitSegment line pos = Ok (segs, idx) -> nth_error segs (length segs - 1) = Some last ->
  f segs idx = map (view m) cands ->
  Forall (valid m) cands ->
  ForallOrdPairs (fun c d => (sl_cap c = sl_len c \/ sl_a c <> sl_a d) /\ (sl_cap d = sl_len d \/ sl_a d <> sl_a c)) cands ->
  exists m' out, h_SegmentDo g last cands m = Ok (m', out) /\
    SegmentDo f line pos = Ok (map (view m') out, idx).
Proof.
  intros g f line pos m cands segs idx last ES El Ef V O.
  destruct (SegmentDo_spec g last m cands V O) as (m' & ss & E & A & B).
  exists m', ss. split; [exact E|]. unfold SegmentDo. rewrite ES. cbn. rewrite Ef.
  rewrite (RetSegment_list segs last); [|destruct segs; [now destruct (length (@nil (list Z)) - 1)|discriminate]|exact El].
  cbn. now rewrite A.
Qed.
Print Assumptions C34_same_partial.

Definition m_cands : mem := {| mm := fun a => if a =? 2 then [97; 98; 99; 100]%Z else []; mm_new := 3 |}.
(** "ab" and "cd", consecutive pieces of one array, as strings.Fields-like splitting of a rune slice gives them *)
Definition cand_ab : slc := {| sl_a := 2; sl_off := 0; sl_len := 2; sl_cap := 4 |}.
Definition cand_cd : slc := {| sl_a := 2; sl_off := 2; sl_len := 2; sl_cap := 2 |}.

(** C34 is false in general: the blank put after "ab" overwrites the "c" of "cd"; the application's candidate becomes " d"
    and that is also what the user is offered. *)
Theorem C34_refuted : exists g last m cands m' out, Forall (valid m) cands /\
  map (view m) cands = [[97; 98]; [99; 100]]%Z /\ last = [] /\
  h_SegmentDo g last cands m = Ok (m', out) /\
  map (view m') cands = [[97; 98]; [32; 100]]%Z /\ map (view m') out = [[97; 98; 32]; [32; 100; 32]]%Z.
Proof.
  exists g2, [], m_cands, [cand_ab; cand_cd]. eexists _, _.
  split; [repeat constructor; cbn; lia|]. split; [reflexivity|]. split; [reflexivity|].
  split; [vm_compute; reflexivity|]. split; vm_compute; reflexivity.
Qed.
Print Assumptions C34_refuted.

Example C34_ex : exists m' out,
  h_SegmentDo g2 [97]%Z [cand_ab] m_cands = Ok (m', out) /\ map (view m') out = [[98; 32]]%Z /\
  map (view m') [cand_ab] = [[97; 98]]%Z /\
  (Forall (valid m_cands) [cand_ab] /\
   ForallOrdPairs (fun c d => (sl_cap c = sl_len c \/ sl_a c <> sl_a d) /\ (sl_cap d = sl_len d \/ sl_a d <> sl_a c)) [cand_ab]).
Proof.
  eexists _, _. split; [vm_compute; reflexivity|]. split; [vm_compute; reflexivity|]. split; [vm_compute; reflexivity|].
  split; [repeat constructor; cbn; lia|repeat constructor].
Qed.

(** ** C86: inserting a candidate *)

(** C86: WriteRunes leaves the inserted candidate as it is and writes nothing but the line and, if the text right of the
    cursor fits into the candidate's spare capacity, that spare capacity. *)
Theorem C86_insert : forall g s m b m' b', hok m b -> valid m s -> sl_a s <> sl_a (h_buf b) -> sl_a s <> sl_a (h_kill b) ->
  h_WriteRunes g s m b = Ok (m', b') ->
  (forall a, a < mm_new m -> a <> sl_a (h_buf b) -> a <> sl_a s -> mm m' a = mm m a) /\
  view m' s = view m s /\
  mm m' (sl_a s) = (if sl_len s + (hlen b - h_idx b) <=? sl_cap s
                    then put_at (sl_off s + sl_len s) (skipn (h_idx b) (view m (h_buf b))) (mm m (sl_a s))
                    else mm m (sl_a s)).
Proof.
  intros g s m b m' b' K Vs N1 N2 H. pose proof (WriteRunes_refines g true s m b K Vs N1 N2) as R.
  destruct (WriteRunes (view m s) (abs m b)) as [r| |]; [|congruence|congruence].
  destruct R as (m1 & b1 & E & _ & _ & _ & _ & _ & O & _ & S). rewrite E in H. injection H as <- <-.
  split; [exact O|].
  assert (M : mm m1 (sl_a s) = (if sl_len s + (hlen b - h_idx b) <=? sl_cap s
                    then put_at (sl_off s + sl_len s) (skipn (h_idx b) (view m (h_buf b))) (mm m (sl_a s))
                    else mm m (sl_a s))).
  { destruct S as [(S1 & S2)|(S1 & S2)]; rewrite S2.
    - replace (_ <=? _) with true by (symmetry; apply Nat.leb_le; lia). reflexivity.
    - replace (_ <=? _) with false by (symmetry; apply Nat.leb_gt; lia). reflexivity. }
  split; [|exact M].
  unfold view at 1. rewrite M. destruct Vs as (V1 & V2 & V3).
  destruct (_ <=? _); [|reflexivity].
  unfold put_at. rewrite skipn_app_le by (rewrite firstn_length; lia).
  rewrite firstn_app_le by (rewrite skipn_length, firstn_length; lia).
  rewrite skipn_firstn_comm, firstn_firstn. unfold view. f_equal. lia.
Qed.
Print Assumptions C86_insert.

(** C86, the part that holds: with the cursor at the end of the line, or a candidate without spare capacity, the
    application's memory is unchanged. *)
Theorem C86_partial : forall g s m b m' b', hok m b -> valid m s -> sl_a s <> sl_a (h_buf b) -> sl_a s <> sl_a (h_kill b) ->
  h_idx b = hlen b \/ (sl_cap s = sl_len s) ->
  h_WriteRunes g s m b = Ok (m', b') ->
  forall a, a < mm_new m -> a <> sl_a (h_buf b) -> mm m' a = mm m a.
Proof.
  intros g s m b m' b' K Vs N1 N2 Hc H a Ha Na.
  destruct (C86_insert g s m b m' b' K Vs N1 N2 H) as (A & _ & B).
  destruct (Nat.eq_dec a (sl_a s)) as [->|Ne]; [|now apply A]. rewrite B.
  pose proof (view_length _ _ (proj1 K)) as L.
  assert (Z : h_idx b = hlen b -> skipn (h_idx b) (view m (h_buf b)) = []).
  { intro E. apply skipn_all2. unfold hlen in E. lia. }
  assert (Nil : forall i x, put_at i [] x = x).
  { intros i x. unfold put_at. cbn. rewrite Nat.add_0_r. apply firstn_skipn. }
  destruct Hc as [E|Ec].
  - rewrite (Z E). destruct (_ <=? _); [apply Nil|reflexivity].
  - destruct (Nat.leb_spec (sl_len s + (hlen b - h_idx b)) (sl_cap s)); [|reflexivity].
    destruct (le_lt_dec (h_idx b) (hlen b)) as [Hl|Hl].
    + rewrite Z by lia. apply Nil.
    + rewrite skipn_all2 by (unfold hlen in Hl; lia). apply Nil.
Qed.
Print Assumptions C86_partial.

(** C86 is false in general: inserting "ab" in front of "y" overwrites the first letter of the candidate "cd". *)
Theorem C86_refuted : exists g s other m b m' b', hok m b /\ valid m s /\ valid m other /\
  sl_a s <> sl_a (h_buf b) /\ sl_a s <> sl_a (h_kill b) /\
  view m other = [99; 100]%Z /\ view m (h_buf b) = [121]%Z /\ h_idx b = 0 /\
  h_WriteRunes g s m b = Ok (m', b') /\ view m' (h_buf b') = [97; 98; 121]%Z /\ view m' other = [121; 100]%Z.
Proof.
  exists g2, cand_ab, cand_cd.
  exists {| mm := fun a => if a =? 2 then [97; 98; 99; 100]%Z else if a =? 3 then [121]%Z else []; mm_new := 4 |}.
  exists {| h_buf := {| sl_a := 3; sl_off := 0; sl_len := 1; sl_cap := 1 |}; h_idx := 0; h_kill := nil_in 1; h_bck := None |}.
  eexists _, _.
  split; [unfold hok, valid; cbn; lia|]. split; [unfold valid; cbn; lia|]. split; [unfold valid; cbn; lia|].
  split; [cbn; lia|]. split; [cbn; lia|]. split; [reflexivity|]. split; [reflexivity|]. split; [reflexivity|].
  split; [vm_compute; reflexivity|]. split; vm_compute; reflexivity.
Qed.
Print Assumptions C86_refuted.

(** ** C87: the line given by a listener *)

(** C87, the part that holds: after SetWithIdx with the application's slice, cursor motions, yanks and insertions that
    outgrow it leave it alone; precisely, one edit changes it only by writing the new line over it. *)
Theorem C87_partial : forall g e i s m b m' b', hok m b -> valid m s -> sl_a s <> sl_a (h_kill b) ->
  h_edit g e m (h_with_buf s i b) = Ok (m', b') ->
  is_motion e = true \/ sl_cap s < length (view m' (h_buf b')) ->
  view m' s = view m s.
Proof.
  intros g e i s m b m' b' K Vs N H Hc.
  assert (K' : hok m (h_with_buf s i b)) by (split; [exact Vs|split; [apply K|exact N]]).
  destruct Hc as [Hm|Hc].
  - assert (E : h_edit g e m (h_with_buf s i b) = h_motion e m (h_with_buf s i b)) by (destruct e; try discriminate Hm; reflexivity).
    rewrite E in H. unfold h_motion in H. destruct (run_edit e _); cbn in H; try discriminate. injection H as <- <-. reflexivity.
  - pose proof (C60_edit g e m _ K') as R. destruct (run_edit e _) as [r| |]; [|congruence|congruence].
    destruct R as (m1 & b1 & E1 & _ & (V1 & _)). rewrite E1 in H. injection H as <- <-.
    pose proof (C60_writes g e m _ m1 b1 K' E1) as (_ & _ & [(X1 & X2 & X3 & _)|(X1 & X2 & _)]); cbn in *.
    + rewrite (view_length _ _ V1) in Hc. destruct V1 as (_ & V1 & _). lia.
    + now apply view_ext.
Qed.
Print Assumptions C87_partial.

(** C87 is false in general: a listener returns its own "abc"; Backspace at the second position makes it "bcc". *)
Theorem C87_refuted : exists g m b s m' b', hok m (h_with_buf s 1 b) /\
  view m s = [97; 98; 99]%Z /\ h_SetWithIdx 1 s m b = Ok (m, h_with_buf s 1 b) /\
  h_edit g EBackspace m (h_with_buf s 1 b) = Ok (m', b') /\ view m' s = [98; 99; 99]%Z.
Proof.
  exists g2, {| mm := fun a => if a =? 2 then [97; 98; 99]%Z else []; mm_new := 3 |}, hbuf0, {| sl_a := 2; sl_off := 0; sl_len := 3; sl_cap := 3 |}.
  eexists _, _. split; [unfold hok, valid; cbn; lia|]. split; [reflexivity|]. split; [reflexivity|].
  split; [vm_compute; reflexivity|]. vm_compute; reflexivity.
Qed.
Print Assumptions C87_refuted.

Example C87_ex : exists m' b',
  h_edit g2 (EWrite [120]%Z) m_hello (h_with_buf hello 5 hbuf0) = Ok (m', b') /\
  sl_cap hello < length (view m' (h_buf b')) /\ view m' hello = [104; 101; 108; 108; 111]%Z.
Proof. eexists _, _. split; [vm_compute; reflexivity|]. split; [vm_compute; lia|vm_compute; reflexivity]. Qed.

(** ** C88: the list of candidates returned by the application *)

(** C88: Aggregate writes into the application's list (third component): it is unchanged exactly when nothing common
    was found. *)
Theorem C88_exact : forall cands same size after, Aggregate cands = Ok (same, size, after) ->
  after = cands <-> size = 0.
Proof.
  intros cands same size after H. destruct cands as [|c0 rest]; [discriminate|].
  destruct (Aggregate_correct (c0 :: rest)) as (sa & si & ou & E & P); [discriminate|].
  rewrite H in E. injection E as <- <- <-. unfold Aggregate in H.
  destruct (Nat.ltb_spec 0 (agg_loop (c0 :: rest) (length c0) 0)) as [Hp|Hp].
  - injection H as <- <- <-. split; [|lia]. intro Eq.
    exfalso. cbn [map] in Eq. injection Eq as Eq _.
    assert (L : length (skipn (agg_loop (c0 :: rest) (length c0) 0) c0) = length c0) by congruence.
    rewrite skipn_length in L. destruct P as (P & _). destruct (length c0) eqn:E0; [|lia].
    apply length_zero_iff_nil in E0. subst c0. cbn in Hp. lia.
  - injection H as <- <- <-. split; [lia|reflexivity].
Qed.
Print Assumptions C88_exact.

(** C88 is false: a completer that keeps its list ("foobar", "foobaz") finds "r" and "z" in it after one completion, and
    completing the next empty word with the same list inserts nothing. *)
Theorem C88_refuted : exists cands same size after, Aggregate cands = Ok (same, size, after) /\
  cands = [[102; 111; 111; 98; 97; 114]; [102; 111; 111; 98; 97; 122]]%Z /\ after = [[114]; [122]]%Z /\
  Aggregate after = Ok ([], 0, after).
Proof. eexists _, _, _, _. split; [|split; [reflexivity|split; [reflexivity|vm_compute; reflexivity]]]. vm_compute. reflexivity. Qed.
Print Assumptions C88_refuted.
Example C88_ex : Aggregate [[97; 98]; [99]]%Z = Ok ([], 0, [[97; 98]; [99]]%Z).
Proof. reflexivity. Qed.
