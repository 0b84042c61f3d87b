From Verif Require Import Base ListAux RunesModel RunesSpec RunesProofs RuneBufModel RuneBufSpec RuneBufProofs
  HistoryModel HistorySpec HistoryProofs RenderModel RenderProofs RenderMore OpModel OpSpec.
From Coq Require Import ZifyBool.
Open Scope Z_scope.

(** ** Rows *)
Lemma split_rows u w rs : 0 < w -> forall cur c, 0 <= c ->
  (Z.of_nat (length (split_loop u w rs cur c)) - 1) * w <= c + Z.of_nat (WidthAll u rs).
Proof.
  intros W. induction rs as [|r rs IH]; intros cur c C.
  - cbn. lia.
  - cbn [split_loop]. rewrite WidthAll_cons.
    destruct (c + Z.of_nat (Width u r) >=? w) eqn:E.
    + cbn [length]. specialize (IH [] 0 ltac:(lia)). nia.
    + specialize (IH (cur ++ [r]) (c + Z.of_nat (Width u r)) ltac:(lia)). lia.
Qed.

Lemma LineCount_spec w t : 0 < w -> 0 <= t -> exists n, LineCount w t = Ok n /\ t <= n * w < t + w.
Proof.
  intros W T. unfold LineCount. replace (w =? 0) with false by lia.
  pose proof (Z.quot_rem' t w). pose proof (Z.rem_bound_pos t w T W).
  destruct (Z.rem t w =? 0) eqn:E; cbn [negb]; eexists; (split; [reflexivity|]); nia.
Qed.

Section good.
Variable cf : ocfg.
Variable G : good_config cf.
Let u := oc_u cf.

Lemma prompt_len b : exists p, promptLen u (op_rdr cf b) = Ok p /\ 0 <= p.
Proof.
  destruct (gc_prompt _ G) as (v & E). unfold promptLen. cbn [d_prompt op_rdr]. rewrite E. cbn [obind].
  eexists. split; [reflexivity|lia].
Qed.

Lemma cursor_lines b : inside b -> exists n, CursorLineCount cf b = Ok n /\ 0 <= n.
Proof.
  intros I. pose proof (gc_w _ G) as W. unfold CursorLineCount. fold u.
  destruct (prompt_len b) as (p & P & P0). rewrite P. cbn [obind].
  destruct (LineCount_spec (oc_w cf) (Z.of_nat (WidthAll u (rb_buf b)) + p) W ltac:(lia)) as (n & N & B).
  rewrite N. cbn [obind]. unfold idxLine, getSplitByLine. replace (oc_w cf =? 0) with false by lia.
  cbn [d_idx d_buf op_rdr]. unfold inside in I. rewrite (slice_to _ _ I). cbn [obind]. rewrite P.
  cbn [obind d_width op_rdr]. eexists. split; [reflexivity|]. unfold SplitByLine.
  set (front := firstn (rb_idx b) (rb_buf b)).
  pose proof (split_rows u (oc_w cf) front W [] p P0) as H.
  assert (F : (WidthAll u front <= WidthAll u (rb_buf b))%nat).
  { rewrite <- (firstn_skipn (rb_idx b) (rb_buf b)), WidthAll_app. subst front. lia. }
  set (L := Z.of_nat (length (split_loop u (oc_w cf) front [] p))) in *. nia.
Qed.

(** ** Search *)
Definition marks_ok (s : srch) (b : rbuf) : Prop :=
  (0 < s_ms s)%nat -> (s_ms s <= s_me s <= length (rb_buf b))%nat.

Lemma SetStyle_ok a e b : inside b -> (a <= e <= length (rb_buf b))%nat -> exists l, SetStyle u a e b = Ok l.
Proof.
  intros I H. unfold inside in I. unfold SetStyle. replace (e <? a)%nat with false by lia.
  destruct (rb_idx b <? a)%nat eqn:E; rewrite !slice_ok by lia; cbn [obind]; eauto.
Qed.

Lemma Repeat_ok r n : 0 <= n -> Repeat r n = Ok (repeat r (Z.to_nat n)).
Proof. intros H. unfold Repeat. now replace (n <? 0) with false by lia. Qed.

Lemma search_out_ok x s b : inside b -> marks_ok s b -> x < 0 \/ (Z.to_nat x <= length (rb_buf b))%nat ->
  exists l, search_out cf x s b = Ok l.
Proof.
  intros I M X. unfold search_out. fold u. pose proof (gc_w _ G).
  assert (F : exists f, slice 0 (if x <? 0 then rb_idx b else Z.to_nat x) (rb_buf b) = Ok f).
  { unfold inside in I. destruct (x <? 0) eqn:E; [rewrite slice_to by lia|rewrite slice_to by lia]; eauto. }
  destruct F as (f & ->). cbn [obind]. destruct (prompt_len b) as (p & -> & P0). cbn [obind].
  replace (oc_w cf =? 0) with false by lia. 
  assert (K : exists m, (if (0 <? s_ms s)%nat then SetStyle u (s_ms s) (s_me s) b else Ok []) = Ok m).
  { destruct (0 <? s_ms s)%nat eqn:E; [|eauto]. apply SetStyle_ok; [exact I|]. apply M. lia. }
  destruct K as (m & ->). cbn [obind]. destruct (cursor_lines b I) as (n & -> & N). cbn [obind].
  rewrite (Repeat_ok _ _ N). cbn [obind]. eauto.
Qed.

Lemma SearchRefresh_ok x o : inside (o_b o) -> marks_ok (o_s o) (o_b o) ->
  x < 0 \/ (Z.to_nat x <= length (rb_buf (o_b o)))%nat ->
  SearchRefresh cf x o = Ok (with_s (set_fail x (o_s o)) o).
Proof.
  intros I M X. unfold SearchRefresh.
  destruct (search_out_ok x (set_fail x (o_s o)) (o_b o) I M X) as (l & ->). reflexivity.
Qed.

Lemma deref_item h x : hwf h -> In x (elems h) -> deref h (it_id x) = Ok x.
Proof.
  intros W I. unfold deref. fold (elems h). now rewrite (find_item_unique _ _ (w_nodup h W) I).
Qed.

Lemma older_items h id x : In x (older id h) -> In x (h_items h).
Proof.
  unfold older. pose proof (split_at_id_spec id [] (h_items h)) as E.
  destruct (split_at_id id [] (h_items h)) as [[[pre y] post]|]; [|contradiction].
  destruct E as (_ & E). cbn [rev app] in E. rewrite E, in_app_iff, <- in_rev. tauto.
Qed.

Lemma newer_items h id x : In x (newer id h) -> In x (h_items h).
Proof.
  unfold newer. pose proof (split_at_id_spec id [] (h_items h)) as E.
  destruct (split_at_id id [] (h_items h)) as [[[pre y] post]|]; [|contradiction].
  destruct E as (_ & E). cbn [rev app] in E. rewrite E, in_app_iff. cbn. tauto.
Qed.

Definition hit (h : hist) (n : nat) (idx : Z) (id : nat) : Prop :=
  exists x, In x (elems h) /\ it_id x = id /\ 0 <= idx /\ (Z.to_nat idx + n <= length (showItem h x))%nat.

Lemma bck_hit l sub fold : 0 <= IndexAllBckEx l sub fold -> (Z.to_nat (IndexAllBckEx l sub fold) + length sub <= length l)%nat.
Proof.
  intros H. destruct (IndexAllBckEx_spec l sub fold) as [(k & E & O & _)|(E & _)]; [|lia].
  rewrite E. apply occurs_bound in O. lia.
Qed.

Lemma fwd_hit l sub fold : 0 <= IndexAllEx l sub fold -> (Z.to_nat (IndexAllEx l sub fold) + length sub <= length l)%nat.
Proof.
  intros H. destruct (IndexAllEx_spec l sub fold) as [(k & E & _ & O & _)|(E & _)]; [|lia].
  rewrite E. apply occurs_bound in O. lia.
Qed.

Lemma find_bck_older_hit fold rs h walk idx id : (forall x, In x walk -> In x (elems h)) ->
  find_bck_older fold rs h walk = Some (idx, id) -> hit h (length rs) idx id.
Proof.
  induction walk as [|x walk IH]; intros S E; cbn in E; [discriminate|].
  destruct (IndexAllBckEx (showItem h x) rs fold <? 0) eqn:N.
  - apply IH; [|exact E]. intros y Y. apply S. now right.
  - injection E as <- <-. exists x. repeat split; [apply S; now left|lia|]. apply bck_hit. lia.
Qed.

Lemma find_fwd_newer_hit fold rs h walk idx id : (forall x, In x walk -> In x (elems h)) ->
  find_fwd_newer fold rs h walk = Some (idx, id) -> hit h (length rs) idx id.
Proof.
  induction walk as [|x walk IH]; intros S E; cbn in E; [discriminate|].
  destruct (IndexAllEx (showItem h x) rs fold <? 0) eqn:N.
  - apply IH; [|exact E]. intros y Y. apply S. now right.
  - injection E as <- <-. exists x. repeat split; [apply S; now left|lia|]. apply fwd_hit. lia.
Qed.

Lemma items_elems h x : In x (h_items h) -> In x (elems h).
Proof. intros I. unfold elems. rewrite in_app_iff. now left. Qed.

Lemma FindBck_ok c new rs st h : hwf h -> exists r, FindBck c new rs st h = Ok r /\
  forall idx id, r = Some (idx, id) -> hit h (length rs) idx id.
Proof.
  intros W. unfold FindBck. destruct (h_cur h) as [id|] eqn:C; [|exists None; split; [reflexivity|discriminate]].
  destruct (hwf_cur h id W C) as (x & D & I & X). rewrite D. cbn [obind].
  set (start := if new then _ else _). set (it := if (start <=? _)%nat then _ else _).
  destruct (IndexAllBckEx it rs (hc_fold c) <? 0) eqn:N; eexists; (split; [reflexivity|]); intros idx id' E.
  - eapply find_bck_older_hit; [|exact E]. intros y Y. apply items_elems. now apply older_items in Y.
  - injection E as <- <-. exists x. repeat split; [exact I|exact X|lia|].
    pose proof (bck_hit it rs (hc_fold c) ltac:(lia)) as H.
    assert (L : (length it <= length (showItem h x))%nat).
    { subst it. destruct (start <=? _)%nat; [rewrite firstn_length|]; lia. }
    lia.
Qed.

Lemma FindFwd_ok c new rs st h : hwf h -> exists r, FindFwd c new rs st h = Ok r /\
  forall idx id, r = Some (idx, id) -> hit h (length rs) idx id.
Proof.
  intros W. unfold FindFwd. destruct (h_cur h) as [id|] eqn:C; [|exists None; split; [reflexivity|discriminate]].
  destruct (hwf_cur h id W C) as (x & D & I & X). rewrite D. cbn [obind].
  set (start := if new then _ else _).
  assert (R : forall idx id', find_fwd_newer (hc_fold c) rs h (newer id h) = Some (idx, id') -> hit h (length rs) idx id').
  { intros idx id' E. eapply find_fwd_newer_hit; [|exact E]. intros y Y. apply items_elems. now apply newer_items in Y. }
  destruct (start <? length (showItem h x))%nat eqn:L; [|eexists; split; [reflexivity|exact R]].
  destruct (IndexAllEx (skipn start (showItem h x)) rs (hc_fold c) <? 0) eqn:N; eexists; (split; [reflexivity|]); [exact R|].
  intros idx id' E. injection E as <- <-. exists x. repeat split; [exact I|exact X|lia|].
  pose proof (fwd_hit (skipn start (showItem h x)) rs (hc_fold c) ltac:(lia)) as H. rewrite skipn_length in H. lia.
Qed.

(** What a search leaves alone. *)
Record skeep (o o' : op) : Prop := {
  sk_in : inside (o_b o');
  sk_h : hwf (o_h o');
  sk_items : h_items (o_h o') = h_items (o_h o);
  sk_dead : h_dead (o_h o') = h_dead (o_h o);
  sk_ver : h_ver (o_h o') = h_ver (o_h o);
  sk_s : s_in (o_s o') = s_in (o_s o);
  sk_src : s_src (o_s o') = s_src (o_s o);
  sk_data : s_data (o_s o') = s_data (o_s o);
  sk_marks : marks_ok (o_s o') (o_b o');
  sk_c : o_c o' = o_c o;
  sk_vn : o_vn o' = o_vn o;
  sk_vp : o_vp o' = o_vp o;
  sk_end : o_end o' = o_end o
}.

Lemma search_ok new o : inside (o_b o) -> hwf (o_h o) -> marks_ok (o_s o) (o_b o) ->
  exists o', search cf new o = Ok o' /\ skeep o o'.
Proof.
  intros I W M. unfold search. destruct (s_data (o_s o)) as [|d0 dd] eqn:D.
  - rewrite SearchRefresh_ok; [|exact I|exact M|left; lia]. eexists. split; [reflexivity|].
    constructor; try reflexivity; try assumption.
  - rewrite <- D. set (d := s_data (o_s o)) in *.
    assert (F : exists r, (if s_bck (o_s o) then FindBck (oc_h cf) new d (rb_idx (o_b o)) (o_h o)
              else FindFwd (oc_h cf) new d (rb_idx (o_b o)) (o_h o)) = Ok r /\
              forall idx id, r = Some (idx, id) -> hit (o_h o) (length d) idx id).
    { destruct (s_bck (o_s o)); [now apply FindBck_ok|now apply FindFwd_ok]. }
    destruct F as (r & -> & R). cbn [obind]. destruct r as [[idx id]|].
    + destruct (R idx id eq_refl) as (x & X & <- & X0 & XL). rewrite (deref_item _ _ W X). cbn [obind].
      set (i := Z.to_nat idx) in *. set (c := if s_bck (o_s o) then i else (i + length d)%nat).
      assert (CL : (c <= length (showItem (o_h o) x))%nat) by (subst c; destruct (s_bck (o_s o)); lia).
      rewrite SearchRefresh_ok.
      * eexists. split; [reflexivity|].
        constructor; try reflexivity.
        -- exact CL.
        -- apply hwf_set_cur; [exact W|]. now apply in_map.
        -- intros H. cbn. lia.
      * exact CL.
      * intros H. cbn. lia.
      * right. rewrite Nat2Z.id. exact CL.
    + rewrite SearchRefresh_ok; [|exact I|exact M|left; lia]. eexists. split; [reflexivity|].
      constructor; try reflexivity; try assumption.
Qed.

Lemma SearchMode_ok bck o : inside (o_b o) -> hwf (o_h o) -> marks_ok (o_s o) (o_b o) ->
  exists o', SearchMode cf bck o = Ok (o', true) /\
    inside (o_b o') /\ hwf (o_h o') /\ h_items (o_h o') = h_items (o_h o) /\ h_dead (o_h o') = h_dead (o_h o) /\
    h_ver (o_h o') = h_ver (o_h o) /\ s_in (o_s o') = true /\ s_src (o_s o') = h_cur (o_h o) /\
    marks_ok (o_s o') (o_b o') /\ o_c o' = o_c o /\ o_vn o' = o_vn o /\ o_vp o' = o_vp o /\ o_end o' = o_end o /\
    (s_in (o_s o) = false -> o_h o' = o_h o /\ o_b o' = o_b o).
Proof.
  intros I W M. unfold SearchMode. pose proof (gc_w _ G). replace (oc_w cf =? 0) with false by lia.
  set (o1 := with_s _ o). destruct (s_in (o_s o)).
  - destruct (search_ok false o1 I W M) as (o' & -> & K). cbn [obind]. exists o'.
    destruct K. split; [reflexivity|]. cbn in *. repeat (split; [assumption|]). discriminate.
  - rewrite SearchRefresh_ok; [|exact I|exact M|left; lia]. cbn [obind]. eexists. split; [reflexivity|].
    cbn. repeat (split; [first [assumption|reflexivity]|]). auto.
Qed.

(** ** Completion *)
Lemma max_width_spec cs m : forall a, (forall c, In c cs -> Z.of_nat (WidthAll u c) <= m) -> a <= m ->
  a <= fold_left (fun m c => Z.max m (Z.of_nat (WidthAll u c))) cs a <= m /\
  forall c, In c cs -> Z.of_nat (WidthAll u c) <= fold_left (fun m c => Z.max m (Z.of_nat (WidthAll u c))) cs a.
Proof.
  induction cs as [|x cs IH]; intros a H A; cbn [fold_left].
  - split; [lia|]. intros c [].
  - destruct (IH (Z.max a (Z.of_nat (WidthAll u x)))) as (B & C).
    + intros c I. apply H. now right.
    + specialize (H x ltac:(now left)). lia.
    + split; [lia|]. intros c [<-|I]; [lia|now apply C].
Qed.

Lemma cells_ok same cw k ch sel cs : (forall c, In c cs -> Z.of_nat (WidthAll u c) + Z.of_nat (WidthAll u same) <= cw) ->
  forall i j, exists r, cells_out u same cw k ch sel cs i j = Ok r.
Proof.
  induction cs as [|x cs IH]; intros H i j; cbn [cells_out]; [eauto|].
  rewrite Repeat_ok by (specialize (H x ltac:(now left)); lia). cbn [obind].
  destruct (IH (fun c I => H c (or_intror I)) (i + 1) (if j + 1 =? k then 0 else j + 1)) as (r & ->). cbn [obind]. eauto.
Qed.

Lemma RuneSlice_back b off : inside b -> 0 <= off <= Z.of_nat (rb_idx b) ->
  RuneSlice (- off) b = Ok (firstn (Z.to_nat off) (skipn (rb_idx b - Z.to_nat off) (rb_buf b))).
Proof.
  intros I H. unfold inside in I. unfold RuneSlice. replace (0 <? - off) with false by lia.
  replace (Z.of_nat (rb_idx b) + - off <? 0) with false by lia. rewrite slice_ok by lia.
  f_equal. f_equal; [lia|]. f_equal. lia.
Qed.

Lemma menu_ok c b : inside b -> fits cf (rb_buf b) (rb_idx b) (c_cand c) (c_off c) ->
  exists r, menu_out cf c b = Ok r /\ 0 < snd r.
Proof.
  intros I F. destruct F as [F1 F2 F3 F4]. unfold menu_out. fold u.
  destruct (cursor_lines b I) as (lc & -> & L). cbn [obind].
  rewrite (RuneSlice_back b (c_off c) I F2). cbn [obind]. fold u in F3, F4. unfold max_width.
  set (same := firstn _ _) in *.
  destruct (max_width_spec (c_cand c) (oc_w cf - 1 - c_off c - 1) 0) as (B & C).
  - intros x X. specialize (F3 x X). lia.
  - destruct (c_cand c) as [|x xs]; [congruence|]. specialize (F3 x ltac:(now left)). lia.
  - set (mw := fold_left _ _ 0) in *. set (cw := mw + (c_off c + 1)).
    replace (cw =? 0) with false by lia. rewrite (Repeat_ok _ _ L). cbn [obind].
    assert (Q : 0 < Z.quot (oc_w cf - 1) cw).
    { rewrite Z.quot_div_nonneg by lia. apply Z.div_str_pos. lia. }
    replace (Z.quot (oc_w cf - 1) cw =? 0) with false by lia.
    set (k := Z.quot (oc_w cf - 1) cw) in *.
    assert (E : 0 <= Z.quot (oc_w cf - 1 - cw * k) k).
    { apply Z.quot_pos; [|exact Q]. subst k. pose proof (Z.mul_quot_le (oc_w cf - 1) cw ltac:(lia) ltac:(lia)). lia. }
    destruct (cells_ok same (cw + Z.quot (oc_w cf - 1 - cw * k) k) k (c_choice c) (c_sel c) (c_cand c)) with (i := 0) (j := 0)
      as (r & ->).
    + intros x X. specialize (C x X). lia.
    + cbn [obind]. destruct (prompt_len b) as (pl & -> & _). cbn [obind]. eexists. split; [reflexivity|]. exact Q.
Qed.

Definition fitting (o : op) : Prop := fits cf (rb_buf (o_b o)) (rb_idx (o_b o)) (c_cand (o_c o)) (c_off (o_c o)) /\
  c_src (o_c o) = Some (rb_buf (o_b o)).

Lemma CompleteRefresh_ok o : inside (o_b o) -> c_in (o_c o) = true -> fitting o ->
  exists n, 0 < n /\ CompleteRefresh cf o = Ok (with_c (set_col n (o_c o)) o).
Proof.
  intros I C F. unfold CompleteRefresh. rewrite C. cbn [negb].
  destruct (menu_ok (o_c o) (o_b o) I (proj1 F)) as (r & -> & R). cbn [obind]. eauto.
Qed.

Definition chosen (c : comp) : Prop :=
  (2 <= length (c_cand c))%nat /\ 0 <= c_choice c < Z.of_nat (length (c_cand c)) /\ 0 < c_col c.

Lemma nextCandidate_range i c : (0 < length (c_cand c))%nat ->
  exists x, nextCandidate i c = Ok (set_choice x c) /\ 0 <= x < Z.of_nat (length (c_cand c)) /\
    x = (c_choice c + i) mod Z.of_nat (length (c_cand c)).
Proof.
  intros H. unfold nextCandidate. set (n := Z.of_nat (length (c_cand c))). assert (N : 0 < n) by lia.
  replace (n =? 0) with false by lia.
  pose proof (Z.quot_rem' (c_choice c + i) n) as E.
  destruct (Z_le_gt_dec 0 (c_choice c + i)) as [P|P].
  - pose proof (Z.rem_bound_pos (c_choice c + i) n P N) as B.
    replace (Z.rem (c_choice c + i) n <? 0) with false by lia.
    eexists. split; [reflexivity|]. split; [lia|]. rewrite Z.rem_mod_nonneg by lia. reflexivity.
  - pose proof (Z.rem_bound_pos_neg (c_choice c + i) n N ltac:(lia)) as B.
    destruct (Z.rem (c_choice c + i) n <? 0) eqn:L; (eexists; split; [reflexivity|]; split; [lia|]);
      eapply Z.mod_unique_pos; try lia.
    + instantiate (1 := Z.quot (c_choice c + i) n - 1). lia.
    + instantiate (1 := Z.quot (c_choice c + i) n). lia.
Qed.

Lemma matrix_size c : 0 < c_col c -> exists m, getMatrixSize c = Ok m /\
  Z.of_nat (length (c_cand c)) <= m < Z.of_nat (length (c_cand c)) + c_col c /\ exists q, m = q * c_col c.
Proof.
  intros H. unfold getMatrixSize. set (n := Z.of_nat _). replace (c_col c =? 0) with false by lia.
  pose proof (Z.quot_rem' n (c_col c)) as E. pose proof (Z.rem_bound_pos n (c_col c) ltac:(lia) H) as B.
  destruct (Z.rem n (c_col c) =? 0) eqn:R; (eexists; split; [reflexivity|]; split; [nia|eauto]).
Qed.

(** ** History *)
Definition hgood (h : hist) : Prop := hwf h /\ h_items h <> [].

Lemma lastn_nonempty {A} n (l : list A) : (1 <= n)%nat -> l <> [] -> lastn n l <> [].
Proof. intros N L E. apply (f_equal (@length A)) in E. rewrite lastn_length in E. destruct l; [congruence|]. cbn in E. lia. Qed.

Lemma Update_good s b h : hgood h -> exists h', Update (oc_h cf) s b h = Ok h' /\ hgood h'.
Proof.
  intros (W & N). destruct (Update_ok (oc_h cf) s b h W) as (h' & E & W' & _). exists h'. split; [exact E|].
  split; [exact W'|]. pose proof (gc_limit _ G) as L. unfold Update in E. destruct (h_cur h) as [id|].
  - destruct (deref h id) as [x| |]; try discriminate. cbn [obind] in E. injection E as <-.
    rewrite Compact_items. apply lastn_nonempty; [unfold keep; lia|].
    assert (M : forall f, h_items (modify id f h) <> []).
    { intros f F. cbn in F. unfold map_item in F. apply map_eq_nil in F. contradiction. }
    destruct b; [|apply M]. unfold write_fd. destruct (h_fd _); apply M.
  - injection E as <-. rewrite Compact_items. apply lastn_nonempty; [unfold keep; lia|]. cbn.
    intros F. apply app_eq_nil in F. destruct F. discriminate.
Qed.

Lemma New_good s h : hgood h -> exists h', New (oc_h cf) s h = Ok h' /\ hgood h'.
Proof.
  intros (W & N). destruct (New_ok (oc_h cf) s h W) as (h' & E & W'). exists h'. split; [exact E|].
  split; [exact W'|]. unfold New in E.
  assert (P : forall s h h', new_commit (oc_h cf) s h = Ok h' -> h_items h' <> []).
  { clear. intros s h h' E. unfold new_commit in E. destruct (if opt_eqb _ _ then _ else _) as [[c h1]| |]; try discriminate.
    cbn [obind] in E. destruct (Update (oc_h cf) c true h1) as [h2| |]; try discriminate. cbn [obind] in E.
    injection E as <-. cbn. intros F. apply app_eq_nil in F. destruct F. discriminate. }
  assert (C : forall id, h_items (clean_back id h) <> []).
  { intros id F. cbn in F. unfold map_item in F. apply map_eq_nil in F. contradiction. }
  destruct (negb (h_enable h)); [injection E as <-; exact N|].
  destruct (match rev (h_items h) with [] => _ | _ => _ end); [injection E as <-; apply C|].
  destruct (length s =? 0)%nat; [|now apply P in E].
  destruct (back_id h); [injection E as <-; apply C|now apply P in E].
Qed.

Lemma Revert_good h : hgood h -> hgood (Revert h).
Proof.
  intros (W & N). split; [|exact N]. destruct (run_hcall_ok (oc_h cf) HRevert h W) as (h' & E & W').
  cbn in E. injection E as <-. exact W'.
Qed.

Lemma good_cur h : hgood h -> exists id, h_cur h = Some id /\ In id (map it_id (elems h)).
Proof.
  intros (W & N). pose proof (w_cur h W) as C. destruct (h_cur h) as [id|]; [|contradiction]. eauto.
Qed.

(** ** Invariants *)
Definition sgood (o : op) : Prop :=
  (exists id, s_src (o_s o) = Some id /\ In id (map it_id (elems (o_h o)))) /\ marks_ok (o_s o) (o_b o).
Definition sclear (o : op) : Prop := s_ms (o_s o) = 0%nat /\ s_data (o_s o) = [].

(** before the switch *)
Record mid (o : op) : Prop := {
  m_in : inside (o_b o);
  m_h : hgood (o_h o);
  m_s : s_in (o_s o) = true -> sgood o;
  m_s0 : s_in (o_s o) = false -> sclear o;
  m_sc : s_in (o_s o) = true -> c_in (o_c o) = false;
  m_sel : c_sel (o_c o) = false;
  m_c : c_in (o_c o) = true -> oc_auto cf <> None /\
        (c_cand (o_c o) = [] /\ c_src (o_c o) = None \/ fitting o);
  m_v : s_in (o_s o) = true \/ c_in (o_c o) = true -> oc_vim cf && o_vn o = false;
  m_vp : o_vp o = None;
  m_end : o_end o = false
}.

(** after the switch *)
Record post (x : swres) : Prop := {
  p_in : inside (o_b (fst (fst (fst (fst x)))));
  p_h : hgood (o_h (fst (fst (fst (fst x)))));
  p_s : snd (fst (fst x)) = true -> s_in (o_s (fst (fst (fst (fst x))))) = true -> sgood (fst (fst (fst (fst x))));
  p_s0 : s_in (o_s (fst (fst (fst (fst x))))) = false -> sclear (fst (fst (fst (fst x))));
  p_sel : c_in (o_c (fst (fst (fst (fst x))))) = false -> c_sel (o_c (fst (fst (fst (fst x))))) = false;
  p_c : snd (fst x) = true -> c_in (o_c (fst (fst (fst (fst x))))) = true -> oc_auto cf <> None /\
        fitting (fst (fst (fst (fst x)))) /\
        (c_sel (o_c (fst (fst (fst (fst x))))) = true -> chosen (o_c (fst (fst (fst (fst x))))));
  p_sc : snd (fst (fst x)) = false -> s_in (o_s (fst (fst (fst (fst x))))) = true ->
         c_in (o_c (fst (fst (fst (fst x))))) = true -> snd (fst x) = true;
  p_k : snd (fst (fst x)) = true -> snd (fst x) = false;
  p_v : s_in (o_s (fst (fst (fst (fst x))))) = true \/ c_in (o_c (fst (fst (fst (fst x))))) = true ->
        oc_vim cf && o_vn (fst (fst (fst (fst x)))) = false;
  p_vp : o_vp (fst (fst (fst (fst x)))) = None;
  p_end : o_end (fst (fst (fst (fst x)))) = false
}.

(** between keys *)
Record resting (o : op) : Prop := {
  r_in : inside (o_b o);
  r_h : hgood (o_h o);
  r_s : s_in (o_s o) = true -> sgood o /\ c_in (o_c o) = false;
  r_s0 : s_in (o_s o) = false -> sclear o;
  r_c : c_in (o_c o) = true -> oc_auto cf <> None /\ fitting o;
  r_sel : c_sel (o_c o) = true -> c_in (o_c o) = true /\ chosen (o_c o);
  r_v : s_in (o_s o) = true \/ c_in (o_c o) = true -> oc_vim cf && o_vn o = false;
  r_vp : o_vp o <> None -> oc_vim cf && o_vn o = true;
  r_end : o_end o = false
}.

Definition owf (o : op) : Prop := o_end o = true \/ resting o.

Lemma edit_post e o : mid o -> ~ edit_panics e (o_b o) -> (e = ETranspose -> length (rb_buf (o_b o)) <> 1%nat) ->
  exists b, run_edit e (o_b o) = Ok b /\ inside b /\ post (with_b b o, [], false, false, true).
Proof.
  intros M NP T. destruct (edit_ok e (o_b o) (m_in _ M) NP) as (b & E & I).
  exists b. split; [exact E|]. assert (B : inside b) by (destruct I as [I|(-> & L)]; [exact I|now elim T]).
  split; [exact B|]. destruct M. constructor; cbn; try assumption; try discriminate; auto.
  intros _ S C. rewrite (m_sc0 S) in C. discriminate.
Qed.

Lemma after_ok r x : post x -> exists o' a, after_switch cf r x = Ok (o', a) /\ resting o'.
Proof.
  destruct x as [[[[o a] ks] kc] upd]. intros P. destruct P as [Pin Ph Ps Ps0 Psel Pc Psc Pk Pv Pvp Pend]. cbn [fst snd] in *.
  unfold after_switch. rewrite (gc_listen _ G).
  assert (Q : exists o2, (if negb ks && s_in (o_s o) then ExitSearchMode false o
     else if c_in (o_c o) then if negb kc then Ok (with_c (ExitCompleteMode (o_c o)) o) else CompleteRefresh cf o
     else Ok o) = Ok o2 /\ resting o2).
  { destruct (negb ks && s_in (o_s o)) eqn:E.
    - cbn [ExitSearchMode obind]. eexists. split; [reflexivity|].
      apply andb_true_iff in E. destruct E as (K & S). apply negb_true_iff in K. subst ks.
      assert (C : c_in (o_c o) = true -> oc_auto cf <> None /\ fitting o /\ (c_sel (o_c o) = true -> chosen (o_c o))).
      { intros C. apply Pc; [|exact C]. now apply Psc. }
      constructor; cbn; try assumption; try discriminate; auto.
      + intros _. now split.
      + intros C1. destruct (C C1) as (A & B & _). now split.
      + intros L. destruct (c_in (o_c o)) eqn:Ci; [|rewrite (Psel eq_refl) in L; discriminate].
        split; [reflexivity|]. destruct (C eq_refl) as (_ & _ & D). now apply D.
    - destruct (c_in (o_c o)) eqn:Ci.
      + destruct kc; cbn [negb].
        * assert (K : ks = false) by (destruct ks; [discriminate Pk; reflexivity|reflexivity]).
          subst ks. cbn in E. destruct (Pc eq_refl eq_refl) as (A & B & D).
          destruct (CompleteRefresh_ok o Pin Ci B) as (n & N & ->). eexists. split; [reflexivity|].
          constructor; cbn; try assumption; try discriminate; auto.
          -- rewrite E. discriminate.
          -- intros L. split; [exact Ci|]. destruct (D L) as (D1 & D2 & _). now split.
        * eexists. split; [reflexivity|]. constructor; cbn; try assumption; try discriminate; auto.
          -- intros S. split; [|reflexivity]. apply Ps; [|exact S]. rewrite S in E. destruct ks; [reflexivity|discriminate].
      + eexists. split; [reflexivity|]. constructor; cbn; try assumption; try discriminate; auto.
        * intros S. split; [|exact Ci]. apply Ps; [|exact S]. rewrite S in E. destruct ks; [reflexivity|discriminate].
        * rewrite Ci. discriminate.
        * rewrite (Psel eq_refl). discriminate.
        * rewrite Ci. exact Pv. }
  destruct Q as (o2 & -> & R). cbn [obind]. destruct (upd && negb (s_in (o_s o2))) eqn:U; cbn [obind].
  - destruct (Update_good (rb_buf (o_b o2)) false (o_h o2) (r_h _ R)) as (h & -> & Hg). cbn [obind].
    do 2 eexists. split; [reflexivity|]. apply andb_true_iff in U. destruct U as (_ & U). apply negb_true_iff in U.
    destruct R. constructor; cbn; try assumption; auto. rewrite U. discriminate.
  - do 2 eexists. split; [reflexivity|]. exact R.
Qed.

(** ** Completion steps *)
Record ckeep (o o' : op) : Prop := {
  ck_in : inside (o_b o');
  ck_h : o_h o' = o_h o;
  ck_s : o_s o' = o_s o;
  ck_vn : o_vn o' = o_vn o;
  ck_vp : o_vp o' = o_vp o;
  ck_end : o_end o' = o_end o;
  ck_c : c_in (o_c o') = true -> fitting o' /\ (c_sel (o_c o') = true -> chosen (o_c o'));
  ck_sel : c_in (o_c o') = false -> c_sel (o_c o') = false
}.

Lemma write_ok t b : inside b -> exists b', WriteRunes t b = Ok b' /\ inside b'.
Proof.
  intros I. destruct (edit_ok (EWrite t) b I) as (b' & E & [J|(F & _)]); [cbn; tauto| |discriminate].
  exists b'. now split.
Qed.

Lemma doSelect_ok o : inside (o_b o) -> c_in (o_c o) = true -> fitting o -> 
  exists o', doSelect cf o = Ok o' /\ ckeep o o'.
Proof.
  intros I C F. unfold doSelect. pose proof (f_some _ _ _ _ _ (proj1 F)) as N.
  assert (B : (2 <= length (c_cand (o_c o)))%nat -> exists o', (c <- nextCandidate 1 (o_c o) ;; CompleteRefresh cf (with_c c o)) = Ok o' /\ ckeep o o').
  { intros L. destruct (nextCandidate_range 1 (o_c o) ltac:(lia)) as (x & -> & X & _). cbn [obind].
    destruct (CompleteRefresh_ok (with_c (set_choice x (o_c o)) o) I C F) as (n & Nn & ->).
    eexists. split; [reflexivity|]. constructor; cbn; try reflexivity; try assumption.
    - intros _. split; [exact F|]. intros _. repeat split; cbn; lia.
    - rewrite C. discriminate. }
  destruct (c_cand (o_c o)) as [|c1 [|c2 cs]] eqn:D; [congruence| |apply B; cbn; lia].
  destruct (write_ok c1 (o_b o) I) as (b & -> & Ib). cbn [obind]. eexists. split; [reflexivity|].
  constructor; cbn; try reflexivity; try assumption. discriminate.
Qed.

Lemma OnComplete_ok Do o : inside (o_b o) -> c_sel (o_c o) = false ->
  (c_in (o_c o) = true -> c_src (o_c o) = Some (rb_buf (o_b o)) -> fitting o) ->
  oc_auto cf = Some Do -> exists o', OnComplete cf Do o = Ok o' /\ ckeep o o'.
Proof.
  intros I Sl Mc A. pose proof (gc_w _ G) as W. unfold OnComplete.
  replace (oc_w cf =? 0) with false by lia. rewrite Sl.
  destruct (c_in (o_c o) && _) eqn:E.
  - apply andb_true_iff in E. destruct E as (C & E). destruct (c_src (o_c o)) as [src|] eqn:Sr; [|discriminate].
    apply Equal_spec in E. subst src. specialize (Mc C eq_refl). rename Mc into F.
    set (c' := Build_comp _ _ _ _ _ _ _). set (o1 := with_c c' o).
    assert (F1 : fitting o1) by (split; [exact (proj1 F)|reflexivity]).
    destruct (CompleteRefresh_ok o1 I C F1) as (n & Nn & ->). cbn [obind].
    destruct (doSelect_ok (with_c (set_col n (o_c o1)) o1) I C F1) as (o' & -> & K).
    exists o'. split; [reflexivity|]. destruct K. constructor; assumption.
  - clear E. destruct (Do (rb_buf (o_b o)) (rb_idx (o_b o))) as [cands off] eqn:D.
    pose proof (gc_auto _ G Do _ _ _ _ A I D) as F. clear Mc.
    destruct cands as [|x rest] eqn:Ec.
    { eexists. split; [reflexivity|]. constructor; cbn; try reflexivity; try assumption. discriminate. }
    destruct F as [F|F]; [discriminate|]. rewrite <- Ec in *.
    assert (Q : exists r, (if c_in (o_c o) then Ok None else match rest with [] => Ok (Some x)
       | _ => a <- Aggregate cands ;; let '(same, size, _) := a in if (0 <? size)%nat then Ok (Some same) else Ok None end) = Ok r).
    { destruct (c_in (o_c o)); [eauto|]. destruct rest; [eauto|]. unfold Aggregate. rewrite Ec.
      destruct (0 <? agg_loop _ _ _)%nat eqn:Sz; cbn [obind]; [rewrite Sz|rewrite Sz]; eauto. }
    cbn [ExitCompleteSelectMode c_in]. destruct Q as (r & ->). cbn [obind]. destruct r as [ins|].
    + destruct (write_ok ins (o_b o) I) as (b & -> & Ib). cbn [obind]. eexists. split; [reflexivity|].
      constructor; cbn; try reflexivity; try assumption. discriminate.
    + set (c2 := Build_comp _ _ _ _ _ _ _). 
      assert (F' : fitting (with_c c2 o)) by (split; [exact F|reflexivity]).
      destruct (CompleteRefresh_ok (with_c c2 o) I eq_refl F') as (n & Nn & ->).
      eexists. split; [reflexivity|]. constructor; cbn; try reflexivity; try assumption; try discriminate.
      intros _. split; [exact F'|discriminate].
Qed.

Lemma ckeep_post o o' acts kc upd : hgood (o_h o) -> (s_in (o_s o) = false -> sclear o) -> o_vp o = None ->
  o_end o = false -> oc_auto cf <> None -> oc_vim cf && o_vn o = false -> ckeep o o' ->
  (kc = false -> s_in (o_s o) = false) ->
  post (o', acts, false, kc, upd).
Proof.
  intros Hg M0 Vp En A V K S. destruct K. 
  constructor; cbn; try assumption; try discriminate; try congruence.
  - rewrite ck_s0. intros E. unfold sclear. rewrite ck_s0. now apply M0.
  - intros _ C. split; [exact A|now apply ck_c0].
  - rewrite ck_s0. intros _ E _. destruct kc; [reflexivity|]. rewrite S in E by reflexivity. discriminate.
Qed.

(** selection keys *)
Lemma select_ok r o : resting o -> c_sel (o_c o) = true ->
  exists o' k, HandleCompleteSelect cf r o = Ok (o', k) /\ 
    if k then ckeep o o' else
      o_h o' = o_h o /\ o_s o' = o_s o /\ inside (o_b o') /\ o_vn o' = o_vn o /\ o_vp o' = o_vp o /\ o_end o' = o_end o /\
      ((r = 13 \/ r = 10) /\ o_c o' = ExitCompleteMode (o_c o) \/
       o_b o' = o_b o /\ ((r = 7 \/ r = 3) /\ o_c o' = ExitCompleteMode (o_c o) \/
       r <> 9 /\ r <> 13 /\ r <> 10 /\ r <> 7 /\ r <> 3 /\ o_c o' = ExitCompleteSelectMode (o_c o))).
Proof.
  intros R Sel. destruct (r_sel _ R Sel) as (C & L2 & Ch & Col). destruct (r_c _ R C) as (_ & F).
  pose proof (r_in _ R) as I. unfold HandleCompleteSelect. set (c := o_c o) in *. set (n := Z.of_nat (length (c_cand c))) in *.
  assert (Next : forall x, 0 <= x < n -> exists o' k, (y <- Ok (set_choice x c) ;; o' <- CompleteRefresh cf (with_c y o) ;; Ok (o', true)) = Ok (o', k) /\ if k then ckeep o o' else False).
  { intros x X. cbn [obind]. destruct (CompleteRefresh_ok (with_c (set_choice x c) o) I C F) as (m & Nm & ->). cbn [obind].
    do 2 eexists. split; [reflexivity|]. constructor; cbn; try reflexivity; try assumption.
    - intros _. split; [exact F|]. intros _. repeat split; cbn; lia.
    - fold c. rewrite C. discriminate. }
  assert (Next' : forall x, 0 <= x < n -> exists o' k, (y <- Ok (set_choice x c) ;; o' <- CompleteRefresh cf (with_c y o) ;; Ok (o', true)) = Ok (o', k) /\ if k then ckeep o o' else
      o_h o' = o_h o /\ o_s o' = o_s o /\ inside (o_b o') /\ o_vn o' = o_vn o /\ o_vp o' = o_vp o /\ o_end o' = o_end o /\
      ((r = 13 \/ r = 10) /\ o_c o' = ExitCompleteMode (o_c o) \/
       o_b o' = o_b o /\ ((r = 7 \/ r = 3) /\ o_c o' = ExitCompleteMode (o_c o) \/
       r <> 9 /\ r <> 13 /\ r <> 10 /\ r <> 7 /\ r <> 3 /\ o_c o' = ExitCompleteSelectMode (o_c o)))).
  { intros x X. destruct (Next x X) as (o' & k & E & K). exists o', k. split; [exact E|]. destruct k; [exact K|destruct K]. }
  clear Next.
  destruct ((r =? CharEnter) || (r =? CharCtrlJ)) eqn:K1.
  { replace (c_choice c <? 0) with false by lia.
    destruct (get_ok (c_cand c) (Z.to_nat (c_choice c)) ltac:(lia)) as (x & -> & _). cbn [obind].
    destruct (write_ok x (o_b o) I) as (b & -> & Ib). cbn [obind]. do 2 eexists. split; [reflexivity|].
    cbn. repeat (split; [first [reflexivity|assumption]|]). left. split; [|reflexivity].
    unfold CharEnter, CharCtrlJ in K1. lia. }
  destruct (r =? CharLineStart) eqn:K2.
  { replace (c_col c =? 0) with false by lia.
    destruct (nextCandidate_range (- Z.rem (c_choice c) (c_col c)) c ltac:(lia)) as (x & -> & X & _). now apply Next'. }
  destruct (r =? CharLineEnd) eqn:K3.
  { replace (c_col c =? 0) with false by lia. apply Next'.
    pose proof (Z.rem_bound_pos (c_choice c) (c_col c) ltac:(lia) ltac:(lia)). fold n.
    destruct (n <=? _) eqn:E; lia. }
  destruct (r =? CharBackspace) eqn:K4.
  { do 2 eexists. split; [reflexivity|]. cbn. repeat (split; [first [reflexivity|assumption]|]). right. split; [reflexivity|].
    right. unfold CharBackspace in K4. repeat (split; [lia|]). reflexivity. }
  destruct ((r =? CharTab) || (r =? CharForward)) eqn:K5.
  { destruct (doSelect_ok o I C F) as (o1 & -> & K). cbn [obind]. 
    destruct (c_in (o_c o1)) eqn:C1.
    - destruct K. destruct (ck_c0 C1) as (F1 & S1).
      destruct (CompleteRefresh_ok o1 ck_in0 C1 F1) as (m & Nm & ->). cbn [obind]. do 2 eexists. split; [reflexivity|].
      constructor; cbn; try assumption.
      + intros _. split; [exact F1|]. intros L. destruct (S1 L) as (A1 & A2 & A3). clear - A1 A2 Nm. repeat split; cbn; lia.
    - unfold CompleteRefresh. rewrite C1. cbn [negb obind]. do 2 eexists. split; [reflexivity|]. exact K. }
  destruct ((r =? CharBell) || (r =? CharInterrupt)) eqn:K6.
  { do 2 eexists. split; [reflexivity|]. cbn. repeat (split; [first [reflexivity|assumption]|]). right. split; [reflexivity|].
    left. split; [|reflexivity]. unfold CharBell, CharInterrupt in K6. lia. }
  destruct (r =? CharNext) eqn:K7.
  { destruct (matrix_size c Col) as (m & -> & Mb & (q & Mq)). cbn [obind]. fold n in Mb. apply Next'. fold n.
    assert (Q1 : 1 <= q) by nia. assert (Q2 : c_col c <= m) by nia.
    destruct (m <=? c_choice c + c_col c) eqn:E1; [lia|]. destruct (n <=? c_choice c + c_col c) eqn:E2; [|lia].
    split; [lia|]. destruct (Z_le_gt_dec (c_col c) n); [lia|]. assert (q = 1) by nia. subst q. lia. }
  destruct (r =? CharBackward) eqn:K8.
  { destruct (nextCandidate_range (-1) c ltac:(lia)) as (x & -> & X & _). now apply Next'. }
  destruct (r =? CharPrev) eqn:K9.
  { destruct (c_choice c - c_col c <? 0) eqn:E1; [|apply Next'; lia].
    destruct (matrix_size c Col) as (m & -> & Mb & (q & Mq)). cbn [obind]. fold n in Mb. apply Next'. fold n.
    assert (Q1 : 1 <= q) by nia. assert (Q2 : c_col c <= m) by nia.
    destruct (n <=? c_choice c - c_col c + m) eqn:E2; [|lia]. split; [|lia].
    destruct (Z_le_gt_dec (c_col c) n); [lia|]. assert (q = 1) by nia. subst q. lia. }
  do 2 eexists. split; [reflexivity|]. cbn. repeat (split; [first [reflexivity|assumption]|]). right. split; [reflexivity|].
  right. unfold CharEnter, CharCtrlJ, CharTab, CharForward, CharBell, CharInterrupt in *. repeat (split; [lia|]). reflexivity.
Qed.

(** ** The switch *)
Lemma exit_search_true o : mid o -> s_in (o_s o) = true ->
  exists o' id x, ExitSearchMode true o = Ok o' /\ s_src (o_s o) = Some id /\ In x (elems (o_h o)) /\ it_id x = id /\
    o_b o' = Set_ (showItem (o_h o) x) (o_b o) /\ o_h o' = set_cur (Some id) (o_h o) /\ hgood (o_h o') /\
    s_in (o_s o') = false /\ sclear o' /\ o_c o' = o_c o /\ o_vn o' = o_vn o /\ o_vp o' = o_vp o /\ o_end o' = o_end o.
Proof.
  intros M S. destruct (m_s _ M S) as ((id & E & I) & _). unfold ExitSearchMode. rewrite E.
  destruct (m_h _ M) as (W & N).
  destruct (deref_ok (set_cur (Some id) (o_h o)) id I) as (x & -> & X & Xi). cbn [obind].
  do 3 eexists. split; [reflexivity|]. split; [reflexivity|]. split; [exact X|]. split; [exact Xi|]. split; [reflexivity|].
  split; [reflexivity|]. split; [split; [now apply hwf_set_cur|exact N]|]. 
  split; [reflexivity|]. split; [split; reflexivity|]. repeat (split; [reflexivity|]). reflexivity.
Qed.

Lemma SearchMode_post bck o : mid o -> oc_vim cf && o_vn o = false -> exists x, (x <- SearchMode cf bck o ;;
    Ok (fst x, if snd x then [] else [ABell], snd x, false, true)) = Ok x /\ post x.
Proof.
  intros M V. assert (K : marks_ok (o_s o) (o_b o)).
  { destruct (s_in (o_s o)) eqn:S; [apply (m_s _ M S)|]. destruct (m_s0 _ M S) as (A & _). unfold marks_ok. rewrite A. lia. }
  destruct (m_h _ M) as (W & N).
  destruct (SearchMode_ok bck o (m_in _ M) W K) as (o' & -> & I & W' & It & De & _ & S & Src & Mk & C & Vn & Vp & En & _).
  cbn [obind fst snd]. eexists. split; [reflexivity|].
  assert (Hg : hgood (o_h o')) by (split; [exact W'|now rewrite It]).
  constructor; cbn; try assumption; try discriminate; try congruence.
  - intros _ _. split; [|exact Mk]. destruct (good_cur (o_h o) (m_h _ M)) as (id & Cu & Id).
    exists id. split; [congruence|]. unfold elems. rewrite It, De. exact Id.
  - rewrite C. intros _. apply (m_sel _ M).
  - rewrite Vp. apply (m_vp _ M).
  - rewrite En. apply (m_end _ M).
Qed.

Ltac km M := destruct M; constructor; cbn; try assumption; try discriminate; try congruence; auto.

Lemma bell_post o a : mid o -> post (o, a, false, false, true).
Proof. intros M. pose proof (m_sc _ M). km M. intros _ S C. rewrite H in C; [discriminate|exact S]. Qed.

Lemma hist_post o h b a : mid o -> hgood h -> inside b -> post (with_b b (with_h h o), a, false, false, true).
Proof. intros M Hg I. pose proof (m_sc _ M). km M. intros _ S C. rewrite H in C; [discriminate|exact S]. Qed.

Lemma enter_post o : mid o -> oc_vim cf && o_vn o = false -> exists x, key_enter cf o = Ok x /\ post x.
Proof.
  intros M V. unfold key_enter.
  assert (Q : exists o1, (if s_in (o_s o) then ExitSearchMode false o else Ok o) = Ok o1 /\ o_b o1 = o_b o /\ o_h o1 = o_h o /\
     o_c o1 = o_c o /\ o_vn o1 = o_vn o /\ o_vp o1 = o_vp o /\ o_end o1 = o_end o /\ s_in (o_s o1) = false /\ sclear o1).
  { destruct (s_in (o_s o)) eqn:S; eexists; (split; [reflexivity|]); cbn; repeat (split; [first [reflexivity|assumption]|]);
      [reflexivity|]. now apply (m_s0 _ M). }
  destruct Q as (o1 & -> & B & Hh & C & Vn & Vp & En & S & Cl). cbn [obind MoveToLineEnd].
  assert (R : exists d b', (if negb (oc_unique cf) then b <- WriteRunes [10] (with_idx (length (rb_buf (o_b o1))) (o_b o1)) ;;
       let '(data, b') := Reset b in d <- slice 0 (length data - 1) data ;; Ok (d, b')
       else Ok (Reset (with_idx (length (rb_buf (o_b o1))) (o_b o1)))) = Ok (d, b') /\ inside b').
  { destruct (negb (oc_unique cf)).
    - destruct (write_ok [10] (with_idx (length (rb_buf (o_b o1))) (o_b o1))) as (b & -> & I); [unfold inside; cbn; lia|].
      cbn [obind Reset]. rewrite slice_to by lia. cbn [obind]. do 2 eexists. split; [reflexivity|]. unfold inside. cbn. lia.
    - cbn [Reset]. do 2 eexists. split; [reflexivity|]. unfold inside. cbn. lia. }
  destruct R as (d & b' & -> & I). cbn [obind].
  destruct (negb (oc_nosave cf)).
  - cbn [o_h with_b]. rewrite Hh. destruct (New_good d (o_h o) (m_h _ M)) as (h & -> & Hg). cbn [obind].
    eexists. split; [reflexivity|]. destruct M. constructor; cbn; try assumption; try discriminate; try congruence.
    intros _. exact Cl.
  - eexists. split; [reflexivity|]. destruct M. constructor; cbn; try assumption; try discriminate; try congruence.
    intros _. exact Cl.
Qed.

Lemma delete_post o : mid o -> exists x, key_delete cf o = Ok x /\ post x.
Proof.
  intros M. unfold key_delete. destruct ((0 <? length (rb_buf (o_b o)))%nat || negb (IsNormalMode o)) eqn:E.
  - destruct (edit_post EDelete o M) as (b & D & I & P); [cbn; tauto|discriminate|]. cbn [run_edit] in D.
    destruct (Delete (o_b o)) as [[b1 ok]| |]; try discriminate. cbn [obind fst snd] in *. injection D as ->.
    eexists. split; [reflexivity|]. destruct P. constructor; assumption.
  - apply orb_false_iff in E. destruct E as (_ & E). apply negb_false_iff in E. unfold IsNormalMode in E.
    apply andb_true_iff in E. destruct E as (E1 & E2). apply negb_true_iff in E1, E2.
    assert (Q : exists b, (if negb (oc_unique cf) then WriteRunes (oc_eofp cf ++ [10]) (o_b o) else Ok (o_b o)) = Ok b).
    { destruct (negb (oc_unique cf)); [|eauto]. destruct (write_ok (oc_eofp cf ++ [10]) (o_b o) (m_in _ M)) as (b & -> & _). eauto. }
    destruct Q as (b & ->). cbn [obind]. eexists. split; [reflexivity|]. pose proof (Revert_good _ (m_h _ M)).
    destruct M. constructor; cbn; try assumption; try discriminate; try congruence. unfold inside. cbn. lia.
Qed.

Lemma interrupt_post o : mid o -> oc_vim cf && o_vn o = false -> exists x, key_interrupt cf o = Ok x /\ post x.
Proof.
  intros M V. unfold key_interrupt. destruct (s_in (o_s o)) eqn:S.
  - destruct (exit_search_true o M S) as (o1 & id & x & -> & _ & _ & _ & B & _ & Hg & S1 & Cl & C & Vn & Vp & En).
    cbn [obind]. eexists. split; [reflexivity|]. destruct M. constructor; cbn; try assumption; try discriminate; try congruence.
    rewrite B. unfold inside. cbn. lia.
  - destruct (c_in (o_c o)) eqn:C.
    + eexists. split; [reflexivity|]. destruct M. constructor; cbn; try assumption; try discriminate; try congruence; auto.
    + cbn [MoveToLineEnd obind]. pose proof (Revert_good _ (m_h _ M)).
      assert (Q : exists b, (if negb (oc_unique cf) then WriteRunes (oc_intp cf ++ [10]) (with_idx (length (rb_buf (o_b o))) (o_b o))
          else Ok (with_idx (length (rb_buf (o_b o))) (o_b o))) = Ok b /\
          (negb (oc_unique cf) = true -> (length (oc_intp cf ++ [10%Z]) <= length (rb_buf b))%nat)).
      { destruct (negb (oc_unique cf)); [|eexists; split; [reflexivity|discriminate]].
        unfold WriteRunes. cbn [rb_idx rb_buf with_idx]. rewrite slice_ok, slice_to by lia. cbn [obind].
        eexists. split; [reflexivity|]. intros _. cbn [rb_buf]. rewrite !app_length. lia. }
      destruct Q as (b & -> & L). cbn [obind Reset].
      assert (R : exists d, (if negb (oc_unique cf) then if (length (rb_buf b) <? length (oc_intp cf ++ [10%Z]))%nat then Panic
          else slice 0 (length (rb_buf b) - length (oc_intp cf ++ [10%Z])) (rb_buf b) else Ok (rb_buf b)) = Ok d).
      { destruct (negb (oc_unique cf)); [|eauto]. specialize (L eq_refl).
        replace (length (rb_buf b) <? length (oc_intp cf ++ [10%Z]))%nat with false by lia. rewrite slice_to by lia. eauto. }
      destruct R as (d & ->). cbn [obind]. eexists. split; [reflexivity|].
      destruct M. constructor; cbn; try assumption; try discriminate; try congruence; auto.
      * unfold inside. cbn. lia.
Qed.

Lemma set_data_mid d o : mid o -> s_in (o_s o) = true -> inside (o_b o) /\ hwf (o_h o) /\ marks_ok (set_data d (o_s o)) (o_b o).
Proof. intros M S. split; [apply (m_in _ M)|]. split; [apply (m_h _ M)|]. apply (m_s _ M S). Qed.

Lemma search_post new d o : mid o -> s_in (o_s o) = true -> exists o1, 
  search cf new (with_s (set_data d (o_s o)) o) = Ok o1 /\ post (o1, [], true, false, true).
Proof.
  intros M S. destruct (set_data_mid d o M S) as (I & W & K).
  destruct (search_ok new (with_s (set_data d (o_s o)) o) I W K) as (o1 & -> & Sk).
  exists o1. split; [reflexivity|]. destruct Sk. destruct M. cbn in *.
  constructor; cbn; try assumption; try discriminate; try congruence.
  - split; [assumption|]. rewrite sk_items0. apply m_h0.
  - intros _ _. split; [|exact sk_marks0]. destruct (m_s1 S) as ((id & E & Ii) & _). exists id. split; [congruence|].
    unfold elems. rewrite sk_items0, sk_dead0. exact Ii.
  - rewrite sk_s0, sk_c0, sk_vn0. intros _. apply m_v0. now left.
Qed.

Lemma nav_post (o : op) (x : option (list Z) * hist) : mid o -> hgood (snd x) -> exists y, 
  (match fst x with
   | Some l => Ok (with_b (Set_ l (o_b o)) (with_h (snd x) o), [], false, false, true)
   | None => Ok (with_h (snd x) o, [ABell], false, false, true)
   end) = Ok y /\ post y.
Proof.
  intros M Hg. destruct (fst x) as [l|].
  - eexists. split; [reflexivity|]. apply hist_post; try assumption. unfold inside. cbn. lia.
  - eexists. split; [reflexivity|]. destruct M. constructor; cbn; try assumption; try discriminate; auto.
    intros _ S C. rewrite m_sc0 in C; [discriminate|exact S].
Qed.

Lemma Prev_good h : hgood h -> exists x, Prev h = Ok x /\ hgood (snd x).
Proof.
  intros (W & N). unfold Prev. destruct (h_cur h) as [id|] eqn:C; [|eexists; split; [reflexivity|split; assumption]].
  destruct (older id h) as [|y l] eqn:O; (eexists; split; [reflexivity|]); [split; assumption|].
  split; [|exact N]. apply hwf_set_cur; [exact W|]. now apply older_in in O.
Qed.

Lemma Next_good h : hgood h -> exists x, Next h = Ok x /\ hgood (snd x).
Proof.
  intros (W & N). unfold Next. destruct (h_cur h) as [id|] eqn:C; [|eexists; split; [reflexivity|split; assumption]].
  destruct (newer id h) as [|y l] eqn:O; (eexists; split; [reflexivity|]); [split; assumption|].
  split; [|exact N]. apply hwf_set_cur; [exact W|]. now apply newer_in in O.
Qed.

Lemma kill_end b : rb_idx b = length (rb_buf b) -> Kill b = Ok {| rb_buf := rb_buf b; rb_idx := rb_idx b; rb_kill := [] |}.
Proof.
  intros E. unfold Kill. rewrite slice_from, slice_to by lia. cbn [obind]. rewrite E, firstn_all, skipn_all. reflexivity.
Qed.

Lemma backspace_len b b' : inside b -> (rb_idx b =? 0)%nat = false -> BufBackspace b = Ok b' ->
  length (rb_buf b) = S (length (rb_buf b')).
Proof.
  intros I Z0 E. unfold BufBackspace in E. rewrite Z0 in E. unfold inside in I.
  rewrite slice_to, slice_from in E by lia. cbn [obind] in E. injection E as <-. cbn [rb_buf].
  rewrite app_length, firstn_length, skipn_length. lia.
Qed.

Lemma write_len t b b' : inside b -> WriteRunes t b = Ok b' -> length (rb_buf b') = (length (rb_buf b) + length t)%nat.
Proof.
  intros I E. unfold WriteRunes in E. unfold inside in I. rewrite slice_to, slice_from in E by lia. cbn [obind] in E.
  injection E as <-. cbn [rb_buf]. rewrite !app_length, firstn_length, skipn_length. lia.
Qed.

Lemma pick (c : bool) (A B : outcome swres) :
  (c = true -> exists x, A = Ok x /\ post x) -> (c = false -> exists x, B = Ok x /\ post x) ->
  exists x, (if c then A else B) = Ok x /\ post x.
Proof. intros H1 H2. destruct c; auto. Qed.

Lemma keep_post o : mid o -> s_in (o_s o) = true -> post (o, [], true, false, true).
Proof. intros M S. destruct M. constructor; cbn; try assumption; try discriminate; auto. Qed.

Lemma switch_ok r o : mid o -> (oc_vim cf && o_vn o = true -> r = 2 \/ r = 6 \/ r = 14 \/ r = 16) ->
  (r = 20 -> length (rb_buf (o_b o)) <> 1%nat) ->
  (r = 11 -> c_in (o_c o) = true -> c_cand (o_c o) <> [] /\ rb_idx (o_b o) = length (rb_buf (o_b o))) ->
  exists x, key_switch cf r o = Ok x /\ post x.
Proof.
  intros M V T K. unfold key_switch. pose proof (gc_w _ G) as W0.
  assert (Vf : ~ (r = 2 \/ r = 6 \/ r = 14 \/ r = 16) -> oc_vim cf && o_vn o = false).
  { intros H. destruct (oc_vim cf && o_vn o); [|reflexivity]. elim H. now apply V. }
  assert (Ed : forall e, (~ edit_panics e (o_b o)) -> (e = ETranspose -> length (rb_buf (o_b o)) <> 1%nat) ->
     exists x, edit_buf (run_edit e (o_b o)) o = Ok x /\ post x).
  { intros e N1 N2. destruct (edit_post e o M N1 N2) as (b & E & _ & P). unfold edit_buf. rewrite E. cbn [obind]. eauto. }
  apply pick; intros K1.
  { assert (H : r = 7) by (clear - K1; unfold CharBell in K1; lia).
    destruct (s_in (o_s o)) eqn:S.
    - destruct (exit_search_true o M S) as (o1 & id & x & -> & _ & _ & _ & B & _ & Hg & S1 & Cl & C & Vn & Vp & En).
      cbn [obind]. eexists. split; [reflexivity|]. rewrite C, (m_sc _ M S). specialize (Vf ltac:(clear - H; lia)).
      destruct M. constructor; cbn; try assumption; try discriminate; try congruence.
      rewrite B. unfold inside. clear. cbn. lia.
    - cbn [obind]. eexists. split; [reflexivity|]. destruct (c_in (o_c o)) eqn:C; [|now apply bell_post].
      specialize (Vf ltac:(clear - H; lia)) as Vn. destruct M. constructor; cbn; try assumption; try discriminate; try congruence; auto. }
  apply pick; intros K2.
  { assert (H : r = 9) by (clear - K2; unfold CharTab in K2; lia). specialize (Vf ltac:(clear - H; lia)) as Vn.
    destruct (oc_auto cf) as [Do|] eqn:A; [|eexists; split; [reflexivity|now apply bell_post]].
    replace (oc_w cf =? 0) with false by (clear - W0; lia). destruct (OnComplete_ok Do o (m_in _ M) (m_sel _ M)) as (o1 & -> & Ck); [|exact A|].
    { intros C Sr. destruct (m_c _ M C) as (_ & [(_ & X)|F]); [congruence|exact F]. }
    cbn [obind].
    eexists. split; [reflexivity|]. apply (ckeep_post o); [apply (m_h _ M)|apply (m_s0 _ M)|apply (m_vp _ M)|apply (m_end _ M)|congruence|exact Vn|exact Ck|cbn; congruence]. }
  apply pick; intros K3.
  { apply SearchMode_post; [exact M|]. apply Vf. clear - K3. unfold CharBckSearch in K3. lia. }
  apply pick; intros K4; [apply (Ed EKillFront); [cbn; tauto|discriminate]|].
  apply pick; intros K5.
  { apply SearchMode_post; [exact M|]. apply Vf. clear - K5. unfold CharFwdSearch in K5. lia. }
  apply pick; intros K6.
  { assert (H : r = 11) by (clear - K6; unfold CharKill in K6; lia). specialize (Vf ltac:(clear - H; lia)) as Vn.
    destruct (c_in (o_c o)) eqn:C.
    - destruct (K H eq_refl) as (K' & E). destruct (m_c _ M C) as (A & [(F & _)|F]); [contradiction|].
      rewrite (kill_end _ E). cbn [obind]. eexists. split; [reflexivity|].
      pose proof (m_sel _ M) as Sl. destruct M. constructor; cbn; try assumption; try discriminate; try congruence; auto.
      intros _ _. split; [exact A|]. split; [exact F|]. rewrite Sl. discriminate.
    - destruct (edit_post EKill o M) as (b & E & I & P); [cbn; tauto|discriminate|]. cbn [run_edit] in E. rewrite E. cbn [obind].
      eexists. split; [reflexivity|]. destruct P. constructor; try assumption; cbn in *; try congruence. }
  apply pick; intros K7; [apply (Ed ENextWord); [cbn; tauto|discriminate]|].
  apply pick; intros K8.
  { apply (Ed ETranspose); [cbn; tauto|]. intros _. apply T. clear - K8. unfold CharTranspose in K8. lia. }
  apply pick; intros K9; [apply (Ed EPrevWord); [cbn; tauto|discriminate]|].
  apply pick; intros K10; [apply (Ed EDeleteWord); [cbn; tauto|discriminate]|].
  apply pick; intros K11; [apply (Ed ELineStart); [cbn; tauto|discriminate]|].
  apply pick; intros K12; [apply (Ed ELineEnd); [cbn; tauto|discriminate]|].
  apply pick; intros K13.
  { assert (H : r = 127 \/ r = 8) by (clear - K13; unfold CharBackspace, CharCtrlH in K13; lia).
    specialize (Vf ltac:(clear - H; lia)) as Vn.
    destruct (s_in (o_s o)) eqn:S.
    - unfold SearchBackspace. destruct (s_data (o_s o)) as [|d0 dd] eqn:D.
      + cbn [obind]. eexists. split; [reflexivity|]. now apply keep_post.
      + destruct (search_post true (firstn (length (d0 :: dd) - 1) (d0 :: dd)) o M S) as (o1 & -> & P). cbn [obind]. eauto.
    - destruct (length (rb_buf (o_b o)) =? 0)%nat; [eexists; split; [reflexivity|now apply bell_post]|].
      destruct (edit_post EBackspace o M) as (b & E & I & P); [cbn; tauto|discriminate|]. cbn [run_edit] in E.
      rewrite E. cbn [obind o_c with_b]. destruct (c_in (o_c o)) eqn:C; [|cbn [obind]; eauto].
      destruct (m_c _ M C) as (A & _). destruct (oc_auto cf) as [Do|] eqn:Au; [|congruence].
      destruct (OnComplete_ok Do (with_b b o)) as (o1 & -> & Ck); [exact I|apply (m_sel _ M)| |exact Au|].
      { intros _ Sr. cbn in Sr. destruct (m_c _ M C) as (_ & [(_ & X)|F]); [congruence|].
        destruct (rb_idx (o_b o) =? 0)%nat eqn:Z0; [unfold BufBackspace in E; rewrite Z0 in E; injection E as <-; exact F|exfalso].
        destruct F as (_ & X). rewrite X in Sr. injection Sr as Sr. apply (f_equal (@length Z)) in Sr.
        pose proof (backspace_len _ _ (m_in _ M) Z0 E) as L. clear - Sr L. lia. }
      cbn [obind]. eexists. split; [reflexivity|]. apply (ckeep_post (with_b b o)); [apply (m_h _ M)|apply (m_s0 _ M)|apply (m_vp _ M)|apply (m_end _ M)|congruence|exact Vn|exact Ck|cbn; congruence]. }
  apply pick; intros K14; [eexists; split; [reflexivity|now apply bell_post]|].
  apply pick; intros K15; [eexists; split; [reflexivity|now apply bell_post]|].
  apply pick; intros K16; [apply (Ed EBackEscapeWord); [cbn; tauto|discriminate]|].
  apply pick; intros K17; [apply (Ed EYank); [cbn; tauto|discriminate]|].
  apply pick; intros K18.
  { apply enter_post; [exact M|]. apply Vf. clear - K18. unfold CharEnter, CharCtrlJ in K18. lia. }
  apply pick; intros K19; [apply (Ed EBackward); [cbn; tauto|discriminate]|].
  apply pick; intros K20; [apply (Ed EForward); [cbn; tauto|discriminate]|].
  apply pick; intros K21.
  { destruct (Prev_good _ (m_h _ M)) as (x & -> & Hg). cbn [obind]. now apply nav_post. }
  apply pick; intros K22.
  { destruct (Next_good _ (m_h _ M)) as (x & -> & Hg). cbn [obind]. now apply nav_post. }
  apply pick; intros K23; [now apply delete_post|].
  apply pick; intros K24.
  { apply interrupt_post; [exact M|]. apply Vf. clear - K24. unfold CharInterrupt in K24. lia. }
  assert (Vn : oc_vim cf && o_vn o = false).
  { apply Vf. clear - K19 K20 K21 K22. unfold CharBackward, CharForward, CharPrev, CharNext in *. lia. }
  destruct (s_in (o_s o)) eqn:S.
  { destruct (search_post true (s_data (o_s o) ++ [r]) o M S) as (o1 & E & P). unfold SearchChar. rewrite E. cbn [obind]. eauto. }
  destruct (edit_post (EWrite [r]) o M) as (b & E & I & P); [cbn; tauto|discriminate|]. cbn [run_edit] in E.
  rewrite E. cbn [obind o_c with_b]. destruct (c_in (o_c o)) eqn:C; [|eauto].
  destruct (m_c _ M C) as (A & _). destruct (oc_auto cf) as [Do|] eqn:Au; [|congruence].
  destruct (OnComplete_ok Do (with_b b o)) as (o1 & -> & Ck); [exact I|apply (m_sel _ M)| |exact Au|].
  { intros _ Sr. cbn in Sr. exfalso. destruct (m_c _ M C) as (_ & [(_ & X)|(_ & X)]); [congruence|].
    rewrite X in Sr. injection Sr as Sr. apply (f_equal (@length Z)) in Sr.
    pose proof (write_len _ _ _ (m_in _ M) E) as L. clear - Sr L. cbn in L. lia. }
  cbn [obind]. eexists. split; [reflexivity|]. apply (ckeep_post (with_b b o)); [apply (m_h _ M)|apply (m_s0 _ M)|apply (m_vp _ M)|apply (m_end _ M)|congruence|exact Vn|exact Ck|cbn; congruence].
Qed.

(** ** One key *)
Lemma resting_mid o : resting o -> c_sel (o_c o) = false -> o_vp o = None -> mid o.
Proof.
  intros R Sl Vp. destruct R. constructor; try assumption.
  - intros S. now apply r_s1.
  - intros S. now apply r_s1.
  - intros C. destruct (r_c0 C) as (A & F). split; [exact A|now right].
Qed.

End good.
