From Verif Require Import Base ListAux RunesModel RunesSpec RunesProofs Utf8Model Utf8Spec Utf8Proofs
  HistoryModel HistorySpec.
From Coq Require Import ZifyBool Permutation.
Open Scope nat_scope.

Definition keep (c : hcfg) : nat := Z.to_nat (hc_limit c).

Lemma compact_loop_spec limit l dead :
  compact_loop limit l dead =
  (skipn (length l - Z.to_nat limit) l, dead ++ firstn (length l - Z.to_nat limit) l).
Proof.
  revert dead. induction l as [|x l IH]; intros dead; cbn [compact_loop].
  - cbn. now rewrite app_nil_r.
  - destruct (limit <? Z.of_nat (length (x :: l)))%Z eqn:E.
    + rewrite IH. cbn [length] in *.
      replace (S (length l) - Z.to_nat limit) with (S (length l - Z.to_nat limit)) by lia.
      cbn [skipn firstn]. now rewrite <- app_assoc.
    + cbn [length] in *. replace (S (length l) - Z.to_nat limit) with 0 by lia.
      cbn. now rewrite app_nil_r.
Qed.

Lemma Compact_items c h : h_items (Compact c h) = lastn (keep c) (h_items h).
Proof. unfold Compact. rewrite compact_loop_spec. reflexivity. Qed.

Lemma Compact_dead c h : h_dead (Compact c h) = h_dead h ++ firstn (length (h_items h) - keep c) (h_items h).
Proof. unfold Compact. rewrite compact_loop_spec. reflexivity. Qed.

Lemma Compact_rest c h : h_cur (Compact c h) = h_cur h /\ h_ver (Compact c h) = h_ver h /\
  h_fresh (Compact c h) = h_fresh h /\ h_enable (Compact c h) = h_enable h /\
  h_fd (Compact c h) = h_fd h /\ h_disk (Compact c h) = h_disk h.
Proof. unfold Compact. rewrite compact_loop_spec. repeat split. Qed.

Lemma lastn_length {A} n (l : list A) : length (lastn n l) = Nat.min n (length l).
Proof. unfold lastn. rewrite skipn_length. lia. Qed.

Lemma lastn_all {A} n (l : list A) : length l <= n -> lastn n l = l.
Proof. intros H. unfold lastn. replace (length l - n) with 0 by lia. reflexivity. Qed.

Lemma lastn_map {A B} (f : A -> B) n l : lastn n (map f l) = map f (lastn n l).
Proof. unfold lastn. rewrite map_length, skipn_map. reflexivity. Qed.

Lemma lastn_lastn {A} n m (l : list A) : lastn n (lastn m l) = lastn (Nat.min n m) l.
Proof. unfold lastn. rewrite skipn_skipn, skipn_length. f_equal. lia. Qed.

Lemma lastn_app_S {A} n (l : list A) x : lastn (S n) (l ++ [x]) = lastn n l ++ [x].
Proof.
  unfold lastn. rewrite app_length. cbn [length]. replace (length l + 1 - S n) with (length l - n) by lia.
  rewrite skipn_app. replace (length l - n - length l) with 0 by lia. reflexivity.
Qed.

(** Well-formedness *)
Definition elems (h : hist) : list item := h_items h ++ h_dead h.

Record hwf (h : hist) : Prop := {
  w_nodup : NoDup (map it_id (elems h));
  w_fresh : Forall (fun x => it_id x < h_fresh h) (elems h);
  w_ver : Forall (fun x => it_ver x <= h_ver h) (elems h);
  w_cur : match h_cur h with None => h_items h = [] | Some id => In id (map it_id (elems h)) end
}.

Lemma hwf_new disk : hwf (newOpHistory disk).
Proof. constructor; cbn; constructor. Qed.

Lemma find_item_in id l x : find_item id l = Some x -> In x l /\ it_id x = id.
Proof.
  induction l as [|y l IH]; cbn; [discriminate|].
  destruct (Nat.eqb_spec (it_id y) id) as [E|E].
  - intros [= <-]. auto.
  - intros H. apply IH in H. tauto.
Qed.

Lemma find_item_some id l : In id (map it_id l) -> exists x, find_item id l = Some x.
Proof.
  induction l as [|y l IH]; cbn; [tauto|].
  destruct (Nat.eqb_spec (it_id y) id) as [E|E]; [eauto|]. intros [H|H]; [congruence|auto].
Qed.

Lemma find_item_none id l : ~ In id (map it_id l) -> find_item id l = None.
Proof.
  induction l as [|y l IH]; cbn; [reflexivity|].
  destruct (Nat.eqb_spec (it_id y) id) as [E|E]; [intros H; elim H; auto|]. intros H. apply IH. tauto.
Qed.

Lemma find_item_unique l x : NoDup (map it_id l) -> In x l -> find_item (it_id x) l = Some x.
Proof.
  induction l as [|y l IH]; cbn; [tauto|]. intros ND [->|I].
  - now rewrite Nat.eqb_refl.
  - inversion ND; subst. destruct (Nat.eqb_spec (it_id y) (it_id x)) as [E|E]; [|auto].
    elim H1. rewrite E. now apply in_map.
Qed.

Lemma deref_ok h id : In id (map it_id (elems h)) -> exists x, deref h id = Ok x /\ In x (elems h) /\ it_id x = id.
Proof.
  intros H. destruct (find_item_some _ _ H) as (x & E). exists x. unfold deref.
  fold (elems h). rewrite E. split; [reflexivity|]. now apply find_item_in.
Qed.

Lemma hwf_cur h id : hwf h -> h_cur h = Some id -> exists x, deref h id = Ok x /\ In x (elems h) /\ it_id x = id.
Proof. intros W E. apply deref_ok. pose proof (w_cur h W) as C. now rewrite E in C. Qed.

Lemma map_item_ids id f l : (forall x, it_id (f x) = it_id x) -> map it_id (map_item id f l) = map it_id l.
Proof.
  intros H. unfold map_item. rewrite map_map. apply map_ext. intros x. destruct (_ =? _); auto.
Qed.

Lemma elems_modify id f h : elems (modify id f h) = map_item id f (elems h).
Proof. unfold elems, modify, map_item. cbn. now rewrite map_app. Qed.

Lemma Compact_perm c h : Permutation (elems (Compact c h)) (elems h).
Proof.
  unfold elems. rewrite Compact_items, Compact_dead. unfold lastn.
  set (n := length (h_items h) - keep c).
  rewrite <- (firstn_skipn n (h_items h)) at 3.
  rewrite app_assoc. rewrite Permutation_app_comm. rewrite app_assoc. apply Permutation_refl.
Qed.

Lemma hwf_compact c h : hwf h -> h_cur h <> None -> hwf (Compact c h).
Proof.
  intros W N. pose proof (Compact_perm c h) as P.
  destruct (Compact_rest c h) as (C & V & F & _).
  constructor.
  - eapply Permutation_NoDup; [|apply (w_nodup h W)]. apply Permutation_map. now symmetry.
  - rewrite F. eapply Permutation_Forall; [|apply (w_fresh h W)]. now symmetry.
  - rewrite V. eapply Permutation_Forall; [|apply (w_ver h W)]. now symmetry.
  - rewrite C. pose proof (w_cur h W) as X. destruct (h_cur h); [|congruence].
    eapply Permutation_in; [|exact X]. apply Permutation_map. now symmetry.
Qed.

Lemma hwf_modify id f h : hwf h -> (forall x, it_id (f x) = it_id x) ->
  (forall x, it_ver x <= h_ver h -> it_ver (f x) <= h_ver h) -> hwf (modify id f h).
Proof.
  intros W Hid Hv. constructor.
  - rewrite elems_modify, map_item_ids by exact Hid. apply (w_nodup h W).
  - rewrite elems_modify. unfold map_item. apply Forall_map. eapply Forall_impl; [|apply (w_fresh h W)].
    cbn. intros x H. destruct (_ =? _); rewrite ?Hid; exact H.
  - rewrite elems_modify. unfold map_item. apply Forall_map. eapply Forall_impl; [|apply (w_ver h W)].
    cbn. intros x H. destruct (_ =? _); auto.
  - rewrite elems_modify, map_item_ids by exact Hid. pose proof (w_cur h W) as C. cbn.
    destruct (h_cur h); [exact C|]. now rewrite C.
Qed.

Lemma hwf_bump h : hwf h -> hwf (bump_ver h).
Proof.
  intros W. constructor; cbn; try apply W.
  eapply Forall_impl; [|apply (w_ver h W)]. cbn. lia.
Qed.

Lemma Forall_app_perm {A} (P : A -> Prop) a b c : Forall P (a ++ c) -> Forall P b -> Forall P ((a ++ b) ++ c).
Proof. rewrite !Forall_app. tauto. Qed.

Lemma hwf_push s h : hwf h -> hwf (Push s h).
Proof.
  intros W. set (x := {| it_id := h_fresh h; it_src := s; it_ver := 0; it_tmp := [] |}).
  assert (P : Permutation (elems (Push s h)) (x :: elems h)).
  { unfold elems. cbn [Push h_items h_dead]. rewrite <- app_assoc. cbn [app].
    symmetry. apply Permutation_middle. }
  constructor.
  - eapply Permutation_NoDup; [apply Permutation_map; symmetry; exact P|]. cbn. constructor; [|apply W].
    intros I. apply in_map_iff in I. destruct I as (y & E & I).
    pose proof (w_fresh h W) as F. rewrite Forall_forall in F. apply F in I. lia.
  - eapply Permutation_Forall; [symmetry; exact P|]. constructor; [cbn; lia|].
    eapply Forall_impl; [|apply (w_fresh h W)]. cbn. lia.
  - eapply Permutation_Forall; [symmetry; exact P|]. constructor; [cbn; lia|]. apply W.
  - cbn. eapply Permutation_in; [apply Permutation_map; symmetry; exact P|]. now left.
Qed.

Lemma hwf_set_cur h id : hwf h -> In id (map it_id (elems h)) -> hwf (set_cur (Some id) h).
Proof. intros W I. constructor; cbn; try apply W. exact I. Qed.

Lemma hwf_set_file fd d h : hwf h -> hwf (set_file fd d h).
Proof. intros W. constructor; apply W. Qed.

Lemma hwf_set_enable b h : hwf h -> hwf (set_enable b h).
Proof. intros W. constructor; apply W. Qed.

Lemma back_spec h x : back h = Some x -> exists l, h_items h = l ++ [x].
Proof.
  unfold back. destruct (rev (h_items h)) as [|y l] eqn:E; [discriminate|]. intros [= <-].
  exists (rev l). apply (f_equal (@rev _)) in E. now rewrite rev_involutive in E.
Qed.

Lemma back_none h : back h = None -> h_items h = [].
Proof.
  unfold back. destruct (rev (h_items h)) as [|y l] eqn:E; [|discriminate]. intros _.
  apply (f_equal (@rev _)) in E. now rewrite rev_involutive in E.
Qed.

Lemma back_app h l x : h_items h = l ++ [x] -> back h = Some x.
Proof. intros E. unfold back. rewrite E, rev_app_distr. reflexivity. Qed.

Lemma back_in h x : back h = Some x -> In (it_id x) (map it_id (elems h)).
Proof.
  intros H. apply back_spec in H. destruct H as (l & E). unfold elems. rewrite E, !map_app, !in_app_iff.
  left. right. now left.
Qed.

Lemma Update_ok c s commit h : hwf h -> exists h', Update c s commit h = Ok h' /\ hwf h' /\ h_cur h' <> None.
Proof.
  intros W. unfold Update. destruct (h_cur h) as [id|] eqn:C.
  - destruct (hwf_cur h id W C) as (x & D & _). rewrite D. cbn [obind].
    eexists. split; [reflexivity|].
    assert (W2 : hwf (let h1 := modify id (fun x =>
        if commit then {| it_id := it_id x; it_src := s; it_ver := h_ver h; it_tmp := it_tmp x |}
        else {| it_id := it_id x; it_src := it_src x; it_ver := h_ver h; it_tmp := s |}) h in
        if commit then write_fd (file_line s) h1 else h1)).
    { cbn zeta. assert (M : hwf (modify id (fun x =>
        if commit then {| it_id := it_id x; it_src := s; it_ver := h_ver h; it_tmp := it_tmp x |}
        else {| it_id := it_id x; it_src := it_src x; it_ver := h_ver h; it_tmp := s |}) h)).
      { apply hwf_modify; [exact W|intros y; destruct commit; reflexivity|].
        intros y _. destruct commit; cbn; lia. }
      destruct commit; [|exact M]. unfold write_fd. destruct (h_fd _); try exact M. now apply hwf_set_file. }
    cbn zeta in W2.
    assert (CC : h_cur (if commit then write_fd (file_line s) (modify id (fun x =>
        if commit then {| it_id := it_id x; it_src := s; it_ver := h_ver h; it_tmp := it_tmp x |}
        else {| it_id := it_id x; it_src := it_src x; it_ver := h_ver h; it_tmp := s |}) h) else
        modify id (fun x =>
        if commit then {| it_id := it_id x; it_src := s; it_ver := h_ver h; it_tmp := it_tmp x |}
        else {| it_id := it_id x; it_src := it_src x; it_ver := h_ver h; it_tmp := s |}) h) <> None).
    { destruct commit; [|cbn; congruence]. unfold write_fd. destruct (h_fd _); cbn; congruence. }
    split; [apply hwf_compact; assumption|]. now rewrite (proj1 (Compact_rest _ _)).
  - eexists. split; [reflexivity|]. split.
    + apply hwf_compact; [now apply hwf_push|discriminate].
    + rewrite (proj1 (Compact_rest _ _)). discriminate.
Qed.

Lemma hwf_clean_back h x : hwf h -> back h = Some x -> hwf (clean_back (it_id x) h).
Proof.
  intros W B. unfold clean_back. apply hwf_bump. apply hwf_modify; [|reflexivity|cbn; auto].
  apply hwf_set_cur; [exact W|now apply back_in].
Qed.

Lemma new_commit_ok c s h : hwf h -> exists h', new_commit c s h = Ok h' /\ hwf h'.
Proof.
  intros W. unfold new_commit.
  assert (exists s' h', (if opt_eqb (h_cur h) (back_id h) then Ok (s, h)
        else match h_cur h with
             | None => Panic
             | Some id => x <- deref h id ;; Ok (it_tmp x, set_cur (back_id h) h)
             end) = Ok (s', h') /\ hwf h') as (s' & h' & E & W').
  { destruct (opt_eqb (h_cur h) (back_id h)) eqn:Q; [eauto|].
    destruct (h_cur h) as [id|] eqn:C.
    - destruct (hwf_cur h id W C) as (x & D & _). rewrite D. cbn [obind]. do 2 eexists. split; [reflexivity|].
      unfold back_id. destruct (back h) as [b|] eqn:B; cbn [option_map].
      + apply hwf_set_cur; [exact W|now apply back_in].
      + apply back_none in B. constructor; cbn; try apply W. exact B.
    - pose proof (w_cur h W) as X. rewrite C in X. unfold back_id, back in Q. rewrite X in Q. discriminate. }
  rewrite E. cbn [obind]. destruct (Update_ok c s' true h' W') as (h2 & E2 & W2 & _). rewrite E2. cbn [obind].
  eexists. split; [reflexivity|]. now apply hwf_push, hwf_bump.
Qed.

Lemma New_ok c s h : hwf h -> exists h', New c s h = Ok h' /\ hwf h'.
Proof.
  intros W. unfold New. destruct (h_enable h); cbn [negb]; [|eauto].
  destruct (match rev (h_items h) with
      | b :: p :: _ => if Equal s (it_src p) then Some (it_id b) else None
      | _ => None end) as [id|] eqn:D.
  - eexists. split; [reflexivity|].
    destruct (rev (h_items h)) as [|b [|p l]] eqn:R; try discriminate.
    destruct (Equal s (it_src p)); [|discriminate]. injection D as <-.
    apply hwf_clean_back; [exact W|]. unfold back. now rewrite R.
  - destruct (length s =? 0); [|now apply new_commit_ok].
    unfold back_id. destruct (back h) as [b|] eqn:B; cbn [option_map].
    + eexists. split; [reflexivity|]. now apply hwf_clean_back.
    + apply new_commit_ok. apply back_none in B. constructor; cbn; try apply W. exact B.
Qed.

Lemma split_at_id_spec id pre l : 
  match split_at_id id pre l with
  | Some (p, x, q) => it_id x = id /\ rev pre ++ l = rev p ++ x :: q
  | None => ~ In id (map it_id l)
  end.
Proof.
  revert pre. induction l as [|y l IH]; intros pre; cbn.
  - auto.
  - destruct (Nat.eqb_spec (it_id y) id) as [E|E]; [auto|].
    specialize (IH (y :: pre)). destruct (split_at_id id (y :: pre) l) as [[[p x] q]|].
    + destruct IH as (A & B). split; [exact A|]. rewrite <- B. cbn. now rewrite <- app_assoc.
    + intros [H|H]; auto.
Qed.

Lemma split_at_id_app l x r : NoDup (map it_id (rev l ++ x :: r)) ->
  split_at_id (it_id x) [] (rev l ++ x :: r) = Some (l, x, r).
Proof.
  intros ND.
  pose proof (split_at_id_spec (it_id x) [] (rev l ++ x :: r)) as S.
  destruct (split_at_id (it_id x) [] (rev l ++ x :: r)) as [[[p y] q]|].
  - cbn in S. destruct S as (E & S).
    assert (X : forall a b : list item, a ++ x :: r = b ++ y :: q -> NoDup (map it_id (a ++ x :: r)) -> a = b /\ x = y /\ r = q).
    { clear - E. induction a as [|z a IH]; intros [|w b] H ND; cbn in *.
      - injection H as -> ->. auto.
      - injection H as -> H. exfalso. inversion ND as [|? ? N]; subst. apply N.
        apply in_map_iff. exists y. split; [exact E|]. apply in_app_iff. right. now left.
      - injection H as -> H. exfalso. inversion ND as [|? ? N]; subst. apply N.
        apply in_map_iff. exists x. split; [now symmetry|]. apply in_app_iff. right. now left.
      - injection H as -> H. inversion ND; subst. destruct (IH b H) as (-> & -> & ->); auto. }
    apply X in S; [|exact ND]. destruct S as (S1 & -> & ->).
    apply (f_equal (@rev _)) in S1. rewrite !rev_involutive in S1. now rewrite S1.
  - elim S. rewrite map_app, in_app_iff. right. now left.
Qed.

Lemma older_in h id x l : older id h = x :: l -> In (it_id x) (map it_id (elems h)).
Proof.
  unfold older. pose proof (split_at_id_spec id [] (h_items h)) as S.
  destruct (split_at_id id [] (h_items h)) as [[[p y] q]|]; [|discriminate].
  intros ->. destruct S as (_ & S). cbn in S. unfold elems. rewrite S. rewrite !map_app, !in_app_iff.
  left. left. right. now left.
Qed.

Lemma newer_in h id x l : newer id h = x :: l -> In (it_id x) (map it_id (elems h)).
Proof.
  unfold newer. pose proof (split_at_id_spec id [] (h_items h)) as S.
  destruct (split_at_id id [] (h_items h)) as [[[p y] q]|]; [|discriminate].
  intros ->. destruct S as (_ & S). cbn in S. unfold elems. rewrite S. rewrite !map_app, !in_app_iff. cbn.
  left. right. right. now left.
Qed.

Lemma load_lines_ok c ls h : hwf h -> hwf (load_lines c ls h).
Proof.
  revert h. induction ls as [|l ls IH]; intros h W; cbn [load_lines]; [exact W|].
  apply IH. destruct (length _ =? 0); [exact W|].
  apply hwf_compact; [now apply hwf_push|discriminate].
Qed.

Lemma historyUpdatePath_ok c o h : hwf h -> hwf (historyUpdatePath c o h).
Proof.
  intros W. unfold historyUpdatePath. destruct o; cbn [negb]; [|exact W].
  apply hwf_push, hwf_bump.
  assert (W1 : hwf (load_lines c (read_lines (h_disk h) []) (set_file FdOpen (h_disk h) h)))
    by now apply load_lines_ok, hwf_set_file.
  destruct (_ <? _)%Z; [|exact W1]. unfold rewriteLocked. destruct (hc_file c); [|exact W1].
  now apply hwf_set_file.
Qed.

Lemma run_hcall_ok c k h : hwf h -> exists h', run_hcall c k h = Ok h' /\ hwf h'.
Proof.
  intros W. destruct k; cbn [run_hcall].
  - now apply New_ok.
  - destruct (Update_ok c s commit h W) as (h' & E & W' & _). eauto.
  - unfold Prev. destruct (h_cur h) as [id|] eqn:C; [|cbn; eauto].
    destruct (older id h) as [|x l] eqn:O; cbn; eauto. eexists. split; [reflexivity|].
    apply hwf_set_cur; [exact W|]. now apply older_in in O.
  - unfold Next. destruct (h_cur h) as [id|] eqn:C; [|cbn; eauto].
    destruct (newer id h) as [|x l] eqn:O; cbn; eauto. eexists. split; [reflexivity|].
    apply hwf_set_cur; [exact W|]. now apply newer_in in O.
  - eexists. split; [reflexivity|]. unfold Revert, back_id. destruct (back h) as [b|] eqn:B; cbn [option_map].
    + apply hwf_set_cur; [now apply hwf_bump|]. now apply back_in.
    + apply back_none in B. pose proof (hwf_bump h W) as W'. constructor; cbn; try apply W'. exact B.
  - eexists. split; [reflexivity|]. unfold HReset. constructor; cbn.
    + eapply Permutation_NoDup; [|apply (w_nodup h W)]. apply Permutation_map. unfold elems. cbn.
      apply Permutation_app_comm.
    + unfold elems. cbn. eapply Permutation_Forall; [|apply (w_fresh h W)]. apply Permutation_app_comm.
    + unfold elems. cbn. eapply Permutation_Forall; [|apply (w_ver h W)]. apply Permutation_app_comm.
    + reflexivity.
  - eexists. split; [reflexivity|]. now apply hwf_set_enable.
  - eexists. split; [reflexivity|]. now apply hwf_set_enable.
  - eexists. split; [reflexivity|]. unfold HClose. destruct (h_fd h); [exact W| |]; now apply hwf_set_file.
  - eexists. split; [reflexivity|]. unfold HInit. destruct (h_fd h); [|exact W|];
      (destruct (hc_file c); [|exact W]); now apply historyUpdatePath_ok.
  - destruct (find_item id (h_items h)) as [x|] eqn:F; [|eauto]. eexists. split; [reflexivity|].
    apply find_item_in in F. destruct F as (I & <-). apply hwf_set_cur; [exact W|].
    unfold elems. rewrite map_app, in_app_iff. left. now apply in_map.
Qed.

Lemma run_hcalls_ok c ks h : hwf h -> exists h', run_hcalls c ks h = Ok h' /\ hwf h'.
Proof.
  revert h. induction ks as [|k ks IH]; intros h W; cbn; [eauto|].
  destruct (run_hcall_ok c k h W) as (h' & E & W'). rewrite E. cbn. auto.
Qed.

(** Bound *)
Definition bounded (c : hcfg) (h : hist) : Prop := length (h_items h) <= keep c + 1.

Lemma Update_bound c s commit h h' : Update c s commit h = Ok h' -> length (h_items h') <= keep c.
Proof.
  unfold Update. destruct (h_cur h) as [id|].
  - destruct (deref h id); cbn [obind]; try discriminate. intros [= <-].
    rewrite Compact_items, lastn_length. lia.
  - intros [= <-]. rewrite Compact_items, lastn_length. lia.
Qed.

Lemma new_commit_bound c s h h' : new_commit c s h = Ok h' -> bounded c h'.
Proof.
  unfold new_commit. match goal with |- obind ?X _ = _ -> _ => destruct X as [[s' h1]| |] end; cbn [obind]; try discriminate.
  destruct (Update c s' true h1) as [h2| |] eqn:U; cbn [obind]; try discriminate. intros [= <-].
  apply Update_bound in U. unfold bounded. cbn. rewrite app_length. cbn. lia.
Qed.

Lemma New_bound c s h h' : bounded c h -> New c s h = Ok h' -> bounded c h'.
Proof.
  intros B. unfold New. destruct (negb (h_enable h)); [intros [= <-]; exact B|].
  assert (CB : forall id, bounded c (clean_back id h)).
  { intros id. unfold bounded, clean_back. cbn. unfold map_item. rewrite map_length. exact B. }
  match goal with |- match ?X with _ => _ end = _ -> _ => destruct X as [id|] end; [intros [= <-]; auto|].
  destruct (length s =? 0); [|apply new_commit_bound].
  destruct (back_id h); [intros [= <-]; auto|apply new_commit_bound].
Qed.

Definition loads (k : hcall) : bool := match k with HInitC _ => true | _ => false end.

Lemma run_hcall_bound c k h h' : loads k = false -> bounded c h -> run_hcall c k h = Ok h' -> bounded c h'.
Proof.
  intros L B. destruct k; cbn [run_hcall]; try discriminate; intros E.
  - now apply New_bound in E.
  - apply Update_bound in E. unfold bounded. lia.
  - unfold Prev in E. destruct (h_cur h) as [id|]; [|injection E as <-; exact B].
    destruct (older id h); injection E as <-; exact B.
  - unfold Next in E. destruct (h_cur h) as [id|]; [|injection E as <-; exact B].
    destruct (newer id h); injection E as <-; exact B.
  - injection E as <-. exact B.
  - injection E as <-. unfold bounded. cbn. lia.
  - injection E as <-. exact B.
  - injection E as <-. exact B.
  - injection E as <-. unfold HClose. destruct (h_fd h); exact B.
  - destruct (find_item id (h_items h)); injection E as <-; exact B.
Qed.

Lemma run_hcalls_bound c ks h h' : forallb (fun k => negb (loads k)) ks = true -> bounded c h ->
  run_hcalls c ks h = Ok h' -> bounded c h'.
Proof.
  revert h. induction ks as [|k ks IH]; intros h L B E; cbn in *.
  - congruence.
  - apply andb_prop in L. destruct L as (L1 & L2).
    destruct (run_hcall c k h) as [h1| |] eqn:R; try discriminate. cbn in E.
    apply (IH h1); auto. apply (run_hcall_bound c k h); auto. now destruct (loads k).
Qed.

Lemma load_lines_bound c ls h : length (h_items h) <= keep c -> length (h_items (load_lines c ls h)) <= keep c.
Proof.
  revert h. induction ls as [|l ls IH]; intros h B; cbn [load_lines]; [exact B|].
  apply IH. destruct (length _ =? 0); [exact B|]. rewrite Compact_items, lastn_length. lia.
Qed.

Lemma load_bound c o disk : bounded c (HInit c o (newOpHistory disk)).
Proof.
  unfold HInit. cbn [newOpHistory h_fd]. destruct (hc_file c); [|unfold bounded; cbn; lia].
  unfold historyUpdatePath. destruct o; cbn [negb]; [|unfold bounded; cbn; lia].
  unfold bounded. cbn [Push h_items]. rewrite app_length. cbn [length].
  pose proof (load_lines_bound c (read_lines disk []) (set_file FdOpen disk (newOpHistory disk))) as L.
  cbn in L. specialize (L ltac:(lia)). cbn [h_disk newOpHistory].
  destruct (_ <? _)%Z; [|cbn; lia]. unfold rewriteLocked. destruct (hc_file c); cbn; lia.
Qed.

(** Submitting lines *)
Lemma map_item_notin id f l : ~ In id (map it_id l) -> map_item id f l = l.
Proof.
  intros N. unfold map_item. rewrite <- (map_id l) at 2. apply map_ext_in. intros x I.
  destruct (Nat.eqb_spec (it_id x) id) as [E|E]; [|reflexivity].
  elim N. rewrite <- E. now apply in_map.
Qed.

Lemma nodup_app_l {A} (a b : list A) : NoDup (a ++ b) -> NoDup a.
Proof.
  induction a as [|x a IH]; cbn; intros N; [constructor|]. inversion N as [|? ? N1 N2]; subst.
  constructor; [|auto]. intros I. apply N1. apply in_app_iff. now left.
Qed.

Lemma nodup_items h : hwf h -> NoDup (map it_id (h_items h)).
Proof.
  intros W. pose proof (w_nodup h W) as N. unfold elems in N. rewrite map_app in N.
  now apply nodup_app_l in N.
Qed.

Lemma map_item_last f com e : NoDup (map it_id (com ++ [e])) -> map_item (it_id e) f (com ++ [e]) = com ++ [f e].
Proof.
  intros N. unfold map_item. rewrite map_app. cbn. rewrite Nat.eqb_refl. f_equal.
  apply map_item_notin. rewrite map_app in N. cbn in N.
  apply NoDup_remove_2 in N. now rewrite app_nil_r in N.
Qed.

(** At the prompt: the last element is current. *)
Definition at_back (h : hist) (com : list item) (e : item) : Prop :=
  hwf h /\ h_items h = com ++ [e] /\ h_cur h = Some (it_id e).

Definition after_write (h : hist) (s : list Z) : list Z :=
  match h_fd h with FdOpen => h_disk h ++ file_line s | _ => h_disk h end.

Lemma Update_at_back c s commit h com e h' : at_back h com e -> Update c s commit h = Ok h' ->
  h_items h' = lastn (keep c) (com ++ [{| it_id := it_id e; it_src := if commit then s else it_src e;
    it_ver := h_ver h; it_tmp := if commit then it_tmp e else s |}]) /\
  h_cur h' = Some (it_id e) /\ h_enable h' = h_enable h /\ h_fd h' = h_fd h /\ h_fresh h' = h_fresh h /\
  h_ver h' = h_ver h /\ h_disk h' = if commit then after_write h s else h_disk h.
Proof.
  intros (W & I & C) U. unfold Update in U. rewrite C in U.
  destruct (hwf_cur h _ W C) as (x & D & _). rewrite D in U. cbn [obind] in U. injection U as <-.
  pose proof (nodup_items h W) as ND. rewrite I in ND.
  destruct (Compact_rest c (if commit
    then write_fd (file_line s) (modify (it_id e) (fun x => if commit
          then {| it_id := it_id x; it_src := s; it_ver := h_ver h; it_tmp := it_tmp x |}
          else {| it_id := it_id x; it_src := it_src x; it_ver := h_ver h; it_tmp := s |}) h)
    else modify (it_id e) (fun x => if commit
          then {| it_id := it_id x; it_src := s; it_ver := h_ver h; it_tmp := it_tmp x |}
          else {| it_id := it_id x; it_src := it_src x; it_ver := h_ver h; it_tmp := s |}) h)) as (R1 & R2 & R3 & R4 & R5 & R6).
  rewrite Compact_items, R1, R2, R3, R4, R5, R6. clear R1 R2 R3 R4 R5 R6.
  unfold after_write.
  destruct commit; unfold write_fd, modify; cbn [set_lists h_fd].
  - destruct (h_fd h) eqn:F; cbn; rewrite I, map_item_last by exact ND; rewrite ?C, ?F; auto 10.
  - cbn. rewrite I, map_item_last by exact ND. rewrite C. auto 10.
Qed.

Lemma New_hwf c s h h' : hwf h -> New c s h = Ok h' -> hwf h'.
Proof. intros W E. destruct (New_ok c s h W) as (h1 & E1 & W1). congruence. Qed.

Lemma Update_hwf c s b h h' : hwf h -> Update c s b h = Ok h' -> hwf h'.
Proof. intros W E. destruct (Update_ok c s b h W) as (h1 & E1 & W1 & _). congruence. Qed.

Definition newest_src (com : list item) : option (list Z) := last_line (map it_src com).

Lemma Equal_true a b : Equal a b = true <-> a = b.
Proof. apply Equal_spec. Qed.

Lemma at_back_back h com e : at_back h com e -> back h = Some e.
Proof. intros (_ & I & _). now apply back_app in I. Qed.

Lemma New_at_back c s h com e h' : at_back h com e -> h_enable h = true -> New c s h = Ok h' ->
  if (length s =? 0) || (match newest_src com with Some p => Equal s p | None => false end) then
    at_back h' com (clean_item e) /\ h_enable h' = true /\ h_disk h' = h_disk h /\ h_fd h' = h_fd h
  else
    exists e2, h_items h' = lastn (keep c) (com ++ [{| it_id := it_id e; it_src := s; it_ver := h_ver h; it_tmp := it_tmp e |}]) ++ [e2]
    /\ it_src e2 = [] /\ at_back h' (lastn (keep c) (com ++ [{| it_id := it_id e; it_src := s; it_ver := h_ver h; it_tmp := it_tmp e |}])) e2 /\
    h_enable h' = true /\ h_disk h' = after_write h s /\ h_fd h' = h_fd h.
Proof.
  intros A En N. pose proof A as (W & I & C). pose proof (New_hwf _ _ _ _ W N) as W'.
  pose proof (nodup_items h W) as ND. rewrite I in ND.
  assert (CB : h' = clean_back (it_id e) h ->
    at_back h' com (clean_item e) /\ h_enable h' = true /\ h_disk h' = h_disk h /\ h_fd h' = h_fd h).
  { intros ->. split; [split; [exact W'|]|auto]. split; [|reflexivity].
    change (map_item (it_id e) clean_item (h_items h) = com ++ [clean_item e]).
    rewrite I, map_item_last by exact ND. reflexivity. }
  unfold New in N. rewrite En in N. cbn [negb] in N.
  rewrite I, rev_app_distr in N. cbn [rev app] in N.
  assert (NS : newest_src com = match rev com with [] => None | p :: _ => Some (it_src p) end).
  { unfold newest_src, last_line. rewrite <- map_rev. destruct (rev com); reflexivity. }
  assert (NC : h_cur h = back_id h) by (rewrite C; unfold back_id; now rewrite (at_back_back _ _ _ A)).
  assert (CM : new_commit c s h = Ok h' -> exists e2, h_items h' = lastn (keep c) (com ++ [{| it_id := it_id e; it_src := s; it_ver := h_ver h; it_tmp := it_tmp e |}]) ++ [e2]
    /\ it_src e2 = [] /\ at_back h' (lastn (keep c) (com ++ [{| it_id := it_id e; it_src := s; it_ver := h_ver h; it_tmp := it_tmp e |}])) e2 /\
    h_enable h' = true /\ h_disk h' = after_write h s /\ h_fd h' = h_fd h).
  { unfold new_commit. rewrite <- NC, C. cbn [opt_eqb]. rewrite Nat.eqb_refl. cbn [obind].
    destruct (Update c s true h) as [h2| |] eqn:U; cbn [obind]; try discriminate. intros [= <-].
    destruct (Update_at_back c s true h com e h2 A U) as (I2 & C2 & E2 & F2 & R2 & V2 & D2).
    eexists. cbn [Push bump_ver h_items h_enable h_disk h_fd]. rewrite I2.
    split; [reflexivity|]. split; [reflexivity|]. split; [|split; [congruence|auto]].
    split; [exact W'|]. split; [|reflexivity]. cbn. now rewrite I2. }
  rewrite NS. destruct (rev com) as [|p l] eqn:RC.
  - destruct (length s =? 0) eqn:L; cbn [orb].
    + unfold back_id in N. rewrite (at_back_back _ _ _ A) in N. cbn in N. injection N as <-. auto.
    + auto.
  - destruct (Equal s (it_src p)) eqn:Q.
    + rewrite orb_true_r. injection N as <-. auto.
    + rewrite orb_false_r. destruct (length s =? 0) eqn:L.
      * unfold back_id in N. rewrite (at_back_back _ _ _ A) in N. cbn in N. injection N as <-. auto.
      * auto.
Qed.

Definition keeps (c : hcfg) (com : list item) (R : list (list Z)) : Prop :=
  map it_src com = lastn (length com) R /\ length com <= keep c /\ Nat.min (length R) (keep c - 1) <= length com.

Lemma last_line_app r x : last_line (r ++ [x]) = Some x.
Proof. unfold last_line. rewrite rev_app_distr. reflexivity. Qed.

Lemma last_line_nil r : last_line r = None -> r = [].
Proof.
  unfold last_line. destruct (rev r) eqn:E; [|discriminate]. intros _.
  apply (f_equal (@rev _)) in E. now rewrite rev_involutive in E.
Qed.

Lemma last_line_lastn n r : 0 < n -> last_line (lastn n r) = last_line r.
Proof.
  intros H. destruct n as [|n]; [lia|].
  destruct (list_eq_dec (list_eq_dec Z.eq_dec) r []) as [->|N]; [reflexivity|].
  destruct (exists_last N) as (r' & x & ->). now rewrite lastn_app_S, !last_line_app.
Qed.

Lemma keeps_commit c com R s x : (1 <= hc_limit c)%Z -> keeps c com R -> it_src x = s ->
  s <> [] -> newest_src com <> Some s ->
  keeps c (lastn (keep c) (com ++ [x])) (record R (Submit s)) /\
  (Nat.min (length (record R (Submit s))) (keep c) = length (lastn (keep c) (com ++ [x]))).
Proof.
  intros Hl (K1 & K2 & K3) Hx Hs Hn.
  assert (HL : 1 <= keep c) by (unfold keep; lia).
  assert (E : keep c = S (keep c - 1)) by lia.
  assert (LR : length com <= length R).
  { apply (f_equal (@length _)) in K1. rewrite map_length, lastn_length in K1. lia. }
  assert (X : lastn (keep c) (com ++ [x]) = lastn (keep c - 1) com ++ [x]).
  { rewrite E at 1. apply lastn_app_S. }
  rewrite X.
  assert (KEY : forall R', R' = record R (Submit s) -> length R <= length R' ->
     (exists R0, R' = R0 ++ [s] /\ (R0 = R \/ (R = R0 ++ [s] /\ com = []))) ->
     keeps c (lastn (keep c - 1) com ++ [x]) R' /\
     Nat.min (length R') (keep c) = length (lastn (keep c - 1) com ++ [x])).
  { intros R' _ HR (R0 & -> & [->|(RR & ->)]).
    - split.
      + split; [|split].
        * rewrite map_app, app_length, Nat.add_comm. cbn [length Nat.add map]. rewrite Hx.
          rewrite lastn_app_S. f_equal. rewrite <- lastn_map, K1, lastn_lastn, lastn_length.
          reflexivity.
        * rewrite app_length, lastn_length. cbn. lia.
        * rewrite !app_length, lastn_length. cbn. lia.
      + rewrite !app_length, lastn_length. cbn. lia.
    - rewrite RR, app_length in K3. cbn in K3.
      assert (keep c = 1) by lia.
      split.
      + split; [|split].
        * rewrite lastn_all by (cbn; lia). cbn [app map length]. rewrite (lastn_app_S 0). rewrite Hx.
          unfold lastn. replace (length R0 - 0) with (length R0) by lia. now rewrite skipn_all.
        * rewrite app_length, lastn_length. cbn. lia.
        * rewrite !app_length, lastn_length. cbn. lia.
      + rewrite !app_length, lastn_length. cbn. lia. }
  unfold record in *. destruct (list_eq_dec Z.eq_dec s []) as [|_]; [contradiction|].
  destruct (last_line R) as [y|] eqn:LL.
  - destruct (list_eq_dec Z.eq_dec y s) as [->|NE].
    + apply KEY; [reflexivity|lia|].
      assert (NN : R <> []) by (intros ->; discriminate).
      destruct (exists_last NN) as (R0 & z & EQ). exists R0. rewrite EQ in LL. rewrite last_line_app in LL.
      injection LL as ->. split; [exact EQ|]. right. split; [exact EQ|].
      destruct com as [|a com]; [reflexivity|]. exfalso. apply Hn. unfold newest_src. rewrite K1.
      rewrite last_line_lastn by (cbn; lia). now rewrite EQ, last_line_app.
    + apply KEY; [reflexivity|rewrite app_length; lia|]. eauto.
  - apply KEY; [reflexivity|rewrite app_length; lia|]. eauto.
Qed.

Lemma keeps_trim c com R x : (1 <= hc_limit c)%Z -> keeps c com R ->
  exists com', lastn (keep c) (com ++ [x]) = com' ++ [x] /\ keeps c com' R.
Proof.
  intros Hl (K1 & K2 & K3).
  assert (HL : 1 <= keep c) by (unfold keep; lia).
  assert (E : keep c = S (keep c - 1)) by lia.
  exists (lastn (keep c - 1) com). split; [rewrite E at 1; apply lastn_app_S|].
  split; [|split].
  - rewrite <- lastn_map, K1, lastn_lastn, lastn_length. reflexivity.
  - rewrite lastn_length. lia.
  - rewrite lastn_length. lia.
Qed.

(** What is recorded when an empty line or the last recorded line again is submitted. *)
Lemma record_skip c com R s : (2 <= hc_limit c)%Z \/ com <> [] \/ s = [] -> keeps c com R ->
  (s = [] \/ newest_src com = Some s) -> record R (Submit s) = R.
Proof.
  intros _ (K1 & K2 & K3) [->|H]; unfold record.
  - now destruct (list_eq_dec Z.eq_dec [] []).
  - destruct (list_eq_dec Z.eq_dec s []); [reflexivity|].
    unfold newest_src in H. rewrite K1 in H. destruct com as [|a com].
    + cbn in H. unfold lastn in H. rewrite Nat.sub_0_r, skipn_all in H. discriminate.
    + rewrite last_line_lastn in H by (cbn; lia). rewrite H.
      now destruct (list_eq_dec Z.eq_dec s s).
Qed.

Definition rests (c : hcfg) (h : hist) (R : list (list Z)) : Prop :=
  exists com e, at_back h com e /\ h_enable h = true /\ keeps c com R.

Lemma submit_cases s com : let b := (length s =? 0) || (match newest_src com with Some p => Equal s p | None => false end) in
  if b then s = [] \/ newest_src com = Some s else s <> [] /\ newest_src com <> Some s.
Proof.
  cbn zeta. destruct s as [|a s].
  - cbn. auto.
  - cbn [length Nat.eqb orb]. destruct (newest_src com) as [p|].
    + destruct (Equal (a :: s) p) eqn:Q.
      * apply Equal_true in Q. right. congruence.
      * split; [discriminate|]. intros [= ->].
        assert (Equal (a :: s) (a :: s) = true) by now apply Equal_true. congruence.
    + split; [discriminate|discriminate].
Qed.

Lemma run_event_rests c e h R h' : (1 <= hc_limit c)%Z -> rests c h R -> run_event c e h = Ok h' ->
  rests c h' (record R e).
Proof.
  intros Hl (com & x & A & En & K) E. destruct e as [s|s]; cbn [run_event] in E.
  - destruct (Update_at_back c s false h com x h' A E) as (I & C & En' & _).
    destruct (keeps_trim c com R {| it_id := it_id x; it_src := it_src x; it_ver := h_ver h; it_tmp := s |} Hl K)
      as (com' & X & K'). cbn [record]. rewrite X in I.
    exists com'. eexists. split; [|split; [congruence|exact K']].
    split; [eapply Update_hwf; [apply A|exact E]|]. split; [exact I|exact C].
  - pose proof (New_at_back c s h com x h' A En E) as N.
    pose proof (submit_cases s com) as SC. cbn zeta in SC.
    destruct (_ || _).
    + destruct N as (A' & En' & _). exists com, (clean_item x). split; [exact A'|]. split; [exact En'|].
      rewrite (record_skip c com R s); auto. destruct SC as [|SC]; auto. right. left. intros ->. discriminate.
    + destruct N as (e2 & I2 & S2 & A2 & En2 & _). destruct SC as (S1 & S3).
      eexists. exists e2. split; [exact A2|]. split; [exact En2|].
      apply keeps_commit; auto.
Qed.

Lemma run_events_rests c es h R : (1 <= hc_limit c)%Z -> rests c h R ->
  exists h', run_events c es h = Ok h' /\ rests c h' (recorded R es).
Proof.
  intros Hl. revert h R. induction es as [|e es IH]; intros h R A; cbn.
  - eauto.
  - assert (exists h1, run_event c e h = Ok h1) as (h1 & E1).
    { destruct A as (com & x & (W & _) & _). destruct e; cbn.
      - destruct (Update_ok c s false h W) as (? & ? & _); eauto.
      - destruct (New_ok c s h W) as (? & ? & _); eauto. }
    rewrite E1. cbn. apply IH. eapply run_event_rests; eauto.
Qed.

Lemma first_event_rests c e disk : (1 <= hc_limit c)%Z -> starts_well [e] ->
  exists h', run_event c e (newOpHistory disk) = Ok h' /\ rests c h' (record [] e).
Proof.
  intros Hl SW. set (h := newOpHistory disk).
  assert (W : hwf h) by apply hwf_new. assert (HL : 1 <= keep c) by (unfold keep; lia).
  destruct e as [s|s]; cbn [run_event].
  - destruct (Update_ok c s false h W) as (h' & E & W' & _). exists h'. split; [exact E|].
    cbn in E. injection E as <-. destruct (Compact_rest c (Push s h)) as (R1 & _ & _ & R4 & _).
    exists []. eexists. split; [|split].
    + split; [exact W'|]. split.
      * rewrite Compact_items. rewrite lastn_all by (cbn; lia). reflexivity.
      * rewrite R1. reflexivity.
    + rewrite R4. reflexivity.
    + split; [reflexivity|]. cbn. lia.
  - destruct (New_ok c s h W) as (h' & E & W'). exists h'. split; [exact E|].
    destruct s as [|a s]; [elim SW|]. unfold New, new_commit in E. cbn in E. injection E as <-.
    destruct (Compact_rest c (Push (a :: s) h)) as (R1 & _ & _ & R4 & _).
    eexists [_]. eexists. split; [|split].
    + split; [exact W'|]. split.
      * cbn [Push bump_ver h_items]. rewrite Compact_items. rewrite lastn_all by (cbn; lia). reflexivity.
      * reflexivity.
    + cbn [Push bump_ver h_enable]. rewrite R4. reflexivity.
    + split; [reflexivity|]. unfold keep in *. cbn. split; [lia|]. destruct (_ - 1); lia.
Qed.

Lemma rests_committed c h R : (1 <= hc_limit c)%Z -> rests c h R ->
  exists n, committed h = lastn n R /\ keep c - 1 <= n <= keep c.
Proof.
  intros Hl (com & e & (W & I & C) & En & K1 & K2 & K3). unfold committed. rewrite I, removelast_last.
  destruct (le_lt_dec (keep c - 1) (length com)) as [G|G].
  - exists (length com). split; [exact K1|lia].
  - exists (keep c - 1). split; [|lia]. rewrite K1.
    assert (length com <= length R).
    { apply (f_equal (@length _)) in K1. rewrite map_length, lastn_length in K1. lia. }
    rewrite !lastn_all by lia. reflexivity.
Qed.

Lemma committed_from_fresh c es disk : (1 <= hc_limit c)%Z -> starts_well es ->
  exists h' n, run_events c es (newOpHistory disk) = Ok h' /\ committed h' = lastn n (recorded [] es) /\
    keep c - 1 <= n <= keep c.
Proof.
  intros Hl SW. destruct es as [|e es].
  - exists (newOpHistory disk), (keep c). cbn. split; [reflexivity|]. split; [reflexivity|lia].
  - assert (S1 : starts_well [e]) by exact SW.
    destruct (first_event_rests c e disk Hl S1) as (h1 & E1 & A1).
    destruct (run_events_rests c es h1 _ Hl A1) as (h2 & E2 & A2).
    destruct (rests_committed c h2 _ Hl A2) as (n & Hn & B).
    exists h2, n. cbn. rewrite E1. cbn. auto.
Qed.

Lemma at_prompt_rests c h r : hwf h -> at_prompt c h r -> rests c h r.
Proof.
  intros W (En & CM & LL & e & B & C). destruct (back_spec _ _ B) as (com & I).
  exists com, e. split; [split; [exact W|auto]|]. split; [exact En|].
  unfold committed in CM. rewrite I, removelast_last in CM. subst r. rewrite map_length in LL.
  unfold keeps, keep. rewrite map_length. rewrite lastn_all by (rewrite map_length; lia).
  split; [reflexivity|]. lia.
Qed.

Lemma committed_from_prompt c es h r : (1 <= hc_limit c)%Z -> hwf h -> at_prompt c h r ->
  exists h' n, run_events c es h = Ok h' /\ committed h' = lastn n (recorded r es) /\
    keep c - 1 <= n <= keep c.
Proof.
  intros Hl W A. apply at_prompt_rests in A; [|exact W].
  destruct (run_events_rests c es h r Hl A) as (h2 & E2 & A2).
  destruct (rests_committed c h2 _ Hl A2) as (n & Hn & B). eauto.
Qed.

(** Right after a line has been recorded the full limit is available. *)
Lemma committed_after_submit c h R s h' : (1 <= hc_limit c)%Z -> rests c h R -> run_event c (Submit s) h = Ok h' ->
  record R (Submit s) <> R -> committed h' = lastn (keep c) (record R (Submit s)).
Proof.
  intros Hl (com & x & A & En & K) E NR. cbn [run_event] in E.
  pose proof (New_at_back c s h com x h' A En E) as N.
  pose proof (submit_cases s com) as SC. cbn zeta in SC. destruct (_ || _).
  - exfalso. apply NR. apply (record_skip c com); auto. destruct SC as [|SC]; auto. right. left. intros ->. discriminate.
  - destruct SC as (S1 & S3). destruct N as (e2 & I2 & _).
    unfold committed. rewrite I2, removelast_last.
    destruct (keeps_commit c com R s {| it_id := it_id x; it_src := s; it_ver := h_ver h; it_tmp := it_tmp x |} Hl K eq_refl S1 S3) as ((K1 & K2 & K3) & LL).
    rewrite K1, <- LL.
    destruct (le_lt_dec (length (record R (Submit s))) (keep c)).
    + rewrite !lastn_all by lia. reflexivity.
    + f_equal. lia.
Qed.
