(** A history without entries (no history file), and a program that records the lines itself (AddHistory), for
    arbitrary keys other than the search keys. *)
From Verif Require Import Base ListAux RunesModel RunesProofs RuneBufModel RuneBufSpec RuneBufProofs HistoryModel HistorySpec HistoryProofs HistoryFileProofs
  RenderModel OpModel OpSpec OpProofs OpStep OpKeys OpModes OpHist HistOffSpec OpHistOff.
From Coq Require Import ZifyBool Permutation.
Open Scope Z_scope.

(** ** A history without entries *)
Definition fresh_h (h : hist) : Prop := h_items h = [] /\ h_cur h = None /\ h_enable h = true /\ hwf h.

Lemma fresh_new : fresh_h (newOpHistory []).
Proof. split; [reflexivity|]. split; [reflexivity|]. split; [reflexivity|apply hwf_new]. Qed.

Lemma compact_one c x d : 1 <= hc_limit c -> compact_loop (hc_limit c) [x] d = ([x], d).
Proof. intros Hl. cbn. destruct (_ <? _) eqn:E; [lia|reflexivity]. Qed.

Lemma fresh_update c s b h h' : 1 <= hc_limit c -> fresh_h h -> Update c s b h = Ok h' ->
  hwf h' /\ rests c h' [] /\ h_items h' = [{| it_id := h_fresh h; it_src := s; it_ver := 0; it_tmp := [] |}] /\ h_cur h' = back_id h' /\ h_disk h' = h_disk h.
Proof.
  intros Hl (I & C & En & W) U. pose proof (Update_hwf _ _ _ _ _ W U) as W'. unfold Update in U. rewrite C in U. injection U as <-.
  set (x := {| it_id := h_fresh h; it_src := s; it_ver := 0; it_tmp := [] |}).
  assert (E : Compact c (Push s h) = set_lists [x] (h_dead h) (Push s h)).
  { unfold Compact. cbn [Push h_items h_dead]. rewrite I. cbn [app]. fold x. rewrite (compact_one c x (h_dead h) Hl). reflexivity. }
  rewrite E in *. split; [exact W'|]. assert (B : back_id (set_lists [x] (h_dead h) (Push s h)) = Some (h_fresh h)) by reflexivity.
  split; [|split; [reflexivity|split; [rewrite B; reflexivity|reflexivity]]].
  exists [], x. split; [split; [exact W'|]; split; reflexivity|]. split; [exact En|]. unfold keeps. cbn. split; [reflexivity|]. unfold keep. lia.
Qed.

Lemma fresh_commit c s h h' : 1 <= hc_limit c -> fresh_h h -> s <> [] -> New c s h = Ok h' -> rests c h' [s].
Proof.
  intros Hl F Ne E. pose proof F as (I & C & En & W). pose proof (New_hwf c s h h' W E) as W'. unfold New in E. rewrite En, I in E. cbn [negb rev] in E.
  assert (L : (length s =? 0)%nat = false) by (destruct s; [congruence|reflexivity]). rewrite L in E. unfold new_commit in E.
  assert (B : back_id h = None) by (unfold back_id, back; rewrite I; reflexivity). rewrite C, B in E. cbn [opt_eqb obind] in E.
  destruct (Update c s true h) as [h1| |] eqn:U; cbn [obind] in E; try discriminate. injection E as <-.
  destruct (fresh_update c s true h h1 Hl F U) as (W1 & R1 & I1 & C1 & _).
  eexists [_], _. split; [split; [exact W'|]; split|].
  - cbn [Push bump_ver h_items]. rewrite I1. reflexivity.
  - reflexivity.
  - split; [destruct R1 as (? & ? & _ & X & _); exact X|]. unfold keeps. cbn. split; [reflexivity|]. split; [unfold keep; lia|]. destruct (keep c - 1)%nat; lia.
Qed.

Lemma fresh_revert h : fresh_h h -> fresh_h (Revert h).
Proof.
  intros (I & C & En & W). assert (B : back_id h = None) by (unfold back_id, back; rewrite I; reflexivity).
  unfold Revert. split; [exact I|]. split; [exact B|]. split; [exact En|].
  replace (set_cur (back_id h) (bump_ver h)) with (bump_ver h); [now apply hwf_bump|]. rewrite B, <- C. destruct h; reflexivity.
Qed.

Section fresh.
Variable cf : ocfg.
Hypothesis Hl : 1 <= hc_limit (oc_h cf).
Hypothesis Vi : oc_vim cf = false.
Hypothesis Fi : oc_filter cf = None.

Record isfresh (o : op) : Prop := { fr_h : fresh_h (o_h o); fr_sel : c_sel (o_c o) = false; fr_s : s_in (o_s o) = false }.

Definition fpost (e : outcome swres) : Prop := forall o a ks kc upd, e = Ok (o, a, ks, kc, upd) ->
  fresh_h (o_h o) /\ two o /\ s_in (o_s o) = false /\ lines_of a = [] /\ (upd = false -> c_sel (o_c o) = false).
Lemma fp_if (c : bool) A B : (c = true -> fpost A) -> (c = false -> fpost B) -> fpost (if c then A else B).
Proof. destruct c; auto. Qed.
Lemma fp_bind {X} (e : outcome X) (f : X -> outcome swres) : (forall x, e = Ok x -> fpost (f x)) -> fpost (x <- e ;; f x).
Proof. intros H. destruct e; cbn [obind]; auto; intros ? ? ? ? ? E; discriminate. Qed.
Lemma fp_ok o a ks kc : fresh_h (o_h o) -> two o -> s_in (o_s o) = false -> lines_of a = [] -> fpost (Ok (o, a, ks, kc, true)).
Proof. intros H T S L o1 a1 ks1 kc1 upd E. injection E as <- <- <- <- <-. repeat (split; [assumption|]). discriminate. Qed.
Lemma fp_edit e o : fresh_h (o_h o) -> two o -> s_in (o_s o) = false -> fpost (edit_buf e o).
Proof. intros H T S. unfold edit_buf. apply fp_bind. intros b _. now apply fp_ok. Qed.
Lemma fp_revert o a ks kc b : isfresh o -> two o -> lines_of a = [] -> fpost (Ok (with_h (Revert (o_h o)) (with_b b o), a, ks, kc, false)).
Proof.
  intros [H C S] T L o1 a1 ks1 kc1 upd E. injection E as <- <- <- <- <-. split; [now apply fresh_revert|]. split; [exact T|]. split; [exact S|]. split; [exact L|].
  intros _. exact C.
Qed.

Lemma fp_switch r o : r <> 18 -> r <> 19 -> r <> 13 -> r <> 10 -> isfresh o -> fpost (key_switch cf r o).
Proof.
  intros N1 N2 N3 N4 K. pose proof K as [H C S]. pose proof two_exit as Te. unfold key_switch. rewrite S.
  assert (T : two o) by (intros X; congruence).
  assert (TC : forall o1, o_c o1 = o_c o -> two o1) by (intros o1 E; unfold two in *; rewrite E; exact T).
  apply fp_if; intros _; [cbn [obind]; destruct (c_in (o_c o)); apply fp_ok; auto; apply Te|].
  apply fp_if; intros _.
  { destruct (oc_auto cf); [apply fp_if; intros _|]; try (now apply fp_ok). apply fp_bind; intros o1 E. apply hf_complete in E.
    destruct E as (E1 & E3 & E2). apply fp_ok; auto; congruence. }
  apply fp_if; intros E1; [exfalso; clear - E1 N1; unfold CharBckSearch in E1; lia|].
  apply fp_if; intros _; [now apply fp_edit|].
  apply fp_if; intros E2; [exfalso; clear - E2 N2; unfold CharFwdSearch in E2; lia|].
  apply fp_if; intros _; [apply fp_bind; intros b _; now apply fp_ok|].
  do 6 (apply fp_if; intros _; [now apply fp_edit|]).
  apply fp_if; intros _.
  { apply fp_if; intros _; [now apply fp_ok|]. apply fp_bind; intros b _. apply fp_bind; intros o1 E.
    assert (Q : hf (with_b b o) o1) by (destruct (c_in _); [destruct (oc_auto cf); [|discriminate]; now apply hf_complete in E|injection E as <-; apply hf_refl]).
    destruct Q as (Q1 & Q2 & Q3). apply fp_ok; auto; rewrite ?Q1, ?Q2; auto. }
  apply fp_if; intros _; [now apply fp_ok|]. apply fp_if; intros _; [now apply fp_ok|].
  do 2 (apply fp_if; intros _; [now apply fp_edit|]).
  apply fp_if; intros E3; [exfalso; clear - E3 N3 N4; unfold CharEnter, CharCtrlJ in E3; lia|].
  do 2 (apply fp_if; intros _; [now apply fp_edit|]).
  destruct H as (I & Cu & H).
  assert (H' : fresh_h (o_h o)) by (split; [exact I|]; split; [exact Cu|exact H]).
  apply fp_if; intros _; [unfold Prev; rewrite Cu; cbn [obind fst snd]; apply fp_ok; auto|].
  apply fp_if; intros _; [unfold Next; rewrite Cu; cbn [obind fst snd]; apply fp_ok; auto|].
  apply fp_if; intros _.
  { unfold key_delete. apply fp_if; intros _; apply fp_bind; intros x _; [apply fp_ok; auto; destruct (snd x); reflexivity|now apply fp_revert]. }
  apply fp_if; intros _.
  { unfold key_interrupt. rewrite S. apply fp_if; intros _; [apply fp_ok; auto; apply Te|]. apply fp_bind; intros b _. apply fp_bind; intros b1 _.
    destruct (Reset b1) as [d b2]. apply fp_bind; intros d' _. now apply fp_revert. }
  apply fp_bind; intros b _. apply fp_if; intros _; [|now apply fp_ok]. destruct (oc_auto cf); [|intros ? ? ? ? ? E; discriminate].
  apply fp_bind; intros o1 E. apply hf_complete in E. destruct E as (Q1 & Q2 & Q3). cbn [with_b o_h o_s] in Q1, Q2.
  apply fp_ok; auto; rewrite ?Q1, ?Q2; auto.
Qed.

Lemma fresh_after r x o' a : fpost (Ok x) -> after_switch cf r x = Ok (o', a) ->
  lines_of a = [] /\ (isfresh o' \/ (keepoff false cf o' [] /\ h_enable (o_h o') = true)).
Proof.
  intros P E. pose proof (after_acts _ _ _ _ _ E) as Ea. destruct x as [[[[o acts] ks] kc] upd]. cbn [fst snd] in Ea. subst acts.
  destruct (P o a ks kc upd eq_refl) as (H & T & S & L & B). split; [exact L|]. revert E. unfold after_switch.
  set (o1 := match oc_listen cf with Some f => _ | None => o end).
  assert (F1 : o_h o1 = o_h o /\ o_c o1 = o_c o /\ o_s o1 = o_s o). { subst o1. destruct (oc_listen cf); [destruct (o0 _ _ _) as [[l p]|]|]; repeat split; reflexivity. }
  destruct F1 as (F1 & F2 & F3). rewrite F3, S, andb_false_r.
  destruct (if c_in (o_c o1) then _ else _) as [o2| |] eqn:E2; cbn [obind]; try discriminate.
  assert (T1 : two o1) by (unfold two in *; rewrite F2; exact T).
  assert (Q : o_h o2 = o_h o /\ two o2 /\ o_s o2 = o_s o /\ (c_sel (o_c o) = false -> c_sel (o_c o2) = false)).
  { destruct (c_in (o_c o1)); [destruct (negb kc)|].
    - injection E2 as <-. split; [exact F1|]. split; [apply two_exit|]. split; [exact F3|reflexivity].
    - apply hf_menu in E2. destruct E2 as ((A1 & A3 & A2) & _ & A4 & _). split; [congruence|]. split; [auto|]. split; congruence.
    - injection E2 as <-. rewrite F2. auto. }
  destruct Q as (Q1 & Q2 & Q3 & Q4). rewrite Q3, S, andb_true_r. destruct upd.
  - destruct (Update _ _ _ _) as [h| |] eqn:Eu; cbn [obind]; try discriminate. intros E. injection E as <-. right.
    rewrite Q1 in Eu. destruct (fresh_update _ _ _ _ _ Hl H Eu) as (W' & R' & _ & C' & _).
    pose proof R' as (_ & _ & _ & On & _). split; [|exact On]. constructor; cbn; [split; [exact W'|]|exact Q2|congruence|intros _; now left].
    rewrite (enable_same _ On). rewrite to_back_same by exact C'. exact R'.
  - cbn [obind]. intros E. injection E as <-. left. constructor; [rewrite Q1; exact H|auto|rewrite Q3; exact S].
Qed.

Lemma fresh_key r o o' a : r <> 18 -> r <> 19 -> r <> 13 -> r <> 10 -> (r = 0 -> rb_buf (o_b o) = []) -> o_vp o = None -> isfresh o ->
  op_step cf r o = Ok (o', a) -> lines_of a = [] /\ (isfresh o' \/ (keepoff false cf o' [] /\ h_enable (o_h o') = true)).
Proof.
  intros N1 N2 N3 N4 N0 Vp K. unfold op_step. destruct (o_end o); [intros E; injection E as <- <-; auto|]. rewrite Vp, Fi. unfold handle_key.
  destruct (Z.eqb_spec r 0) as [->|Nz].
  - rewrite (N0 eq_refl). cbn [length Nat.eqb andb]. intros E. injection E as <- <-. split; [reflexivity|left]. destruct K; constructor; auto.
  - cbn [andb]. rewrite (fr_sel o K). unfold vim_and_switch. rewrite Vi.
    destruct (key_switch cf r o) as [x| |] eqn:Ek; cbn [obind]; try discriminate. apply fresh_after. rewrite <- Ek. now apply fp_switch.
Qed.

(** Enter *)
Lemma enter_step r o : (r = 13 \/ r = 10 \/ (r = 0 /\ rb_buf (o_b o) <> [])) -> o_end o = false -> o_vp o = None -> c_sel (o_c o) = false ->
  exists r', op_step cf r o = (y <- key_enter cf o ;; after_switch cf r' y).
Proof.
  intros Er En Vp Sl. unfold op_step. rewrite En, Vp, Fi. unfold handle_key. rewrite Sl. unfold vim_and_switch. rewrite Vi.
  destruct Er as [->|[->|(-> & Nb)]].
  - exists 13. reflexivity.
  - exists 10. reflexivity.
  - exists 13. replace (length (rb_buf (o_b o)) =? 0)%nat with false; [reflexivity|]. symmetry. apply Nat.eqb_neq. destruct (rb_buf (o_b o)); [congruence|discriminate].
Qed.
End fresh.

(** ** Lines are recorded by the editor *)
Lemma fresh_enter cf r o o' a : 1 <= hc_limit (oc_h cf) -> oc_vim cf = false -> oc_filter cf = None -> oc_nosave cf = false ->
  (r = 13 \/ r = 10 \/ (r = 0 /\ rb_buf (o_b o) <> [])) -> o_end o = false -> o_vp o = None -> isfresh o ->
  op_step cf r o = Ok (o', a) -> lines_of a = [rb_buf (o_b o)] /\ (rb_buf (o_b o) <> [] -> keepoff false cf o' [rb_buf (o_b o)] /\ h_enable (o_h o') = true).
Proof.
  intros Hl Vi Fi Ns Er En Vp [H C S] E. destruct (enter_step cf Vi Fi r o Er En Vp C) as (r' & Es). rewrite Es in E. clear Es.
  destruct (key_enter cf o) as [x| |] eqn:Ek; cbn [obind] in E; try discriminate. pose proof (after_acts _ _ _ _ _ E) as Ea.
  unfold key_enter in Ek. rewrite S in Ek. cbn [obind] in Ek. rewrite Ns in Ek. cbn [negb] in Ek.
  destruct (MoveToLineEnd (o_b o)) as [b1| |] eqn:Em; cbn [obind] in Ek; try discriminate.
  destruct (if negb (oc_unique cf) then _ else _) as [[d b']| |] eqn:Ed; cbn [obind] in Ek; try discriminate.
  assert (D : d = rb_buf (o_b o)) by (apply (entered cf Vi (o_b o) d b'); rewrite Em; cbn [obind]; exact Ed).
  cbn [o_h with_b] in Ek. destruct (New (oc_h cf) d (o_h o)) as [h| |] eqn:Eh; cbn [obind] in Ek; try discriminate. injection Ek as <-.
  cbn [fst snd] in Ea. subst a d. split; [reflexivity|]. intros Ne.
  pose proof (fresh_commit _ _ _ _ Hl H Ne Eh) as Rs.
  assert (P : opost false cf true [] [] (Ok (with_h h (with_b b' o), [ALine (rb_buf (o_b o))], false, false, true))).
  { intros o1 a1 ks kc upd X _. injection X as <- <- <- <- <-. rewrite Ns. cbn [andb negb nrec lines_of flat_map app map recorded fold_left record o_h with_h].
    destruct (list_eq_dec Z.eq_dec (rb_buf (o_b o)) []) as [|_]; [contradiction|]. cbn [last_line rev app].
    pose proof Rs as (_ & _ & (W & _) & On & _). split; [split; [exact W|]|].
    - rewrite (enable_same _ On). rewrite (tracks_back false (oc_h cf) h _ Rs). exact Rs.
    - split; [split; [exact On|rewrite Ns; discriminate]|]. split; [intros X; cbn in X; congruence|]. split; [exact S|discriminate]. }
  destruct (after_off false cf Hl true [] r' [] _ o' _ P E ltac:(intros X; discriminate)) as (K & (En' & _)). split; [|exact En'].
  rewrite Ns in K. cbn [andb negb nrec lines_of flat_map app map recorded fold_left record] in K.
  destruct (list_eq_dec Z.eq_dec (rb_buf (o_b o)) []) as [|_] in K; [contradiction|]. exact K.
Qed.

Definition searchless (rs : list Z) : Prop := ~ In 18 rs /\ ~ In 19 rs.
Lemma searchless_cons r rs : searchless (r :: rs) -> r <> 18 /\ r <> 19 /\ searchless rs.
Proof. intros (A & B). split; [intros ->; apply A; now left|]. split; [intros ->; apply B; now left|]. split; intros X; [apply A|apply B]; now right. Qed.

Lemma keep_run cf rs : 1 <= hc_limit (oc_h cf) -> oc_vim cf = false -> oc_filter cf = None -> oc_nosave cf = false -> searchless rs ->
  forall R o o' a, o_vp o = None -> keepoff false cf o R -> h_enable (o_h o) = true -> op_run cf rs o = Ok (o', a) ->
  keepoff false cf o' (recorded R (map Submit (lines_of a))).
Proof.
  intros Hl Vi Fi Ns. induction rs as [|r rs IH]; intros Se R o o' a Vp K En E; cbn [op_run] in E; [injection E as <- <-; exact K|].
  apply searchless_cons in Se. destruct Se as (N1 & N2 & Se).
  destruct (op_step cf r o) as [[o1 a1]| |] eqn:E1; cbn [obind fst snd] in E; try discriminate.
  destruct (op_run cf rs o1) as [[o2 a2]| |] eqn:E2; cbn [obind fst snd] in E; try discriminate. injection E as <- <-.
  destruct (step_off false cf Hl Vi Fi r R o o1 a1 N1 N2 Vp K E1 ltac:(intros X; discriminate)) as (K1 & Vp1 & En1 & _).
  unfold saves in K1. rewrite En, Ns in K1. cbn [andb negb nrec] in K1. rewrite lines_app, recorded_app.
  apply (IH Se _ o1 o2 a2 Vp1 K1); [congruence|exact E2].
Qed.

Lemma op_run_end cf rs o : o_end o = true -> op_run cf rs o = Ok (o, []).
Proof. intros En. induction rs as [|r rs IH]; [reflexivity|]. cbn [op_run]. unfold op_step. rewrite En. cbn [obind fst snd]. rewrite IH. reflexivity. Qed.

Lemma fresh_run cf rs : 1 <= hc_limit (oc_h cf) -> oc_vim cf = false -> oc_filter cf = None -> oc_nosave cf = false -> searchless rs ->
  forall o o' a, o_vp o = None -> isfresh o -> op_run cf rs o = Ok (o', a) -> starts_well (map Submit (lines_of a)) ->
  (isfresh o' /\ lines_of a = []) \/ keepoff false cf o' (recorded [] (map Submit (lines_of a))).
Proof.
  intros Hl Vi Fi Ns. induction rs as [|r rs IH]; intros Se o o' a Vp K E Sw.
  { cbn [op_run] in E. injection E as <- <-. left. auto. }
  destruct (o_end o) eqn:En; [rewrite op_run_end in E by exact En; injection E as <- <-; left; auto|].
  cbn [op_run] in E. apply searchless_cons in Se. destruct Se as (N1 & N2 & Se).
  destruct (op_step cf r o) as [[o1 a1]| |] eqn:E1; cbn [obind fst snd] in E; try discriminate.
  destruct (op_run cf rs o1) as [[o2 a2]| |] eqn:E2; cbn [obind fst snd] in E; try discriminate. injection E as <- <-.
  pose proof (vp_step cf r o o1 a1 Vi Fi Vp E1) as Vp1. rewrite lines_app in *.
  assert (D : (r = 13 \/ r = 10 \/ (r = 0 /\ rb_buf (o_b o) <> [])) \/ (r <> 13 /\ r <> 10 /\ (r = 0 -> rb_buf (o_b o) = []))).
  { destruct (Z.eq_dec r 13); [auto|]. destruct (Z.eq_dec r 10); [auto|]. destruct (Z.eq_dec r 0); [|right; repeat split; congruence || auto].
    destruct (rb_buf (o_b o)) eqn:Eb; [right; repeat split; auto|left; right; right; split; [assumption|discriminate]]. }
  destruct D as [D|(N3 & N4 & N0)].
  - destruct (fresh_enter cf r o o1 a1 Hl Vi Fi Ns D En Vp K E1) as (L & Q). rewrite L in *. cbn [app map] in Sw.
    assert (Ne : rb_buf (o_b o) <> []) by (intros X; rewrite X in Sw; exact Sw). destruct (Q Ne) as (K1 & En1). right.
    rewrite recorded_app. apply (keep_run cf rs Hl Vi Fi Ns Se _ o1 o2 a2 Vp1); [|exact En1|exact E2].
    cbn [map recorded fold_left record]. destruct (list_eq_dec Z.eq_dec (rb_buf (o_b o)) []) as [|_]; [contradiction|]. exact K1.
  - destruct (fresh_key cf Hl Vi Fi r o o1 a1 N1 N2 N3 N4 N0 Vp K E1) as (L & [K1|(K1 & En1)]); rewrite L in *; cbn [app] in *.
    + exact (IH Se o1 o2 a2 Vp1 K1 E2 Sw).
    + right. apply (keep_run cf rs Hl Vi Fi Ns Se [] o1 o2 a2 Vp1 K1 En1 E2).
Qed.

Lemma fresh_recorded cf rs o a : 1 <= hc_limit (oc_h cf) -> oc_vim cf = false -> oc_filter cf = None -> oc_nosave cf = false -> searchless rs ->
  op_run cf rs (op_new (newOpHistory [])) = Ok (o, a) -> starts_well (map Submit (lines_of a)) ->
  exists n, committed (o_h o) = lastn n (recorded [] (map Submit (lines_of a))) /\ (n <= keep (oc_h cf))%nat /\
    (Nat.min (length (recorded [] (map Submit (lines_of a)))) (keep (oc_h cf) - 1) <= n)%nat.
Proof.
  intros Hl Vi Fi Ns Se E Sw.
  destruct (fresh_run cf rs Hl Vi Fi Ns Se (op_new (newOpHistory [])) o a eq_refl ltac:(constructor; [apply fresh_new|reflexivity|reflexivity]) E Sw) as [(K & L)|K].
  - rewrite L. exists 0%nat. destruct K as [(I & _) _ _]. unfold committed. rewrite I. cbn. split; [reflexivity|]. lia.
  - destruct K as [(W' & (com & e & (_ & I & _) & _ & K)) _ _ _].
    change (h_items (to_back (Enable (o_h o)))) with (h_items (o_h o)) in I. destruct K as (K1 & K2 & K3). exists (length com).
    unfold committed. rewrite I, removelast_last. auto.
Qed.

(** ** Lines are recorded by the program (DisableAutoSaveHistory and AddHistory) *)
Definition autosave (cf : ocfg) : ocfg :=
  {| oc_u := oc_u cf; oc_h := oc_h cf; oc_w := oc_w cf; oc_prompt := oc_prompt cf; oc_auto := oc_auto cf; oc_vim := oc_vim cf;
     oc_unique := oc_unique cf; oc_nosave := false; oc_listen := oc_listen cf; oc_filter := oc_filter cf; oc_eofp := oc_eofp cf; oc_intp := oc_intp cf |}.

Definition nlines (e : outcome swres) : Prop := forall o a ks kc upd, e = Ok (o, a, ks, kc, upd) -> lines_of a = [].
Lemma nl_if (c : bool) A B : (c = true -> nlines A) -> (c = false -> nlines B) -> nlines (if c then A else B).
Proof. destruct c; auto. Qed.
Lemma nl_bind {X} (e : outcome X) (f : X -> outcome swres) : (forall x, nlines (f x)) -> nlines (x <- e ;; f x).
Proof. intros H. destruct e; cbn [obind]; auto; intros ? ? ? ? ? E; discriminate. Qed.
Lemma nl_ok o a ks kc upd : lines_of a = [] -> nlines (Ok (o, a, ks, kc, upd)).
Proof. intros L ? ? ? ? ? E. injection E as _ <- _ _ _. exact L. Qed.
Lemma nl_edit e o : nlines (edit_buf e o).
Proof. unfold edit_buf. apply nl_bind. intros b. now apply nl_ok. Qed.

Lemma nl_switch cf r o : r <> 13 -> r <> 10 -> nlines (key_switch cf r o).
Proof.
  intros N3 N4. unfold key_switch.
  apply nl_if; intros _; [apply nl_bind; intros o1; now apply nl_ok|].
  apply nl_if; intros _; [destruct (oc_auto cf); [apply nl_if; intros _|]; try (now apply nl_ok); apply nl_bind; intros o1; now apply nl_ok|].
  apply nl_if; intros _; [apply nl_bind; intros x; apply nl_ok; now destruct (snd x)|].
  apply nl_if; intros _; [apply nl_edit|].
  apply nl_if; intros _; [apply nl_bind; intros x; apply nl_ok; now destruct (snd x)|].
  apply nl_if; intros _; [apply nl_bind; intros x; now apply nl_ok|].
  do 6 (apply nl_if; intros _; [apply nl_edit|]).
  apply nl_if; intros _.
  { apply nl_if; intros _; [apply nl_bind; intros x; now apply nl_ok|]. apply nl_if; intros _; [now apply nl_ok|].
    apply nl_bind; intros x. apply nl_bind; intros y. now apply nl_ok. }
  apply nl_if; intros _; [now apply nl_ok|]. apply nl_if; intros _; [now apply nl_ok|].
  do 2 (apply nl_if; intros _; [apply nl_edit|]).
  apply nl_if; intros E3; [exfalso; clear - E3 N3 N4; unfold CharEnter, CharCtrlJ in E3; lia|].
  do 2 (apply nl_if; intros _; [apply nl_edit|]).
  apply nl_if; intros _; [apply nl_bind; intros x; destruct (fst x); now apply nl_ok|].
  apply nl_if; intros _; [apply nl_bind; intros x; destruct (fst x); now apply nl_ok|].
  apply nl_if; intros _.
  { unfold key_delete. apply nl_if; intros _; apply nl_bind; intros x; apply nl_ok; [now destruct (snd x)|reflexivity]. }
  apply nl_if; intros _.
  { unfold key_interrupt. apply nl_if; intros _; [apply nl_bind; intros x; now apply nl_ok|]. apply nl_if; intros _; [now apply nl_ok|].
    apply nl_bind; intros b. apply nl_bind; intros b1. destruct (Reset b1) as [d b2]. apply nl_bind; intros d'. now apply nl_ok. }
  apply nl_if; intros _; [apply nl_bind; intros x; now apply nl_ok|].
  apply nl_bind; intros x. apply nl_if; intros _; [|now apply nl_ok]. destruct (oc_auto cf); [|intros ? ? ? ? ? E; discriminate].
  apply nl_bind; intros y. now apply nl_ok.
Qed.

Lemma auto_switch cf r o : r <> 13 -> r <> 10 -> key_switch (autosave cf) r o = key_switch cf r o.
Proof.
  intros N3 N4. unfold key_switch.
  assert (Er : (r =? CharEnter) || (r =? CharCtrlJ) = false) by (unfold CharEnter, CharCtrlJ; lia). rewrite Er.
  destruct cf; reflexivity.
Qed.
Lemma auto_after cf r x : after_switch (autosave cf) r x = after_switch cf r x.
Proof. destruct cf; reflexivity. Qed.
Lemma auto_select cf r o : HandleCompleteSelect (autosave cf) r o = HandleCompleteSelect cf r o.
Proof. destruct cf; reflexivity. Qed.

(** A key either does not submit a line, and then does what it would do if lines were recorded, or it is Enter. *)
Lemma std_cases cf r o : oc_vim cf = false -> oc_filter cf = None -> o_vp o = None ->
  (op_step cf r o = op_step (autosave cf) r o /\ forall o' a, op_step cf r o = Ok (o', a) -> lines_of a = []) \/
  (c_sel (o_c o) = false /\ o_end o = false /\ exists r', op_step cf r o = (y <- key_enter cf o ;; after_switch cf r' y)).
Proof.
  intros Vi Fi Vp. unfold op_step. change (oc_filter (autosave cf)) with (oc_filter cf). rewrite Vp, Fi.
  destruct (o_end o) eqn:En; [left; split; [reflexivity|]; intros o' a E; now injection E as _ <-|].
  unfold handle_key. destruct ((r =? 0) && _); [left; split; [reflexivity|]; intros o' a E; now injection E as _ <-|].
  set (r1 := if r =? 0 then CharEnter else r).
  assert (V : forall o1, r1 <> 13 -> r1 <> 10 -> vim_and_switch cf r1 o1 = vim_and_switch (autosave cf) r1 o1 /\ forall o' a, vim_and_switch cf r1 o1 = Ok (o', a) -> lines_of a = []).
  { intros o1 N3 N4. unfold vim_and_switch. change (oc_vim (autosave cf)) with (oc_vim cf). rewrite Vi, auto_switch by assumption. split.
    - destruct (key_switch cf r1 o1); cbn [obind]; [|reflexivity|reflexivity]. now rewrite auto_after.
    - intros o' a E. destruct (key_switch cf r1 o1) as [x| |] eqn:Ek; cbn [obind] in E; try discriminate. apply after_acts in E. subst a.
      destruct x as [[[[o2 acts] ks] kc] upd]. exact (nl_switch cf r1 o1 N3 N4 _ _ _ _ _ Ek). }
  destruct (c_sel (o_c o)) eqn:Sl.
  - left. rewrite auto_select. destruct (HandleCompleteSelect cf r1 o) as [[o1 k]| |]; cbn [obind]; [|split; [reflexivity|discriminate]|split; [reflexivity|discriminate]].
    destruct k; [split; [reflexivity|]; intros o' a E; now injection E as _ <-|].
    destruct ((r1 =? CharEnter) || (r1 =? CharCtrlJ)) eqn:Er.
    + split; [reflexivity|]. intros o' a E. destruct (Update _ _ _ _); cbn [obind] in E; try discriminate. now injection E as _ <-.
    + destruct (r1 =? CharInterrupt); [split; [reflexivity|]; intros o' a E; now injection E as _ <-|].
      destruct (r1 =? CharBell); [split; [reflexivity|]; intros o' a E; now injection E as _ <-|].
      apply V; clear - Er; unfold CharEnter, CharCtrlJ in Er; lia.
  - destruct (Z.eq_dec r1 13) as [E3|N3]; [right; split; [reflexivity|]; split; [reflexivity|]; exists 13; unfold vim_and_switch; rewrite Vi, E3; reflexivity|].
    destruct (Z.eq_dec r1 10) as [E4|N4]; [right; split; [reflexivity|]; split; [reflexivity|]; exists 10; unfold vim_and_switch; rewrite Vi, E4; reflexivity|].
    left. now apply V.
Qed.

(** Enter when the line is not recorded by the editor: the history is as before. *)
Lemma std_enter cf r o o' a : oc_vim cf = false -> oc_nosave cf = true -> s_in (o_s o) = false -> c_sel (o_c o) = false ->
  (y <- key_enter cf o ;; after_switch cf r y) = Ok (o', a) ->
  lines_of a = [rb_buf (o_b o)] /\ o_h o' = o_h o /\ c_sel (o_c o') = false /\ s_in (o_s o') = false.
Proof.
  intros Vi Ns S C E. destruct (key_enter cf o) as [x| |] eqn:Ek; cbn [obind] in E; try discriminate. pose proof (after_acts _ _ _ _ _ E) as Ea.
  unfold key_enter in Ek. rewrite S in Ek. cbn [obind] in Ek. rewrite Ns in Ek. cbn [negb] in Ek.
  destruct (MoveToLineEnd (o_b o)) as [b1| |] eqn:Em; cbn [obind] in Ek; try discriminate.
  destruct (if negb (oc_unique cf) then _ else _) as [[d b']| |] eqn:Ed; cbn [obind] in Ek; try discriminate.
  assert (D : d = rb_buf (o_b o)) by (apply (entered cf Vi (o_b o) d b'); rewrite Em; cbn [obind]; exact Ed).
  injection Ek as <-. cbn [fst snd] in Ea. subst a d. split; [reflexivity|]. revert E. unfold after_switch.
  set (o1 := match oc_listen cf with Some f => _ | None => _ end).
  assert (F1 : o_h o1 = o_h o /\ o_c o1 = o_c o /\ o_s o1 = o_s o). { subst o1. destruct (oc_listen cf); [destruct (o0 _ _ _) as [[l p]|]|]; repeat split; reflexivity. }
  destruct F1 as (F1 & F2 & F3). rewrite F3, S, andb_false_r, F2. cbn [negb].
  destruct (c_in (o_c o)); cbn [obind andb]; intros E; injection E as <-; cbn; rewrite ?F2, ?F3; auto.
Qed.

Section std.
Variables (file : bool) (cf : ocfg).
Hypothesis Hl : 1 <= hc_limit (oc_h cf).
Hypothesis Vi : oc_vim cf = false.
Hypothesis Fi : oc_filter cf = None.
Hypothesis Ns : oc_nosave cf = true.

(** the history of a program that has recorded the lines [R] so far *)
Definition stdinv (o : op) (R : list (list Z)) : Prop :=
  o_vp o = None /\ ((keepoff file (autosave cf) o R /\ h_enable (o_h o) = true) \/ (file = false /\ R = [] /\ isfresh o)).

Lemma std_step r R o o' a : r <> 18 -> r <> 19 -> stdinv o R -> op_step cf r o = Ok (o', a) ->
  (lines_of a = [] /\ stdinv o' R) \/
  (exists d, lines_of a = [d] /\ forall h, New (oc_h cf) d (o_h o') = Ok h -> (file = true -> d = [] \/ clean_line d) -> (file = false -> R = [] -> d <> []) ->
     stdinv (with_h h o') (record R (Submit d))).
Proof.
  intros N1 N2 (Vp & K) E. pose proof (vp_step cf r o o' a Vi Fi Vp E) as Vp'.
  destruct (std_cases cf r o Vi Fi Vp) as [(Es & L)|(Sl & En & r' & Es)].
  - left. pose proof (L _ _ E) as La. split; [exact La|]. split; [exact Vp'|]. rewrite Es in E. destruct K as [(K & On)|(-> & -> & K)].
    + destruct (step_off file (autosave cf) Hl Vi Fi r R o o' a N1 N2 Vp K E) as (K1 & _ & En1 & _); [intros _; rewrite La; constructor|].
      rewrite nrec_none in K1 by exact La. left. split; [exact K1|congruence].
    + assert (N : (r <> 13 /\ r <> 10 /\ (r = 0 -> rb_buf (o_b o) = [])) \/ o_end o = true).
      { destruct (o_end o) eqn:Ee; [now right|]. left.
        assert (X : ~ (r = 13 \/ r = 10 \/ (r = 0 /\ rb_buf (o_b o) <> []))).
        { intros D. destruct (fresh_enter (autosave cf) r o o' a Hl Vi Fi eq_refl D Ee Vp K E) as (X & _). congruence. }
        split; [auto|]. split; [auto|]. intros R0. destruct (rb_buf (o_b o)) eqn:B; [reflexivity|]. exfalso. apply X. right. right. split; [exact R0|discriminate]. }
      destruct N as [(N3 & N4 & N0)|Ee].
      * destruct (fresh_key (autosave cf) Hl Vi Fi r o o' a N1 N2 N3 N4 N0 Vp K E) as (_ & [K1|K1]); [right; auto|left; exact K1].
      * unfold op_step in E. rewrite Ee in E. injection E as <- <-. right. auto.
  - right. rewrite Es in E. exists (rb_buf (o_b o)).
    assert (S : s_in (o_s o) = false) by (destruct K as [([] & _)|(_ & _ & [])]; assumption).
    destruct (std_enter cf r' o o' a Vi Ns S Sl E) as (L & Eh & Sl' & S'). split; [exact L|].
    intros h En' Cl Fr. rewrite Eh in En'. split; [exact Vp'|]. left. destruct K as [(K & On)|(-> & -> & K)].
    + destruct K as [(W & T) Tw _ Tb]. rewrite (enable_same _ On) in T. specialize (Tb eq_refl).
      pose proof (new_tracks file (oc_h cf) _ _ _ h Hl T Tb Cl En') as T'.
      assert (On' : h_enable h = true). { pose proof (tracks_rests _ _ _ _ T') as (? & ? & _ & X & _). exact X. }
      split; [|exact On']. constructor; cbn [o_h with_h o_c o_s o_b].
      * split; [now apply (New_hwf (oc_h cf) (rb_buf (o_b o)) (o_h o))|]. rewrite (enable_same _ On'), (tracks_back _ _ _ _ T'). exact T'.
      * intros X. cbn in X. congruence.
      * exact S'.
      * intros _. left. apply tracks_cur in T'. destruct T' as (id & -> & ->). reflexivity.
    + specialize (Fr eq_refl eq_refl). pose proof (fresh_commit (oc_h cf) _ _ h Hl (fr_h o K) Fr En') as Rs.
      pose proof Rs as (_ & _ & (W & _) & On' & _). split; [|exact On'].
      cbn [record]. destruct (list_eq_dec Z.eq_dec (rb_buf (o_b o)) []) as [|_]; [contradiction|]. cbn [last_line rev app].
      constructor; cbn [o_h with_h o_c o_s o_b].
      * split; [exact W|]. rewrite (enable_same _ On'). rewrite (tracks_back false (oc_h cf) h _ Rs). exact Rs.
      * intros X. cbn in X. congruence.
      * exact S'.
      * intros _. left. apply (tracks_cur false (oc_h cf)) in Rs. destruct Rs as (id & -> & ->). reflexivity.
Qed.
End std.
