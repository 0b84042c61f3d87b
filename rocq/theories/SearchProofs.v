From Verif Require Import Base ListAux RunesModel RunesSpec RuneBufModel RuneBufSpec HistoryModel HistorySpec HistoryProofs HistoryNavProofs RenderModel OpModel OpSpec OpProofs OpStep OpKeys OpModes SearchSpec.
From Coq Require Import ZifyBool.
Open Scope Z_scope.

Section search.
Variable cf : ocfg.
Hypothesis G : good_config cf.

Lemma search_result new o p x : inside (o_b o) -> hwf (o_h o) -> marks_ok (o_s o) (o_b o) -> s_in (o_s o) = true -> s_data (o_s o) <> [] ->
  nth_error (h_items (o_h o)) p = Some x -> h_cur (o_h o) = Some (it_id x) ->
  exists o' r, search cf new o = Ok o' /\ match_from (s_bck (o_s o)) new (oc_h cf) (s_data (o_s o)) (rb_idx (o_b o)) (o_h o) p x r /\
    shows_result (s_bck (o_s o)) (s_data (o_s o)) r o o'.
Proof.
  intros I W M Si N P C. unfold search. destruct (s_data (o_s o)) as [|d0 dd] eqn:D; [contradiction|]. rewrite <- D. set (d := s_data (o_s o)) in *.
  assert (F : exists r, (if s_bck (o_s o) then FindBck (oc_h cf) new d (rb_idx (o_b o)) (o_h o)
              else FindFwd (oc_h cf) new d (rb_idx (o_b o)) (o_h o)) = Ok r /\
              (forall idx id, r = Some (idx, id) -> hit (o_h o) (length d) idx id) /\
              match_from (s_bck (o_s o)) new (oc_h cf) d (rb_idx (o_b o)) (o_h o) p x r).
  { unfold match_from. destruct (s_bck (o_s o)).
    - destruct (FindBck_ok (oc_h cf) new d (rb_idx (o_b o)) (o_h o) W) as (r & E & H). destruct (FindBck_spec (oc_h cf) new d (rb_idx (o_b o)) (o_h o) p x W P C) as (r' & E' & H').
      exists r. rewrite E in E'. injection E' as <-. auto.
    - destruct (FindFwd_ok (oc_h cf) new d (rb_idx (o_b o)) (o_h o) W) as (r & E & H).
      destruct (FindFwd_spec (oc_h cf) new d (rb_idx (o_b o)) (o_h o) p x ltac:(rewrite D; discriminate) W P C) as (r' & E' & H').
      exists r. rewrite E in E'. injection E' as <-. auto. }
  destruct F as (r & -> & R & Mt). cbn [obind]. destruct r as [[idx id]|].
  - destruct (R idx id eq_refl) as (y & X & Y & X0 & XL). subst id. rewrite (deref_item _ _ W X). cbn [obind].
    set (i := Z.to_nat idx) in *. set (c := if s_bck (o_s o) then i else (i + length d)%nat).
    assert (CL : (c <= length (showItem (o_h o) y))%nat) by (subst c; destruct (s_bck (o_s o)); lia).
    rewrite (SearchRefresh_ok cf G).
    + eexists. eexists (Some (idx, it_id y)). split; [reflexivity|]. split; [exact Mt|]. unfold shows_result. cbn [with_s with_b with_h o_s o_h o_b set_fail set_mark s_in s_bck s_data s_fail s_ms s_me set_cur h_items h_cur].
      split; [exact Si|]. split; [reflexivity|]. split; [reflexivity|]. split; [reflexivity|].
      split; [replace (Z.of_nat c =? -2) with false by lia; now replace (0 <=? Z.of_nat c) with true by lia|]. split; [reflexivity|]. exists y.
      repeat (split; [first [exact X|reflexivity]|]). reflexivity.
    + exact CL.
    + intros H. cbn. lia.
    + right. rewrite Nat2Z.id. exact CL.
  - rewrite (SearchRefresh_ok cf G); [|exact I|exact M|left; lia]. eexists. eexists None. split; [reflexivity|]. split; [exact Mt|].
    unfold shows_result. cbn. auto 8.
Qed.

(** *** the keys *)
Lemma char_step r o p x : looking o p x -> ordinary r -> exists o' res, op_step cf r o = Ok (o', []) /\
  match_from (s_bck (o_s o)) true (oc_h cf) (s_data (o_s o) ++ [r]) (rb_idx (o_b o)) (o_h o) p x res /\
  shows_result (s_bck (o_s o)) (s_data (o_s o) ++ [r]) res o o'.
Proof.
  intros ((h0 & id & S) & P & C) R. destruct S. destruct R as (R1 & R2). rewrite (step_open cf G) by (try assumption; lia).
  destruct (search_result true (with_s (set_data (s_data (o_s o) ++ [r]) (o_s o)) o) p x) as (o1 & res & E & Mt & Sh); try assumption.
  { cbn. destruct (s_data (o_s o)); discriminate. }
  exists o1, res. split; [|split; [exact Mt|exact Sh]].
  assert (K : key_switch cf r o = Ok (o1, [], true, false, true)).
  { unfold key_switch. repeat match goal with |- context [r =? ?k] => replace (r =? k) with false by (clear - R1 R2; unfold k; lia) end.
    cbn [orb]. rewrite se_s. unfold SearchChar. rewrite E. reflexivity. }
  rewrite K. cbn [obind]. apply (after_keep cf G); [apply Sh|].
  destruct (search_ok cf G true (with_s (set_data (s_data (o_s o) ++ [r]) (o_s o)) o)) as (o2 & E2 & K2); [assumption..|].
  rewrite E in E2. injection E2 as <-. rewrite (sk_c _ _ K2). exact se_c.
Qed.

Lemma back_step r o p x d e : looking o p x -> s_data (o_s o) = d ++ [e] -> d <> [] -> r = 127 \/ r = 8 -> exists o' res, op_step cf r o = Ok (o', []) /\
  match_from (s_bck (o_s o)) true (oc_h cf) d (rb_idx (o_b o)) (o_h o) p x res /\ shows_result (s_bck (o_s o)) d res o o'.
Proof.
  intros ((h0 & id & S) & P & C) D N R. destruct S. rewrite (step_open cf G) by (try assumption; lia).
  destruct (search_result true (with_s (set_data d (o_s o)) o) p x) as (o1 & res & E & Mt & Sh); try assumption.
  exists o1, res. split; [|split; [exact Mt|exact Sh]].
  assert (K : key_switch cf r o = Ok (o1, [], true, false, true)).
  { assert (K : key_switch cf r o = (o1 <- SearchBackspace cf o ;; Ok (o1, [], true, false, true))).
    { destruct R as [-> | ->]; unfold key_switch; cbn [Z.eqb Pos.eqb orb CharBell CharTab CharBckSearch CharCtrlU CharFwdSearch CharKill MetaForward
          CharTranspose MetaBackward MetaDelete CharLineStart CharLineEnd CharBackspace CharCtrlH]; rewrite se_s; reflexivity. }
    rewrite K. unfold SearchBackspace. rewrite D. destruct (d ++ [e]) as [|z l] eqn:Z; [destruct d; discriminate|]. rewrite <- Z, app_length. cbn [length].
    replace (length d + 1 - 1)%nat with (length d + 0)%nat by lia. rewrite firstn_app_2, firstn_O, app_nil_r, E. reflexivity. }
  rewrite K. cbn [obind]. apply (after_keep cf G); [apply Sh|].
  destruct (search_ok cf G true (with_s (set_data d (o_s o)) o)) as (o2 & E2 & K2); [assumption..|].
  rewrite E in E2. injection E2 as <-. rewrite (sk_c _ _ K2). exact se_c.
Qed.

(** the last character of the search text is taken back: nothing is sought, nothing fails *)
Lemma empty_step r o e : (exists h0 id, searching h0 id o) -> s_data (o_s o) = [e] -> r = 127 \/ r = 8 -> exists o', op_step cf r o = Ok (o', []) /\
  s_in (o_s o') = true /\ s_data (o_s o') = [] /\ s_fail (o_s o') = false /\ o_b o' = o_b o /\ o_h o' = o_h o.
Proof.
  intros (h0 & id & S) D R. destruct S. rewrite (step_open cf G) by (try assumption; lia).
  assert (K : key_switch cf r o = (o1 <- SearchBackspace cf o ;; Ok (o1, [], true, false, true))).
  { destruct R as [-> | ->]; unfold key_switch; cbn [Z.eqb Pos.eqb orb CharBell CharTab CharBckSearch CharCtrlU CharFwdSearch CharKill MetaForward
        CharTranspose MetaBackward MetaDelete CharLineStart CharLineEnd CharBackspace CharCtrlH]; rewrite se_s; reflexivity. }
  rewrite K. unfold SearchBackspace. rewrite D. cbn [length firstn Nat.sub]. unfold search. cbn [with_s o_s set_data s_data].
  rewrite (SearchRefresh_ok cf G); [|assumption|assumption|left; lia]. cbn [obind]. eexists. split; [apply (after_keep cf G); [exact se_s|exact se_c]|].
  cbn. auto 8.
Qed.

(** the search key again: on to the next match, in the direction of the key *)
Lemma again_step k o p x : looking o p x -> s_data (o_s o) <> [] -> k = 18 \/ k = 19 -> exists o' res, op_step cf k o = Ok (o', []) /\
  match_from (k =? 18) false (oc_h cf) (s_data (o_s o)) (rb_idx (o_b o)) (o_h o) p x res /\ shows_result (k =? 18) (s_data (o_s o)) res o o'.
Proof.
  intros ((h0 & id & S) & P & C) D K. destruct S. rewrite (step_open cf G) by (try assumption; lia).
  set (o1 := with_s {| s_in := true; s_fail := s_fail (o_s o); s_bck := k =? 18; s_src := h_cur (o_h o); s_data := s_data (o_s o); s_ms := s_ms (o_s o); s_me := s_me (o_s o) |} o).
  destruct (search_result false o1 p x) as (o2 & res & E & Mt & Sh); try assumption; [reflexivity|].
  exists o2, res. split; [|split; [exact Mt|exact Sh]].
  assert (Q : SearchMode cf (k =? 18) o = Ok (o2, true)).
  { unfold SearchMode. pose proof (gc_w _ G). replace (oc_w cf =? 0) with false by lia. rewrite se_s. fold o1. rewrite E. reflexivity. }
  assert (E' : key_switch cf k o = Ok (o2, [], true, false, true)).
  { destruct K as [-> | ->]; cbn in Q.
    - change (key_switch cf 18 o) with (x <- SearchMode cf true o ;; Ok (fst x, if snd x then [] else [ABell], snd x, false, true) : outcome swres).
      rewrite Q. reflexivity.
    - change (key_switch cf 19 o) with (x <- SearchMode cf false o ;; Ok (fst x, if snd x then [] else [ABell], snd x, false, true) : outcome swres).
      rewrite Q. reflexivity. }
  rewrite E'. cbn [obind]. apply (after_keep cf G); [apply Sh|].
  destruct (search_ok cf G false o1) as (o3 & E2 & K2); [assumption..|]. rewrite E in E2. injection E2 as <-. rewrite (sk_c _ _ K2). exact se_c.
Qed.

(** the first search key at a prompt *)
Lemma begin_step k o id : typing o -> s_ms (o_s o) = 0%nat -> s_data (o_s o) = [] -> s_fail (o_s o) = false -> h_cur (o_h o) = Some id -> k = 18 \/ k = 19 ->
  exists o', op_step cf k o = Ok (o', []) /\ searching (o_h o) id o' /\ s_bck (o_s o') = (k =? 18) /\ s_data (o_s o') = [] /\ s_fail (o_s o') = false /\
    o_b o' = o_b o /\ o_h o' = o_h o.
Proof.
  intros T Ms D Fl Cu K. destruct (search_begin cf G k o id T Ms Cu K) as (o1 & E & S). exists o1. split; [exact E|]. split; [exact S|].
  rewrite (step_open cf G) in E by (try apply T; lia).
  set (o2 := with_s {| s_in := true; s_fail := s_fail (o_s o); s_bck := k =? 18; s_src := h_cur (o_h o); s_data := s_data (o_s o); s_ms := s_ms (o_s o); s_me := s_me (o_s o) |} o).
  assert (M : marks_ok (o_s o) (o_b o)) by (intros H; lia).
  assert (Q : SearchMode cf (k =? 18) o = Ok (with_s (set_fail (-1) (o_s o2)) o2, true)).
  { unfold SearchMode. pose proof (gc_w _ G). replace (oc_w cf =? 0) with false by lia. fold o2. rewrite (ty_s _ T), (SearchRefresh_ok cf G); [reflexivity|apply T|exact M|left; lia]. }
  assert (E' : key_switch cf k o = Ok (with_s (set_fail (-1) (o_s o2)) o2, [], true, false, true)).
  { destruct K as [-> | ->]; cbn in Q.
    - change (key_switch cf 18 o) with (x <- SearchMode cf true o ;; Ok (fst x, if snd x then [] else [ABell], snd x, false, true) : outcome swres).
      rewrite Q. reflexivity.
    - change (key_switch cf 19 o) with (x <- SearchMode cf false o ;; Ok (fst x, if snd x then [] else [ABell], snd x, false, true) : outcome swres).
      rewrite Q. reflexivity. }
  rewrite E' in E. cbn [obind] in E. rewrite (after_keep cf G) in E; [|reflexivity|cbn; apply T]. injection E as <-. cbn. rewrite D, Fl. auto 8.
Qed.
End search.
