(** Property C135: no key crashes a password prompt, but a search as its first key. *)
From Verif Require Import Base ListAux RunesModel RunesSpec RuneBufModel RuneBufSpec HistoryModel HistoryProofs ScreenModel RenderModel RenderSpec RenderProofs RenderSession RenderProps OpModel OpSpec OpProofs OpProps OutModel OutSpec WideSpec BroadSpec BroadProofs BroadProps VeilSpec VeilProps MixModel MixSpec MixProofs MixProps PassSpec PassProofs PassSearch.
Open Scope Z_scope.

(** A prompt without completer and vim mode, with a history of any limit (ReadPassword: -1, so that nothing is kept) and any listener that
    puts the cursor inside its line: whatever the keys, without Ctrl-R, Ctrl-S and Ctrl-T on a single character, it goes on. *)
Theorem C135_keys_partial : forall cf rs o, asking cf -> calm o -> untouchy cf rs o -> exists o' a, op_run cf rs o = Ok (o', a).
Proof. intros cf rs o A C T. destruct (run_calm cf A rs o C T) as (o' & a & E & _). eauto. Qed.
Print Assumptions C135_keys_partial.

(** With searches: Ctrl-R and Ctrl-S are harmless unless they are the first key of a call. *)
Theorem C135_search_partial : forall cf rs o, asking_wide cf -> unasked o -> steady cf true rs o -> exists o' a, op_run cf rs o = Ok (o', a).
Proof.
  intros cf rs o A C T. destruct (run_poised cf A rs true o (unasked_poised o C) ltac:(discriminate) T) as (o' & a & E & _). eauto.
Qed.
Print Assumptions C135_search_partial.

(** Whatever history it starts with. *)
Theorem C135_start : forall h, hwf h -> unasked (op_new h).
Proof. intros h W. split; [|split; reflexivity]. constructor; cbn; try reflexivity; exact W. Qed.
Print Assumptions C135_start.

(** The sessions of C131, C133 and C134 without completer run to their end whatever the limit of the history. *)
Theorem C135_sessions : forall cf ps is o reading, broad_session cf -> oc_auto cf = None -> (1 <= u_tab (oc_u cf))%nat -> 0 < oc_w cf <= 9223372036854775807 ->
  broad_prompt cf o -> hwf (o_h o) -> broad_turn cf (visible ps) is o reading ->
  (exists t o' acts, broad_leaves cf (visible ps) is o t o' acts) /\ forall m, exists t o' acts, veil_leaves cf (visible ps) m is o t o' acts.
Proof.
  intros cf ps is o reading C Au TB W A H T.
  assert (As : asking cf) by (destruct C; constructor; try assumption; intros; congruence).
  assert (B : exists t o' acts, broad_leaves cf (visible ps) is o t o' acts).
  { assert (Ca : calm o) by (destruct A; constructor; assumption). clear H. revert o reading A Ca T.
    induction is as [|i is IH]; intros o reading A Ca T; [do 3 eexists; apply BlNil|].
    destruct i as [|txt|r]; cbn [broad_turn] in T.
    - destruct (IH o true A Ca (proj2 T)) as (t & o' & acts & L). do 3 eexists. apply BlRead. exact L.
    - destruct T as ((ls & Fl & ->) & T). destruct (IH o reading A Ca T) as (t & o' & acts & L). do 3 eexists. apply BlPrint; eassumption.
    - destruct T as (_ & Kr & N & Q & T).
      assert (To : ~ touchy r o).
      { intros X. unfold touchy in X. unfold trips in N. rewrite (bp_vp _ _ A), (bs_vim _ C) in N. cbn [andb] in N.
        destruct X as [->|[->|X]]; [| |apply N; left; exact X];
          (destruct Kr as [(G & _)|[I|[E|(E & _)]]]; [lia| |discriminate|discriminate]; cbn in I; clear - I; intuition discriminate). }
      destruct (step_calm cf As r o Ca To) as (o1 & a1 & E & Ca1).
      destruct (broad_case cf C TB W ps o r o1 a1 [] A Kr N Q E) as (A1 & _).
      destruct (T o1 a1 E) as (_ & _ & T1).
      destruct (IH o1 _ A1 Ca1 T1) as (t & o' & acts & L). do 3 eexists. eapply BlKey; eassumption. }
  split; [exact B|]. intros m. destruct B as (t & o' & acts & L).
  assert (X : exists t', veil_leaves cf (visible ps) m is o t' o' acts); [|destruct X as (t' & X); eauto].
  clear - L. induction L as [|? ? ? ? ? ? (t' & X)|? ? ? ? ? ? ? ? (t' & X)|? ? ? ? ? ? ? ? ? ? (t' & X)]; eexists; econstructor; eassumption.
Qed.
Print Assumptions C135_sessions.

(** So do the programs of C134, with passwords whose history keeps nothing. *)
Theorem C135_program : forall u w cs o, uenv_ok u -> (1 <= u_tab u)%nat -> 0 < w <= 9223372036854775807 ->
  at_rest o -> Forall (glyph u) (rb_kill (o_b o)) -> mix_turn u w cs o -> exists t o' a, mix u w cs o t o' a.
Proof.
  intros u w cs o U T W A K. assert (R : ready u o) by (destruct A; unfold ready; auto 10). clear A K. revert o R.
  induction cs as [|c cs IH]; intros o R M; [do 3 eexists; apply MxNil|].
  destruct M as (C & Au & H & Tn & S & N). pose proof (ready_prompt u w c o C R) as A.
  assert (L : exists t o1 a1, call_leaves c (mix_op c o) t o1 a1).
  { destruct (C135_sessions (mc_cf c) (mc_ps c) (mc_in c) (mix_op c o) false) as (B & V); try assumption.
    - apply (co_ses _ _ _ C).
    - rewrite (co_u _ _ _ C). exact T.
    - rewrite (co_w _ _ _ C). exact W.
    - unfold call_leaves. destruct (mc_mask c) as [m|]; [apply V|exact B]. }
  destruct L as (t & o1 & a1 & L).
  destruct (call_runs u w c o t o1 a1 0 [] (false, d0 [] w None) scr0 scr0 U T W C R Tn L) as (st' & out & _ & F & _ & _ & _ & _ & R1).
  { unfold between. cbn [fst snd map length]. do 5 (split; [reflexivity|]). split; [constructor|]. split; [exact I|]. rewrite Z.add_0_r. split; [|apply same_above_refl].
    split; [intros y x _ _; cbn [length]; destruct (Z.to_nat _); reflexivity|]. unfold cursor_at, row_of, col_of. cbn. rewrite ?Z.div_0_l, ?Z.mod_0_l by lia. repeat split; lia. }
  rewrite S in F. destruct (R1 F) as (_ & R2). destruct (IH o1 R2 (N _ _ _ L)) as (t2 & o2 & a2 & X).
  do 3 eexists. eapply MxCall; eassumption.
Qed.
Print Assumptions C135_program.

(** ReadPassword (password.go:23-34; the hints "\n" stand for none, readline.go:116-125) *)
Definition c135_cf : ocfg :=
  {| oc_u := u0; oc_h := {| hc_limit := -1; hc_fold := false; hc_file := false |}; oc_w := 10; oc_prompt := [63;32];
     oc_auto := None; oc_vim := false; oc_unique := false; oc_nosave := false; oc_listen := None; oc_filter := None;
     oc_eofp := []; oc_intp := [] |}.
(** "ab", a search cancelled, a search accepted, Ctrl-P, Ctrl-W, Enter; "c", Ctrl-C. *)
Definition c135_keys : list Z := [97; 98; 18; 97; 7; 99; 19; 18; 98; 127; 13; 100; 16; 23; 101; 13; 99; 3].
Example C135_ex : asking_wide c135_cf /\ unasked fresh /\ steady c135_cf true c135_keys fresh /\
  exists o, op_run c135_cf c135_keys fresh = Ok (o, [ALine [97; 98; 99]; ABell; ALine [101]; AIntr [99]]).
Proof.
  split; [constructor; [constructor; try reflexivity; intros; discriminate|reflexivity|cbn; lia|eexists; vm_compute; reflexivity]|].
  split; [apply C135_start, hwf_new|].
  split.
  - unfold c135_keys.
    repeat lazymatch goal with
    | |- steady _ _ [] _ => exact I
    | |- steady _ _ (_ :: _) _ => split; [intros [([X|X] & Y)|(X & _)]; discriminate|let E := fresh "E" in intros ? ? E; vm_compute in E; injection E as <- <-; cbn [results filter is_result app]]
    end.
  - eexists. vm_compute. reflexivity.
Qed.

(** A name is asked for, then a password with the configuration above. *)
Definition c135_pass : mcall :=
  {| mc_cf := c135_cf; mc_ps := [Vis 63; Vis 32]; mc_paint := fun b _ => b; mc_mask := Some 42; mc_h := newOpHistory []; mc_in := [IRead; IKey 97; IKey 16; IKey 98; IKey 13] |}.
Definition c135_name : mcall := c134_call 62 None [IRead; IKey 98; IKey 13].
Example C135_program_ex : at_rest fresh /\ mix_turn u0 10 [c135_name; c135_pass] fresh /\ hc_limit (oc_h (mc_cf c135_pass)) = -1 /\
  c134_seen [c135_name; c135_pass] 3 = Some
    ([[62; 32; 98; 32; 32; 32; 32; 32; 32; 32]; [63; 32; 42; 42; 32; 32; 32; 32; 32; 32]; [32; 32; 32; 32; 32; 32; 32; 32; 32; 32]], 2, 0, [], 0%nat).
Proof.
  assert (G : forall r, In r [94; 67; 68; 63; 62; 97; 98; 32] -> glyph u0 r).
  { intros r I. cbn [In] in I. repeat destruct I as [<-|I]; try tauto; (split; [lia|]); (split; [lia|]); vm_compute; auto. }
  assert (Ok1 : call_ok u0 10 c135_pass).
  { constructor.
    - constructor; try reflexivity; constructor.
    - reflexivity.
    - reflexivity.
    - repeat constructor.
    - constructor; [apply G; cbn; tauto|constructor; [apply G; cbn; tauto|constructor]].
    - vm_compute. reflexivity.
    - intros b i F. split.
      + exists (map Vis b). split; [symmetry; apply runes_map|]. split; [apply vis_map|apply digits_map].
      + exists (map Vis b). split; [cbn [mc_paint c135_pass]; now rewrite runes_map|]. split; [apply vis_map|apply digits_map].
    - intros m E. injection E as <-. left. split; [lia|]. split; [lia|reflexivity].
    - split; constructor. }
  split; [exact fresh_rest|]. split; [|split; [reflexivity|vm_compute; reflexivity]].
  split; [apply c134_ok; [apply G; cbn; tauto|now left]|]. split; [reflexivity|]. split; [apply hwf_new|]. split; [|split; [vm_compute; reflexivity|]].
  { cbn [mc_in mc_cf mc_ps c135_name c134_call].
    repeat lazymatch goal with
    | |- broad_turn _ _ [] _ _ => exact I
    | |- broad_turn _ _ (IRead :: _) _ _ => split; [reflexivity|]
    | |- broad_turn _ _ (IKey ?r :: _) _ _ =>
        split; [reflexivity|split; [first [left; apply G; cbn; tauto|right; left; vm_compute; tauto]|
          split; [vm_compute; intuition discriminate|split; [discriminate|
          let o' := fresh "o" in let a := fresh "a" in let E := fresh "E" in
          intros o' a E; vm_compute in E; injection E as <- <-; cbn [results filter is_result];
          split; [vm_compute; reflexivity|split; [repeat constructor; vm_compute; reflexivity|]]]]]]
    end. }
  intros t o1 a1 L. unfold call_leaves in L. cbn [mc_mask c135_name c134_call mc_cf mc_ps mc_in] in L.
  repeat lazymatch goal with
  | E : op_step _ _ _ = Ok _ |- _ => vm_compute in E; injection E as <- <-
  | H : broad_leaves _ _ [] _ _ _ _ |- _ => inversion H; subst; clear H
  | H : broad_leaves _ _ (_ :: _) _ _ _ _ |- _ => inversion H; subst; clear H
  end.
  split; [exact Ok1|]. split; [reflexivity|]. split; [apply hwf_new|]. split; [|split; [vm_compute; reflexivity|intros; exact I]].
  cbn [mc_in c135_pass mc_cf mc_ps].
  repeat lazymatch goal with
  | |- broad_turn _ _ [] _ _ => exact I
  | |- broad_turn _ _ (IRead :: _) _ _ => split; [reflexivity|]
  | |- broad_turn _ _ (IKey ?r :: _) _ _ =>
      split; [reflexivity|split; [first [left; apply G; cbn; tauto|right; left; vm_compute; tauto]|
        split; [vm_compute; intuition discriminate|split; [discriminate|
        let o' := fresh "o" in let a := fresh "a" in let E := fresh "E" in
        intros o' a E; vm_compute in E; injection E as <- <-; cbn [results filter is_result];
        split; [vm_compute; reflexivity|split; [repeat constructor; vm_compute; reflexivity|]]]]]]
  end.
Qed.

(** Ctrl-R and then Ctrl-G or Ctrl-C, as the first keys at a password prompt, crash the program: history.current is nil (search.go:118). *)
Theorem C135_first_search_refuted : asking_wide c135_cf /\ unasked fresh /\ op_run c135_cf [18; 7] fresh = Panic /\ op_run c135_cf [19; 3] fresh = Panic.
Proof. pose proof C135_ex as (A & B & _). split; [exact A|]. split; [exact B|]. split; vm_compute; reflexivity. Qed.
Print Assumptions C135_first_search_refuted.
(** At every such prompt, not only the first: after a call that was interrupted the same history has no current line again. *)
Theorem C135_again_refuted : op_run c135_cf [97; 3; 18; 7] fresh = Panic.
Proof. vm_compute. reflexivity. Qed.
Print Assumptions C135_again_refuted.
(** Ctrl-T on one character, then any character. *)
Theorem C135_transpose_refuted : op_run c135_cf [97; 20; 97] fresh = Panic.
Proof. vm_compute. reflexivity. Qed.
Print Assumptions C135_transpose_refuted.
