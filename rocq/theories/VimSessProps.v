(** Properties C37 and C41, in vim mode too. *)
From Verif Require Import Base FilterSpec ListAux RunesModel RuneBufModel HistoryModel HistoryProofs
  RenderModel TerminalModel TerminalSpec TerminalProofs OpModel OpSpec OpProofs OpStep OpKeys OpModes SessionModel SessionProofs
  OpProps SessionProps VimSess.
Open Scope Z_scope.

(** As many resumptions as pauses, in vim mode or not, whatever modes are entered, unless Ctrl-J or Ctrl-D is pressed in
    vim's command mode or a pausing key is the second key of one of its commands ([answers]; for these see
    C37_vim_refuted). *)
Theorem C37_vim_partial : forall cf rs o o' a, gentle cf -> no_nul rs -> o_end o = false -> answers cf rs o ->
  op_run cf rs o = Ok (o', a) -> length (filter resumes a) = length (filter pauseb rs).
Proof. intros cf rs o o' a G N En A E. exact (proj2 (run_kicks_v cf rs G N o o' a En E) A). Qed.
Print Assumptions C37_vim_partial.

(** and every call returns, in every schedule *)
Theorem C37_vim_returns_partial : forall u cf eof i o0 s, gentle cf -> no_nul (keys_of u (oc_vim cf) i) ->
  o_end o0 = false -> answers cf (keys_of u (oc_vim cf) i) o0 -> reach u cf eof (sess_new i o0) s -> open_yet s ->
  Acc (fun x y => work u cf eof y x) s /\
  (at_a_stop u cf eof s -> ss_c s <> CIdle ->
     ss_e s = ECrash \/ (eof = false /\ ss_t s = TRead /\ ss_in s = []) \/ exists l, ss_res s = l ++ [AEof]).
Proof.
  intros u cf eof i o0 s Fi Nz En An R L.
  assert (G0 : good u cf (keys_of u (oc_vim cf) i) o0 (sess_new i o0)) by (apply good_new; [reflexivity|exact En]).
  assert (T0 : tight_v (sess_new i o0)) by (unfold tight_v, sess_new; cbn; intros _ _; reflexivity).
  destruct (tight_v_reach u cf eof _ o0 Fi Nz An _ s G0 T0 R L) as (G & T). split.
  - apply (SessionProofs.rests u cf eof Fi s). apply (on_reach u cf eof (sess_new i o0) s Fi); [|exact R]. intros o E. injection E as <-. exact En.
  - intros W C. destruct (stuck_call_v u cf eof _ o0 s G T L W C) as [X|[X|(o & _ & l & X)]]; eauto.
Qed.
Print Assumptions C37_vim_returns_partial.

(** No keys end the session, in vim mode or not. *)
Theorem C41_vim_partial : forall cf rs o o' a, gentle cf -> no_nul rs -> o_end o = false ->
  op_run cf rs o = Ok (o', a) -> o_end o' = false.
Proof. intros cf rs o o' a G N En E. exact (proj1 (run_kicks_v cf rs G N o o' a En E)). Qed.
Print Assumptions C41_vim_partial.

(** Outside vim mode every key is answered; also in insert mode, and Enter and Ctrl-C in command mode. *)
Lemma answered_insert : forall cf r o, o_vp o = None -> (o_vn o = true -> oc_filter cf = None /\ (pause_key r -> r = 13 \/ r = 3)) -> answered cf r o.
Proof. intros cf r o Vp H P. split; [exact Vp|]. intros _ Vn. destruct (H Vn) as (-> & X). auto. Qed.

(** "ab", Esc, "h", "x", "dw", Enter; "c", Esc, Ctrl-C; Ctrl-D *)
Definition vs_cf : ocfg := excf ascii 80 None true.
Definition vs_keys : list Z := [97; 98; 27; 104; 120; 100; 119; 13; 99; 27; 3; 4].
Example C37_vim_ex : gentle vs_cf /\ no_nul vs_keys /\ answers vs_cf vs_keys fresh /\
  exists o', op_run vs_cf vs_keys fresh = Ok (o', [ALine []; AIntr [99]; AEof]).
Proof.
  split; [exact I|]. split; [repeat constructor; discriminate|]. split.
  { unfold vs_keys. cbn [answers].
    repeat (split; [first [solve [intros P; exfalso; clear - P; unfold pause_key in P; lia]|apply answered_insert; [reflexivity|first [discriminate|intros _; split; [reflexivity|unfold pause_key; lia]]]]|intros ? ? E; vm_compute in E; injection E as <- <-]). exact I. }
  eexists. vm_compute. reflexivity.
Qed.
