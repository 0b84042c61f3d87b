(** Properties C37, C41-C43, C76, C77, C79: the goroutines of an instance in every schedule (terminal.go, operation.go,
    readline.go). *)
From Verif Require Import Base FilterSpec ListAux RunesModel Utf8Model Utf8Spec Utf8Proofs RuneBufModel HistoryModel HistorySpec HistoryProofs HistoryFileProofs
  RenderModel TerminalModel TerminalSpec TerminalProofs OpModel OpSpec OpProofs OpStep OpKeys OpModes OpHist SessionModel SessionProofs
  SessionClose SessionMore OpProps.
From Coq Require Import ZifyBool.
Open Scope Z_scope.

(** Close has not yet got to Operation.Close. *)
Definition open_yet (s : sess) : Prop := ss_k s = K0 \/ ss_k s = K1.
Definition no_nul (ks : list Z) : Prop := Forall (fun k => k <> 0) ks.

(** Examples: no vim, no completer; the terminal goroutine first, or the caller first. *)
Definition cf0 : ocfg := excf ascii 80 None false.
Definition t_first : list lab := [LKick; LRead; LRecv; LEdit; LNext; LCkick; LCerr; LStop; LTclose; LClosed].
Definition c_first : list lab := [LCerr; LCkick; LEdit; LNext; LRecv; LRead; LKick; LStop; LTclose; LClosed].

(** ** C42: scheduling *)
(** Whatever the schedule, the results returned so far are the first ones of those the editor computes from the
    keys, followed by rune 0 for the end of the input. *)
Theorem C42_determined_partial : forall u cf eof i o0 s, gentle cf -> no_nul (keys_of u (oc_vim cf) i) -> o_end o0 = false ->
  reach u cf eof (sess_new i o0) s -> open_yet s ->
  exists n o a l, op_run cf (firstn n (keys_of u (oc_vim cf) i ++ repeat 0 n)) o0 = Ok (o, a) /\ results a = ss_res s ++ l.
Proof.
  intros u cf eof i o0 s Fi Nz En R L. apply (prefix_of u cf _ o0 s). apply (good_reach u cf eof _ o0 Fi Nz (sess_new i o0)); auto. now apply good_new.
Qed.
Print Assumptions C42_determined_partial.

(** So two executions on the same input never disagree. *)
Theorem C42_agree_partial : forall u cf eof1 eof2 i o0 s1 s2, gentle cf -> no_nul (keys_of u (oc_vim cf) i) -> o_end o0 = false ->
  reach u cf eof1 (sess_new i o0) s1 -> open_yet s1 -> reach u cf eof2 (sess_new i o0) s2 -> open_yet s2 ->
  (exists l, ss_res s1 = ss_res s2 ++ l) \/ (exists l, ss_res s2 = ss_res s1 ++ l).
Proof.
  intros u cf eof1 eof2 i o0 s1 s2 Fi Nz En R1 L1 R2 L2.
  destruct (C42_determined_partial u cf eof1 i o0 s1 Fi Nz En R1 L1) as (n1 & o1 & a1 & l1 & E1 & Q1).
  destruct (C42_determined_partial u cf eof2 i o0 s2 Fi Nz En R2 L2) as (n2 & o2 & a2 & l2 & E2 & Q2).
  destruct (two_prefixes cf _ o0 _ _ _ _ _ _ E1 E2) as [(l & E)|(l & E)]; rewrite Q1, Q2, <- app_assoc in E; symmetry in E;
    apply prefixes_compare in E; tauto.
Qed.
Print Assumptions C42_agree_partial.

(** A filter for which these hold: it turns small letters into capitals and drops Ctrl-D. *)
Definition shout (r : Z) : option Z := if r =? 4 then None else if (97 <=? r) && (r <=? 122) then Some (r - 32) else Some r.
Definition shouting (cf : ocfg) : ocfg :=
  {| oc_u := oc_u cf; oc_h := oc_h cf; oc_w := oc_w cf; oc_prompt := oc_prompt cf; oc_auto := oc_auto cf; oc_vim := oc_vim cf; oc_unique := oc_unique cf;
     oc_nosave := oc_nosave cf; oc_listen := oc_listen cf; oc_filter := Some shout; oc_eofp := oc_eofp cf; oc_intp := oc_intp cf |}.
Example C42_gentle_ex : gentle (shouting cf0) /\ exists s, reach ascii (shouting cf0) true (sess_new [97; 4; 13; 4; 98; 13] fresh) s /\ open_yet s /\ ss_res s = [ALine [65]; ALine [66]].
Proof.
  split.
  { split; [reflexivity|]. intros r N. unfold shout, pause_key. destruct (r =? 4) eqn:E; [lia|]. destruct ((97 <=? r) && (r <=? 122)) eqn:F; split; lia. }
  set (rd := [Go LKick; Go LRead; Go LRecv]). set (nx := [Go LRead; Go LRecv]). set (done := [Go LEdit; Go LNext]).
  destruct (moves_from ascii (shouting cf0) true ([Call; Go LCkick] ++ rd ++ [Go LNext] ++ nx ++ done ++ rd ++ done ++ [Call; Go LCkick] ++ rd ++ done ++ rd ++ [Go LNext] ++ nx ++ done)
    (sess_new [97; 4; 13; 4; 98; 13] fresh)) as [s|] eqn:E; [|vm_compute in E; discriminate].
  exists s. split; [exact (moves_reach _ _ _ _ _ _ E)|]. vm_compute in E. injection E as <-. split; [now left|reflexivity].
Qed.

(** Exactly one resumption for every pause, and no sequence of keys ends the session. *)
Theorem C37_filter_partial : forall cf rs o o' a, oc_vim cf = false -> gentle cf -> no_nul rs -> o_end o = false -> o_vp o = None ->
  op_run cf rs o = Ok (o', a) -> length (filter resumes a) = length (filter pauseb rs).
Proof. intros cf rs o o' a Vi G N En Vp E. now apply (run_kicks_g cf rs Vi G N o o' a En Vp). Qed.
Print Assumptions C37_filter_partial.
Theorem C41_filter_partial : forall cf rs o o' a, oc_vim cf = false -> gentle cf -> no_nul rs -> o_end o = false -> o_vp o = None ->
  op_run cf rs o = Ok (o', a) -> o_end o' = false.
Proof. intros cf rs o o' a Vi G N En Vp E. now apply (run_kicks_g cf rs Vi G N o o' a En Vp). Qed.
Print Assumptions C41_filter_partial.

(** From bytes to results: typed lines, in every schedule.  What has been returned is always a beginning of the
    typed lines, the unterminated rest and io.EOF; the goroutines always come to rest; and as long as not all of
    it has been returned, they only do so when the pending Readline has returned. *)
Theorem C42_typed_lines : forall u cf ls tail o0 s, plain cf -> oc_vim cf = false -> at_rest o0 ->
  Forall (fun le => Forall ordinary (fst le) /\ Forall scalar (fst le) /\ (snd le = 13 \/ snd le = 10)) ls ->
  Forall ordinary tail -> Forall scalar tail ->
  let all := map (fun le => ALine (fst le)) ls ++ match tail with [] => [] | _ => [ALine tail] end ++ [AEof] in
  reach u cf true (sess_new (decode (encode (typed ls ++ tail))) o0) s -> open_yet s ->
  (exists l, all = ss_res s ++ l) /\
  Acc (fun x y => work u cf true y x) s /\
  (at_a_stop u cf true s -> (length (ss_res s) < length all)%nat -> ss_c s = CIdle).
Proof.
  intros u cf ls tail o0 s P Vi A F Ft St all R L. destruct (typed_keys cf u ls tail F Ft St) as (Ek & Nk).
  assert (Nz : no_nul (typed ls ++ tail)) by (eapply Forall_impl; [|exact Nk]; cbn; tauto).
  assert (Rr : all = (map (fun le => ALine (fst le)) ls ++ match tail with [] => [] | _ => [ALine tail] end) ++ [AEof]) by (unfold all; now rewrite app_assoc).
  set (R0 := map (fun le => ALine (fst le)) ls ++ match tail with [] => [] | _ => [ALine tail] end) in *.
  assert (All : forall n, (2 <= n)%nat -> exists o, op_run cf ((typed ls ++ tail) ++ repeat 0 n) o0 = Ok (o, R0 ++ [AEof])).
  { intros n Hn. destruct (lines_then_eof cf ls tail o0 n P A) as (o & E & _); auto; [eapply Forall_impl; [|exact F]; cbn; tauto|].
    exists o. rewrite <- app_assoc, E, <- Rr. reflexivity. }
  assert (Re : results R0 = R0).
  { unfold R0. rewrite results_app. f_equal; [|now destruct tail]. clear. induction ls; cbn; [reflexivity|]. f_equal. exact IHls. }
  assert (Ne : ~ In AEof R0).
  { unfold R0. rewrite in_app_iff, in_map_iff. intros [(? & X & _)|X]; [discriminate|]. destruct tail; [destruct X|destruct X as [X|[]]; discriminate]. }
  assert (Fi : gentle cf) by (apply gentle_none; apply P). assert (En : o_end o0 = false) by apply A.
  set (i := decode (encode (typed ls ++ tail))) in *.
  assert (G0 : good u cf (typed ls ++ tail) o0 (sess_new i o0)) by (apply good_new; [now rewrite Ek|exact En]).
  assert (T0 : tight (sess_new i o0)).
  { unfold tight, sess_new. cbn. split; [apply A|]. intros _ _. reflexivity. }
  destruct (tight_reach u cf true _ o0 _ s Fi Vi Nz G0 T0 R L) as (G & T). destruct (typed_prefix u cf _ o0 R0 All Re s G) as (l & El). split; [exists l; now rewrite Rr|]. split.
  { apply (SessionProofs.rests u cf true Fi s). apply (on_reach u cf true (sess_new i o0) s Fi); [|exact R]. intros o E. injection E as <-. exact En. }
  intros W Lt. destruct (ss_c s) eqn:C; [reflexivity|..]; exfalso.
  all: destruct (stuck_call u cf true _ o0 s Fi Vi G T L W ltac:(rewrite C; discriminate)) as [X|[(X & _)|(o & _ & lx & X)]];
    [exact (typed_alive u cf _ o0 R0 All s G X)|discriminate|].
  all: rewrite Rr, El in Lt; rewrite app_length in Lt; rewrite X in El; destruct l as [|x l]; [cbn in Lt; lia|].
  all: apply Ne; destruct (@exists_last _ (x :: l) ltac:(discriminate)) as (l0 & x0 & Ex); rewrite Ex, app_assoc in El;
    apply app_inj_tail in El; destruct El as (El & _); rewrite El, !in_app_iff; cbn; tauto.
Qed.
Print Assumptions C42_typed_lines.

(** Two schedules of "ab Enter c" and the end of the input with three calls of Readline. *)
Definition three (pr : list lab) (i : list Z) : sess :=
  let go s := match do_move ascii cf0 true Call s with Some s' => drain ascii cf0 true pr 100 s' | None => s end in
  go (go (go (sess_new i fresh))).
Example C42_ex : let i := decode (encode (typed [([97; 98], 13)] ++ [99])) in
  ss_res (three t_first i) = [ALine [97; 98]; ALine [99]; AEof] /\ ss_res (three c_first i) = [ALine [97; 98]; ALine [99]; AEof] /\
  ss_c (three t_first i) = CIdle /\ no_nul (keys_of ascii false i).
Proof.
  split; [vm_compute; reflexivity|]. split; [vm_compute; reflexivity|]. split; [vm_compute; reflexivity|].
  vm_compute. repeat constructor; discriminate.
Qed.

(** A filter that drops runes breaks this: each dropped rune leaves a kick behind, with which the terminal reads on
    after Enter while nobody waits for the result; then the line "c" overtakes the earlier Ctrl-C. *)
Definition drops_x (cf : ocfg) : ocfg :=
  {| oc_u := oc_u cf; oc_h := oc_h cf; oc_w := oc_w cf; oc_prompt := oc_prompt cf; oc_auto := oc_auto cf; oc_vim := oc_vim cf;
     oc_unique := oc_unique cf; oc_nosave := oc_nosave cf; oc_listen := oc_listen cf;
     oc_filter := Some (fun r => if r =? 120 then None else Some r); oc_eofp := oc_eofp cf; oc_intp := oc_intp cf |}.
Theorem C42_filter_refuted : exists cf i s1 s2, no_nul (keys_of ascii false i) /\ oc_vim cf = false /\
  reach ascii cf true (sess_new i fresh) s1 /\ open_yet s1 /\ reach ascii cf true (sess_new i fresh) s2 /\ open_yet s2 /\
  ss_res s1 = [ALine []; AIntr []; ALine [99]] /\ ss_res s2 = [ALine []; ALine [99]; AIntr []].
Proof.
  set (first := [Call; Go LCkick]). set (rd := [Go LKick; Go LRead; Go LRecv]). set (nx := [Go LRead; Go LRecv]). set (done := [Go LEdit; Go LNext]).
  set (i := [120; 13; 120; 3; 99; 13]).
  set (begin := first ++ rd ++ done ++ nx ++ done).
  set (ms1 := begin ++ rd ++ done ++ nx ++ done ++ first ++ [Go LCerr] ++ rd ++ [Go LNext] ++ nx ++ first ++ done).
  set (ms2 := begin ++ rd ++ done ++ nx ++ done ++ rd ++ [Go LNext] ++ nx ++ first ++ done ++ first ++ [Go LCerr]).
  destruct (moves_from ascii (drops_x cf0) true ms1 (sess_new i fresh)) as [s1|] eqn:E1; [|vm_compute in E1; discriminate].
  destruct (moves_from ascii (drops_x cf0) true ms2 (sess_new i fresh)) as [s2|] eqn:E2; [|vm_compute in E2; discriminate].
  exists (drops_x cf0), i, s1, s2. split; [vm_compute; repeat constructor; discriminate|]. split; [reflexivity|].
  split; [exact (moves_reach _ _ _ _ _ _ E1)|]. vm_compute in E1. injection E1 as <-. split; [now left|].
  split; [exact (moves_reach _ _ _ _ _ _ E2)|]. vm_compute in E2. injection E2 as <-. split; [now left|].
  split; reflexivity.
Qed.
Print Assumptions C42_filter_refuted.

(** The rune NUL is taken for Enter by the editor but not by the terminal, which reads on. *)
Theorem C42_nul_refuted : exists i s1 s2,
  reach ascii cf0 true (sess_new i fresh) s1 /\ open_yet s1 /\ reach ascii cf0 true (sess_new i fresh) s2 /\ open_yet s2 /\
  ss_res s1 = [ALine [97]; AIntr []; ALine [99]] /\ ss_res s2 = [ALine [97]; ALine [99]; AIntr []].
Proof.
  set (first := [Call; Go LCkick]). set (rd := [Go LKick; Go LRead; Go LRecv]). set (nx := [Go LRead; Go LRecv]). set (done := [Go LEdit; Go LNext]).
  set (i := [97; 0; 3; 99; 13]).
  set (begin := first ++ rd ++ [Go LNext] ++ nx ++ done ++ nx ++ done).
  set (ms1 := begin ++ first ++ [Go LCerr] ++ first ++ rd ++ [Go LNext] ++ nx ++ done).
  set (ms2 := begin ++ first ++ rd ++ [Go LNext] ++ nx ++ done ++ first ++ [Go LCerr]).
  destruct (moves_from ascii cf0 true ms1 (sess_new i fresh)) as [s1|] eqn:E1; [|vm_compute in E1; discriminate].
  destruct (moves_from ascii cf0 true ms2 (sess_new i fresh)) as [s2|] eqn:E2; [|vm_compute in E2; discriminate].
  exists i, s1, s2.
  split; [exact (moves_reach _ _ _ _ _ _ E1)|]. vm_compute in E1. injection E1 as <-. split; [now left|].
  split; [exact (moves_reach _ _ _ _ _ _ E2)|]. vm_compute in E2. injection E2 as <-. split; [now left|].
  split; reflexivity.
Qed.
Print Assumptions C42_nul_refuted.

(** ** C37: a call of Readline always returns *)
(** In every schedule the goroutines come to rest, and when they have and a Readline is pending, it waits for input
    that has not come, or the editor has crashed (C74), or io.EOF has been returned before. *)
Theorem C37_returns_partial : forall u cf eof i o0 s, gentle cf -> oc_vim cf = false -> no_nul (keys_of u false i) ->
  o_end o0 = false -> o_vp o0 = None -> reach u cf eof (sess_new i o0) s -> open_yet s ->
  Acc (fun x y => work u cf eof y x) s /\
  (at_a_stop u cf eof s -> ss_c s <> CIdle ->
     ss_e s = ECrash \/ (eof = false /\ ss_t s = TRead /\ ss_in s = []) \/ exists l, ss_res s = l ++ [AEof]).
Proof.
  intros u cf eof i o0 s Fi Vi Nz En Vp R L.
  assert (G0 : good u cf (keys_of u false i) o0 (sess_new i o0)) by (apply good_new; [now rewrite Vi|exact En]).
  assert (T0 : tight (sess_new i o0)) by (unfold tight, sess_new; cbn; split; [exact Vp|intros _ _; reflexivity]).
  destruct (tight_reach u cf eof _ o0 _ s Fi Vi Nz G0 T0 R L) as (G & T). split.
  - apply (SessionProofs.rests u cf eof Fi s). apply (on_reach u cf eof (sess_new i o0) s Fi); [|exact R]. intros o E. injection E as <-. exact En.
  - intros W C. destruct (stuck_call u cf eof _ o0 s Fi Vi G T L W C) as [X|[X|(o & _ & l & X)]]; eauto.
Qed.
Print Assumptions C37_returns_partial.
(** The first of two calls on "a Enter" has returned, the second waits for more input. *)
Example C37_returns_ex : exists s s', reach ascii cf0 false (sess_new [97; 13] fresh) s /\ ss_res s = [ALine [97]] /\ ss_c s = CIdle /\
  at_a_stop ascii cf0 false s /\ reach ascii cf0 false s s' /\ at_a_stop ascii cf0 false s' /\ ss_c s' = CWait /\ ss_t s' = TRead.
Proof.
  destruct (moves_from ascii cf0 false ([Call; Go LCkick; Go LKick; Go LRead; Go LRecv; Go LNext; Go LRead; Go LRecv; Go LEdit; Go LNext]) (sess_new [97; 13] fresh)) as [s|] eqn:E; [|vm_compute in E; discriminate].
  destruct (moves_from ascii cf0 false [Call; Go LCkick; Go LKick] s) as [s'|] eqn:E'; [|vm_compute in E; injection E as <-; vm_compute in E'; discriminate].
  exists s, s'. split; [exact (moves_reach _ _ _ _ _ _ E)|]. pose proof (moves_reach _ _ _ _ _ _ E') as R'.
  vm_compute in E. injection E as E. subst s. split; [reflexivity|]. split; [reflexivity|]. split; [now apply stopped_ok|]. split; [exact R'|].
  vm_compute in E'. injection E' as E'. subst s'. split; [now apply stopped_ok|]. split; reflexivity.
Qed.

(** ** C41: after the end of the input *)
(** Readline returns io.EOF once; the next call never returns, whatever the schedule. *)
Theorem C41_again_refuted : exists s s1, reach ascii cf0 true (sess_new [] fresh) s /\ ss_res s = [AEof] /\ call s s1 /\
  (forall s2, works ascii cf0 true s1 s2 -> ss_res s2 = [AEof] /\ ss_c s2 <> CIdle).
Proof.
  destruct (moves_from ascii cf0 true ([Call; Go LCkick; Go LKick; Go LRead; Go LRecv; Go LEdit; Go LNext; Go LCerr]) (sess_new [] fresh)) as [s|] eqn:E; [|vm_compute in E; discriminate].
  exists s. eexists. split; [exact (moves_reach _ _ _ _ _ _ E)|]. vm_compute in E. injection E as E. subst s. split; [reflexivity|]. split; [split; reflexivity|].
  cbn [ss_in ss_ts ss_t ss_kick ss_e ss_err ss_c ss_res ss_k ss_file].
  assert (I : forall s2, (exists i d q o c f, s2 = mkS i d TDone q (EDone o) None c [AEof] K0 f /\ c <> CIdle) -> ss_res s2 = [AEof] /\ ss_c s2 <> CIdle).
  { intros s2 (i & d & q & o & c & f & -> & N). now split. }
  intros s2 Ws. apply I. induction Ws as [|x y Ws IH Wk]; [do 6 eexists; split; [reflexivity|discriminate]|].
  destruct IH as (i & d & q & o & c & f & -> & N). inversion Wk; subst; try congruence.
  - do 6 eexists. split; [reflexivity|discriminate].
Qed.
Print Assumptions C41_again_refuted.

(** ** C76: Close returns *)
(** Called by the goroutine that calls Readline, between two calls: in every schedule Close returns (unless the
    editor has crashed). *)
Theorem C76_idle_partial : forall u cf eof i o0 s s', gentle cf -> no_nul (keys_of u (oc_vim cf) i) -> o_end o0 = false ->
  reach u cf eof (sess_new i o0) s -> ss_c s = CIdle -> close s s' ->
  Acc (fun x y => work u cf eof y x) s' /\
  (forall s2, works u cf eof s' s2 -> at_a_stop u cf eof s2 -> ss_k s2 = K4 \/ ss_e s2 = ECrash).
Proof.
  intros u cf eof i o0 s s' Fi Nz En R C Cl.
  assert (L : live s) by (left; apply Cl). assert (G : good u cf (keys_of u (oc_vim cf) i) o0 s).
  { apply (good_reach u cf eof _ o0 Fi Nz (sess_new i o0)); auto. now apply good_new. }
  split.
  - apply (SessionProofs.rests u cf eof Fi s'). apply (on_reach u cf eof (sess_new i o0) s' Fi); [intros o E; injection E as <-; exact En|].
    apply (reach_1 u cf eof _ s); [exact R|right; right; exact Cl].
  - intros s2 Ws St. apply (closing_stop u cf eof); [|exact St]. apply (closing_works u cf eof s'); [|exact Ws]. exact (idle_closing u cf _ o0 s s' G C Cl).
Qed.
Print Assumptions C76_idle_partial.
Example C76_ex : exists s, reach ascii cf0 false (sess_new [97; 13; 98] fresh) s /\ ss_res s = [ALine [97]] /\ ss_k s = K4 /\ ss_c s = CIdle.
Proof.
  destruct (moves_from ascii cf0 false [Call; Go LCkick; Go LKick; Go LRead; Go LRecv; Go LNext; Go LRead; Go LRecv; Go LEdit; Stop; Go LNext; Go (LOpc false); Go LTclose; Go LStop; Go LClosed]
    (sess_new [97; 13; 98] fresh)) as [s|] eqn:E; [|vm_compute in E; discriminate].
  exists s. split; [exact (moves_reach _ _ _ _ _ _ E)|]. vm_compute in E. injection E as <-. repeat split.
Qed.

(** While a Readline is pending and no input comes, Close does not return: it waits for the terminal goroutine,
    which is in a read. *)
Theorem C76_pending_refuted : exists s, reach ascii cf0 false (sess_new [97] fresh) s /\ ss_k s = K3 /\ at_a_stop ascii cf0 false s /\
  ss_res s = [AEof].
Proof.
  destruct (moves_from ascii cf0 false [Call; Go LCkick; Go LKick; Go LRead; Go LRecv; Go LNext; Stop; Go (LOpc false); Go LCerr; Go LTclose]
    (sess_new [97] fresh)) as [s|] eqn:E; [|vm_compute in E; discriminate].
  exists s. split; [exact (moves_reach _ _ _ _ _ _ E)|]. vm_compute in E. injection E as <-. split; [reflexivity|]. split; [now apply stopped_ok|reflexivity].
Qed.
Print Assumptions C76_pending_refuted.
(** With a filter that drops runes, not even between two calls: the terminal reads ahead. *)
Theorem C76_filter_refuted : exists s, reach ascii (drops_x cf0) false (sess_new [120; 13] fresh) s /\ ss_k s = K3 /\
  at_a_stop ascii (drops_x cf0) false s /\ ss_res s = [ALine []].
Proof.
  destruct (moves_from ascii (drops_x cf0) false [Call; Go LCkick; Go LKick; Go LRead; Go LRecv; Go LEdit; Go LNext; Go LRead; Go LRecv; Go LEdit; Go LKick; Go LNext;
     Stop; Go (LOpc false); Go LTclose]
    (sess_new [120; 13] fresh)) as [s|] eqn:E; [|vm_compute in E; discriminate].
  exists s. split; [exact (moves_reach _ _ _ _ _ _ E)|]. vm_compute in E. injection E as <-. split; [reflexivity|]. split; [now apply stopped_ok|reflexivity].
Qed.
Print Assumptions C76_filter_refuted.

(** ** C77: Close wakes a pending Readline *)
Theorem C77_wakes : forall u cf eof s s' s2, close s s' -> works u cf eof s' s2 -> at_a_stop u cf eof s2 -> ss_c s2 = CIdle \/ ss_e s2 = ECrash.
Proof.
  intros u cf eof s s' s2 (_ & ->) Ws St. apply (waking_stop u cf eof); [|exact St]. eapply waking_works; [|exact Ws].
  split; [discriminate|]. right. right. left. reflexivity.
Qed.
Print Assumptions C77_wakes.
(** ... after finitely many steps, when no filter is set *)
Theorem C77_terminates_partial : forall u cf eof i o0 s s', gentle cf -> o_end o0 = false -> reach u cf eof (sess_new i o0) s ->
  close s s' -> Acc (fun x y => work u cf eof y x) s'.
Proof.
  intros u cf eof i o0 s s' Fi En R Cl. apply (SessionProofs.rests u cf eof Fi s').
  apply (on_reach u cf eof (sess_new i o0) s' Fi); [intros o E; injection E as <-; exact En|].
  apply (reach_1 u cf eof _ s); [exact R|right; right; exact Cl].
Qed.
Print Assumptions C77_terminates_partial.
(** Readline called after Close: the first call takes the io.EOF of Close, the second that of the editor, and the
    third one hangs. *)
Theorem C77_third_call_refuted : exists s, reach ascii cf0 false (sess_new [] fresh) s /\ ss_k s = K4 /\ ss_res s = [AEof; AEof] /\
  ss_c s = CWait /\ at_a_stop ascii cf0 false s.
Proof.
  destruct (moves_from ascii cf0 false [Stop; Go (LOpc false); Go LTclose; Go LStop; Go LClosed; Go LRecv; Call; Go LCkick; Go LCerr; Go LEdit; Go LNext;
     Call; Go LCkick; Go LCerr; Call; Go LCkick] (sess_new [] fresh)) as [s|] eqn:E; [|vm_compute in E; discriminate].
  exists s. split; [exact (moves_reach _ _ _ _ _ _ E)|]. vm_compute in E. injection E as <-. do 3 (split; [reflexivity|]). now apply stopped_ok.
Qed.
Print Assumptions C77_third_call_refuted.

(** ** C79: goroutines after Close *)
(** When Close has returned the terminal goroutine has ended. *)
Theorem C79_terminal_partial : forall u cf eof i o0 s, reach u cf eof (sess_new i o0) s -> ss_k s = K4 -> ss_t s = TDone.
Proof.
  intros u cf eof i o0 s R. induction R as [|s s' R IH S]; [discriminate|]. destruct S as [Wk|[(C & ->)|(K & ->)]]; [|exact IH|discriminate].
  destruct Wk; cbn [ss_k ss_t] in *; intros K; try (apply IH in K; congruence); try reflexivity; try discriminate K.
Qed.
Print Assumptions C79_terminal_partial.
(** The editor goroutine never ends when an idle instance is closed: Close has put io.EOF in errchan, the editor
    sees the end of the input, tries to report it as well and blocks. *)
Theorem C79_editor_refuted : exists s o o', reach ascii cf0 false (sess_new [] fresh) s /\ ss_k s = K4 /\ ss_c s = CIdle /\
  at_a_stop ascii cf0 false s /\ ss_e s = EDo o o' [AEof].
Proof.
  destruct (moves_from ascii cf0 false [Stop; Go (LOpc false); Go LTclose; Go LStop; Go LClosed; Go LRecv] (sess_new [] fresh)) as [s|] eqn:E; [|vm_compute in E; discriminate].
  exists s. do 2 eexists. split; [exact (moves_reach _ _ _ _ _ _ E)|]. vm_compute in E. injection E as <-. do 2 (split; [reflexivity|]). split; [now apply stopped_ok|reflexivity].
Qed.
Print Assumptions C79_editor_refuted.

Example C77_ex : exists s s' s2, reach ascii cf0 false (sess_new [97] fresh) s /\ ss_c s = CWait /\ close s s' /\ works ascii cf0 false s' s2 /\
  at_a_stop ascii cf0 false s2 /\ ss_res s2 = [AEof].
Proof.
  destruct (moves_from ascii cf0 false [Call; Go LCkick; Go LKick; Go LRead; Go LRecv; Go LNext] (sess_new [97] fresh)) as [s|] eqn:E; [|vm_compute in E; discriminate].
  exists s. eexists. exists (drain ascii cf0 false (LOpc false :: t_first) 10 (match do_move ascii cf0 false Stop s with Some s' => s' | None => s end)).
  split; [exact (moves_reach _ _ _ _ _ _ E)|]. vm_compute in E. injection E as <-. split; [reflexivity|]. split; [split; reflexivity|].
  split; [apply drain_works|]. split; [apply stopped_ok; vm_compute; reflexivity|vm_compute; reflexivity].
Qed.

(** A configuration with a history file. *)
Definition filed (cf : ocfg) : ocfg :=
  {| oc_u := oc_u cf; oc_h := {| hc_limit := 10; hc_fold := false; hc_file := true |}; oc_w := oc_w cf; oc_prompt := oc_prompt cf; oc_auto := oc_auto cf; oc_vim := oc_vim cf;
     oc_unique := oc_unique cf; oc_nosave := oc_nosave cf; oc_listen := oc_listen cf; oc_filter := oc_filter cf; oc_eofp := oc_eofp cf; oc_intp := oc_intp cf |}.

(** ** C43: the history file after Close *)
(** When Close closes the history, the file holds (in the sense of C78) the lines of results that include all those
    returned so far, with the possible exception of the very last one.  Enter is not pressed while searching (C64). *)
Lemma search_enter_app cf ks : forall ks' o, no_search_enter cf (ks ++ ks') o -> no_search_enter cf ks o.
Proof. induction ks as [|k ks IH]; intros ks' o; cbn [no_search_enter app]; [trivial|]. intros (A & B). split; [exact A|]. intros o' a E. exact (IH ks' o' (B o' a E)). Qed.
Theorem C43_file_partial : forall u cf c' ls eof i s s', 1 <= hc_limit (oc_h cf) -> oc_vim cf = false -> oc_nosave cf = false -> oc_filter cf = None ->
  hc_file (oc_h cf) = true -> hc_file c' = true -> hc_limit c' <= hc_limit (oc_h cf) -> Forall clean_line ls ->
  let o0 := op_new (openf (oc_h cf) (flat_map file_line ls)) in
  let keys := keys_of u (oc_vim cf) i in
  no_nul keys -> (forall m, no_search_enter cf (keys ++ repeat 0 m) o0) ->
  (forall n o a, op_run cf (firstn n (keys ++ repeat 0 n)) o0 = Ok (o, a) -> Forall (fun l => l = [] \/ clean_line l) (lines_of a)) ->
  reach u cf eof (sess_new i o0) s -> ss_k s = K1 -> work u cf eof s s' -> ss_k s' = K2 ->
  exists disk rs, ss_file s' = Some disk /\
    committed (openf c' disk) = lastn (keep c') (recorded (lastn (keep (oc_h cf)) ls) (map Submit (lines_of rs))) /\
    ((exists l, rs = ss_res s ++ l) \/ exists x, ss_res s = rs ++ [x]).
Proof.
  intros u cf c' ls eof i s s' Hl Vi Ns Fi Hf Hf' Le Cl o0 keys Nz Fk Cln R K1 W K2.
  assert (G0 : good u cf keys o0 (sess_new i o0)) by (apply good_new; reflexivity).
  assert (P0 : prev_ok cf keys o0 (sess_new i o0)) by exact Logic.I.
  assert (L : live s) by (right; exact K1).
  pose proof (good_reach u cf eof keys o0 (gentle_none cf Fi) Nz _ s G0 R L) as G. pose proof (prev_reach u cf eof keys o0 (gentle_none cf Fi) Nz _ s G0 P0 R L) as P.
  destruct (closed_file u cf eof keys o0 s s' G P K1 W K2) as (ks & ks' & m & o & a & Ek & Er & Ef & Rs).
  exists (h_disk (o_h o)), (results a). split; [exact Ef|]. split; [|exact Rs].
  rewrite lines_of_results.
  assert (Ca : Forall (fun l => l = [] \/ clean_line l) (lines_of a)).
  { destruct (ks_firstn keys ks ks' m Ek) as (n & En). apply (Cln n o a). rewrite <- En. exact Er. }
  assert (Se : no_search_enter cf ks o0) by (apply (search_enter_app cf ks ks'); rewrite Ek; apply Fk).
  pose proof (keys_saved cf c' ls ks o a Hl Vi Ns Fi Hf Hf' Le Cl Se Er Ca) as S. rewrite disk_close in S. exact S.
Qed.
Print Assumptions C43_file_partial.

(** That holds in particular when the search keys are not used. *)
Corollary C43_no_search : forall cf h m keys, oc_vim cf = false -> oc_filter cf = None -> Forall (fun k => k <> 18 /\ k <> 19) keys ->
  no_search_enter cf (keys ++ repeat 0 m) (op_new h).
Proof.
  intros cf h m keys Vi Fi F. apply calm_keys; auto. apply Forall_app. split; [exact F|]. clear. induction m; cbn; constructor; auto. lia.
Qed.
(** It also holds here, where a search is begun and given up. *)
Example C43_search_ex : let cf := filed cf0 in let o0 := op_new (openf (oc_h cf) (flat_map file_line [[111; 110; 101]])) in
  forall m, no_search_enter cf ([18; 111; 7; 97; 13] ++ repeat 0 m) o0.
Proof.
  cbn zeta. intros m. cbn [app no_search_enter].
  assert (Q : forall o, s_in (o_s o) = false -> o_vp o = None -> no_search_enter (filed cf0) (repeat 0 m) o).
  { intros o S V. apply calm_keys; auto. clear. induction m; cbn; constructor; auto. lia. }
  repeat (split; [vm_compute; intros; try discriminate; repeat split; discriminate|]; intros ? ? E; vm_compute in E; injection E as <- <-).
  apply Q; reflexivity.
Qed.

(** "a Enter b Enter" with the file holding "one": closed after the second line was returned and recorded. *)
Example C43_ex : let cf := filed cf0 in let o0 := op_new (openf (oc_h cf) (flat_map file_line [[111; 110; 101]])) in
  exists s s', reach ascii cf false (sess_new [97; 13; 98; 13] o0) s /\ ss_res s = [ALine [97]; ALine [98]] /\ ss_k s = K1 /\
    work ascii cf false s s' /\ ss_k s' = K2 /\
    option_map (fun d => committed (openf (oc_h cf) d)) (ss_file s') = Some [[111; 110; 101]; [97]; [98]].
Proof.
  set (line := [Call; Go LCkick; Go LKick; Go LRead; Go LRecv; Go LNext; Go LRead; Go LRecv; Go LEdit; Go LNext]).
  cbn zeta. set (o0 := op_new _).
  destruct (moves_from ascii (filed cf0) false (line ++ line ++ [Stop]) (sess_new [97; 13; 98; 13] o0)) as [s|] eqn:E; [|vm_compute in E; discriminate].
  destruct (do1 ascii (filed cf0) false (LOpc true) s) as [s'|] eqn:E'; [|vm_compute in E; injection E as <-; vm_compute in E'; discriminate].
  exists s, s'. split; [exact (moves_reach _ _ _ _ _ _ E)|]. pose proof (do1_work _ _ _ _ _ _ E') as Wk.
  vm_compute in E. injection E as E. subst s. split; [reflexivity|]. split; [reflexivity|]. split; [exact Wk|].
  vm_compute in E'. injection E' as E'. subst s'. split; [reflexivity|]. vm_compute. reflexivity.
Qed.

(** The last line may be missing: it is handed to the caller before it is given to the history, and a Close in
    between closes the file. *)
Theorem C43_last_line_refuted : let cf := filed cf0 in let o0 := op_new (openf (oc_h cf) []) in
  exists s disk, reach ascii cf false (sess_new [97; 13] o0) s /\ ss_res s = [ALine [97]] /\ ss_k s = K4 /\ ss_file s = Some disk /\
    committed (openf (oc_h cf) disk) = [].
Proof.
  cbn zeta. set (o0 := op_new _).
  destruct (moves_from ascii (filed cf0) false [Call; Go LCkick; Go LKick; Go LRead; Go LRecv; Go LNext; Go LRead; Go LRecv; Go LEdit;
     Stop; Go (LOpc false); Go LNext; Go LTclose; Go LStop; Go LClosed] (sess_new [97; 13] o0)) as [s|] eqn:E; [|vm_compute in E; discriminate].
  exists s. eexists. split; [exact (moves_reach _ _ _ _ _ _ E)|]. vm_compute in E. injection E as <-. split; [reflexivity|]. split; [reflexivity|].
  split; [reflexivity|]. vm_compute. reflexivity.
Qed.
Print Assumptions C43_last_line_refuted.
