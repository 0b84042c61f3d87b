(** Properties C61, C74 and C78 of whole sessions, with the memory the line and the history share (operation.go, search.go,
    history.go). *)
From Verif Require Import Base ListAux RunesModel Utf8Model Utf8Spec Utf8Proofs RuneBufModel HistoryModel HistorySpec HistoryProofs HistoryFileProofs
  RenderModel TerminalModel OpModel OpSpec OpProofs OpModes OpHist OpProps SessionProps OpAliasModel OpAliasSpec OpAliasProofs OpAliasHist OpAliasRun OpAliasSafe.
From Coq Require Import ZifyBool.
Open Scope Z_scope.

(** ** C61: the line and the recorded entries *)
(** As long as the editor is not given a search key, sharing memory makes no difference: whatever the allocator
    does, it ends exactly as it would on values that are never shared. *)
Theorem C61_without_search_partial : forall cf rs h, Forall (fun p => not_search cf (fst p)) rs ->
  match op_run cf (map fst rs) (op_new h) with
  | Ok (o, l) => exists a, a_run cf rs (a_new h) = Ok (a, l) /\ a_o a = o
  | Panic => a_run cf rs (a_new h) = Panic
  | Hang => a_run cf rs (a_new h) = Hang
  end.
Proof.
  intros cf rs h F. pose proof (run_same cf rs (a_new h) F eq_refl eq_refl) as S. change (a_o (a_new h)) with (op_new h) in S.
  destruct (op_run cf (map fst rs) (op_new h)) as [[o l]| |]; cbn in S; auto. destruct S as (a & E & A & _). eauto.
Qed.
Print Assumptions C61_without_search_partial.

(** "hello" Enter, then Ctrl-P, Ctrl-A, Ctrl-D: the line is "ello", the entry "hello". *)
Example C61_keys_ex : exists cf rs a l, Forall (fun p => not_search cf (fst p)) rs /\ a_run cf rs (a_new (newOpHistory [])) = Ok (a, l) /\
  rb_buf (o_b (a_o a)) = [101; 108; 108; 111] /\ committed (o_h (a_o a)) = [[104; 101; 108; 108; 111]].
Proof.
  exists cf0, (map (fun k => (k, fun _ => [7; 7])) [104; 101; 108; 108; 111; 13; 16; 1; 4]).
  eexists. eexists. split; [|split; [vm_compute; reflexivity|split; reflexivity]].
  repeat constructor; unfold passed in *; cbn in *; injection H as <-; lia.
Qed.

(** With a search: "hello" Enter, then Ctrl-R, l, Ctrl-A, Ctrl-D.  Nothing was submitted since, but the entry has
    become "elloo". *)
Theorem C61_keys_refuted : exists cf ks, forall rs, map fst rs = ks ->
  exists a l, a_run cf rs (a_new (newOpHistory [])) = Ok (a, l) /\ lines_of l = [[104; 101; 108; 108; 111]] /\
    committed (o_h (a_o a)) = [[101; 108; 108; 111; 111]].
Proof.
  exists cf0, ([104; 101; 108; 108; 111; 13] ++ [18; 108; 1; 4]). intros rs E.
  assert (S : exists r1 r2, rs = r1 ++ r2 /\ map fst r1 = [104; 101; 108; 108; 111; 13] /\ map fst r2 = [18; 108; 1; 4]).
  { exists (firstn 6 rs), (skipn 6 rs). split; [now rewrite firstn_skipn|]. rewrite <- firstn_map, <- skipn_map, E. split; reflexivity. }
  destruct S as (r1 & r2 & -> & E1 & E2). clear E.
  assert (F : Forall (fun p => not_search cf0 (fst p)) r1).
  { apply Forall_forall. intros p I k K. apply (in_map fst) in I. rewrite E1 in I. injection K as <-. cbn in I. lia. }
  pose proof (run_same cf0 r1 (a_new (newOpHistory [])) F eq_refl eq_refl) as S. rewrite E1 in S.
  destruct (op_run cf0 [104; 101; 108; 108; 111; 13] (a_o (a_new (newOpHistory [])))) as [[o l]| |] eqn:Eo; [|vm_compute in Eo; discriminate..].
  destruct S as (a & Ea & Ao & An). cbn [fst snd] in *.
  assert (App : forall r1 r2 a, a_run cf0 (r1 ++ r2) a = (x <- a_run cf0 r1 a ;; y <- a_run cf0 r2 (fst x) ;; Ok (fst y, snd x ++ snd y))).
  { clear. induction r1 as [|[r sp] r1 IH]; intros r2 a; cbn [a_run app].
    - cbn [obind fst snd app]. now destruct (a_run cf0 r2 a) as [[? ?]| |].
    - destruct (a_step sp cf0 r a) as [x| |]; cbn [obind]; try reflexivity. rewrite IH. destruct (a_run cf0 r1 (fst x)) as [y| |]; cbn [obind fst snd]; try reflexivity.
      destruct (a_run cf0 r2 (fst y)) as [z| |]; cbn [obind fst snd]; try reflexivity. now rewrite app_assoc. }
  rewrite App, Ea. cbn [obind fst snd]. clear Ea App F E1.
  destruct a as [o' arr al]. cbn [a_o a_al] in *. subst o' al. vm_compute in Eo. injection Eo as <- <-.
  destruct r2 as [|[k1 s1] [|[k2 s2] [|[k3 s3] [|[k4 s4] [|]]]]]; try discriminate. injection E2 as -> -> -> ->.
  do 2 eexists. split; [vm_compute; reflexivity|]. split; reflexivity.
Qed.
Print Assumptions C61_keys_refuted.

(** ** C78: what a session leaves in the history *)
(** After any keys, with searches given up (not in vim mode), the history holds the newest of the lines it began with
    and of the lines returned, without empty lines and immediate repetitions; all of them up to the limit, except
    that one may be missing of the oldest. *)
Theorem C78_recorded_partial : forall cf h R rs a l, 1 <= hc_limit (oc_h cf) -> oc_vim cf = false -> oc_nosave cf = false -> oc_filter cf = None ->
  HistoryProofs.rests (oc_h cf) h R -> blank h -> given_up cf rs (a_new h) -> a_run cf rs (a_new h) = Ok (a, l) ->
  exists n, committed (o_h (a_o a)) = lastn n (recorded R (map Submit (lines_of l))) /\ (n <= keep (oc_h cf))%nat /\
    (Nat.min (length (recorded R (map Submit (lines_of l)))) (keep (oc_h cf) - 1) <= n)%nat.
Proof. exact akeys_recorded. Qed.
Print Assumptions C78_recorded_partial.

(** With a history file: what the next session finds in it. *)
Theorem C78_saved_partial : forall cf c' ls rs a l, 1 <= hc_limit (oc_h cf) -> oc_vim cf = false -> oc_nosave cf = false -> oc_filter cf = None ->
  hc_file (oc_h cf) = true -> hc_file c' = true -> hc_limit c' <= hc_limit (oc_h cf) -> Forall clean_line ls ->
  let h := openf (oc_h cf) (flat_map file_line ls) in
  given_up cf rs (a_new h) -> a_run cf rs (a_new h) = Ok (a, l) -> Forall (fun l => l = [] \/ clean_line l) (lines_of l) ->
  committed (openf c' (h_disk (HClose (o_h (a_o a))))) = lastn (keep c') (recorded (lastn (keep (oc_h cf)) ls) (map Submit (lines_of l))).
Proof. exact akeys_saved. Qed.
Print Assumptions C78_saved_partial.

(** A cancelled search; "two" is recalled, changed and submitted; then an empty line, "x", and "x" again. *)
Example C78_ex : let cf := filed cf0 in let ls := [[111; 110; 101]; [116; 119; 111]] in
  let h := openf (oc_h cf) (flat_map file_line ls) in
  let rs := map (fun k => (k, fun _ => [5; 6; 7])) [18; 111; 7; 16; 49; 13; 13; 120; 13; 120; 13] in
  Forall clean_line ls /\ given_up cf rs (a_new h) /\
  exists a, a_run cf rs (a_new h) = Ok (a, [ALine [116; 119; 111; 49]; ALine []; ALine [120]; ALine [120]]) /\
    committed (openf (oc_h cf) (h_disk (HClose (o_h (a_o a))))) = [[111; 110; 101]; [116; 119; 111]; [116; 119; 111; 49]; [120]].
Proof.
  split.
  - repeat constructor; try discriminate; try (unfold scalar; lia); try (cbn; intuition discriminate);
      intros x t E; try (injection E as <- _; reflexivity); destruct t as [|? [|? [|? t]]]; try discriminate; injection E as; subst; try reflexivity; destruct t; discriminate.
  - split; [|eexists; split; [vm_compute; reflexivity|vm_compute; reflexivity]].
    assert (X : forall cf rs a, (fix chk rs a := match rs with [] => true | (r, sp) :: rs' => 
        (negb (s_in (o_s (a_o a))) || (32 <=? r) || (r =? 8) || (r =? 7) || (r =? 3)) &&
        match a_step sp cf r a with Ok (a', _) => chk rs' a' | _ => true end end) rs a = true -> given_up cf rs a).
    { clear. intros cf. induction rs as [|[r sp] rs IH]; intros a E; cbn [given_up]; [exact I|]. apply andb_true_iff in E. destruct E as (E1 & E2). split.
      - intros S. rewrite S in E1. unfold search_key, ordinary. lia.
      - intros a' l E. rewrite E in E2. now apply IH. }
    apply X. vm_compute. reflexivity.
Qed.

(** Enter pressed while searching: the line found is returned, but it is not the line the history takes: it records
    (and writes to the file) what was last typed on that entry, here nothing. *)
Theorem C78_search_refuted : let cf := filed cf0 in let h := openf (oc_h cf) (flat_map file_line [[111; 110; 101]; [116; 119; 111]]) in
  forall s1 s2 s3, exists a, a_run cf [(18, s1); (110, s2); (13, s3)] (a_new h) = Ok (a, [ALine [111; 110; 101]]) /\
    committed (o_h (a_o a)) = [[111; 110; 101]; [116; 119; 111]; []] /\
    h_disk (o_h (a_o a)) = flat_map file_line [[111; 110; 101]; [116; 119; 111]; []].
Proof. intros cf h s1 s2 s3. eexists. split; [vm_compute; reflexivity|]. split; vm_compute; reflexivity. Qed.
Print Assumptions C78_search_refuted.
(** vim mode: "one" recalled with k and changed with x: "ne" is returned, "one" recorded. *)
Theorem C78_vim_refuted : exists cf rs a, oc_vim cf = true /\
  a_run cf rs (a_new (newOpHistory [])) = Ok (a, [ALine [111; 110; 101]; ALine [116]; ALine [110; 101]]) /\
  committed (o_h (a_o a)) = [[111; 110; 101]; [116]; [111; 110; 101]].
Proof.
  exists (excf ascii 80 None true), (map (fun k => (k, fun _ => [])) [111; 110; 101; 13; 116; 13; 27; 107; 107; 94; 120; 13]).
  eexists. split; [reflexivity|]. split; vm_compute; reflexivity.
Qed.
Print Assumptions C78_vim_refuted.

(** ** C74: no key sequence crashes the editor *)
(** Nor does it when the line shares its memory with an entry of the history, whichever entry this is, whatever
    the array holds beyond the line and whatever the allocator does. *)
Theorem C74_shared_partial : forall cf rs a, good_config cf -> started (a_o a) -> asafe cf rs a ->
  exists a' l, a_run cf rs a = Ok (a', l).
Proof.
  intros cf rs a G S Sf. destruct (a_run_ok cf G rs a (started_owf cf _ S) Sf) as (a' & l & E & _). eauto.
Qed.
Print Assumptions C74_shared_partial.

(** In particular: outside vim mode, any sequence of runes without Ctrl-T and Ctrl-K. *)
Theorem C74_shared_keys_partial : forall cf rs a, good_config cf -> started (a_o a) -> oc_vim cf = false ->
  Forall (fun p => fst p <> 20 /\ fst p <> 11) rs -> exists a' l, a_run cf rs a = Ok (a', l).
Proof.
  intros cf rs a G S V F. apply C74_shared_partial; auto.
  assert (P : o_vp (a_o a) = None) by apply S. clear S. revert a P.
  induction F as [|[r sp] rs (R1 & R2) F IH]; intros a P; cbn [asafe]; [exact I|]. cbn [fst] in *. split.
  - unfold trips. rewrite P, V. cbn [andb]. intros [(X & _)|[(X & _)|(_ & X & _)]]; [lia|lia|discriminate].
  - intros a' l E. apply IH. exact (sv_step sp cf r a V P a' l E).
Qed.
Print Assumptions C74_shared_keys_partial.

(** A search leaves the line in the memory of an entry; the keys after it write into this entry. *)
Example C74_shared_ex : let sp := fun _ : list Z => [9; 9] in
  exists a l, a_run cf0 (map (fun k => (k, sp)) [104; 101; 108; 13]) (a_new (newOpHistory [])) = Ok (a, l) /\ started (a_o a) /\
  exists a' l', a_run cf0 (map (fun k => (k, sp)) [18; 101; 1; 4; 120; 16; 14; 23; 25; 18; 7; 13]) a = Ok (a', l') /\ l' <> [].
Proof.
  do 2 eexists. split; [vm_compute; reflexivity|]. split.
  - constructor; try reflexivity; try discriminate. constructor; try reflexivity.
    constructor; cbn; [repeat constructor; cbn; intuition discriminate| | |tauto]; repeat constructor; cbn; lia.
  - do 2 eexists. split; [vm_compute; reflexivity|discriminate].
Qed.
