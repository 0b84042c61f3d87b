(** C101: the package-level functions Line, AddHistory, SetHistoryPath, SetAutoComplete.  C78: a history without a file. *)
From Verif Require Import Base ListAux RunesModel RuneBufModel HistoryModel HistorySpec HistoryProofs HistoryFileProofs RenderModel OpModel OpSpec OpHistFresh
  LifeModel LifeSpec SessionProps LifeProps StdModel StdSpec StdProofs.
Open Scope Z_scope.

(** Without a history file: after any keys but the search keys, the history holds the lines returned, without empty lines and
    immediate repetitions; all of them up to the limit, except that one may be missing of the oldest.  The first line must not
    be empty (C18). *)
Theorem C78_no_file_partial : forall cf rs o a, 1 <= hc_limit (oc_h cf) -> oc_vim cf = false -> oc_filter cf = None -> oc_nosave cf = false -> searchless rs ->
  op_run cf rs (op_new (newOpHistory [])) = Ok (o, a) -> starts_well (map Submit (lines_of a)) ->
  exists n, committed (o_h o) = lastn n (recorded [] (map Submit (lines_of a))) /\ (n <= keep (oc_h cf))%nat /\
    (Nat.min (length (recorded [] (map Submit (lines_of a)))) (keep (oc_h cf) - 1) <= n)%nat.
Proof. intros cf rs o a. exact (fresh_recorded cf rs o a). Qed.
Print Assumptions C78_no_file_partial.

(** "a", Ctrl-C, "b", an empty line, "b" again; then "b" is recalled, changed to "bc" and submitted. *)
Example C78_no_file_ex : let rs := [97; 13; 120; 3; 98; 13; 13; 98; 13; 16; 99; 13] in searchless rs /\ exists o a,
  op_run cf0 rs (op_new (newOpHistory [])) = Ok (o, a) /\ lines_of a = [[97]; [98]; []; [98]; [98; 99]] /\ committed (o_h o) = [[97]; [98]; [98; 99]].
Proof. cbn zeta. split; [split; cbn; intuition discriminate|]. do 2 eexists. split; [vm_compute; reflexivity|]. split; vm_compute; reflexivity. Qed.

(** The options of that instance: lines are echoed, nothing is masked, tab inserts a tabulator, the editor records nothing by itself, up to 500 lines
    are kept, in no file. *)
Theorem C101_options : forall e fs, let l := std_new e fs in let k := l_cfg l (l_cur l) in
  k_enmask k = false /\ k_mask k = 0 /\ k_unique k = false /\ k_nosave k = true /\ k_limit k = 500 /\ k_file k = [] /\
  k_vim k = false /\ k_fold k = false /\ k_force k = false /\ k_auto k = Some tab_completer /\ k_listen k = None /\ k_filter k = None /\ k_prompt k = [].
Proof.
  intros e fs. destruct (start_new e fs std_config eq_refl) as (l0 & Z1 & _ & _ & [_ S2 _ _ _ _ _ S8 _ _ _ _ _ _ _]). cbv zeta. unfold std_new.
  rewrite S8, S2, Z1. repeat split.
Qed.
Print Assumptions C101_options.

(** A program that asks for lines (Line) and adds each line it gets (AddHistory): whatever is typed, except the search keys,
    the history holds the lines returned, without empty lines and immediate repetitions, 500 of them at most; all of them
    up to 499. *)
Theorem C101_recorded_partial : forall e fs es l a, no_searching es -> program e es (std_new e fs) = Ok (l, a) -> starts_well (map Submit (lines_of a)) ->
  exists n, std_history l = lastn n (recorded [] (map Submit (lines_of a))) /\ (n <= 500)%nat /\
    (Nat.min (length (recorded [] (map Submit (lines_of a)))) 499 <= n)%nat.
Proof. exact std_memory. Qed.
Print Assumptions C101_recorded_partial.

(** With SetHistoryPath, at any time: a later program that gives the file to SetHistoryPath finds the lines that were in it
    and the lines added since. *)
Theorem C101_saved_partial : forall e fs p l ls es l' a c', std_reach e fs l -> p <> [] -> l_files l p = flat_map file_line ls -> Forall clean_line ls ->
  no_searching es -> program e es (std_path e p l) = Ok (l', a) -> Forall (fun s => s = [] \/ clean_line s) (lines_of a) ->
  hc_file c' = true -> hc_limit c' <= k_limit (l_cfg l (l_cur l)) ->
  committed (openf c' (l_files l' p)) = lastn (keep c') (recorded (lastn (keep (hcfg_of (l_cfg l (l_cur l)))) ls) (map Submit (lines_of a))).
Proof.
  intros e fs p l ls es l' a c' R Np Fl Cl N E Ca Hf Le. destruct (std_path_saved e fs p l ls es l' a c' R Np Fl Cl N E Ca Hf Le) as (_ & _ & _ & X). exact X.
Qed.
Print Assumptions C101_saved_partial.

(** With a history file, SetAutoComplete keeps the history (it reads the file again). *)
Theorem C101_auto_partial : forall e fs p l ls es l' a f, std_reach e fs l -> p <> [] -> l_files l p = flat_map file_line ls -> Forall clean_line ls ->
  no_searching es -> program e es (std_path e p l) = Ok (l', a) -> Forall (fun s => s = [] \/ clean_line s) (lines_of a) ->
  let n := keep (hcfg_of (l_cfg l (l_cur l))) in
  std_history (std_auto e (Some f) l') = lastn n (recorded (lastn n ls) (map Submit (lines_of a))).
Proof. intros e fs p l ls es l' a f R Np Fl Cl N E Ca. exact (std_auto_file e fs p l ls es l' a f R Np Fl Cl N E Ca). Qed.
Print Assumptions C101_auto_partial.

(** Without one, SetAutoComplete empties the history: Config.Clone forgets it.  "a" is read and added; SetAutoComplete; at
    the next prompt Ctrl-P finds nothing and Enter returns an empty line, where without SetAutoComplete it returns "a". *)
Theorem C101_auto_refuted : exists e fs es l l1 l2 f, program e es (std_new e fs) = Ok (l, [ALine [97]]) /\ std_history l = [[97]] /\
  std_history (std_auto e (Some f) l) = [] /\
  keys_in e [16; 13] (std_auto e (Some f) l) = Ok (l1, [ABell; ALine []]) /\ keys_in e [16; 13] l = Ok (l2, [ALine [97]]).
Proof.
  exists term80, (fun _ => []), [SLine [62]; SKey 97; SKey 13]. do 3 eexists. exists (fun _ _ => ([[122]], 0%nat)).
  split; [vm_compute; reflexivity|]. split; [vm_compute; reflexivity|]. split; [vm_compute; reflexivity|]. split; vm_compute; reflexivity.
Qed.
Print Assumptions C101_auto_refuted.

(** SetHistoryPath forgets the lines added before: they are neither in the history nor in the file. *)
Theorem C101_path_refuted : exists e fs p es l, p <> [] /\ program e es (std_new e fs) = Ok (l, [ALine [97]]) /\ std_history l = [[97]] /\
  std_history (std_path e p l) = [[98]] /\ l_files (std_path e p l) p = [98; 10].
Proof.
  exists term80, (fun _ => [98; 10]), [104], [SLine [62]; SKey 97; SKey 13]. eexists. split; [discriminate|].
  split; [vm_compute; reflexivity|]. split; [vm_compute; reflexivity|]. split; vm_compute; reflexivity.
Qed.
Print Assumptions C101_path_refuted.

(** An empty line added first is recorded. *)
Theorem C101_empty_refuted : exists e fs es l a, no_searching es /\ program e es (std_new e fs) = Ok (l, a) /\ lines_of a = [[]] /\ std_history l = [[]].
Proof.
  exists term80, (fun _ => []), [SLine [62]; SKey 13]. do 2 eexists. split; [split; cbn; intuition discriminate|]. split; [vm_compute; reflexivity|]. split; vm_compute; reflexivity.
Qed.
Print Assumptions C101_empty_refuted.

(** The file has "one"; "a" is read and added with one prompt; with another prompt "one" is recalled, "!" appended, and the line
    read and added. *)
Example C101_ex : let p := [104] in let fs := fun q => if eqbl q p then [111; 110; 101; 10] else [] in
  let es := [SLine [62]; SKey 97; SKey 13; SLine [63]; SKey 16; SKey 16; SKey 33; SKey 13] in
  no_searching es /\ std_reach term80 fs (std_new term80 fs) /\ exists l,
  program term80 es (std_path term80 p (std_new term80 fs)) = Ok (l, [ALine [97]; ALine [111; 110; 101; 33]]) /\
  std_history l = [[111; 110; 101]; [97]; [111; 110; 101; 33]] /\ l_files l p = [111; 110; 101; 10; 97; 10; 111; 110; 101; 33; 10].
Proof.
  cbn zeta. split; [split; cbn; intuition discriminate|]. split; [apply sr_new|]. eexists. split; [vm_compute; reflexivity|]. split; vm_compute; reflexivity.
Qed.
