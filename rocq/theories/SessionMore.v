(** Results in every schedule: consequences of the invariant. *)
From Verif Require Import Base FilterSpec ListAux RunesModel Utf8Model Utf8Spec Utf8Proofs RuneBufModel HistoryModel HistorySpec HistoryProofs HistoryFileProofs RenderModel TerminalModel TerminalSpec
  TerminalProofs OpModel OpSpec OpProofs OpStep OpKeys OpModes OpHist SessionModel SessionProofs SessionClose.
From Coq Require Import ZifyBool.
Open Scope Z_scope.

Lemma run_prefix cf ks ks' o o1 a : op_run cf (ks ++ ks') o = Ok (o1, a) -> exists o2 b c, op_run cf ks o = Ok (o2, b) /\ a = b ++ c.
Proof.
  rewrite op_run_app. destruct (op_run cf ks o) as [[o2 b]| |]; cbn [obind fst snd]; try discriminate.
  destruct (op_run cf ks' o2) as [[o3 c]| |]; cbn [obind fst snd]; try discriminate. intros E. injection E as <- <-. eauto.
Qed.

Lemma firstn_zeros j k : (j <= k)%nat -> firstn j (repeat 0 k) = repeat 0 j.
Proof. revert k. induction j; intros k L; [reflexivity|]. destruct k; [lia|]. cbn. f_equal. apply IHj. lia. Qed.

Lemma prefix_le (keys : list Z) n m : (n <= m)%nat -> exists l, firstn m (keys ++ repeat 0 m) = firstn n (keys ++ repeat 0 n) ++ l.
Proof.
  intros L. exists (skipn n (firstn m (keys ++ repeat 0 m))). rewrite <- (firstn_skipn n (firstn m (keys ++ repeat 0 m))) at 1. f_equal.
  rewrite firstn_firstn, Nat.min_l by exact L. rewrite !firstn_app, !firstn_zeros by lia. reflexivity.
Qed.

Lemma prefix_full (keys : list Z) n N : (n <= N)%nat -> exists l, keys ++ repeat 0 N = firstn n (keys ++ repeat 0 n) ++ l.
Proof.
  intros L. exists (skipn n (keys ++ repeat 0 N)). rewrite <- (firstn_skipn n (keys ++ repeat 0 N)) at 1. f_equal.
  rewrite !firstn_app, !firstn_zeros by lia. reflexivity.
Qed.

Lemma results_run cf ks ks' o o1 a o2 b : op_run cf ks o = Ok (o2, b) -> op_run cf (ks ++ ks') o = Ok (o1, a) -> exists c, results a = results b ++ c.
Proof.
  intros E1 E2. destruct (run_prefix _ _ _ _ _ _ E2) as (o3 & b' & c & E3 & ->). rewrite E1 in E3. injection E3 as <- <-.
  exists (results c). apply results_app.
Qed.

Lemma two_prefixes cf keys o0 n1 o1 a1 n2 o2 a2 : op_run cf (firstn n1 (keys ++ repeat 0 n1)) o0 = Ok (o1, a1) ->
  op_run cf (firstn n2 (keys ++ repeat 0 n2)) o0 = Ok (o2, a2) ->
  (exists l, results a1 = results a2 ++ l) \/ (exists l, results a2 = results a1 ++ l).
Proof.
  intros E1 E2. destruct (Nat.le_ge_cases n1 n2) as [L|L].
  - destruct (prefix_le keys n1 n2 L) as (l & E). rewrite E in E2. right. eapply results_run; eauto.
  - destruct (prefix_le keys n2 n1 L) as (l & E). rewrite E in E1. left. eapply results_run; eauto.
Qed.

Lemma prefixes_compare {A} (p q r s : list A) : p ++ q = r ++ s -> (exists l, p = r ++ l) \/ (exists l, r = p ++ l).
Proof.
  revert r. induction p as [|x p IH]; intros r E; [right; exists r; reflexivity|].
  destruct r as [|y r]; [left; exists (x :: p); reflexivity|]. injection E as -> E. destruct (IH r E) as [(l & ->)|(l & ->)]; [left|right]; now exists l.
Qed.

Section typed.
Variables (u : uenv) (cf : ocfg) (keys : list Z) (o0 : op) (R : list act).
Hypothesis Fi : gentle cf.
Hypothesis Nz : Forall (fun k => k <> 0) keys.
Hypothesis All : forall n, (2 <= n)%nat -> exists o, op_run cf (keys ++ repeat 0 n) o0 = Ok (o, R ++ [AEof]).
Hypothesis Re : results R = R.
Hypothesis Ne : ~ In AEof R.

Lemma typed_prefix s : good u cf keys o0 s -> exists l, R ++ [AEof] = ss_res s ++ l.
Proof.
  intros G. destruct (prefix_of u cf keys o0 s G) as (n & o & a & l & E & Q).
  destruct (prefix_full keys n (Nat.max 2 n) ltac:(lia)) as (l' & El). destruct (All (Nat.max 2 n) ltac:(lia)) as (o1 & E1). rewrite El in E1.
  destruct (results_run cf _ _ _ _ _ _ _ E E1) as (c & Ec). rewrite results_app, Re in Ec. cbn in Ec. rewrite Ec, Q. exists (l ++ c). now rewrite app_assoc.
Qed.

Lemma typed_alive s : good u cf keys o0 s -> ss_e s <> ECrash.
Proof.
  intros [(ks & a & o & [])|(_ & ks & m & a & o & l & E & (ks' & Ek & r & ks1 & -> & Bad) & _)] C; [rewrite C in *; discriminate|].
  destruct (All (Nat.max 2 m) ltac:(lia)) as (o1 & E1).
  assert (X : keys ++ repeat 0 (Nat.max 2 m) = (ks ++ [r]) ++ (ks1 ++ repeat 0 (Nat.max 2 m - m))).
  { replace (repeat 0 (Nat.max 2 m)) with (repeat 0 m ++ repeat 0 (Nat.max 2 m - m)) by (rewrite <- repeat_app; f_equal; lia).
    rewrite app_assoc, <- Ek, <- !app_assoc. reflexivity. }
  rewrite X in E1. destruct (run_prefix _ _ _ _ _ _ E1) as (o2 & b & c & E2 & _). rewrite op_run_app, E in E2. cbn [obind fst snd op_run] in E2.
  destruct Bad as [B|B]; rewrite B in E2; discriminate.
Qed.
End typed.

(** ** Executing a chosen schedule *)
(** One label per transition; [LOpc late]: history.Close takes place before or after the pending history.New. *)
Inductive lab := LKick | LStop | LRead | LRecv | LEdit | LNext | LCkick | LCerr | LOpc (late : bool) | LTclose | LClosed.
Definition labs : list lab := [LKick; LStop; LRead; LRecv; LEdit; LNext; LCkick; LCerr; LOpc false; LOpc true; LTclose; LClosed].

Definition do1 (u : uenv) (cf : ocfg) (eof : bool) (l : lab) (s : sess) : option sess :=
  let '(mkS i d t q e er c rs k f) := s in
  match l with
  | LKick => match t, q with TWait, true => Some (mkS i d TRead false e er c rs k f) | _, _ => None end
  | LStop => match t, k with TWait, (K3 | K4) => Some (mkS i d TDone q e er c rs k f) | _, _ => None end
  | LRead =>
      match t, i with
      | TRead, r :: i' =>
          let x := tstep u (oc_vim cf) d r in
          Some (mkS i' (fst x) (match snd x with TKey y => TSend y | _ => TRead end) q e er c rs k f)
      | TRead, [] => if eof then Some (mkS [] d TDone q e er c rs k f) else None
      | _, _ => None
      end
  | LRecv =>
      match t, e with
      | TSend y, ERecv o =>
          Some (mkS i d (if pauses y then TWait else TRead) q (match op_step cf y o with Ok (o', a) => EDo o o' a | _ => ECrash end) er c rs k f)
      | TDone, ERecv o => Some (mkS i d TDone q (match op_step cf 0 o with Ok (o', a) => EDo o o' a | _ => ECrash end) er c rs k f)
      | _, _ => None
      end
  | LEdit =>
      match e with
      | EDo o o' (x :: a) =>
          match x with
          | AKick => Some (mkS i d t true (EDo o o' a) er c rs k f)
          | ALine l => match c with CWait => Some (mkS i d t q (EDo o o' a) er CIdle (rs ++ [x]) k f) | _ => None end
          | AIntr _ | AEof => match er with None => Some (mkS i d t q (EDo o o' a) (Some x) c rs k f) | Some _ => None end
          | _ => Some (mkS i d t q (EDo o o' a) er c rs k f)
          end
      | _ => None
      end
  | LNext => match e with EDo o o' [] => Some (mkS i d t q (if o_end o' then EDone o' else ERecv o') er c rs k f) | _ => None end
  | LCkick => match c with CCalled => Some (mkS i d t true e er CWait rs k f) | _ => None end
  | LCerr => match c, er with CWait, Some x => Some (mkS i d t q e None CIdle (rs ++ [x]) k f) | _, _ => None end
  | LOpc late =>
      match k, e with
      | K1, ECrash => None
      | K1, _ => let h := match e with EDo o o' _ => o_h (if late then o' else o) | ERecv o | EDone o => o_h o | ECrash => newOpHistory [] end in
                 Some (mkS i d t q e (match er with None => Some AEof | _ => er end) c rs K2 (Some (h_disk h)))
      | _, _ => None
      end
  | LTclose => match k with K2 => Some (mkS i d t q e er c rs K3 f) | _ => None end
  | LClosed => match k, t with K3, TDone => Some (mkS i d t q e er c rs K4 f) | _, _ => None end
  end.

Lemma do1_work u cf eof l s s' : do1 u cf eof l s = Some s' -> work u cf eof s s'.
Proof.
  destruct s as [i d t q e er c rs k f]. destruct l; cbn [do1].
  - destruct t; try discriminate. destruct q; try discriminate. intros E. injection E as <-. apply w_kick.
  - destruct t; try discriminate. destruct k; try discriminate; intros E; injection E as <-; apply w_stop; auto.
  - destruct t; try discriminate. destruct i as [|r i].
    + destruct eof; try discriminate. intros E. injection E as <-. now apply w_eof.
    + destruct (tstep u (oc_vim cf) d r) as [d' x] eqn:T. cbn [fst snd]. intros E. injection E as <-.
      destruct x; [now apply w_key|now apply (w_skip u cf eof r i d d' _ q e er c rs k f T)..].
  - destruct t; try discriminate; destruct e; try discriminate; intros E; injection E as <-; destruct (op_step cf _ o) as [[o' a]| |] eqn:S.
    all: try (apply w_recv; exact S). all: try (apply w_recv0; exact S). all: try (apply w_crash; auto). all: apply w_crash0; auto.
  - destruct e as [|o o' [|x a]| |]; try discriminate. destruct x; try (intros E; injection E as <-; apply w_quiet; reflexivity).
    + intros E. injection E as <-. apply w_ekick.
    + destruct c; try discriminate. intros E. injection E as <-. apply w_line.
    + destruct er; try discriminate. intros E. injection E as <-. now apply w_err.
    + destruct er; try discriminate. intros E. injection E as <-. now apply w_err.
  - destruct e as [|o o' [|x a]| |]; try discriminate. intros E. injection E as <-. apply w_next.
  - destruct c; try discriminate. intros E. injection E as <-. apply w_ckick.
  - destruct c; try discriminate. destruct er; try discriminate. intros E. injection E as <-. apply w_cerr.
  - destruct k; try discriminate. destruct e; try discriminate; intros E; injection E as <-; apply w_opclose; cbn; destruct late; auto.
  - destruct k; try discriminate. intros E. injection E as <-. apply w_tclose.
  - destruct k; try discriminate. destruct t; try discriminate. intros E. injection E as <-. apply w_closed.
Qed.

Lemma work_do1 u cf eof s s' : work u cf eof s s' -> exists l s1, In l labs /\ do1 u cf eof l s = Some s1.
Proof.
  assert (X : forall l s s', do1 u cf eof l s = Some s' -> In l labs -> exists l s1, In l labs /\ do1 u cf eof l s = Some s1) by eauto.
  intros W. destruct W.
  - eapply (X LKick); [reflexivity|cbn; tauto].
  - destruct H as [-> | ->]; (eapply (X LStop); [reflexivity|cbn; tauto]).
  - eapply (X LRead); [reflexivity|cbn; tauto].
  - eapply (X LRead); [reflexivity|cbn; tauto].
  - subst eof. eapply (X LRead); [reflexivity|cbn; tauto].
  - eapply (X LRecv); [reflexivity|cbn; tauto].
  - eapply (X LRecv); [reflexivity|cbn; tauto].
  - eapply (X LRecv); [reflexivity|cbn; tauto].
  - eapply (X LRecv); [reflexivity|cbn; tauto].
  - destruct x; try discriminate; (eapply (X LEdit); [reflexivity|cbn; tauto]).
  - eapply (X LEdit); [reflexivity|cbn; tauto].
  - eapply (X LEdit); [reflexivity|cbn; tauto].
  - destruct x; try discriminate; (eapply (X LEdit); [reflexivity|cbn; tauto]).
  - eapply (X LNext); [reflexivity|cbn; tauto].
  - eapply (X LCkick); [reflexivity|cbn; tauto].
  - eapply (X LCerr); [reflexivity|cbn; tauto].
  - destruct e as [o|o o' p|o|]; [| | |destruct H]; (eapply (X (LOpc false)); [reflexivity|cbn; tauto]).
  - eapply (X LTclose); [reflexivity|cbn; tauto].
  - eapply (X LClosed); [reflexivity|cbn; tauto].
Qed.

Definition stopped (u : uenv) (cf : ocfg) (eof : bool) (s : sess) : bool :=
  forallb (fun l => match do1 u cf eof l s with Some _ => false | None => true end) labs.

Lemma stopped_ok u cf eof s : stopped u cf eof s = true -> at_a_stop u cf eof s.
Proof.
  unfold stopped. rewrite forallb_forall. intros H s' W. destruct (work_do1 _ _ _ _ _ W) as (l & s1 & I & E). specialize (H l I). rewrite E in H. discriminate.
Qed.

(** A schedule: transitions, calls of Readline and Close. *)
Inductive move := Go (l : lab) | Call | Stop.
Definition do_move (u : uenv) (cf : ocfg) (eof : bool) (m : move) (s : sess) : option sess :=
  match m with
  | Go l => do1 u cf eof l s
  | Call => match ss_c s with CIdle => Some (mkS (ss_in s) (ss_ts s) (ss_t s) (ss_kick s) (ss_e s) (ss_err s) CCalled (ss_res s) (ss_k s) (ss_file s)) | _ => None end
  | Stop => match ss_k s with K0 => Some (mkS (ss_in s) (ss_ts s) (ss_t s) (ss_kick s) (ss_e s) (ss_err s) (ss_c s) (ss_res s) K1 (ss_file s)) | _ => None end
  end.
Fixpoint moves_from (u : uenv) (cf : ocfg) (eof : bool) (ms : list move) (s : sess) : option sess :=
  match ms with
  | [] => Some s
  | m :: ms' => match do_move u cf eof m s with Some s' => moves_from u cf eof ms' s' | None => None end
  end.

Lemma reach_first u cf eof s0 s1 s : step u cf eof s0 s1 -> reach u cf eof s1 s -> reach u cf eof s0 s.
Proof. intros S R. induction R as [|x y R IH T]; [eapply reach_1; [apply reach_0|exact S]|]. now apply (reach_1 u cf eof s0 x y). Qed.

Lemma move_step u cf eof m s s' : do_move u cf eof m s = Some s' -> step u cf eof s s'.
Proof.
  destruct m; cbn [do_move].
  - intros E. left. now apply do1_work in E.
  - destruct (ss_c s) eqn:C; try discriminate. intros E. injection E as <-. right. left. now split.
  - destruct (ss_k s) eqn:C; try discriminate. intros E. injection E as <-. right. right. now split.
Qed.

Lemma moves_reach u cf eof ms s s' : moves_from u cf eof ms s = Some s' -> reach u cf eof s s'.
Proof.
  revert s. induction ms as [|m ms IH]; intros s; cbn [moves_from]; [intros E; injection E as <-; apply reach_0|].
  destruct (do_move u cf eof m s) as [s1|] eqn:M; [|discriminate]. intros E. apply (reach_first _ _ _ _ s1); [now apply move_step in M|now apply IH].
Qed.

(** Let the goroutines run, taking the first possible transition in the order of [pr], for at most [n] steps. *)
Fixpoint first_of (u : uenv) (cf : ocfg) (eof : bool) (pr : list lab) (s : sess) : option sess :=
  match pr with
  | [] => None
  | l :: pr' => match do1 u cf eof l s with Some s' => Some s' | None => first_of u cf eof pr' s end
  end.
Fixpoint drain (u : uenv) (cf : ocfg) (eof : bool) (pr : list lab) (n : nat) (s : sess) : sess :=
  match n with
  | O => s
  | S n' => match first_of u cf eof pr s with Some s' => drain u cf eof pr n' s' | None => s end
  end.
Lemma first_work u cf eof pr s s' : first_of u cf eof pr s = Some s' -> work u cf eof s s'.
Proof.
  induction pr as [|l pr IH]; cbn [first_of]; [discriminate|]. destruct (do1 u cf eof l s) eqn:D; [|exact IH].
  intros E. injection E as <-. now apply do1_work in D.
Qed.
Lemma works_first u cf eof s0 s1 s : work u cf eof s0 s1 -> works u cf eof s1 s -> works u cf eof s0 s.
Proof. intros S R. induction R as [|x y R IH T]; [eapply works_1; [apply works_0|exact S]|]. now apply (works_1 u cf eof s0 x y). Qed.
Lemma drain_works u cf eof pr n s : works u cf eof s (drain u cf eof pr n s).
Proof.
  revert s. induction n as [|n IH]; intros s; cbn [drain]; [apply works_0|]. destruct (first_of u cf eof pr s) as [s1|] eqn:F; [|apply works_0].
  apply (works_first _ _ _ _ s1); [now apply first_work in F|apply IH].
Qed.
Lemma works_reach u cf eof s0 s1 s : reach u cf eof s0 s1 -> works u cf eof s1 s -> reach u cf eof s0 s.
Proof. intros R. induction 1 as [|x y W IH T]; [exact R|]. apply (reach_1 u cf eof s0 x y); [exact IH|now left]. Qed.

Lemma typed_keys cf u ls tail :
  Forall (fun le => Forall ordinary (fst le) /\ Forall scalar (fst le) /\ (snd le = 13 \/ snd le = 10)) ls ->
  Forall ordinary tail -> Forall scalar tail ->
  keys_of u (oc_vim cf) (decode (encode (typed ls ++ tail))) = typed ls ++ tail /\ Forall (fun k => k <> 0 /\ k <> 18 /\ k <> 19) (typed ls ++ tail).
Proof.
  intros F Ft St.
  assert (Q : forall n, 0 <= n < 32 -> n <> 13 -> n <> 10 -> Forall (fun r => r <> n) (typed ls ++ tail)).
  { intros n Ln N1 N2. apply Forall_app. split.
    - apply typed_forall; try lia. eapply Forall_impl; [|exact F]. cbn. intros [l e] (H1 & _ & H2). split; [|exact H2].
      eapply Forall_impl; [|exact H1]. intros r (R & _). lia.
    - eapply Forall_impl; [|exact Ft]. intros r (R & _). lia. }
  split.
  - assert (S : Forall scalar (typed ls ++ tail)).
    { apply Forall_app. split; [|exact St]. apply typed_forall; try (unfold scalar; lia). eapply Forall_impl; [|exact F]. cbn. tauto. }
    rewrite decode_encode, map_sanitize_id by exact S. apply plain_seg. left. intros X.
    pose proof (Q 27 ltac:(lia) ltac:(lia) ltac:(lia)) as Q'. rewrite Forall_forall in Q'. now apply (Q' 27).
  - rewrite Forall_forall. intros x I. pose proof (Q 0 ltac:(lia) ltac:(lia) ltac:(lia)) as Q0. pose proof (Q 18 ltac:(lia) ltac:(lia) ltac:(lia)) as Q1.
    pose proof (Q 19 ltac:(lia) ltac:(lia) ltac:(lia)) as Q2. rewrite Forall_forall in Q0, Q1, Q2. auto.
Qed.

Lemma lines_of_results a : lines_of (results a) = lines_of a.
Proof. induction a as [|x a IH]; [reflexivity|]. destruct x; try exact IH. cbn. f_equal. exact IH. Qed.

Lemma ks_firstn (keys ks ks' : list Z) m : ks ++ ks' = keys ++ repeat 0 m -> exists n, ks = firstn n (keys ++ repeat 0 n).
Proof.
  intros E. exists (length ks).
  transitivity (firstn (length ks) (keys ++ repeat 0 m)); [rewrite <- E, firstn_app, Nat.sub_diag, firstn_all; cbn; now rewrite app_nil_r|].
  rewrite !firstn_app. f_equal. assert (M : (length ks - length keys <= m)%nat).
  { apply (f_equal (@length Z)) in E. rewrite !app_length, repeat_length in E. lia. }
  rewrite !firstn_zeros by lia. reflexivity.
Qed.

Lemma disk_close h : h_disk (HClose h) = h_disk h.
Proof. unfold HClose. now destruct (h_fd h). Qed.
