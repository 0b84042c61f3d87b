(** Several configurations: lemmas. *)
From Verif Require Import Base TtyModel CfgModel CfgSpec.
From Coq Require Import Lia Bool.
Open Scope nat_scope.

Section proofs.
Variables (rm rt : nat -> nat) (own : nat -> bool).
Notation step := (cfg_step rm rt own).
Notation run := (cfg_run rm rt own).
Notation init := (cfg_init rt own).

Lemma run_app a b s : run (a ++ b) s = run b (run a s).
Proof. unfold cfg_run. apply fold_left_app. Qed.
Lemma run_cons e es s : run (e :: es) s = run es (step e s).
Proof. reflexivity. Qed.

(** Fields a call leaves alone *)
Lemma init_keeps c s : let s' := init c s in
  c_tty s' = c_tty s /\ c_saved s' = c_saved s /\ c_inst s' = c_inst s /\ c_term s' = c_term s /\ c_op s' = c_op s /\
  c_rdr s' = c_rdr s /\ c_buf s' = c_buf s /\ c_read s' = c_read s /\ c_closed s' = c_closed s.
Proof. unfold cfg_init. destruct (existsb _ _); cbn; repeat split. Qed.
Lemma op_keeps c s : let s' := op_set rt own c s in
  c_tty s' = c_tty s /\ c_saved s' = c_saved s /\ c_inst s' = c_inst s /\ c_term s' = c_term s /\
  c_rdr s' = c_rdr s /\ c_buf s' = c_buf s /\ c_read s' = c_read s /\ c_closed s' = c_closed s.
Proof. unfold op_set. destruct (_ =? _); [repeat split|]. cbn. pose proof (init_keeps c s) as H. cbn in H. tauto. Qed.
Lemma term_keeps c s : let s' := term_set rt own c s in
  c_tty s' = c_tty s /\ c_saved s' = c_saved s /\ c_inst s' = c_inst s /\ c_term s' = c /\
  c_rdr s' = c_rdr s /\ c_buf s' = c_buf s /\ c_read s' = c_read s /\ c_closed s' = c_closed s.
Proof. unfold term_set. cbn. pose proof (init_keeps c s) as H. cbn in H. tauto. Qed.
Lemma inst_keeps c s : c_inst s = c_term s -> let s' := inst_set rt own c s in
  c_tty s' = c_tty s /\ c_saved s' = c_saved s /\ c_inst s' = c /\ c_term s' = c /\
  c_rdr s' = c_rdr s /\ c_buf s' = c_buf s /\ c_read s' = c_read s /\ c_closed s' = c_closed s.
Proof.
  intros E. unfold inst_set. destruct (c_inst s =? c) eqn:Q.
  - apply Nat.eqb_eq in Q. cbn. repeat split; congruence.
  - cbn zeta.
    set (s1 := mkCfgs _ _ c _ _ _ _ _ _ _ _ _).
    pose proof (op_keeps c s1) as A. pose proof (term_keeps c (op_set rt own c s1)) as B. cbn zeta in A, B.
    destruct A as (A1 & A2 & A3 & A4 & A5 & A6 & A7 & A8), B as (B1 & B2 & B3 & B4 & B5 & B6 & B7 & B8).
    rewrite B1, B2, B3, B4, B5, B6, B7, B8, A1, A2, A3, A5, A6, A7, A8. subst s1. cbn. repeat split.
Qed.
Lemma exit_keeps s : let s' := exit_raw rm s in
  c_inst s' = c_inst s /\ c_term s' = c_term s /\ c_op s' = c_op s /\ c_rdr s' = c_rdr s /\ c_buf s' = c_buf s /\ c_read s' = c_read s /\
  c_init s' = c_init s /\ c_fill s' = c_fill s /\ c_canc s' = c_canc s /\ c_saved s' = c_saved s /\ c_closed s' = c_closed s.
Proof. unfold exit_raw. destruct (c_saved s _); cbn; repeat split. Qed.
Lemma close_keeps s : let s' := cfg_close rm rt s in
  c_inst s' = c_inst s /\ c_term s' = c_term s /\ c_rdr s' = c_rdr s /\ c_buf s' = c_buf s /\ c_read s' = c_read s /\
  c_init s' = c_init s /\ c_canc s' = c_canc s /\ c_saved s' = c_saved s.
Proof.
  unfold cfg_close. cbn zeta. destruct (c_closed _); [cbn; repeat split|].
  set (s1 := mkCfgs _ _ _ _ _ _ _ _ _ _ _ _). pose proof (exit_keeps s1) as H. cbn zeta in H. 
  destruct H as (-> & -> & _ & -> & -> & -> & -> & _ & -> & -> & _). subst s1. cbn. repeat split.
Qed.

(** Instance and terminal have the same configuration, the one last given. *)
Definition now (cur : nat) (e : cev) : nat := match e with VSet c => c | _ => cur end.
Lemma step_cur e s cur : c_inst s = cur -> c_term s = cur -> c_inst (step e s) = now cur e /\ c_term (step e s) = now cur e.
Proof.
  intros A B. destruct e; cbn [cfg_step now].
  - destruct (c_rdr s); cbn; auto.
  - destruct (inst_keeps c s) as (_ & _ & -> & -> & _); [congruence|auto].
  - destruct (op_keeps c s) as (_ & _ & -> & -> & _). auto.
  - cbn. auto.
  - destruct (exit_keeps s) as (-> & -> & _). auto.
  - cbn. destruct (exit_keeps s) as (-> & -> & _). auto.
  - cbn. auto.
  - destruct (c_rdr s) as [r|]; [destruct (c_buf s r); cbn|]; auto.
  - destruct (close_keeps s) as (-> & -> & _). auto.
Qed.

Lemma run_same es : forall s, c_inst s = c_term s -> c_inst (run es s) = c_term (run es s).
Proof.
  induction es as [|e es IH]; intros s E; [exact E|]. rewrite run_cons. apply IH.
  destruct (step_cur e s (c_term s) E eq_refl) as [-> ->]. reflexivity.
Qed.

(** *** Input *)
Definition reading (r : nat) (s : cfgs) : Prop := c_rdr s = Some r /\ (forall x, In x (c_read s) -> fst (fst x) = r).

Lemma fills_app a b : fills (a ++ b) = fills a ++ fills b.
Proof. unfold fills. apply flat_map_app. Qed.

Lemma step_io r s e cur : c_inst s = cur -> c_term s = cur -> (c_rdr s = None -> c_read s = []) ->
  (forall q, c_rdr s = Some q -> q = r) ->
  (forall q, c_rdr (step e s) = Some q -> q = r) ->
  fills (c_read (step e s)) ++ c_buf (step e s) r = (fills (c_read s) ++ c_buf s r) ++ (if rt cur =? r then text_of e else []) /\
  (c_rdr (step e s) = None -> c_read (step e s) = []).
Proof.
  intros A B N R R'.
  assert (K : forall s', c_read s' = c_read s -> c_buf s' = c_buf s -> c_rdr s' = c_rdr s ->
     fills (c_read s') ++ c_buf s' r = (fills (c_read s) ++ c_buf s r) ++ [] /\ (c_rdr s' = None -> c_read s' = [])).
  { intros s' -> -> ->. rewrite app_nil_r. auto. }
  assert (Z : forall b : bool, (if b then @nil Z else []) = []) by (intros []; reflexivity).
  destruct e; cbn [cfg_step text_of] in *; rewrite ?Z.
  - destruct (c_rdr s) as [q|] eqn:Q.
    + rewrite app_nil_r, Q. split; [reflexivity|congruence].
    + cbn. rewrite app_nil_r. split; [reflexivity|discriminate].
  - destruct (inst_keeps c s) as (_ & _ & _ & _ & H1 & H2 & H3 & _); [congruence|]. apply K; assumption.
  - destruct (op_keeps c s) as (_ & _ & _ & _ & H1 & H2 & H3 & _). apply K; assumption.
  - apply K; reflexivity.
  - destruct (exit_keeps s) as (_ & _ & _ & H1 & H2 & H3 & _). apply K; assumption.
  - destruct (exit_keeps s) as (_ & _ & _ & H1 & H2 & H3 & _). apply K; assumption.
  - cbn. split; [|exact N]. unfold upd. rewrite B, Nat.eqb_sym. destruct (rt cur =? r) eqn:Q.
    + apply Nat.eqb_eq in Q. rewrite Q, app_assoc. reflexivity.
    + rewrite app_nil_r. reflexivity.
  - destruct (c_rdr s) as [q|] eqn:Q; [|rewrite app_nil_r; split; [reflexivity|intros _; apply N; reflexivity]].
    pose proof (R q eq_refl) as ->. destruct (c_buf s r) as [|z l] eqn:G; cbn.
    + rewrite G, fills_app. cbn. rewrite !app_nil_r. split; [reflexivity|discriminate].
    + unfold upd. rewrite Nat.eqb_refl, fills_app. cbn [fills flat_map from_fill]. rewrite !app_nil_r. split; [reflexivity|discriminate].
  - destruct (close_keeps s) as (_ & _ & H1 & H2 & H3 & _). apply K; assumption.
Qed.

Lemma step_rdr e s q : c_rdr s = Some q -> c_inst s = c_term s -> c_rdr (step e s) = Some q.
Proof.
  intros R E. destruct e; cbn [cfg_step].
  - rewrite R. exact R.
  - destruct (inst_keeps c s E) as (_ & _ & _ & _ & -> & _). exact R.
  - destruct (op_keeps c s) as (_ & _ & _ & _ & -> & _). exact R.
  - exact R.
  - destruct (exit_keeps s) as (_ & _ & _ & -> & _). exact R.
  - cbn. destruct (exit_keeps s) as (_ & _ & _ & -> & _). exact R.
  - exact R.
  - rewrite R. destruct (c_buf s q); reflexivity.
  - destruct (close_keeps s) as (_ & _ & -> & _). exact R.
Qed.
Lemma run_rdr es : forall s q, c_rdr s = Some q -> c_inst s = c_term s -> c_rdr (run es s) = Some q.
Proof.
  induction es as [|e es IH]; intros s q R E; [exact R|]. rewrite run_cons. apply IH; [apply step_rdr; assumption|].
  destruct (step_cur e s (c_term s) E eq_refl) as [-> ->]. reflexivity.
Qed.

Lemma run_io r es : forall s cur, c_inst s = cur -> c_term s = cur -> (c_rdr s = None -> c_read s = []) ->
  (forall q, c_rdr s = Some q -> q = r) -> (forall q, c_rdr (run es s) = Some q -> q = r) ->
  fills (c_read (run es s)) ++ c_buf (run es s) r = (fills (c_read s) ++ c_buf s r) ++ written rt r cur es.
Proof.
  induction es as [|e es IH]; intros s cur A B N R R'; [cbn; rewrite app_nil_r; reflexivity|].
  rewrite run_cons in *. 
  destruct (step_cur e s cur A B) as [A' B'].
  assert (R1 : forall q, c_rdr (step e s) = Some q -> q = r).
  { intros q Hq. apply R'. apply run_rdr; [exact Hq|congruence]. }
  destruct (step_io r s e cur A B N R R1) as [I N'].
  rewrite (IH _ _ A' B' N' R1 R'), I, <- app_assoc. f_equal.
  destruct e; cbn [written text_of now]; try (destruct (rt cur =? r); reflexivity).
Qed.

(** Who is read from *)
Lemma run_from es : forall s q, c_rdr s = Some q -> c_inst s = c_term s -> (forall x, In x (c_read s) -> fst (fst x) = q) ->
  forall x, In x (c_read (run es s)) -> fst (fst x) = q.
Proof.
  induction es as [|e es IH]; intros s q R E H; [exact H|]. rewrite run_cons.
  apply IH; [apply step_rdr; assumption|destruct (step_cur e s (c_term s) E eq_refl) as [-> ->]; reflexivity|].
  intros x. destruct e; cbn [cfg_step].
  - rewrite R. apply H.
  - destruct (inst_keeps c s E) as (_ & _ & _ & _ & _ & _ & -> & _). apply H.
  - destruct (op_keeps c s) as (_ & _ & _ & _ & _ & _ & -> & _). apply H.
  - apply H.
  - destruct (exit_keeps s) as (_ & _ & _ & _ & _ & -> & _). apply H.
  - cbn. destruct (exit_keeps s) as (_ & _ & _ & _ & _ & -> & _). apply H.
  - apply H.
  - rewrite R. destruct (c_buf s q); cbn; rewrite in_app_iff; cbn; intros [G|[<-|[]]]; auto.
  - destruct (close_keeps s) as (_ & _ & _ & _ & -> & _). apply H.
Qed.

(** Text waiting for an input that is not read stays. *)
Lemma step_wait e s q r : c_rdr s = Some q -> c_inst s = c_term s -> r <> q -> exists b, c_buf (step e s) r = c_buf s r ++ b.
Proof.
  intros R E NE. destruct e; cbn [cfg_step].
  - rewrite R. exists []. rewrite app_nil_r. reflexivity.
  - destruct (inst_keeps c s E) as (_ & _ & _ & _ & _ & -> & _). exists []. rewrite app_nil_r. reflexivity.
  - destruct (op_keeps c s) as (_ & _ & _ & _ & _ & -> & _). exists []. rewrite app_nil_r. reflexivity.
  - exists []. rewrite app_nil_r. reflexivity.
  - destruct (exit_keeps s) as (_ & _ & _ & _ & -> & _). exists []. rewrite app_nil_r. reflexivity.
  - cbn. destruct (exit_keeps s) as (_ & _ & _ & _ & -> & _). exists []. rewrite app_nil_r. reflexivity.
  - cbn. unfold upd. destruct (r =? rt (c_term s)) eqn:Q.
    + apply Nat.eqb_eq in Q. subst r. eexists. reflexivity.
    + exists []. rewrite app_nil_r. reflexivity.
  - rewrite R. exists []. rewrite app_nil_r. destruct (c_buf s q); [reflexivity|]. cbn. unfold upd.
    destruct (r =? q) eqn:Q; [apply Nat.eqb_eq in Q; contradiction|reflexivity].
  - destruct (close_keeps s) as (_ & _ & _ & -> & _). exists []. rewrite app_nil_r. reflexivity.
Qed.
Lemma run_wait es : forall s q r, c_rdr s = Some q -> c_inst s = c_term s -> r <> q -> exists b, c_buf (run es s) r = c_buf s r ++ b.
Proof.
  induction es as [|e es IH]; intros s q r R E NE; [exists []; rewrite app_nil_r; reflexivity|]. rewrite run_cons.
  destruct (step_wait e s q r R E NE) as [b B].
  destruct (IH (step e s) q r) as [b' B']; [apply step_rdr; assumption|destruct (step_cur e s (c_term s) E eq_refl) as [-> ->]; reflexivity|exact NE|].
  exists (b ++ b'). rewrite B', B, app_assoc. reflexivity.
Qed.

Lemma same_written r es : forall cur, rt cur = r -> same_input rt r es -> written rt r cur es = all_written es.
Proof.
  induction es as [|e es IH]; intros cur C S; [reflexivity|].
  assert (S' : same_input rt r es) by (intros c Hc; apply S; right; exact Hc).
  destruct e; cbn [written all_written flat_map text_of app]; try (apply IH; assumption).
  - apply IH; [apply S; left; reflexivity|exact S'].
  - rewrite C, Nat.eqb_refl. f_equal. apply IH; assumption.
Qed.

(** *** The terminal's settings *)
Definition tame (t0 : termios) (s : cfgs) : Prop := forall i, c_saved s i = None \/ c_saved s i = Some t0.
Definition rest (t0 : termios) (p : bool) (cur : nat) (s : cfgs) : Prop :=
  c_inst s = cur /\ c_term s = cur /\ tame t0 s /\
  if p then c_saved s (rm cur) = Some t0 /\ (c_tty s = raw_of t0 \/ c_tty s = t0 /\ c_closed s = true) else c_tty s = t0.

Definition follow (p : bool) (e : cev) : bool := match e with VEnter => true | VExit => false | _ => p end.
Lemma step_rest t0 e p cur s : rest t0 p cur s -> orderly rm p cur [e] -> rest t0 (follow p e) (now cur e) (step e s).
Proof.
  intros (A & B & T & P) O. destruct (step_cur e s cur A B) as [A' B']. 
  assert (U : forall f i x, (x = Some t0) -> (forall j, f j = None \/ f j = Some t0) -> forall j, upd f i x j = None \/ upd f i x j = Some t0).
  { intros f i x -> F j. unfold upd. destruct (j =? i); auto. }
  split; [exact A'|]. split; [exact B'|]. clear A' B'. destruct e; cbn [cfg_step follow now orderly] in *.
  - destruct (c_rdr s); cbn; auto.
  - destruct (inst_keeps c s) as (H1 & H2 & _ & _ & _ & _ & _ & H3); [congruence|]. unfold tame. rewrite H2. split; [exact T|]. destruct p; rewrite ?H1, ?H2, ?H3.
    + destruct O as [O _]. rewrite (O eq_refl). exact P.
    + exact P.
  - destruct (op_keeps c s) as (H1 & H2 & _ & _ & _ & _ & _ & H3). unfold tame. rewrite H2. split; [exact T|]. destruct p; rewrite ?H1, ?H2, ?H3; exact P.
  - destruct O as [-> _]. cbn. split; [intros j; apply U; [congruence|exact T]|]. rewrite P. split; [|left; reflexivity].
    unfold upd. rewrite B, Nat.eqb_refl. reflexivity.
  - destruct O as [-> _]. destruct P as [P _]. unfold exit_raw. rewrite B, P. cbn. auto.
  - destruct O as [-> _]. destruct P as [P _]. unfold exit_raw. rewrite B, P. cbn. split; [intros j; apply U; [reflexivity|exact T]|].
    split; [|left; reflexivity]. unfold upd. rewrite B, Nat.eqb_refl. reflexivity.
  - auto.
  - destruct (c_rdr s) as [r|]; [destruct (c_buf s r)|]; cbn; auto.
  - unfold tame. destruct (close_keeps s) as (_ & _ & _ & _ & _ & _ & _ & ->). split; [exact T|].
    unfold cfg_close. cbn [fill_close c_closed]. destruct (c_closed s) eqn:CL; cbn [c_saved c_tty fill_close c_closed].
    + rewrite ?CL. exact P.
    + unfold exit_raw. cbn. rewrite B. destruct p.
      * destruct P as [P _]. rewrite !P. cbn. auto.
      * destruct (T (rm cur)) as [->| ->]; cbn; auto.
Qed.
Lemma orderly_cons e es : forall p cur, orderly rm p cur (e :: es) -> orderly rm p cur [e] /\ orderly rm (follow p e) (now cur e) es.
Proof. intros p cur H. destruct e; cbn in *; tauto. Qed.
Lemma pending_cons e es p : pending p (e :: es) = pending (follow p e) es.
Proof. destruct e; reflexivity. Qed.
Lemma run_rest t0 es : forall p cur s, rest t0 p cur s -> orderly rm p cur es -> exists cur', rest t0 (pending p es) cur' (run es s).
Proof.
  induction es as [|e es IH]; intros p cur s R O; [exists cur; exact R|].
  apply orderly_cons in O. destruct O as [O1 O2]. rewrite run_cons, pending_cons. apply (IH _ (now cur e)); [|exact O2].
  apply step_rest; assumption.
Qed.

Lemma step_open e s : c_inst s = c_term s -> e <> VClose -> c_closed (step e s) = c_closed s.
Proof.
  intros E N. destruct e; cbn [cfg_step]; try congruence.
  - destruct (c_rdr s); reflexivity.
  - destruct (inst_keeps c s E) as (_ & _ & _ & _ & _ & _ & _ & ->). reflexivity.
  - destruct (op_keeps c s) as (_ & _ & _ & _ & _ & _ & _ & ->). reflexivity.
  - reflexivity.
  - destruct (exit_keeps s) as (_ & _ & _ & _ & _ & _ & _ & _ & _ & _ & ->). reflexivity.
  - cbn. destruct (exit_keeps s) as (_ & _ & _ & _ & _ & _ & _ & _ & _ & _ & ->). reflexivity.
  - reflexivity.
  - destruct (c_rdr s) as [r|]; [destruct (c_buf s r)|]; reflexivity.
Qed.
Lemma run_open es : forall s, c_inst s = c_term s -> ~ In VClose es -> c_closed (run es s) = c_closed s.
Proof.
  induction es as [|e es IH]; intros s E N; [reflexivity|]. rewrite run_cons, IH.
  - apply step_open; [exact E|]. intros ->. apply N. left. reflexivity.
  - destruct (step_cur e s (c_term s) E eq_refl) as [-> ->]. reflexivity.
  - intros H. apply N. right. exact H.
Qed.

(** *** Goroutines *)
Lemma existsb_in c l : existsb (Nat.eqb c) l = true <-> In c l.
Proof.
  rewrite existsb_exists. split.
  - intros (x & H & E). apply Nat.eqb_eq in E. subst. exact H.
  - intros H. exists c. split; [exact H|apply Nat.eqb_refl].
Qed.
Definition counted (s : cfgs) : Prop :=
  NoDup (c_init s) /\ c_canc s = filter (fun c => negb (own c)) (c_init s) /\ incl (c_fill s) (c_init s) /\ NoDup (c_fill s).
Lemma init_counted c s : counted s -> counted (init c s) /\ (forall x, In x (c_init (init c s)) <-> x = rt c \/ In x (c_init s)) /\
  (forall x, In x (c_fill (init c s)) <-> In x (c_fill s) \/ x = rt c /\ ~ In x (c_init s)).
Proof.
  intros (A & B & C & D). unfold cfg_init. destruct (existsb _ _) eqn:Q.
  - apply existsb_in in Q. split; [exact (conj A (conj B (conj C D)))|]. split.
    + intros x. split; [auto|]. intros [->|H]; assumption.
    + intros x. split; [auto|]. intros [H|[-> H]]; [exact H|contradiction].
  - assert (NI : ~ In (rt c) (c_init s)) by (rewrite <- existsb_in, Q; discriminate).
    split.
    + unfold counted. cbn. split; [constructor; assumption|]. split; [rewrite B; destruct (own (rt c)); reflexivity|].
      split; [|constructor; [intros H; apply NI, C, H|exact D]].
      intros x [<-|H]; [left; reflexivity|right; apply C, H].
    + cbn. split; intros x; split.
      * intros [<-|H]; auto.
      * intros [->|H]; auto.
      * intros [<-|H]; [right; split; [reflexivity|exact NI]|left; exact H].
      * intros [H|[-> _]]; auto.
Qed.
Lemma fill_counted c s : counted s -> counted (fill_close c s).
Proof.
  intros (A & B & C & D). unfold counted. cbn. split; [exact A|]. split; [exact B|]. split.
  - intros x H. apply filter_In in H. apply C, (proj1 H).
  - apply NoDup_filter, D.
Qed.

(** The configurations initialised, after each call: those used. *)
Definition known (s : cfgs) : Prop := In (rt (c_op s)) (c_init s) /\ In (rt (c_inst s)) (c_init s) /\ c_inst s = c_term s.
Lemma step_counted e s : counted s -> known s -> counted (step e s) /\ known (step e s) /\
  (forall x, In x (c_init (step e s)) <-> In x (c_init s) \/ In x (map rt (names_of e))).
Proof.
  intros C (K1 & K2 & K3).
  assert (I0 : forall (Q : Prop), Q -> (Q /\ known s /\ (forall x, In x (c_init s) <-> In x (c_init s) \/ False)) ).
  { intros Q q. split; [exact q|]. split; [exact (conj K1 (conj K2 K3))|]. intros x. tauto. }
  assert (OP : forall c s, counted s -> counted (op_set rt own c s) /\ (c_op (op_set rt own c s) = c) /\ (c_op s <> c -> (forall x, In x (c_init (op_set rt own c s)) <-> x = rt c \/ In x (c_init s))) /\ (c_op s = c -> op_set rt own c s = s)).
  { clear. intros c s C. unfold op_set. destruct (c_op s =? c) eqn:Q.
    - apply Nat.eqb_eq in Q. split; [exact C|]. split; [exact Q|]. split; [intros N; contradiction|reflexivity].
    - apply Nat.eqb_neq in Q. destruct (init_counted c s C) as (A & B & _). split; [exact A|]. split; [reflexivity|]. split; [intros _; exact B|intros N; contradiction]. }
  destruct e; cbn [cfg_step names_of map In].
  - destruct (c_rdr s); apply I0, C.
  - unfold inst_set. destruct (c_inst s =? c) eqn:Q.
    + apply Nat.eqb_eq in Q. split; [exact C|]. split; [exact (conj K1 (conj K2 K3))|]. intros x. split; [auto|]. intros [H|[<-|[]]]; [exact H|rewrite <- Q; exact K2].
    + apply Nat.eqb_neq in Q. set (s1 := mkCfgs _ _ c _ _ _ _ _ _ _ _ _).
      assert (C1 : counted s1) by exact C.
      destruct (OP c s1 C1) as (A & B & D & E). set (s2 := op_set rt own c s1) in *.
      destruct (init_counted c s2 A) as (F & G & _).
      assert (M : forall x, In x (c_init (init c s2)) <-> In x (c_init s) \/ rt c = x \/ False).
      { intros x. rewrite G. destruct (Nat.eq_dec (c_op s1) c) as [e|n].
        - rewrite (E e). cbn. intuition congruence.
        - rewrite (D n). cbn. intuition congruence. }
      unfold term_set. split; [exact F|]. split; [|exact M].
      unfold known. cbn [c_op c_init c_inst c_term].
      destruct (init_keeps c s2) as (_ & _ & -> & _ & -> & _). split; [rewrite B; apply M; auto|].
      destruct (op_keeps c s1) as (_ & _ & H & _). fold s2 in H. rewrite H. cbn. split; [apply M; auto|reflexivity].
  - destruct (OP c s C) as (A & B & D & E). split; [exact A|].
    destruct (op_keeps c s) as (_ & _ & H1 & H2 & _). unfold known. rewrite B, H1, H2.
    destruct (Nat.eq_dec (c_op s) c) as [e|n].
    + rewrite (E e). subst c. split; [exact (conj K1 (conj K2 K3))|]. intros x. split; [auto|]. intros [H|[<-|[]]]; [exact H|exact K1].
    + split; [split; [apply (D n); auto|split; [apply (D n); auto|exact K3]]|]. intros x. rewrite (D n). intuition congruence.
  - apply I0, C.
  - unfold counted, known. destruct (exit_keeps s) as (-> & -> & -> & _ & _ & _ & -> & -> & -> & _). apply I0, C.
  - unfold counted, known. cbn. destruct (exit_keeps s) as (-> & -> & -> & _ & _ & _ & -> & -> & -> & _). apply I0, C.
  - apply I0, C.
  - destruct (c_rdr s) as [r|]; [destruct (c_buf s r)|]; apply I0, C.
  - unfold cfg_close. cbn zeta. cbn [fill_close c_closed]. destruct (c_closed s).
    + apply (I0 (counted (fill_close (rt (c_inst s)) s))), fill_counted, C.
    + unfold counted, known. set (s1 := mkCfgs _ _ _ _ _ _ _ _ _ _ _ _).
      destruct (exit_keeps s1) as (-> & -> & -> & _ & _ & _ & -> & -> & -> & _).
      apply (I0 (counted s1)). apply (fill_counted (rt (c_term s)) (fill_close (rt (c_inst s)) s)), fill_counted, C.
Qed.
Lemma run_counted es : forall s, counted s -> known s -> counted (run es s) /\ known (run es s) /\
  (forall x, In x (c_init (run es s)) <-> In x (c_init s) \/ In x (map rt (flat_map names_of es))).
Proof.
  induction es as [|e es IH]; intros s C K.
  - cbn. split; [exact C|]. split; [exact K|]. tauto.
  - rewrite run_cons. destruct (step_counted e s C K) as (C' & K' & M).
    destruct (IH _ C' K') as (C2 & K2 & M2). split; [exact C2|]. split; [exact K2|].
    intros x. rewrite M2, M. cbn [flat_map]. rewrite map_app, in_app_iff. tauto.
Qed.

Lemma new_counted c t : counted (cfg_new rt own c t) /\ known (cfg_new rt own c t) /\ c_init (cfg_new rt own c t) = [rt c].
Proof.
  unfold cfg_new. assert (C0 : counted (mkCfgs t (fun _ => None) c c c None (fun _ => []) [] [] [] [] false)).
  { unfold counted. cbn. repeat split; constructor || (intros x []). }
  destruct (init_counted c _ C0) as (C & _). split; [exact C|]. split; [|reflexivity].
  unfold known. cbn. auto.
Qed.

(** Without Close no goroutine of a buffer ends. *)
Lemma step_fill e s : e <> VClose -> c_fill s = c_init s -> c_fill (step e s) = c_init (step e s).
Proof.
  intros N F.
  assert (I : forall c s, c_fill s = c_init s -> c_fill (init c s) = c_init (init c s)).
  { clear. intros c s F. unfold cfg_init. destruct (existsb _ _); [exact F|]. cbn. rewrite F. reflexivity. }
  assert (O : forall c s, c_fill s = c_init s -> c_fill (op_set rt own c s) = c_init (op_set rt own c s)).
  { intros c s0 F0. unfold op_set. destruct (_ =? _); [exact F0|]. apply I, F0. }
  destruct e; cbn [cfg_step]; try congruence.
  - destruct (c_rdr s); exact F.
  - unfold inst_set. destruct (_ =? _); [exact F|]. unfold term_set. cbn. apply I, O, F.
  - apply O, F.
  - exact F.
  - destruct (exit_keeps s) as (_ & _ & _ & _ & _ & _ & -> & -> & _). exact F.
  - cbn. destruct (exit_keeps s) as (_ & _ & _ & _ & _ & _ & -> & -> & _). exact F.
  - exact F.
  - destruct (c_rdr s) as [r|]; [destruct (c_buf s r)|]; exact F.
Qed.
Lemma run_fill es : forall s, ~ In VClose es -> c_fill s = c_init s -> c_fill (run es s) = c_init (run es s).
Proof.
  induction es as [|e es IH]; intros s N F; [exact F|]. rewrite run_cons. apply IH; [intros H; apply N; right; exact H|].
  apply step_fill; [intros ->; apply N; left; reflexivity|exact F].
Qed.
End proofs.
