From Verif Require Import Base ListAux TerminalModel TerminalSpec TerminalProofs AnsiWinModel AnsiWinSpec.
From Coq Require Import ZifyBool.
Open Scope Z_scope.


Lemma fg_get c : 30 <= c < 40 -> (bad c <-> get ColorTableFg (Z.to_nat (c - 30)) = Panic) /\
  (~ bad c -> exists t, get ColorTableFg (Z.to_nat (c - 30)) = Ok t).
Proof.
  intros H. unfold bad.
  assert (C : c = 30 \/ c = 31 \/ c = 32 \/ c = 33 \/ c = 34 \/ c = 35 \/ c = 36 \/ c = 37 \/ c = 38 \/ c = 39) by lia.
  repeat (destruct C as [-> | C]); try subst c; cbn; (split; [split; intros; try discriminate; try lia; reflexivity|]);
  intros; try lia; eexists; reflexivity.
Qed.
Lemma bg_get c : 40 <= c < 50 -> (bad c <-> get ColorTableBg (Z.to_nat (c - 40)) = Panic) /\
  (~ bad c -> exists t, get ColorTableBg (Z.to_nat (c - 40)) = Ok t).
Proof.
  intros H. unfold bad.
  assert (C : c = 40 \/ c = 41 \/ c = 42 \/ c = 43 \/ c = 44 \/ c = 45 \/ c = 46 \/ c = 47 \/ c = 48 \/ c = 49) by lia.
  repeat (destruct C as [-> | C]); try subst c; cbn; (split; [split; intros; try discriminate; try lia; reflexivity|]);
  intros; try lia; eexists; reflexivity.
Qed.

Lemma sgr_total arg : forall color, (sgr arg color = Panic <-> has_bad arg) /\ sgr arg color <> Hang.
Proof.
  induction arg as [|x arg IH]; intros color; cbn [sgr has_bad].
  - split; [split; [discriminate|tauto]|discriminate].
  - destruct (Atoi_signed x) as [c|]; [|split; [split; [discriminate|tauto]|discriminate]].
    destruct ((30 <=? c) && (c <? 40)) eqn:E1.
    + destruct (fg_get c ltac:(lia)) as (A & B).
      destruct (get ColorTableFg (Z.to_nat (c - 30))) as [t| |] eqn:G.
      * cbn [obind]. destruct (IH (Z.lor (Z.lxor color COLOR_FINTENSITY) t)) as (P & Q). split; [|exact Q].
        rewrite P. split; [tauto|]. intros [K|K]; [apply A in K; discriminate|exact K].
      * cbn [obind]. split; [split; [intros _; left; now apply A|reflexivity]|discriminate].
      * exfalso. unfold get in G. destruct (nth_error _ _); discriminate.
    + destruct ((40 <=? c) && (c <? 50)) eqn:E2.
      * destruct (bg_get c ltac:(lia)) as (A & B).
        destruct (get ColorTableBg (Z.to_nat (c - 40))) as [t| |] eqn:G.
        -- cbn [obind]. destruct (IH (Z.lor (Z.lxor color COLOR_BINTENSITY) t)) as (P & Q). split; [|exact Q].
           rewrite P. split; [tauto|]. intros [K|K]; [apply A in K; discriminate|exact K].
        -- cbn [obind]. split; [split; [intros _; left; now apply A|reflexivity]|discriminate].
        -- exfalso. unfold get in G. destruct (nth_error _ _); discriminate.
      * assert (NB : ~ bad c) by (unfold bad; lia).
        assert (K : forall col, (sgr arg col = Panic <-> bad c \/ has_bad arg) /\ sgr arg col <> Hang).
        { intros col. destruct (IH col) as (P & Q). split; [rewrite P; tauto|exact Q]. }
        destruct (c =? 4); [apply K|]. destruct (c =? 1); apply K.
Qed.

Lemma wprocess_panic s r : (wprocess s r = Panic <-> w_seq s = true /\ r = 109 /\ has_bad (w_arg s)) /\ wprocess s r <> Hang.
Proof.
  unfold wprocess, ioloopEscSeq. destruct (w_seq s) eqn:W.
  - destruct ((65 <=? r) && (r <=? 68)) eqn:E1; [cbn; split; [split; [discriminate|lia]|discriminate]|].
    destruct (r =? 74) eqn:E2; [cbn; split; [split; [discriminate|lia]|discriminate]|].
    destruct (r =? 75) eqn:E3; [cbn; split; [split; [discriminate|lia]|discriminate]|].
    destruct (r =? 109) eqn:E4.
    + destruct (sgr_total (w_arg s) 0) as (P & Q).
      destruct (sgr (w_arg s) 0) as [[c|]| |]; cbn [obind]; [| | |congruence].
      * split; [split; [discriminate|intros (_ & _ & H); apply P in H; discriminate]|discriminate].
      * split; [split; [discriminate|intros (_ & _ & H); apply P in H; discriminate]|discriminate].
      * split; [split; [intros _|reflexivity]|discriminate]. split; [reflexivity|]. split; [lia|]. now apply P.
    + destruct (r =? 7); [cbn; split; [split; [discriminate|lia]|discriminate]|].
      destruct (r =? 59); [|cbn; split; [split; [discriminate|lia]|discriminate]].
      destruct (rev (w_arg s)) as [|[|] ?]; cbn; (split; [split; [discriminate|lia]|discriminate]).
  - destruct (r =? CharEsc); [split; [split; [discriminate|intros (H & _); discriminate]|discriminate]|].
    destruct (_ && _); (split; [split; [discriminate|intros (H & _); discriminate]|discriminate]).
Qed.

Lemma wwrite_panic l : forall s, wwrite s l = Panic ->
  exists p q s' out, l = p ++ 109 :: q /\ wwrite s p = Ok (s', out) /\ w_seq s' = true /\ has_bad (w_arg s').
Proof.
  induction l as [|r l IH]; intros s H; [discriminate|]. cbn [wwrite] in H.
  destruct (wprocess s r) as [(s1 & o1)| |] eqn:E.
  - cbn [obind fst snd] in H. destruct (wwrite s1 l) as [(s2 & o2)| |] eqn:E2; cbn [obind] in H; try discriminate.
    destruct (IH s1 E2) as (p & q & s' & out & -> & A & B & C).
    exists (r :: p), q, s', (o1 ++ out). split; [reflexivity|]. split; [|auto]. cbn [wwrite]. rewrite E. cbn [obind fst snd]. rewrite A. reflexivity.
  - destruct (proj1 (proj1 (wprocess_panic s r)) E) as (A & -> & C).
    exists [], l, s, []. cbn. auto.
  - exfalso. now apply (proj2 (wprocess_panic s r)).
Qed.

Lemma wwrite_not_hang l : forall s, wwrite s l <> Hang.
Proof.
  induction l as [|r l IH]; intros s H; [discriminate|]. cbn [wwrite] in H.
  destruct (wprocess s r) as [(s1 & o1)| |] eqn:E.
  - cbn [obind fst snd] in H. specialize (IH s1). destruct (wwrite s1 l) as [(s2 & o2)| |]; cbn [obind] in H; congruence.
  - discriminate.
  - now apply (proj2 (wprocess_panic s r)).
Qed.

Lemma wwrite_text s l : w_seq s = false -> w_esc s = false -> ~ In CharEsc l -> wwrite s l = Ok (s, map WText l).
Proof.
  intros A B. induction l as [|r l IH]; intros NI; [reflexivity|]. cbn [wwrite]. unfold wprocess. rewrite A, B, andb_false_r.
  destruct (Z.eqb_spec r CharEsc) as [E|E]; [exfalso; apply NI; now left|].
  cbn [obind fst snd]. rewrite IH; [reflexivity|]. intros I. apply NI. now right.
Qed.

Lemma wwrite_app a : forall s b, wwrite s (a ++ b) =
  (x <- wwrite s a ;; y <- wwrite (fst x) b ;; Ok (fst y, snd x ++ snd y)).
Proof.
  induction a as [|r a IH]; intros s b; cbn [app wwrite].
  - cbn [obind fst snd]. destruct (wwrite s b) as [(? & ?)| |]; reflexivity.
  - destruct (wprocess s r) as [(s1 & o1)| |]; cbn [obind fst snd]; try reflexivity. rewrite IH.
    destruct (wwrite s1 a) as [(s2 & o2)| |]; cbn [obind fst snd]; try reflexivity.
    destruct (wwrite s2 b) as [(s3 & o3)| |]; cbn [obind fst snd]; try reflexivity. now rewrite app_assoc.
Qed.

(** Parameters made of digits and semicolons: the sequence stays open and remembers them. *)
Definition pchar (r : Z) : Prop := 48 <= r <= 57 \/ r = 59.
Lemma wwrite_params l : forall s, w_seq s = true -> Forall pchar l ->
  exists arg, wwrite s l = Ok ({| w_esc := w_esc s; w_seq := true; w_arg := arg |}, []).
Proof.
  induction l as [|r l IH]; intros s W F; cbn [wwrite].
  - exists (w_arg s). destruct s; cbn in *; subst; reflexivity.
  - inversion F as [|? ? P F']; subst. unfold wprocess, ioloopEscSeq. rewrite W. unfold pchar in P.
    destruct ((65 <=? r) && (r <=? 68)) eqn:E1; [lia|]. destruct (r =? 74) eqn:E2; [lia|].
    destruct (r =? 75) eqn:E3; [lia|]. destruct (r =? 109) eqn:E4; [lia|]. destruct (r =? 7) eqn:E5; [lia|].
    assert (K : forall arg, exists arg', (b <- wwrite {| w_esc := w_esc s; w_seq := true; w_arg := arg |} l ;;
       Ok (fst b, [] ++ snd b)) = Ok ({| w_esc := w_esc s; w_seq := true; w_arg := arg' |}, [])).
    { intros arg. destruct (IH {| w_esc := w_esc s; w_seq := true; w_arg := arg |} eq_refl F') as (arg' & E).
      exists arg'. cbn in E. rewrite E. reflexivity. }
    destruct (r =? 59); [|cbn [obind fst snd]; apply K].
    destruct (rev (w_arg s)) as [|[|] ?]; cbn [obind fst snd]; apply K.
Qed.

(** Parameters of any runes that do not end the sequence. *)
Lemma ends_dec r : ~ ends_seq r -> ((65 <=? r) && (r <=? 68) = false) /\ (r =? 74) = false /\ (r =? 75) = false /\ (r =? 109) = false /\ (r =? 7) = false.
Proof. unfold ends_seq. lia. Qed.
Lemma push_last_app f x r : push_last (f ++ [x]) r = f ++ [x ++ [r]].
Proof. unfold push_last. rewrite rev_app_distr. cbn. now rewrite rev_involutive. Qed.

Lemma wwrite_param p : forall e f x, Forall (fun r => ~ ends_seq r /\ r <> 59) p ->
  wwrite {| w_esc := e; w_seq := true; w_arg := f ++ [x] |} p = Ok ({| w_esc := e; w_seq := true; w_arg := f ++ [x ++ p] |}, []).
Proof.
  induction p as [|r p IH]; intros e f x F; cbn [wwrite]; [now rewrite app_nil_r|]. inversion F as [|? ? (N & S) F']; subst.
  unfold wprocess, ioloopEscSeq. cbn [w_seq w_arg w_esc]. apply ends_dec in N. destruct N as (-> & -> & -> & -> & ->).
  replace (r =? 59) with false by lia. cbn [obind fst snd]. rewrite push_last_app, IH by exact F'. cbn. now rewrite <- app_assoc.
Qed.
Lemma wwrite_param0 p e : p <> [] -> Forall (fun r => ~ ends_seq r /\ r <> 59) p ->
  wwrite {| w_esc := e; w_seq := true; w_arg := [] |} p = Ok ({| w_esc := e; w_seq := true; w_arg := [p] |}, []).
Proof.
  destruct p as [|r p]; [contradiction|]. intros _ F. inversion F as [|? ? (N & S) F']; subst. cbn [wwrite].
  unfold wprocess, ioloopEscSeq. cbn [w_seq w_arg w_esc]. apply ends_dec in N. destruct N as (-> & -> & -> & -> & ->).
  replace (r =? 59) with false by lia. cbn [obind fst snd]. change (push_last [] r) with ([] ++ [[r]]). rewrite wwrite_param by exact F'. reflexivity.
Qed.

Lemma wwrite_semis ps : forall e f x, x <> [] -> Forall (fun p => p <> [] /\ Forall (fun r => ~ ends_seq r /\ r <> 59) p) ps ->
  wwrite {| w_esc := e; w_seq := true; w_arg := f ++ [x] |} (flat_map (fun p => 59 :: p) ps) = Ok ({| w_esc := e; w_seq := true; w_arg := f ++ x :: ps |}, []).
Proof.
  induction ps as [|p ps IH]; intros e f x X F; [reflexivity|]. inversion F as [|? ? (N & P) F']; subst. cbn [flat_map app].
  change (59 :: p ++ flat_map (fun p => 59 :: p) ps) with ([59] ++ p ++ flat_map (fun p => 59 :: p) ps). rewrite wwrite_app.
  assert (E : wwrite {| w_esc := e; w_seq := true; w_arg := f ++ [x] |} [59] = Ok ({| w_esc := e; w_seq := true; w_arg := (f ++ [x]) ++ [[]] |}, [])).
  { cbn [wwrite]. unfold wprocess, ioloopEscSeq. cbn [w_seq w_arg w_esc]. rewrite rev_app_distr. cbn [rev app]. destruct x as [|x0 x]; [contradiction|]. reflexivity. }
  rewrite E. cbn [obind fst snd]. rewrite wwrite_app, wwrite_param by exact P. cbn [obind fst snd app].
  rewrite IH by auto. cbn [obind fst snd app]. now rewrite <- app_assoc.
Qed.
Lemma semis_flat p ps : semis (p :: ps) = p ++ flat_map (fun p => 59 :: p) ps.
Proof. revert p. induction ps as [|q ps IH]; intros p; [cbn; now rewrite app_nil_r|]. change (semis (p :: q :: ps)) with (p ++ [59] ++ semis (q :: ps)). now rewrite IH. Qed.
Lemma join_semis ps : join_semi ps = semis ps.
Proof. induction ps as [|p [|q ps] IH]; [reflexivity..|]. change (join_semi (p :: q :: ps)) with (p ++ 59 :: join_semi (q :: ps)). now rewrite IH. Qed.

Lemma wwrite_open s ps : w_seq s = false -> Forall (fun p => p <> [] /\ Forall (fun r => ~ ends_seq r /\ r <> 59) p) ps ->
  wwrite s ([27; 91] ++ semis ps) = Ok ({| w_esc := false; w_seq := true; w_arg := ps |}, []).
Proof.
  intros W F. change [27; 91] with ([27] ++ [91]). rewrite <- app_assoc, wwrite_app. cbn [wwrite]. unfold wprocess. rewrite W. cbn [obind fst snd Z.eqb CharEsc Pos.eqb app].
  cbn [wwrite]. unfold wprocess. cbn [w_seq w_esc w_arg]. cbn [obind fst snd Z.eqb Pos.eqb CharEsc andb]. destruct ps as [|p ps]; [reflexivity|].
  inversion F as [|? ? (N & P) F']; subst. rewrite semis_flat, wwrite_app, wwrite_param0 by auto. cbn [obind fst snd app].
  change [p] with ([] ++ [p]). rewrite wwrite_semis by auto. reflexivity.
Qed.

(** *** numbers *)
Lemma atoi_bad l : forall a, (exists r, In r l /\ ~ (48 <= r <= 57)) -> atoi_val l a = None.
Proof.
  induction l as [|r l IH]; intros a (x & I & N); [destruct I|]. cbn. destruct ((48 <=? r) && (r <=? 57)) eqn:E; [|reflexivity]. destruct I as [->|I]; [lia|]. apply IH. eauto.
Qed.
Lemma Atoi_other c l : c <> 43 -> c <> 45 -> Atoi_signed (c :: l) = Atoi (c :: l).
Proof. intros N1 N2. unfold Atoi_signed. destruct c as [|c|c]; try reflexivity. do 7 (try destruct c as [c|c|]; try reflexivity); congruence. Qed.
Lemma Atoi_bad l : (exists r, In r l /\ ~ (48 <= r <= 57) /\ r <> 43 /\ r <> 45) -> Atoi_signed l = None.
Proof.
  intros (r & I & N1 & N2 & N3). assert (B : forall l, In r l -> Atoi l = None /\ atoi_val l 0 = None).
  { intros k K. assert (E : atoi_val k 0 = None) by (apply atoi_bad; eauto). split; [|exact E]. unfold Atoi. now destruct k; [|rewrite E]. }
  destruct l as [|c l]; [destruct I|].
  assert (T : c = 43 \/ c = 45 -> In r l) by (intros T; destruct I as [->|I]; [destruct T; contradiction|exact I]).
  destruct (Z.eq_dec c 43) as [C1|C1]; [subst c; cbn [Atoi_signed]; apply B, T; auto|]. destruct (Z.eq_dec c 45) as [C2|C2].
  - subst c. specialize (T (or_intror eq_refl)). cbn [Atoi_signed]. destruct (B _ T) as (_ & ->). now destruct l.
  - rewrite Atoi_other by assumption. now apply B.
Qed.
Lemma Atoi_digits d : d <> [] -> Forall (fun r => 48 <= r <= 57) d ->
  Atoi_signed d = (if decimal d <=? 9223372036854775807 then Some (decimal d) else None) /\
  Atoi_signed (45 :: d) = (if decimal d <=? 9223372036854775808 then Some (- decimal d) else None).
Proof.
  intros N F. pose proof (atoi_digits d F 0) as A. fold (decimal d) in A. split.
  - replace (Atoi_signed d) with (Atoi d); [unfold Atoi; destruct d; [contradiction|]; now rewrite A|].
    destruct d as [|c d]; [contradiction|]. inversion F as [|? ? C _]; subst. symmetry. apply Atoi_other; lia.
  - cbn [Atoi_signed]. destruct d; [contradiction|]. now rewrite A.
Qed.

Lemma decimal_ends d : Forall (fun r => 48 <= r <= 57) d -> Forall (fun r => ~ ends_seq r /\ r <> 59) d.
Proof. apply Forall_impl. unfold ends_seq. intros; lia. Qed.
