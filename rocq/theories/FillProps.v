(** C118: WriteStdin. *)
From Verif Require Import Base ListAux FillModel FillSpec.
Open Scope nat_scope.
Local Opaque pipe_chunk.

(** * Conservation *)
Definition in_flight (s : fst_t) : list Z := match fs_pump s with PLock c => c | _ => [] end.

Lemma chunk_queue (b : list Z) (q : list (list Z)) : firstn pipe_chunk b ++ concat (match skipn pipe_chunk b with [] => q | r => r :: q end) = concat (b :: q).
Proof.
  cbn [concat]. rewrite <- (firstn_skipn pipe_chunk b) at 3. rewrite <- app_assoc. f_equal.
  destruct (skipn pipe_chunk b); reflexivity.
Qed.

Record kept (tr : list fev) (o : list fout) (s : fst_t) : Prop := {
  k_open : open_all tr -> fs_wclosed s = false /\ fs_rclosed s = false /\ fs_err s = NoErr /\ fs_pump s <> PEnd /\
    ~ In OWriteErr o /\ (forall l e, In (OFill l e) o -> e = NoErr);
  k_data : forall n, open_all tr -> roomy n tr -> length (written tr) <= n ->
    written tr = got_written o ++ fs_buf s ++ in_flight s ++ concat (fs_queue s);
  k_keys : keyed tr = got_keyed o;
  k_calls : open_all tr -> calls tr = returns o + length (fs_queue s)
}.

Lemma flat_snoc {A B} (f : A -> list B) l x : flat_map f (l ++ [x]) = flat_map f l ++ f x.
Proof. rewrite flat_map_app. cbn. now rewrite app_nil_r. Qed.

Lemma open_snoc tr e : open_all (tr ++ [e]) -> open_all tr /\ e <> ECloseW /\ e <> ECloseR.
Proof. intros H. apply Forall_app in H. destruct H as (A & B). inversion B; subst. tauto. Qed.
Lemma roomy_snoc n tr e : roomy n (tr ++ [e]) -> roomy n tr /\ match e with ERead k => n <= k | _ => True end.
Proof. intros H. apply Forall_app in H. destruct H as (A & B). inversion B; subst. tauto. Qed.

Lemma filter_snoc {A} (f : A -> bool) l x : length (filter f (l ++ [x])) = length (filter f l) + (if f x then 1 else 0).
Proof. rewrite filter_app, app_length. cbn. destruct (f x); reflexivity. Qed.

Lemma kept_all tr o s : fruns fs0 tr o s -> kept tr o s.
Proof.
  intros R. remember fs0 as i eqn:I. revert I. induction R as [s|s tr o s1 e o1 s2 R IH S]; intros ->.
  { constructor; try reflexivity. intros _. repeat split; try reflexivity; try discriminate; cbn; tauto. }
  specialize (IH eq_refl). destruct IH as [O D K C]. constructor.
  - intros H. destruct (open_snoc _ _ H) as (H1 & N1 & N2). destruct (O H1) as (A1 & A2 & A3 & A4 & A5 & A6).
    inversion S; subst; cbn [fs_wclosed fs_rclosed fs_err fs_pump f_q f_p f_b f_w f_c]; try congruence.
    + rewrite app_nil_r. repeat split; try assumption.
    + repeat split; try assumption; try reflexivity; try discriminate.
      * rewrite in_app_iff. intros [X|X]; [now apply A5|]. destruct (skipn pipe_chunk b); cbn in X; [destruct X as [X|[]]; discriminate|tauto].
      * intros l e' X. apply in_app_iff in X. destruct X as [X|X]; [now apply (A6 l)|]. destruct (skipn pipe_chunk b); cbn in X; [destruct X as [X|[]]; discriminate|tauto].
    + rewrite app_nil_r. repeat split; try assumption; discriminate.
    + destruct H2; congruence.
    + repeat split; try assumption; try reflexivity.
      * rewrite in_app_iff. intros [X|[X|[]]]; [now apply A5|discriminate].
      * intros l e' X. apply in_app_iff in X. destruct X as [X|[X|[]]]; [now apply (A6 l)|]. injection X as <- <-. assumption.
    + rewrite app_nil_r. repeat split; try assumption.
    + repeat split; try assumption; try reflexivity.
      * rewrite in_app_iff. intros [X|[X|[]]]; [now apply A5|discriminate].
      * intros l' e' X. apply in_app_iff in X. destruct X as [X|[X|[]]]; [now apply (A6 l')|discriminate].
  - intros n H Ro L. destruct (open_snoc _ _ H) as (H1 & N1 & N2). destruct (roomy_snoc _ _ _ Ro) as (Ro1 & Rk).
    unfold written in *. rewrite flat_snoc in *. rewrite app_length in L.
    specialize (D n H1 Ro1 ltac:(lia)). unfold got_written in *. rewrite flat_map_app, D.
    destruct (O H1) as (A1 & A2 & A3 & A4 & _).
    inversion S; subst; cbn [flat_map app fs_buf in_flight fs_queue fs_pump f_q f_p f_b f_w f_c]; try congruence; unfold in_flight in *; cbn [fs_pump f_q f_p f_b f_w f_c];
      rewrite ?app_nil_r.
    + rewrite concat_app. cbn [concat]. rewrite app_nil_r, !app_assoc. reflexivity.
    + rewrite H0, H2. cbn [app].
      pose proof (chunk_queue b q) as CQ. destruct (skipn pipe_chunk b); cbn [flat_map]; rewrite app_nil_r; do 2 f_equal; symmetry; exact CQ.
    + rewrite H0. cbn [app]. rewrite <- !app_assoc. reflexivity.
    + destruct H2; congruence.
    + rewrite firstn_all2; [now rewrite <- app_assoc|]. rewrite D in L. rewrite !app_length in L. lia.
    + reflexivity.
    + reflexivity.
  - unfold keyed, got_keyed in *. rewrite flat_snoc, flat_map_app, K. f_equal. inversion S; subst; cbn [flat_map]; rewrite ?app_nil_r; try reflexivity.
    destruct (skipn pipe_chunk b); reflexivity.
  - intros H. destruct (open_snoc _ _ H) as (H1 & N1 & N2). specialize (C H1). destruct (O H1) as (A1 & A2 & _).
    unfold calls, returns in *. rewrite filter_snoc, filter_app, app_length, C.
    inversion S; subst; cbn [filter length fs_queue f_q f_p f_b f_w f_c]; try lia; try congruence.
    + rewrite app_length. cbn. lia.
    + rewrite H2. destruct (skipn pipe_chunk b); cbn [filter length]; lia.
    + destruct H2; congruence.
Qed.

(** * C118 *)

(** In every execution, while neither end of the pipe is closed and every Read has room for all that was written: Read returns the
    written bytes in order, each once, the rest is still there; once the goroutine has settled all have been returned; the bytes
    of the real input are returned in order, in any case; no error is ever returned. *)
Theorem C118_order_partial : forall tr o s n, fruns fs0 tr o s -> open_all tr -> roomy n tr -> length (written tr) <= n ->
  (exists rest, written tr = got_written o ++ rest /\ (settled s -> rest = [])) /\ keyed tr = got_keyed o /\
  ~ In OWriteErr o /\ (forall l e, In (OFill l e) o -> e = NoErr).
Proof.
  intros tr o s n R H Ro L. destruct (kept_all _ _ _ R) as [O D K C]. destruct (O H) as (_ & _ & _ & _ & E1 & E2).
  split; [|split; [exact K|split; assumption]]. eexists. split; [exact (D n H Ro L)|].
  intros (P & Q & B). unfold in_flight. now rewrite P, Q, B.
Qed.
Print Assumptions C118_order_partial.

(** The goroutine never waits for anything but a Write: while a Write is pending and the pipe open it has a step. *)
Lemma pump_goes tr o s : fruns fs0 tr o s -> open_all tr -> fs_queue s <> [] ->
  exists e o1 s1, own e = true /\ fstep s e o1 s1.
Proof.
  intros R H Q. destruct (kept_all _ _ _ R) as [O _ _ _]. destruct (O H) as (_ & _ & _ & E & _). destruct (fs_pump s) eqn:P; [| |congruence].
  - destruct (fs_queue s) as [|b q] eqn:F; [congruence|]. exists ETake. do 2 eexists. split; [reflexivity|]. eapply f_take; eassumption.
  - exists EAppend. do 2 eexists. split; [reflexivity|]. eapply f_append; eassumption.
Qed.

(** How many of its steps it takes until the waiting Writes have returned. *)
Definition rounds (b : list Z) : nat := S (length b / pipe_chunk).
Definition left_turns (s : fst_t) : nat := (match fs_pump s with PLock _ => 1 | _ => 0 end) + 2 * list_sum (map rounds (fs_queue s)).

Lemma rounds_chunk b x r : skipn pipe_chunk b = x :: r -> S (rounds (x :: r)) <= rounds b.
Proof.
  intros E. unfold rounds. assert (L : length b = pipe_chunk + length (x :: r)).
  { assert (length (skipn pipe_chunk b) = length (x :: r)) by now rewrite E. rewrite skipn_length in H. cbn [length] in *. lia. }
  rewrite L. replace (pipe_chunk + length (x :: r)) with (length (x :: r) + 1 * pipe_chunk) by lia. rewrite Nat.div_add by discriminate. lia.
Qed.

Lemma turns_left s1 tr o s2 : fruns s1 tr o s2 -> open_all tr -> fs_wclosed s1 = false -> fs_rclosed s1 = false -> fs_pump s1 <> PEnd ->
  (forall e, In e tr -> forall b, e <> EWrite b) ->
  turns tr + left_turns s2 <= left_turns s1 /\ fs_wclosed s2 = false /\ fs_rclosed s2 = false.
Proof.
  induction 1 as [s|s tr o s1 e o1 s2 R IH S]; intros H A B P N.
  - cbn. auto.
  - destruct (open_snoc _ _ H) as (H1 & N1 & N2). destruct (IH H1 A B P) as (T & A1 & B1).
    { intros e0 I. apply N. apply in_app_iff. auto. }
    unfold turns in *. rewrite filter_snoc. assert (Ne : forall b, e <> EWrite b) by (apply N, in_app_iff; right; now left).
    inversion S; subst; cbn [own fs_wclosed fs_rclosed f_q f_p f_b f_w f_c]; try congruence; try (unfold left_turns in *; cbn [fs_pump fs_queue f_q f_p f_b f_w f_c] in *; auto; split; [lia|auto]).
    + split; [|auto]. unfold left_turns in *. cbn [fs_pump fs_queue f_q f_p] in *. rewrite H0, H2 in T.
      destruct (skipn pipe_chunk b) as [|x r] eqn:E; cbn [map list_sum fold_right] in *.
      * assert (1 <= rounds b) by (unfold rounds; lia). unfold list_sum in *. lia.
      * pose proof (rounds_chunk b x r E). unfold list_sum in *. lia.
    + split; [|auto]. unfold left_turns in *. cbn [fs_pump fs_queue f_q f_p f_b] in *. rewrite H0 in T. lia.
    + destruct H2; congruence.
Qed.

(** WriteStdin returns without anyone reading: while calls are pending the goroutine can always go on, and after so many of its
    steps as there are pieces of 100 bytes to move, twice, every call has returned. *)
Theorem C118_returns : forall tr o s, fruns fs0 tr o s -> open_all tr ->
  (fs_queue s <> [] -> exists e o1 s1, own e = true /\ fstep s e o1 s1) /\
  (forall tr' o' s', fruns s tr' o' s' -> open_all tr' -> (forall e, In e tr' -> forall b, e <> EWrite b) ->
     turns tr' <= 1 + 2 * list_sum (map rounds (fs_queue s))) /\
  (fs_queue s = [] -> returns o = calls tr).
Proof.
  intros tr o s R H. split; [now apply (pump_goes tr o)|]. destruct (kept_all _ _ _ R) as [O _ _ C]. destruct (O H) as (A & B & _ & P & _). split.
  - intros tr' o' s' R' H' N. destruct (turns_left s tr' o' s' R' H' A B P N) as (T & _). unfold left_turns in *. destruct (fs_pump s); lia.
  - intros Q. rewrite (C H), Q. cbn. lia.
Qed.
Print Assumptions C118_returns.

(** After Close, at most two more steps of the goroutine, unless a Write is still handing over; with no Write pending it ends. *)
Lemma pump_end s tr o s2 : fruns s tr o s2 -> fs_rclosed s = true -> fs_queue s = [] -> (forall e, In e tr -> forall b, e <> EWrite b) ->
  fs_rclosed s2 = true /\ fs_queue s2 = [] /\
  turns tr + (match fs_pump s2 with PLock _ => 2 | PRead => 1 | PEnd => 0 end) <= match fs_pump s with PLock _ => 2 | PRead => 1 | PEnd => 0 end.
Proof.
  induction 1 as [s|s tr o s1 e o1 s2 R IH S]; intros C Q N; [cbn; auto|].
  destruct (IH C Q) as (C1 & Q1 & T); [intros e0 I; apply N, in_app_iff; auto|].
  assert (Ne : forall b, e <> EWrite b) by (apply N, in_app_iff; right; now left). unfold turns in *. rewrite filter_snoc.
  inversion S; subst; cbn [own fs_rclosed fs_queue fs_pump f_q f_p f_b f_w f_c]; try congruence; try (split; [assumption|]; split; [assumption|]; lia).
  - rewrite H in T. split; [assumption|]. split; [assumption|]. lia.
  - rewrite H in T. split; [assumption|]. split; [assumption|]. lia.
  - split; [reflexivity|]. split; [assumption|]. lia.
Qed.

Theorem C118_close_ends : forall s tr o s', fs_rclosed s = true -> fs_queue s = [] -> (forall e, In e tr -> forall b, e <> EWrite b) ->
  fruns s tr o s' -> turns tr <= 2 /\ (fs_pump s' <> PEnd -> exists e o1 s1, own e = true /\ fstep s' e o1 s1) /\
  (fs_pump s' = PEnd -> forall e o1 s1, own e = true -> ~ fstep s' e o1 s1).
Proof.
  intros s tr o s' C Q N R. destruct (pump_end s tr o s' R C Q N) as (C' & Q' & T). split; [destruct (fs_pump s), (fs_pump s'); lia|]. split.
  - intros P. destruct (fs_pump s') eqn:E; [| |congruence].
    + exists EClosed. do 2 eexists. split; [reflexivity|]. now apply f_closed.
    + exists EAppend. do 2 eexists. split; [reflexivity|]. eapply f_append; eassumption.
  - intros P e o1 s1 W S. inversion S; subst; cbn in W; congruence.
Qed.
Print Assumptions C118_close_ends.

(** After the writing end has been closed, without Close, the goroutine always has a step to make, reads or no reads, and never ends: it spins. *)
Lemma spin_keeps s tr o s' : fruns s tr o s' -> fs_wclosed s = true -> fs_rclosed s = false -> fs_pump s <> PEnd -> ~ In ECloseR tr ->
  fs_wclosed s' = true /\ fs_rclosed s' = false /\ fs_pump s' <> PEnd.
Proof.
  induction 1 as [s|s tr o s1 e o1 s2 R IH S]; intros A B P N; [auto|].
  destruct (IH A B P) as (A1 & B1 & P1); [intros I; apply N, in_app_iff; auto|].
  assert (Ne : e <> ECloseR) by (intros ->; apply N, in_app_iff; right; now left).
  inversion S; subst; cbn [fs_wclosed fs_rclosed fs_pump f_q f_p f_b f_w f_c]; try (repeat split; try assumption; discriminate); congruence.
Qed.
Theorem C118_spins : forall s tr o s', fs_wclosed s = true -> fs_rclosed s = false -> fs_pump s <> PEnd -> ~ In ECloseR tr ->
  fruns s tr o s' -> exists e o1 s1, own e = true /\ fstep s' e o1 s1.
Proof.
  intros s tr o s' A B P N R. destruct (spin_keeps s tr o s' R A B P N) as (A' & B' & P'). destruct (fs_pump s') eqn:E; [| |congruence].
  - exists EClosed. do 2 eexists. split; [reflexivity|]. now apply f_eof.
  - exists EAppend. do 2 eexists. split; [reflexivity|]. eapply f_append; eassumption.
Qed.
Print Assumptions C118_spins.

(** ** Refuted: what was written before Read was called is what it returns *)
Local Transparent pipe_chunk.
Definition miss_tr : list fev := [EWrite [97%Z]; ETake; ERead 4096; EAppend].
Definition miss_st : fst_t := {| fs_buf := [97%Z]; fs_err := NoErr; fs_pump := PRead; fs_queue := []; fs_wclosed := false; fs_rclosed := false; fs_wait := Some 4096 |}.

Lemma miss_run : fruns fs0 miss_tr [OWrote] miss_st.
Proof.
  change miss_tr with (((([] ++ [EWrite [97%Z]]) ++ [ETake]) ++ [ERead 4096]) ++ [EAppend]).
  change [OWrote] with (((([] ++ []) ++ [OWrote]) ++ []) ++ [] : list fout).
  eapply fr_snoc; [eapply fr_snoc; [eapply fr_snoc; [eapply fr_snoc; [apply fr_nil|apply f_write]|]|]|].
  - exact (f_take (f_q ([] ++ [[97%Z]]) fs0) [97%Z] [] eq_refl eq_refl).
  - apply f_read; [reflexivity|]. reflexivity.
  - match goal with |- fstep ?s _ _ _ => exact (f_append s [97%Z] eq_refl) end.
Qed.

(** Write has returned before Read is called; still Read waits for the real input, and nothing but that input ends the wait. *)
Theorem C118_missed_refuted : exists tr o s, fruns fs0 tr o s /\ tr = [EWrite [97%Z]; ETake; ERead 4096; EAppend] /\ o = [OWrote] /\
  fs_buf s = [97%Z] /\ fs_wait s = Some 4096 /\
  (forall tr' o' s', fruns s tr' o' s' -> keyed tr' = [] -> ~ In (EInput []) tr' -> fs_wait s' = Some 4096 /\ read_bytes o' = []) /\
  (exists o' s', fruns s [EInput [98%Z]; ERead 4096] o' s' /\ read_bytes o' = [98; 97]%Z).
Proof.
  exists miss_tr, [OWrote], miss_st. split; [exact miss_run|]. do 4 (split; [reflexivity|]). split.
  - intros tr' o' s' R. remember miss_st as m. induction R as [s|s tr o s1 e o1 s2 R IH S]; intros K N; [subst; auto|].
    unfold keyed in K. rewrite flat_snoc in K. apply app_eq_nil in K. destruct K as (K1 & K2).
    destruct (IH Heqm K1) as (W & B); [intros I; apply N, in_app_iff; auto|].
    unfold read_bytes in *. rewrite flat_map_app, B.
    assert (Ne : e <> EInput []) by (intros ->; apply N, in_app_iff; right; now left).
    inversion S; subst; cbn [fs_wait f_q f_p f_b f_w f_c flat_map app]; try congruence; try (split; [assumption|reflexivity]).
    + split; [assumption|]. destruct (skipn pipe_chunk b); reflexivity.
  - do 2 eexists. split.
    + change [EInput [98%Z]; ERead 4096] with (([] ++ [EInput [98%Z]]) ++ [ERead 4096]).
      eapply fr_snoc; [eapply fr_snoc; [apply fr_nil|apply (f_input miss_st 4096); [reflexivity|cbn; lia]]|].
      apply f_fill; [reflexivity|]. cbn [fs_buf f_w miss_st length]. apply Nat.min_glb_lt; lia.
    + reflexivity.
Qed.
Print Assumptions C118_missed_refuted.

(** A Read that already waits returns the real input first, whatever has been written in between. *)
Theorem C118_waiting : forall s k tr o s', fs_wait s = Some k -> fruns s tr o s' -> keyed tr = [] -> ~ In (EInput []) tr ->
  fs_wait s' = Some k /\ read_bytes o = [].
Proof.
  intros s k tr o s' W R. induction R as [s|s tr o s1 e o1 s2 R IH S]; intros K N; [auto|].
  unfold keyed in K. rewrite flat_snoc in K. apply app_eq_nil in K. destruct K as (K1 & K2).
  destruct (IH W K1) as (W1 & B); [intros I; apply N, in_app_iff; auto|].
  unfold read_bytes in *. rewrite flat_map_app, B.
  assert (Ne : e <> EInput []) by (intros ->; apply N, in_app_iff; right; now left).
  inversion S; subst; cbn [fs_wait f_q f_p f_b f_w f_c flat_map app]; try congruence; try (split; [assumption|reflexivity]).
  - split; [assumption|]. destruct (skipn pipe_chunk b); reflexivity.
Qed.
Print Assumptions C118_waiting.

(** What the next Read returns once the goroutine has appended everything: all that was written and not yet read. *)
Theorem C118_prefill : forall tr o s n k, fruns fs0 tr o s -> open_all tr -> roomy n tr -> length (written tr) <= n ->
  fs_pump s = PRead -> fs_queue s = [] -> fs_wait s = None -> n <= k -> written tr <> got_written o ->
  exists s' l, fstep s (ERead k) [OFill l NoErr] s' /\ written tr = got_written o ++ l /\ fs_buf s' = [].
Proof.
  intros tr o s n k R H Ro L P Q W K N. destruct (kept_all _ _ _ R) as [O D _ _]. destruct (O H) as (_ & _ & E & _).
  specialize (D n H Ro L). unfold in_flight in D. rewrite P, Q in D. cbn [concat app] in D. rewrite app_nil_r in D.
  assert (B : fs_buf s <> []) by (intros B; rewrite B, app_nil_r in D; congruence).
  assert (Lb : length (fs_buf s) <= k) by (rewrite D, app_length in L; lia).
  exists (f_b [] NoErr s), (fs_buf s). split; [|split; [exact D|reflexivity]].
  rewrite <- (firstn_all2 (fs_buf s) Lb) at 1. rewrite <- E at 1. apply f_fill; [exact W|].
  destruct (fs_buf s); [congruence|]. cbn [length] in *. apply Nat.min_glb_lt; lia.
Qed.
Print Assumptions C118_prefill.

(** Two Writes and a Read between them. *)
Example C118_ex : exists s, fruns fs0 [EWrite [97; 98]%Z; ETake; EAppend; ERead 10; EWrite [99%Z]; ETake; EAppend] [OWrote; OFill [97; 98]%Z NoErr; OWrote] s /\
  fs_pump s = PRead /\ fs_queue s = [] /\ fs_wait s = None /\ fs_buf s = [99%Z].
Proof.
  eexists. split.
  - change [EWrite [97; 98]%Z; ETake; EAppend; ERead 10; EWrite [99%Z]; ETake; EAppend]
      with ((((((([] ++ [EWrite [97; 98]%Z]) ++ [ETake]) ++ [EAppend]) ++ [ERead 10]) ++ [EWrite [99%Z]]) ++ [ETake]) ++ [EAppend]).
    change [OWrote; OFill [97; 98]%Z NoErr; OWrote] with ((((((([] ++ []) ++ [OWrote]) ++ []) ++ [OFill [97; 98]%Z NoErr]) ++ []) ++ [OWrote]) ++ [] : list fout).
    eapply fr_snoc; [eapply fr_snoc; [eapply fr_snoc; [eapply fr_snoc; [eapply fr_snoc; [eapply fr_snoc; [eapply fr_snoc; [apply fr_nil|]|]|]|]|]|]|].
    + apply f_write.
    + exact (f_take (f_q ([] ++ [[97; 98]%Z]) fs0) [97; 98]%Z [] eq_refl eq_refl).
    + match goal with |- fstep ?s _ _ _ => exact (f_append s [97; 98]%Z eq_refl) end.
    + match goal with |- fstep ?s _ _ _ => exact (f_fill s 10 eq_refl (Nat.lt_0_succ 1)) end.
    + apply f_write.
    + match goal with |- fstep ?s _ _ _ => exact (f_take s [99%Z] [] eq_refl eq_refl) end.
    + match goal with |- fstep ?s _ _ _ => exact (f_append s [99%Z] eq_refl) end.
  - repeat split.
Qed.
(** Closing: both ends of a fresh pipe. *)
Example C118_close_ex : fruns fs0 [ECloseR; EClosed] [] (f_p PEnd ClosedErr (f_c false true fs0)) /\
  fruns fs0 [ECloseW; EClosed; EAppend; EClosed] [] (f_p (PLock []) EofErr (f_b [] EofErr (f_p PRead EofErr (f_p (PLock []) EofErr (f_c true false fs0))))).
Proof.
  split.
  - exact (fr_snoc _ _ _ _ EClosed [] _ (fr_snoc _ _ _ _ ECloseR [] _ (fr_nil fs0) (f_closer fs0)) (f_closed (f_c false true fs0) eq_refl eq_refl)).
  - exact (fr_snoc _ _ _ _ EClosed [] _ (fr_snoc _ _ _ _ EAppend [] _ (fr_snoc _ _ _ _ EClosed [] _ (fr_snoc _ _ _ _ ECloseW [] _ (fr_nil fs0) (f_closew fs0))
      (f_eof (f_c true false fs0) eq_refl eq_refl eq_refl)) (f_append (f_p (PLock []) EofErr (f_c true false fs0)) [] eq_refl))
      (f_eof (f_b [] EofErr (f_p PRead EofErr (f_p (PLock []) EofErr (f_c true false fs0)))) eq_refl eq_refl eq_refl)).
Qed.
