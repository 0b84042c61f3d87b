(** Lock order and guarded fields: an invariant of all interleavings. *)
Require Import List Arith Bool Lia.
From Verif Require Import LockModel LockSpec.
Import ListNotations.
Open Scope nat_scope.

Definition rank (l : lock) : nat :=
  match l with LOp => 0 | LBuf => 1 | LHist => 2 | LTerm => 3 end.

(** The lock a field is always used under, if there is one. *)
Definition guard (v : var) : option lock :=
  match v with
  | VPrompt | VInter | VClean | VBufCfg => Some LBuf
  | VFd => Some LHist
  | _ => None
  end.

Definition covered (h : list lock) (v : var) : Prop :=
  match guard v with None => True | Some l => In l h end.

Definition above (h : list lock) (l : lock) : Prop :=
  forall k, In k h -> rank k < rank l.

(** Locks are taken in increasing rank, guarded fields used under their lock. *)
Fixpoint sound (h : list lock) (p : prog) : Prop :=
  match p with
  | PSkip => True
  | PRd v | PWr v => covered h v
  | PWith l p => above h l /\ sound (l :: h) p
  | PSeq p q | POr p q => sound h p /\ sound h q
  | PMany p => sound h p
  end.

Fixpoint okr (h : list lock) (t : list act) : Prop :=
  match t with
  | [] => h = []
  | Acq l :: t => above h l /\ okr (l :: h) t
  | Rel l :: t => match h with k :: h' => k = l /\ okr h' t | [] => False end
  | Rd v :: t | Wr v :: t => covered h v /\ okr h t
  end.

Lemma lock_eqb_eq a b : lock_eqb a b = true <-> a = b.
Proof. destruct a, b; cbn; split; congruence. Qed.

Lemma sound_okr p t (T : tr p t) : forall h k, sound h p -> okr h k -> okr h (t ++ k).
Proof.
  induction T; cbn [sound]; intros h k S K.
  - exact K.
  - split; assumption.
  - split; assumption.
  - destruct S as [S1 S2]. cbn [app okr]. split; [exact S1|].
    rewrite <- app_assoc. apply IHT; [exact S2|]. cbn. split; [reflexivity|exact K].
  - destruct S as [S1 S2]. rewrite <- app_assoc. apply IHT1; [exact S1|].
    apply IHT2; assumption.
  - apply IHT; tauto.
  - apply IHT; tauto.
  - exact K.
  - rewrite <- app_assoc. apply IHT1; [exact S|]. apply IHT2; assumption.
Qed.

(** * The invariant *)

Definition inv (s : sys) : Prop :=
  exists H : nat -> list lock,
    (forall i t, nth_error (s_th s) i = Some t -> okr (H i) t) /\
    (forall i, NoDup (H i)) /\
    (forall l i, s_own s l = Some i <-> In l (H i)) /\
    (forall i, nth_error (s_th s) i = None -> H i = []).

Lemma nth_set_nth_eq {A} (l : list A) i x y :
  nth_error l i = Some y -> nth_error (set_nth i x l) i = Some x.
Proof. revert i; induction l; intros [|i] E; cbn in *; try discriminate; auto. Qed.

Lemma nth_set_nth_neq {A} (l : list A) i j x :
  i <> j -> nth_error (set_nth i x l) j = nth_error l j.
Proof.
  revert i j; induction l; intros [|i] [|j] N; cbn; try congruence; auto.
Qed.

Definition setH (i : nat) (h : list lock) (H : nat -> list lock) (j : nat) : list lock :=
  if Nat.eqb i j then h else H j.

Lemma setH_eq i h H : setH i h H i = h.
Proof. unfold setH. now rewrite Nat.eqb_refl. Qed.
Lemma setH_neq i j h H : i <> j -> setH i h H j = H j.
Proof. intros N. unfold setH. apply Nat.eqb_neq in N. now rewrite N. Qed.

Lemma above_notin h l : above h l -> ~ In l h.
Proof. intros A I. specialize (A _ I). lia. Qed.

Lemma rest_inv ts i (a : act) t (H : nat -> list lock) h :
  nth_error ts i = Some (a :: t) ->
  (forall j u, nth_error ts j = Some u -> okr (H j) u) ->
  okr h t ->
  forall j u, nth_error (set_nth i t ts) j = Some u -> okr (setH i h H j) u.
Proof.
  intros E O K j u E'. destruct (Nat.eq_dec i j) as [<-|N].
  - rewrite (nth_set_nth_eq _ _ _ _ E) in E'. injection E' as <-. now rewrite setH_eq.
  - rewrite nth_set_nth_neq in E' by exact N. rewrite setH_neq by exact N. auto.
Qed.

Lemma none_inv ts i (a : act) t (H : nat -> list lock) h :
  nth_error ts i = Some (a :: t) ->
  (forall j, nth_error ts j = None -> H j = []) ->
  forall j, nth_error (set_nth i t ts) j = None -> setH i h H j = [].
Proof.
  intros E Z j E'. destruct (Nat.eq_dec i j) as [<-|N].
  - rewrite (nth_set_nth_eq _ _ _ _ E) in E'. discriminate.
  - rewrite nth_set_nth_neq in E' by exact N. rewrite setH_neq by exact N. auto.
Qed.

Lemma set_own_eq l o f : set_own l o f l = o.
Proof. unfold set_own. destruct l; reflexivity. Qed.
Lemma set_own_neq l k o f : k <> l -> set_own l o f k = f k.
Proof.
  intros N. unfold set_own. destruct (lock_eqb k l) eqn:E; [|reflexivity].
  apply lock_eqb_eq in E. congruence.
Qed.

Lemma lock_dec (a b : lock) : {a = b} + {a <> b}.
Proof. decide equality. Qed.

Lemma step_inv s s' : step s s' -> inv s -> inv s'.
Proof.
  intros T (H & O & D & W & Z). destruct T as [ts own i l t E F|ts own i l t E|ts own i v t E|ts own i v t E];
    cbn [s_th s_own] in *; pose proof (O _ _ E) as K; cbn in K.
  - destruct K as [K1 K2]. exists (setH i (l :: H i) H). cbn. repeat split.
    + now apply (rest_inv _ _ _ _ _ _ E).
    + intros j. destruct (Nat.eq_dec i j) as [<-|N].
      * rewrite setH_eq. constructor; [|apply D]. now apply above_notin.
      * rewrite setH_neq by exact N. apply D.
    + intros G. destruct (lock_dec l0 l) as [->|N].
      * rewrite set_own_eq in G. injection G as <-. rewrite setH_eq. now left.
      * rewrite set_own_neq in G by exact N. apply W in G.
        destruct (Nat.eq_dec i i0) as [<-|N']; [rewrite setH_eq; now right|now rewrite setH_neq].
    + intros G. destruct (Nat.eq_dec i i0) as [<-|N'].
      * rewrite setH_eq in G. destruct G as [->|G]; [now rewrite set_own_eq|].
        destruct (lock_dec l0 l) as [->|N]; [now rewrite set_own_eq|].
        rewrite set_own_neq by exact N. now apply W.
      * rewrite setH_neq in G by exact N'. apply W in G.
        destruct (lock_dec l0 l) as [->|N]; [congruence|]. now rewrite set_own_neq.
    + now apply (none_inv _ _ _ _ _ _ E).
  - destruct (H i) as [|k h] eqn:Hi; [contradiction|]. destruct K as [-> K].
    exists (setH i h H). cbn.
    assert (ND : NoDup (l :: h)) by (rewrite <- Hi; apply D). inversion ND as [|? ? NI ND']; subst.
    assert (OL : own l = Some i) by (apply W; rewrite Hi; now left).
    repeat split.
    + now apply (rest_inv _ _ _ _ _ _ E).
    + intros j. destruct (Nat.eq_dec i j) as [<-|N]; [now rewrite setH_eq|].
      rewrite setH_neq by exact N. apply D.
    + intros G. destruct (lock_dec l0 l) as [->|N]; [rewrite set_own_eq in G; discriminate|].
      rewrite set_own_neq in G by exact N. apply W in G.
      destruct (Nat.eq_dec i i0) as [<-|N'].
      * rewrite setH_eq. rewrite Hi in G. destruct G; congruence.
      * now rewrite setH_neq.
    + intros G. destruct (Nat.eq_dec i i0) as [<-|N'].
      * rewrite setH_eq in G. rewrite set_own_neq by (intros ->; contradiction).
        apply W. rewrite Hi. now right.
      * rewrite setH_neq in G by exact N'. apply W in G.
        rewrite set_own_neq; [exact G|]. intros ->. congruence.
    + now apply (none_inv _ _ _ _ _ _ E).
  - destruct K as [_ K]. exists (setH i (H i) H). cbn.
    assert (Q : forall j, setH i (H i) H j = H j)
      by (intros j; destruct (Nat.eq_dec i j) as [<-|N]; [apply setH_eq|now apply setH_neq]).
    repeat split.
    + now apply (rest_inv _ _ _ _ _ _ E).
    + intros j. rewrite Q. apply D.
    + rewrite Q. apply W.
    + rewrite Q. apply W.
    + now apply (none_inv _ _ _ _ _ _ E).
  - destruct K as [_ K]. exists (setH i (H i) H). cbn.
    assert (Q : forall j, setH i (H i) H j = H j)
      by (intros j; destruct (Nat.eq_dec i j) as [<-|N]; [apply setH_eq|now apply setH_neq]).
    repeat split.
    + now apply (rest_inv _ _ _ _ _ _ E).
    + intros j. rewrite Q. apply D.
    + rewrite Q. apply W.
    + rewrite Q. apply W.
    + now apply (none_inv _ _ _ _ _ _ E).
Qed.

Lemma reach_inv s s' : reach s s' -> inv s -> inv s'.
Proof. induction 1; intros I; [exact I|]. apply IHreach. eapply step_inv; eassumption. Qed.

Lemma reach_trans a b c : reach a b -> reach b c -> reach a c.
Proof. induction 1; intros R; [exact R|]. econstructor; eauto. Qed.

Lemma start_inv ps ts :
  Forall (sound []) ps -> sequences ps ts -> inv (start ts).
Proof.
  intros S Q. exists (fun _ => []). cbn. repeat split.
  - unfold sequences in Q. revert S. induction Q; intros S i t E; [destruct i; discriminate|].
    inversion S; subst. destruct i; cbn in E; [|eauto].
    injection E as <-. rewrite <- (app_nil_r y). eapply sound_okr; [eassumption..|reflexivity].
  - constructor.
  - discriminate.
  - contradiction.
Qed.

(** * Somebody can always go on *)

Lemma wait_step s : inv s -> forall n i l t,
  4 - rank l <= n -> nth_error (s_th s) i = Some (Acq l :: t) -> exists s', step s s'.
Proof.
  intros (H & O & D & W & Z). induction n; intros i l t B E.
  - destruct l; cbn in B; lia.
  - destruct s as [ts own]; cbn [s_th s_own] in *. destruct (own l) as [j|] eqn:F.
    + pose proof (proj1 (W _ _) F) as I.
      destruct (nth_error ts j) as [[|a u]|] eqn:G.
      * pose proof (O _ _ G) as K. cbn in K. rewrite K in I. contradiction.
      * pose proof (O _ _ G) as K. destruct a; cbn in K.
        -- destruct K as [K _]. specialize (K _ I). eapply IHn; [|exact G].
           assert (rank l0 < 4) by (destruct l0; cbn; lia). lia.
        -- eexists. eapply st_rel. exact G.
        -- eexists. eapply st_rd. exact G.
        -- eexists. eapply st_wr. exact G.
      * rewrite (Z _ G) in I. contradiction.
    + eexists. eapply st_acq; eassumption.
Qed.

Lemma unfinished_step s : inv s -> ~ finished s -> exists s', step s s'.
Proof.
  intros I U. assert (exists i a t, nth_error (s_th s) i = Some (a :: t)) as (i & a & t & E).
  { unfold finished in U. clear I. destruct s as [ts own]. cbn in *.
    induction ts as [|x ts IH]; [destruct U; constructor|].
    destruct x as [|a t]; [|exists 0, a, t; reflexivity].
    destruct IH as (i & a & t & E); [intros F; apply U; constructor; [reflexivity|exact F]|].
    exists (S i), a, t. exact E. }
  destruct a.
  - eapply (wait_step s I); [|exact E]. reflexivity.
  - destruct s. eexists. eapply st_rel. exact E.
  - destruct s. eexists. eapply st_rd. exact E.
  - destruct s. eexists. eapply st_wr. exact E.
Qed.

Definition left_over (s : sys) : nat := length (concat (s_th s)).

Lemma left_set ts i (a : act) t :
  nth_error ts i = Some (a :: t) -> S (length (concat (set_nth i t ts))) = length (concat ts).
Proof.
  revert i; induction ts as [|x ts IH]; intros [|i] E; cbn in E; try discriminate.
  - injection E as ->. reflexivity.
  - cbn. rewrite !app_length, <- (IH _ E). lia.
Qed.

Lemma step_left s s' : step s s' -> S (left_over s') = left_over s.
Proof. destruct 1; unfold left_over; cbn; eapply left_set; eassumption. Qed.

Lemma finished_dec s : {finished s} + {~ finished s}.
Proof.
  unfold finished. destruct (Forall_dec (fun t : list act => t = []) ltac:(intros []; [now left|now right]) (s_th s)); auto.
Qed.

Lemma inv_finish n : forall s, left_over s <= n -> inv s -> exists s', reach s s' /\ finished s'.
Proof.
  induction n; intros s B I.
  - exists s. split; [constructor|]. unfold finished, left_over in *. destruct s as [ts own]. cbn in *.
    clear I. induction ts as [|x ts IH]; [constructor|]. cbn in B. rewrite app_length in B.
    constructor; [destruct x; [reflexivity|cbn in B; lia]|apply IH; lia].
  - destruct (finished_dec s) as [F|U]; [exists s; split; [constructor|exact F]|].
    destruct (unfinished_step s I U) as [s1 T]. pose proof (step_left _ _ T).
    destruct (IHn s1) as (s2 & R & F); [lia|eapply step_inv; eassumption|].
    exists s2. split; [econstructor; eassumption|exact F].
Qed.

Lemma sound_free ps ts : Forall (sound []) ps -> sequences ps ts -> deadlock_free ts.
Proof.
  intros S Q s R. eapply inv_finish; [reflexivity|]. eapply reach_inv; [exact R|].
  eapply start_inv; eassumption.
Qed.

(** * Guarded fields are not raced for *)

Lemma inv_race v l s : guard v = Some l -> inv s -> ~ race v s.
Proof.
  intros G (H & O & D & W & Z) (i & j & t & u & N & E1 & E2 & (r & ->) & q & Q).
  apply O in E1. apply O in E2. cbn in E1. destruct E1 as [E1 _].
  assert (E3 : covered (H j) v) by (destruct Q; subst u; cbn in E2; apply E2).
  unfold covered in E1, E3. rewrite G in E1, E3. apply W in E1. apply W in E3. congruence.
Qed.

(** * The code keeps to the order *)

Lemma covered_mono h h' v : incl h h' -> covered h v -> covered h' v.
Proof. unfold covered. destruct (guard v); auto. Qed.

(** Code that takes only locks of rank [b] and above, under locks below. *)
Definition fits (b : nat) (p : prog) : Prop :=
  forall h, (forall k, In k h -> rank k < b) -> sound h p.

Lemma fits_seq b p q : fits b p -> fits b q -> fits b (PSeq p q).
Proof. intros P Q h B. split; auto. Qed.
Lemma fits_or b p q : fits b p -> fits b q -> fits b (POr p q).
Proof. intros P Q h B. split; auto. Qed.
Lemma fits_many b p : fits b p -> fits b (PMany p).
Proof. intros P h B. cbn. auto. Qed.
Lemma fits_le b b' p : b' <= b -> fits b p -> fits b' p.
Proof. intros L F h B. apply F. intros k I. specialize (B k I). lia. Qed.

Ltac locks :=
  repeat match goal with
  | |- _ /\ _ => split
  | |- True => exact I
  | |- In _ _ => cbn; tauto
  | |- _ \/ _ => tauto
  | |- above _ _ =>
      let k := fresh in let i := fresh in
      intros k i; cbn in i; repeat (destruct i as [<-|i]; [cbn; lia|]);
      first [contradiction | match goal with B : forall k, In k _ -> _ |- _ => specialize (B k i); cbn; lia end]
  end.

Lemma quiet_fits p : quiet p -> fits 2 p.
Proof.
  induction 1; auto using fits_seq, fits_or, fits_many; intros h B;
    unfold hist_new, hist_write, hist_update, t_get, t_set, opt; cbn; unfold covered; cbn; locks.
Qed.

Section Sound.
Variable g : given.
Hypothesis P1 : fits 2 (g_paint g).
Hypothesis P2 : fits 2 (g_write g).

Ltac tab := unfold covered; cbn; locks;
  first [ apply P1 | apply P2 ];
  let k := fresh in let i := fresh in
  intros k i; cbn in i; repeat (destruct i as [<-|i]; [cbn; lia|]);
  match goal with B : forall k, In k _ -> _ |- _ => specialize (B k i); lia end.

Lemma fits_t_write b : b <= 2 -> fits b (t_write g).
Proof. intros L h B. split; [exact I|]. apply P2. intros k i. specialize (B k i). lia. Qed.

Lemma sound_clean h : In LBuf h -> (forall k, In k h -> rank k < 2) -> sound h (clean g).
Proof.
  intros I B. unfold clean, idx_line, opt, t_write. cbn. unfold covered; cbn.
  repeat split; auto. 
Qed.

Lemma sound_print h : In LBuf h -> (forall k, In k h -> rank k < 2) -> sound h (print g).
Proof.
  intros I B. unfold print, output, idx_line, opt, t_write. cbn. unfold covered; cbn.
  repeat split; auto.
Qed.

Lemma fits_refresh f : (forall h, In LBuf h -> (forall k, In k h -> rank k < 2) -> sound h f) ->
  fits 1 (refresh g f).
Proof.
  intros F h B. unfold refresh. cbn [sound]. split; [intros k i; cbn; auto|].
  assert (I0 : In LBuf (LBuf :: h)) by now left.
  assert (B0 : forall k, In k (LBuf :: h) -> rank k < 2).
  { intros k [<-|i]; [cbn; lia|]. specialize (B k i). lia. }
  split; [unfold covered; cbn; now left|]. split; [now apply F|].
  cbn [seqs fold_right]. split; [now apply sound_clean|]. split; [now apply F|].
  split; [now apply sound_print|exact I].
Qed.

Lemma fits_refresh0 : fits 1 (refresh g PSkip).
Proof. apply fits_refresh. intros; exact I. Qed.
Lemma fits_edit : fits 1 (edit g).
Proof. apply fits_refresh. intros; cbn. unfold covered; cbn. auto. Qed.
Lemma fits_refresh_w : fits 1 (refresh g (g_write g)).
Proof. apply fits_refresh. intros; auto. Qed.

Ltac easyfit := intros h B; cbn; unfold covered; cbn; locks.

Lemma fits_look : fits 1 look. Proof. easyfit. Qed.
Lemma fits_prompt_len : fits 1 prompt_len. Proof. easyfit. Qed.
Lemma fits_clc : fits 1 cursor_line_count. Proof. easyfit. Qed.
Lemma fits_set_prompt : fits 1 buf_set_prompt. Proof. easyfit. Qed.
Lemma fits_set_mask : fits 1 buf_set_mask. Proof. easyfit. Qed.
Lemma fits_set_cfg : fits 1 buf_set_config. Proof. easyfit. Qed.
Lemma fits_buf_width : fits 1 buf_width. Proof. easyfit. Qed.
Lemma fits_hist_update : fits 1 hist_update. Proof. easyfit. Qed.
Lemma fits_hist_new : fits 1 hist_new. Proof. easyfit. Qed.
Lemma fits_hist_init : fits 1 hist_init. Proof. easyfit. Qed.
Lemma fits_hist_close : fits 1 hist_close. Proof. easyfit. Qed.
Lemma fits_path : fits 1 set_history_path. Proof. easyfit. Qed.
Lemma fits_skip : fits 1 PSkip. Proof. easyfit. Qed.
Lemma fits_rd v : guard v = None -> fits 1 (PRd v).
Proof. intros E h B. cbn. unfold covered. now rewrite E. Qed.
Lemma fits_wr v : guard v = None -> fits 1 (PWr v).
Proof. intros E h B. cbn. unfold covered. now rewrite E. Qed.
Lemma fits_buf_clean : fits 1 (buf_clean g).
Proof.
  intros h B. cbn [buf_clean sound]. split; [intros k i; cbn; auto|]. apply sound_clean; [now left|].
  intros k [<-|i]; [cbn; lia|]. specialize (B k i). lia.
Qed.
Lemma fits_op_refresh : fits 1 (op_refresh g).
Proof. apply fits_or; [apply fits_skip|apply fits_refresh0]. Qed.
Lemma fits_buf_reset : fits 1 buf_reset. Proof. easyfit. Qed.

Lemma down p : fits 1 p -> fits 0 p.
Proof. apply fits_le. repeat constructor. Qed.
Lemma fits_with_op p : fits 1 p -> fits 0 (PWith LOp p).
Proof.
  intros F h B. cbn [sound]. split; [intros k i; specialize (B k i); lia|].
  apply F. intros k [<-|i]; [cbn; lia|]. specialize (B k i). lia.
Qed.
Lemma fits_t_get : fits 0 t_get. Proof. easyfit. Qed.
Local Opaque t_get.
Lemma fits_t_set : fits 0 t_set. Proof. easyfit. Qed.
Local Opaque t_set.
Lemma fits_w1 : fits 1 (g_write g).
Proof. apply (fits_le 2); [repeat constructor|exact P2]. Qed.

Local Opaque edit refresh look prompt_len cursor_line_count buf_set_prompt buf_set_mask
  buf_set_config buf_width hist_update hist_new hist_init hist_close set_history_path buf_clean
  op_refresh buf_reset t_write fits.

Ltac pieces :=
  repeat first
    [ apply fits_skip | apply fits_look | apply fits_prompt_len | apply fits_clc
    | apply fits_set_prompt | apply fits_set_mask | apply fits_set_cfg | apply fits_buf_width
    | apply fits_hist_update | apply fits_hist_new | apply fits_hist_init | apply fits_hist_close
    | apply fits_path | apply fits_buf_clean | apply fits_op_refresh | apply fits_edit
    | apply fits_refresh0 | apply fits_refresh_w | apply fits_buf_reset
    | (apply fits_rd; reflexivity) | (apply fits_wr; reflexivity)
    | (apply fits_t_write; repeat constructor)
    | apply fits_w1
    | apply fits_seq | apply fits_or | apply fits_many ].

Lemma fits_set_style : fits 1 (set_style g).
Proof. unfold set_style; cbn [seqs fold_right]; pieces. Qed.
Local Opaque set_style.
Lemma fits_search_refresh : fits 1 (search_refresh g).
Proof. unfold search_refresh, opt; cbn [seqs fold_right]; pieces; apply fits_set_style. Qed.
Local Opaque search_refresh.
Lemma fits_complete_refresh : fits 1 (complete_refresh g).
Proof. unfold complete_refresh, opt; cbn [seqs fold_right]; pieces. Qed.
Local Opaque complete_refresh.
Lemma fits_exit_search : fits 1 (exit_search g).
Proof. unfold exit_search, opt; cbn [seqs fold_right]; pieces. Qed.
Local Opaque exit_search.
Lemma fits_do_search : fits 1 (do_search g).
Proof. unfold do_search, hist_read, opt; cbn [seqs fold_right]; pieces; apply fits_search_refresh. Qed.
Local Opaque do_search.
Lemma fits_do_select : fits 1 (do_select g).
Proof. unfold do_select, opt; cbn [seqs fold_right]; pieces; apply fits_complete_refresh. Qed.
Local Opaque do_select.

Lemma drawing_fits p : drawing g p -> fits 1 p.
Proof.
  induction 1; auto using fits_seq, fits_or, fits_many, fits_set_prompt, fits_set_mask,
    fits_buf_clean, fits_op_refresh, fits_edit.
  apply (fits_le 2); [repeat constructor|]. now apply quiet_fits.
Qed.

Hypothesis P3 : fits 1 (g_width g).



Lemma fits_get_config : fits 0 get_config.
Proof. apply fits_with_op. cbn [seqs fold_right]; pieces. Qed.
Local Opaque get_config.

Lemma fits_op_set_config : fits 0 (op_set_config g).
Proof. apply fits_with_op. unfold opt; cbn [seqs fold_right]; pieces; exact P3. Qed.
Local Opaque op_set_config.

Ltac pieces0 :=
  repeat first
    [ apply fits_seq | apply fits_or | apply fits_many
    | apply fits_get_config | apply fits_op_set_config | assumption
    | (apply down; first [exact P3 | apply fits_search_refresh | apply fits_complete_refresh
        | apply fits_exit_search | apply fits_do_search | apply fits_do_select
        | solve [pieces]]) ].

Lemma fits_write : fits 0 (m_write g).
Proof. unfold m_write, opt; cbn [seqs fold_right]; pieces0. Qed.
Local Opaque m_write.

Lemma fits_complete c : fits 0 c -> fits 0 (do_complete g c).
Proof. intros C. unfold do_complete, opt; cbn [seqs fold_right]; pieces0. Qed.
Local Opaque do_complete.

Lemma fits_enter : fits 0 (key_enter g).
Proof. unfold key_enter, opt; cbn [seqs fold_right]; pieces0. Qed.
Local Opaque key_enter.

Lemma fits_end : fits 0 (PWith LOp
             (seqs [PRd VSearch; PRd VMenu;
                    opt (PSeq (exit_search g) (refresh g PSkip));
                    opt (seqs [PWr VMenu; op_refresh g]);
                    opt (PSeq (refresh g PSkip) (complete_refresh g));
                    opt (PSeq look hist_update)])).
Proof.
  apply fits_with_op. unfold opt; cbn [seqs fold_right]; pieces;
    first [apply fits_exit_search | apply fits_complete_refresh].
Qed.

Lemma fits_key f c l : fits 0 f -> fits 0 c -> fits 0 l -> fits 0 (m_key g f c l).
Proof.
  intros F C L. pose proof (fits_complete c C) as DC. pose proof fits_enter as EN.
  pose proof fits_end as EE. unfold m_key.
  set (e := PWith LOp _) in *. clearbody e.
  unfold opt; cbn [seqs alts fold_right]. unfold hist_read, hist_write, opt. pieces0.
Qed.
Local Opaque m_key.


Lemma calls_fits p : calls g p -> fits 0 p.
Proof.
  induction 1; auto using fits_seq, fits_or, fits_many, fits_get_config, fits_write, fits_key.
  - now apply down, drawing_fits.
  - apply fits_seq; [apply fits_op_set_config|apply fits_t_set].
  - apply down. pieces.
  - apply down. pieces.
  - apply down. unfold m_close; pieces.
  - unfold m_width; cbn [seqs fold_right]; pieces0.
  - unfold m_runes, opt; cbn [seqs fold_right]; pieces0.
  - unfold m_password, m_runes, opt; cbn [seqs fold_right]; pieces0.
  - apply fits_seq; [apply fits_t_get|]. apply down. unfold opt. pieces.
Qed.

Local Transparent fits.
End Sound.

Lemma polite_sound g p : polite g -> calls g p -> sound [] p.
Proof.
  intros (A & B & C) K.
  assert (F1 : fits 2 (g_paint g)) by now apply quiet_fits.
  assert (F2 : fits 2 (g_write g)) by now apply quiet_fits.
  apply (calls_fits g F1 F2 (drawing_fits g F1 F2 _ C) p K). intros k [].
Qed.

(** * Choosing a sequence and an interleaving, to exhibit executions *)

Fixpoint pick (cs : list bool) (p : prog) : list act * list bool :=
  match p with
  | PSkip => ([], cs)
  | PRd v => ([Rd v], cs)
  | PWr v => ([Wr v], cs)
  | PWith l p => let (t, c) := pick cs p in (Acq l :: t ++ [Rel l], c)
  | PSeq p q => let (t, c) := pick cs p in let (u, c') := pick c q in (t ++ u, c')
  | POr p q => match cs with
               | true :: c => pick c q
               | _ :: c => pick c p
               | [] => pick [] p
               end
  | PMany p => ([], cs)
  end.

Lemma pick_tr p : forall cs, tr p (fst (pick cs p)).
Proof.
  induction p; intros cs; cbn.
  - constructor.
  - constructor.
  - constructor.
  - specialize (IHp cs). destruct (pick cs p). cbn in *. now constructor.
  - specialize (IHp1 cs). destruct (pick cs p1) as [t c]. specialize (IHp2 c).
    destruct (pick c p2). cbn in *. now constructor.
  - destruct cs as [|[] c]; [apply tr_orl|apply tr_orr|apply tr_orl]; auto.
  - constructor.
Qed.

(** Run the goroutines in the order given. *)
Fixpoint run (sch : list nat) (s : sys) : option sys :=
  match sch with
  | [] => Some s
  | i :: r =>
      match nth_error (s_th s) i with
      | Some (Acq l :: t) =>
          match s_own s l with
          | None => run r {| s_th := set_nth i t (s_th s); s_own := set_own l (Some i) (s_own s) |}
          | Some _ => None
          end
      | Some (Rel l :: t) => run r {| s_th := set_nth i t (s_th s); s_own := set_own l None (s_own s) |}
      | Some (Rd _ :: t) | Some (Wr _ :: t) => run r {| s_th := set_nth i t (s_th s); s_own := s_own s |}
      | _ => None
      end
  end.

Lemma run_reach sch : forall s s', run sch s = Some s' -> reach s s'.
Proof.
  induction sch as [|i r IH]; intros s s' E; cbn in E.
  - injection E as ->. constructor.
  - destruct (nth_error (s_th s) i) as [[|[l|l|v|v] t]|] eqn:N; try discriminate.
    + destruct (s_own s l) eqn:O; [discriminate|]. econstructor; [|apply IH, E].
      destruct s; now constructor.
    + econstructor; [|apply IH, E]. destruct s. now constructor.
    + econstructor; [|apply IH, E]. destruct s. now apply st_rd with v.
    + econstructor; [|apply IH, E]. destruct s. now apply st_wr with v.
Qed.

(** Nobody can go on, decided. *)
Definition stands (own : lock -> option nat) (t : list act) : bool :=
  match t with
  | [] => true
  | Acq l :: _ => match own l with Some _ => true | None => false end
  | _ => false
  end.

Definition stuckb (s : sys) : bool :=
  forallb (stands (s_own s)) (s_th s)
  && existsb (fun t => match t with [] => false | _ => true end) (s_th s).

Lemma stuckb_stuck s : stuckb s = true -> stuck s.
Proof.
  intros E. unfold stuckb in E. apply andb_prop in E. destruct E as [E1 E2].
  rewrite forallb_forall in E1. split.
  - intros F. apply existsb_exists in E2. destruct E2 as (t & I & N).
    unfold finished in F. rewrite Forall_forall in F. rewrite (F _ I) in N. discriminate.
  - intros s' T. destruct T as [ts own i l t N O|ts own i l t N|ts own i v t N|ts own i v t N];
      cbn in *; apply nth_error_In in N; specialize (E1 _ N); cbn in E1.
    + rewrite O in E1. discriminate.
    + discriminate.
    + discriminate.
    + discriminate.
Qed.

Lemma stuck_not_free ts s : reach (start ts) s -> stuck s -> ~ deadlock_free ts.
Proof.
  intros R [U N] F. destruct (F s R) as (s' & R' & F').
  destruct R'; [contradiction|]. eapply N; eassumption.
Qed.
