(** C115, C116: several goroutines use an instance at once. *)
Require Import List Arith Bool Lia.
From Verif Require Import LockModel LockSpec LockProofs.
Import ListNotations.
Open Scope nat_scope.

(** * C115: no deadlock *)

(** Any number of goroutines, each making any calls in any order, together with
    the editor, the terminal and the width handler, and with the filter, the
    completer and the listener making such calls themselves: nobody is ever left
    waiting for a lock.  Stdout and Painter may save history lines and the like,
    FuncGetWidth may also set the prompt and redraw; see the refutations. *)
Theorem C115_free_partial : forall g ps ts,
  polite g -> Forall (calls g) ps -> sequences ps ts -> deadlock_free ts.
Proof.
  intros g ps ts P C Q. apply (sound_free ps ts); [|exact Q].
  apply Forall_forall. intros p I. rewrite Forall_forall in C.
  apply (polite_sound g); auto.
Qed.

(** An execution is never longer than the calls made: no live lock either. *)
Theorem C115_steps : forall s s', step s s' ->
  length (concat (s_th s')) < length (concat (s_th s)).
Proof. intros s s' T. pose proof (step_left _ _ T) as L. unfold left_over in L. lia. Qed.

Definition gs : given := {| g_paint := PSkip; g_write := PSkip; g_width := PSkip |}.

Lemma gs_polite : polite gs.
Proof. split; [constructor|]. split; [constructor|]. apply d_quiet. constructor. Qed.

(** One goroutine stands in SetConfig with o.m, another in Refresh with the
    buffer's lock; a writer wants o.m and SetConfig the buffer's lock. *)
Definition ex_ps : list prog := [m_set_config gs; op_refresh gs; m_write gs].
Definition ex_ts : list (list act) :=
  [fst (pick [true] (m_set_config gs)); fst (pick [true; true] (op_refresh gs));
   fst (pick [true] (m_write gs))].

Lemma ex_calls : Forall (calls gs) ex_ps.
Proof.
  constructor; [apply c_setconfig|]. constructor; [apply c_drawing, d_refresh|].
  constructor; [apply c_write|constructor].
Qed.

Example C115_ex :
  polite gs /\ Forall (calls gs) ex_ps /\ sequences ex_ps ex_ts /\
  exists s, reach (start ex_ts) s /\
    s_own s LOp = Some 0 /\ s_own s LBuf = Some 1 /\
    (exists t, nth_error (s_th s) 0 = Some (Acq LBuf :: t)) /\
    (exists t, nth_error (s_th s) 2 = Some (Acq LOp :: t)).
Proof.
  split; [exact gs_polite|]. split.
  { exact ex_calls. }
  split. { repeat constructor; apply pick_tr. }
  destruct (run [0; 0; 0; 1] (start ex_ts)) as [s|] eqn:E; [|vm_compute in E; discriminate].
  exists s. split; [exact (run_reach _ _ _ E)|].
  vm_compute in E. injection E as <-.
  split; [reflexivity|]. split; [reflexivity|].
  split; eexists; reflexivity.
Qed.

(** A Painter that asks for the configuration (rl.Stdout() does): redrawing and
    SetConfig each finish alone, together they wait for one another. *)
Definition gp : given := {| g_paint := get_config; g_write := PSkip; g_width := PSkip |}.
Definition gp_ts : list (list act) :=
  [fst (pick [true; true; false; true] (op_refresh gp)); fst (pick [true] (m_set_config gp))].

Theorem C115_painter_refuted : exists g ps ts,
  calls g (g_paint g) /\ quiet (g_write g) /\ quiet (g_width g) /\
  Forall (calls g) ps /\ sequences ps ts /\
  (forall t, In t ts -> exists s, reach (start [t]) s /\ finished s) /\
  exists s, reach (start ts) s /\ stuck s.
Proof.
  exists gp, [op_refresh gp; m_set_config gp], gp_ts.
  split; [apply c_config|]. split; [constructor|]. split; [constructor|].
  split; [constructor; [apply c_drawing, d_refresh|constructor; [apply c_setconfig|constructor]]|].
  split; [repeat constructor; apply pick_tr|]. split.
  - assert (A : forall t, In t gp_ts ->
      match run (repeat 0 (length t)) (start [t]) with
      | Some s => forallb (fun u => match u with [] => true | _ => false end) (s_th s)
      | None => false end = true).
    { assert (B : forallb (fun t => match run (repeat 0 (length t)) (start [t]) with
      | Some s => forallb (fun u => match u with [] => true | _ => false end) (s_th s)
      | None => false end) gp_ts = true) by (vm_compute; reflexivity).
      rewrite forallb_forall in B. exact B. }
    intros t I. specialize (A t I). destruct (run _ _) as [s|] eqn:E; [|discriminate].
    exists s. split; [exact (run_reach _ _ _ E)|]. unfold finished. apply Forall_forall.
    rewrite forallb_forall in A. intros u J. specialize (A u J). destruct u; [reflexivity|discriminate].
  - destruct (run ([1; 1; 1] ++ repeat 0 10) (start gp_ts)) as [s|] eqn:E; [|vm_compute in E; discriminate].
    exists s. split; [exact (run_reach _ _ _ E)|]. apply stuckb_stuck.
    vm_compute in E. injection E as <-. vm_compute. reflexivity.
Qed.

(** A Stdout that sets the prompt, a FuncGetWidth that asks for the
    configuration: one goroutine is enough. *)
Definition gw : given := {| g_paint := PSkip; g_write := buf_set_prompt; g_width := PSkip |}.
Theorem C115_stdout_refuted : exists g t s,
  drawing g (g_write g) /\ quiet (g_paint g) /\ quiet (g_width g) /\
  calls g (op_refresh g) /\ tr (op_refresh g) t /\ reach (start [t]) s /\ stuck s.
Proof.
  set (t := fst (pick [true; true; true] (op_refresh gw))).
  destruct (run (repeat 0 12) (start [t])) as [s|] eqn:E; [|vm_compute in E; discriminate].
  exists gw, t, s. split; [apply d_prompt|]. split; [constructor|]. split; [constructor|].
  split; [apply c_drawing, d_refresh|]. split; [apply pick_tr|]. split; [exact (run_reach _ _ _ E)|].
  apply stuckb_stuck. vm_compute in E. injection E as <-. vm_compute. reflexivity.
Qed.

Definition gq : given := {| g_paint := PSkip; g_write := PSkip; g_width := get_config |}.
Theorem C115_width_refuted : exists g t s,
  calls g (g_width g) /\ quiet (g_paint g) /\ quiet (g_write g) /\
  calls g (m_set_config g) /\ tr (m_set_config g) t /\ reach (start [t]) s /\ stuck s.
Proof.
  set (t := fst (pick [true] (m_set_config gq))).
  destruct (run (repeat 0 14) (start [t])) as [s|] eqn:E; [|vm_compute in E; discriminate].
  exists gq, t, s. split; [apply c_config|]. split; [constructor|]. split; [constructor|].
  split; [apply c_setconfig|]. split; [apply pick_tr|]. split; [exact (run_reach _ _ _ E)|].
  apply stuckb_stuck. vm_compute in E. injection E as <-. vm_compute. reflexivity.
Qed.

(** * C116: races *)

Definition safe_fields : list var := [VPrompt; VInter; VClean; VBufCfg; VFd].

(** The prompt, the interactive flag, the mark that the line is erased, the
    buffer's configuration pointer and the history file's handle are never
    raced for. *)
Theorem C116_safe_partial : forall g ps ts s v,
  polite g -> Forall (calls g) ps -> sequences ps ts ->
  reach (start ts) s -> In v safe_fields -> ~ race v s.
Proof.
  intros g ps ts s v P C Q R I.
  assert (J : inv s).
  { eapply reach_inv; [exact R|]. eapply start_inv; [|exact Q].
    apply Forall_forall. intros p K. rewrite Forall_forall in C. apply (polite_sound g); auto. }
  cbn in I. destruct I as [<-|[<-|[<-|[<-|[<-|[]]]]]];
    (eapply inv_race; [reflexivity|exact J]).
Qed.

Definition var_dec (a b : var) : {a = b} + {a <> b}.
Proof. decide equality. Defined.

(** Two goroutines, which choices they make, how far each goes. *)
Definition raceb (v : var) (p q : prog) (c d : list bool) (sch : list nat) : bool :=
  match run sch (start [fst (pick c p); fst (pick d q)]) with
  | Some s =>
      match s_th s with
      | [Wr a :: _; Rd b :: _] =>
          if var_dec a v then if var_dec b v then true else false else false
      | _ => false
      end
  | None => false
  end.

Definition raced (v : var) : Prop := exists g ps ts s,
  polite g /\ Forall (calls g) ps /\ sequences ps ts /\ reach (start ts) s /\ race v s.

Lemma raceb_raced v p q c d sch :
  calls gs p -> calls gs q -> raceb v p q c d sch = true -> raced v.
Proof.
  intros P Q E. unfold raceb in E. destruct (run _ _) as [s|] eqn:R; [|discriminate].
  exists gs, [p; q], [fst (pick c p); fst (pick d q)], s.
  split; [exact gs_polite|]. split; [constructor; [exact P|constructor; [exact Q|constructor]]|].
  split; [repeat constructor; apply pick_tr|]. split; [exact (run_reach _ _ _ R)|].
  destruct (s_th s) as [|[|[| | |a] t] [|[|[| |b|] u] [|]]] eqn:T; try discriminate.
  destruct (var_dec a v) as [->|]; [|discriminate].
  destruct (var_dec b v) as [->|]; [|discriminate].
  exists 0, 1, (Wr v :: t), (Rd v :: u). rewrite T. split; [lia|]. split; [reflexivity|].
  split; [reflexivity|]. split; [now exists t|]. exists u. now left.
Qed.

Definition key := m_key gs PSkip PSkip PSkip.
(** The editor's turn for the Enter key. *)
Definition cs_enter : list bool :=
  [false; true; true; false; false; true; true; true; true; true; true; false].
(** A write during a search. *)
Definition cs_write : list bool := [true; true; true; true; false; true].

Lemma key_calls : calls gs key.
Proof. apply c_key; apply c_drawing, d_quiet; constructor. Qed.

(** The Enter key empties the line without the lock while another goroutine
    redraws it. *)
Theorem C116_line_refuted : raced VLine.
Proof.
  apply (raceb_raced VLine key (op_refresh gs) cs_enter [true; true] (repeat 0 23 ++ repeat 1 4));
    [exact key_calls|apply c_drawing, d_refresh|vm_compute; reflexivity].
Qed.

(** Two goroutines save history lines, or one does while the history is reset:
    the list is not protected. *)
Theorem C116_history_refuted : raced VHist.
Proof.
  apply (raceb_raced VHist hist_write hist_new [] [] []);
    [apply c_drawing, d_quiet; constructor|apply c_drawing, d_quiet; constructor|vm_compute; reflexivity].
Qed.

(** The five fields above are exactly those that cannot be raced for: for each
    of the others two calls of the library race. *)
Theorem C116_exact : forall v, raced v <-> ~ In v safe_fields.
Proof.
  intros v. split.
  - intros (g & ps & ts & s & P & C & Q & R & A) I.
    exact (C116_safe_partial g ps ts s v P C Q R I A).
  - intros N. destruct v; try (destruct N; cbn; tauto).
    + apply (raceb_raced VWidth (m_width gs) (m_write gs) [] cs_write (repeat 1 36 ++ repeat 0 3));
        [apply c_width|apply c_write|vm_compute; reflexivity].
    + exact C116_line_refuted.
    + exact C116_history_refuted.
    + apply (raceb_raced VCfg (m_set_config gs) (PRd VCfg) [true] [] [0; 0]);
        [apply c_setconfig|apply c_genpassword|vm_compute; reflexivity].
    + apply (raceb_raced VMask buf_set_mask get_config [] [] [1; 1; 0; 0]);
        [apply c_drawing, d_mask|apply c_config|vm_compute; reflexivity].
    + apply (raceb_raced VVim (PSeq (PRd VVim) (PWr VVim)) (PRd VVim) [] [] [0]);
        [apply c_drawing, d_quiet; constructor|apply c_drawing, d_quiet; constructor|vm_compute; reflexivity].
    + apply (raceb_raced VTermCfg t_set (op_refresh gs) [] [true; true; true] (repeat 1 11 ++ [0]));
        [apply c_drawing, d_quiet; constructor|apply c_drawing, d_refresh|vm_compute; reflexivity].
    + apply (raceb_raced VMenu (m_width gs) (m_write gs) [] [true; true; true; true] (repeat 1 27));
        [apply c_width|apply c_write|vm_compute; reflexivity].
    + apply (raceb_raced VSearch (m_width gs) (m_write gs) [] [true; true; true; true] (repeat 1 26 ++ [0]));
        [apply c_width|apply c_write|vm_compute; reflexivity].
Qed.

Print Assumptions C115_free_partial.
Print Assumptions C116_exact.
