(** Property C129: the screen whatever the order in which the goroutines of an instance run. *)
From Verif Require Import Base ListAux RunesModel RunesSpec RuneBufModel RuneBufSpec HistoryModel HistoryProofs TerminalModel TerminalSpec ScreenModel RenderModel RenderSpec RenderProofs RenderSession RenderProps OpModel OpSpec OpProofs OpStep OpKeys OpProps FilterSpec OutModel OutSpec OutProofs OutProps SessionModel SessionProofs RaceModel RaceSpec RaceProofs.
Open Scope Z_scope.

(** A session without UniqueEditLine, mask and listener, started on a free part of the screen, keys as in C123. *)
Record race_start (cf : ocfg) (ps : list piece) (paint : list Z -> nat -> list Z) (i : list Z) (o : op) (y0 : Z) (s : scr) : Prop := {
  rs_session : plain_session cf;
  rs_unique : oc_unique cf = false;
  rs_gentle : gentle cf;
  rs_uenv : uenv_ok (oc_u cf);
  rs_width : 0 < oc_w cf <= 9223372036854775807;
  rs_digits : Forall sgr_digits ps;
  rs_plain : Forall (RenderSpec.plain (oc_u cf)) (visible ps);
  rs_short : Z.of_nat (length (visible ps)) + 1 < oc_w cf;
  rs_paint : colouring (oc_u cf) paint;
  rs_prompt : at_prompt cf o;
  rs_buf : rb_buf (o_b o) = [];
  rs_idx : rb_idx (o_b o) = 0%nat;
  rs_nul : Forall (fun k => k <> 0) (keys_of (oc_u cf) (oc_vim cf) i);
  rs_typed : typed cf (keys_of (oc_u cf) (oc_vim cf) i) o;
  rs_free : free_from (oc_w cf) y0 s
}.

Lemma race_J cf ps paint i o y0 s c : race_start cf ps paint i o y0 s -> preach cf (conc_new i o (new_rdr cf ps paint)) c ->
  printable_log (oc_u cf) (n_log c) -> one_write (n_log c) -> J cf ps i o y0 s c.
Proof.
  intros [C Un G U W PD PV PS Pt A B I Nz T F] R Pl Ow.
  refine (J_reach cf C G W U ps PD PV PS i o Nz A T y0 s _ c _ R Pl Ow).
  apply J_new; try assumption; try reflexivity. constructor; cbn; auto.
Qed.

(** Readline called, printed, pressed in any order and at any speed, other goroutines printing while Readline waits: each time
    Readline waits for a key and the editor is ready for one, the screen shows what was returned and printed so far, in
    the order of the program, then the prompt and the line as the keys handled so far make it, the cursor in place; the
    keys handled are a beginning of the input, their results those returned. *)
Theorem C129_waiting_partial : forall cf ps paint i o0 y0 s c o, race_start cf ps paint i o0 y0 s ->
  preach cf (conc_new i o0 (new_rdr cf ps paint)) c -> printable_log (oc_u cf) (n_log c) -> one_write (n_log c) ->
  n_p c = PWait -> ss_err (n_s c) = None -> ss_e (n_s c) = ERecv o ->
  let s' := sexecs (oc_u cf) (oc_w cf) s (n_out c) in
  screen_is (oc_w cf) (visible ps) y0
    {| k_done := above cf (visible ps) (n_log c); k_line := rb_buf (o_b o); k_idx := rb_idx (o_b o); k_reading := true |} s' /\
  same_above y0 s s' /\
  exists ks rest a, keys_of (oc_u cf) (oc_vim cf) i = ks ++ rest /\ op_run cf ks o0 = Ok (o, a) /\ results a = got (n_log c).
Proof.
  intros cf ps paint i o0 y0 s c o S R Pl Ow Pw Er Ee. cbn zeta. pose proof (race_J _ _ _ _ _ _ _ _ S R Pl Ow) as Jc.
  destruct S as [C Un G U W PD PV PS Pt A B I Nz T F].
  destruct (j_inv cf C G ps i o0 Nz A T y0 s c Jc) as (ks & a & o' & Vr & Vc & Vs & Vk & _). rewrite Ee in Vc. injection Vc as <-.
  destruct (j_draw _ _ _ _ _ _ _ Jc) as (k & oc & st & Dc & Da & Dl & _). rewrite Ee in Dc. injection Dc as <-.
  assert (Es : n_es c = []).
  { destruct (n_es c) eqn:E; [reflexivity|]. destruct (j_es _ _ _ _ _ _ _ Jc) as (_ & _ & oa & ob & aa & X); [now rewrite E|congruence]. }
  rewrite Es in Dl. apply still in Dl. subst k. unfold goal, under in *. rewrite Er, Ee, Pw in *.
  cbn [opt pend app results filter flat_map nil] in *. rewrite app_nil_r in *. destruct Da as (_ & _ & _ & _ & _ & _ & _ & _ & D1 & D2).
  split; [exact D1|]. split; [exact D2|]. exists ks, (to_come (oc_u cf) cf (n_s c)), a. split; [now symmetry|]. split; [exact Vr|].
  rewrite Vs. apply (j_got _ _ _ _ _ _ _ Jc).
Qed.
Print Assumptions C129_waiting_partial.

(** While the program is between two calls: what was returned and printed, the cursor at the start of the next row; only
    after it has printed through Instance.Stdout there may be a prompt with the editor's line too (C129_stray_refuted). *)
Theorem C129_between_partial : forall cf ps paint i o0 y0 s c, race_start cf ps paint i o0 y0 s ->
  preach cf (conc_new i o0 (new_rdr cf ps paint)) c -> printable_log (oc_u cf) (n_log c) -> one_write (n_log c) ->
  n_p c = PIdle ->
  let s' := sexecs (oc_u cf) (oc_w cf) s (n_out c) in
  exists ks rest o a b, keys_of (oc_u cf) (oc_vim cf) i = ks ++ rest /\ op_run cf ks o0 = Ok (o, a) /\ results a = got (n_log c) /\
  screen_is (oc_w cf) (visible ps) y0
    {| k_done := above cf (visible ps) (n_log c); k_line := rb_buf (o_b o); k_idx := rb_idx (o_b o); k_reading := b |} s' /\
  same_above y0 s s' /\ (b = true -> exists lg ls, n_log c = lg ++ [LWrite ls]).
Proof.
  intros cf ps paint i o0 y0 s c S R Pl Ow Pw. cbn zeta. pose proof (race_J _ _ _ _ _ _ _ _ S R Pl Ow) as Jc.
  destruct S as [C Un G U W PD PV PS Pt A B I Nz T F].
  destruct (j_inv cf C G ps i o0 Nz A T y0 s c Jc) as (ks & a & o & Vr & Vc & Vs & Vk & _).
  destruct (j_quiet cf C G W ps i o0 Nz A T y0 s c Jc) as (Q1 & Q2 & Q3 & Q4); [congruence|].
  destruct (j_draw _ _ _ _ _ _ _ Jc) as (k & oc & st & Dc & Da & Dl & Ds). rewrite Vc in Dc. injection Dc as <-.
  rewrite Q2 in Dl. apply still in Dl. subst k. unfold goal in Da. rewrite Q1, Pw in Da. cbn [flat_map] in Da. rewrite app_nil_r in Da.
  destruct Da as (_ & _ & _ & _ & _ & _ & _ & _ & D1 & D2). rewrite Q1, app_nil_r in Vs.
  exists ks, (to_come (oc_u cf) cf (n_s c)), o, a, st. split; [now symmetry|]. split; [exact Vr|]. split; [rewrite Vs; apply (j_got _ _ _ _ _ _ _ Jc)|].
  split; [exact D1|]. split; [exact D2|]. intros X. apply (Ds X). now rewrite Pw.
Qed.
Print Assumptions C129_between_partial.

(** No order of events breaks the editor. *)
Theorem C129_alive : forall cf ps paint i o0 y0 s c, race_start cf ps paint i o0 y0 s ->
  preach cf (conc_new i o0 (new_rdr cf ps paint)) c -> printable_log (oc_u cf) (n_log c) -> one_write (n_log c) ->
  ss_e (n_s c) <> ECrash.
Proof. intros cf ps paint i o0 y0 s c S R Pl Ow. exact (j_alive _ _ _ _ _ _ _ (race_J _ _ _ _ _ _ _ _ S R Pl Ow)). Qed.
Print Assumptions C129_alive.

(** [typed] asks only what C123 asks of keys: without listener and filter no such key breaks the editor. *)
Fixpoint pressed (cf : ocfg) (ks : list Z) (o : op) : Prop :=
  match ks with
  | [] => True
  | k :: ks' => may_press cf o k /\ forall o' acts, op_step cf k o = Ok (o', acts) -> pressed cf ks' o'
  end.
Theorem C129_typed : forall cf ks o, plain_session cf -> good_config cf -> started o -> pressed cf ks o -> typed cf ks o.
Proof.
  intros cf ks o C G S.
  assert (R : owf cf o).
  { right. destruct S as [[] ? ? ?]. constructor; try assumption; try congruence.
    - unfold inside. rewrite ar_idx. lia.
    - now split.
    - now split.
    - intros [X|X]; congruence. }
  clear S. revert o R. induction ks as [|k ks IH]; intros o R T; [exact I|].
  cbn [pressed typed] in *. destruct T as (Kr & T). split; [exact Kr|].
  assert (N : ~ trips cf o k).
  { unfold may_press in Kr. destruct (o_vp o) as [[]|] eqn:Vp; [apply Kr|unfold trips; rewrite Vp; tauto..|].
    rewrite (gc_filter _ G) in Kr. apply (Kr k eq_refl). }
  destruct (step_ok cf G k o R N) as (o1 & a1 & E & R1). exists o1, a1. split; [exact E|exact (IH o1 R1 (T o1 a1 E))].
Qed.
Print Assumptions C129_typed.


(** ** A run, and how it goes wrong *)
Definition c129_new (i : list Z) : conc := conc_new i fresh (new_rdr c123_cf [Vis 62; Vis 32] (fun b _ => b)).
Definition c129_look (c : conc) : list (list Z) * Z * Z :=
  let s := sexecs u0 6 scr0 (n_out c) in (cells s 4 6, s_row s, s_col s).

Lemma c129_start i : keys_of u0 false i = i -> Forall (fun k => k <> 0) i -> typed c123_cf i fresh ->
  race_start c123_cf [Vis 62; Vis 32] (fun b _ => b) i fresh 0 scr0.
Proof.
  intros K N P. constructor; try reflexivity.
  - constructor; try reflexivity; try (apply c123_plain; reflexivity); discriminate.
  - exact u0_ok.
  - split; [reflexivity|discriminate].
  - repeat constructor.
  - apply c123_plain; reflexivity.
  - apply default_painter.
  - constructor; try reflexivity; try constructor; constructor.
  - change (oc_u c123_cf) with u0. change (oc_vim c123_cf) with false. now rewrite K.
  - change (oc_u c123_cf) with u0. change (oc_vim c123_cf) with false. now rewrite K.
  - split; [intros y x _ _; cbn; now destruct (Z.to_nat _)|repeat split; reflexivity].
Qed.

Ltac press :=
  repeat lazymatch goal with
  | |- typed _ [] _ => exact I
  | |- typed _ (?r :: _) _ =>
      split; [intros r' X; injection X as <-; split; [vm_compute; intuition discriminate|split; [discriminate|left]];
        first [left; repeat split; vm_compute; congruence
              |right; left; vm_compute; tauto
              |right; right; right; split; reflexivity]|
        do 2 eexists; split; [vm_compute; reflexivity|]]
  end.

(** Readline called, its prompt drawn, the terminal goroutine starts, then it takes the kick *)
Definition c129_begin : list mv := [MCall; MC; MT; MC; MT; MT].
(** a key read, handed over, drawn, done *)
Definition c129_key : list mv := [MT; ME; ME; ME].
(** Enter: read, handed over, drawn, returned *)
Definition c129_enter : list mv := [MT; ME; ME; ME; ME].

(** "a" entered, "x" printed through Instance.Stdout, Readline called again, "b" typed while another goroutine prints "z", then
    Ctrl-B. *)
Definition c129_in : list Z := [97; 13; 98; 2].
Definition c129_run : list mv :=
  c129_begin ++ c129_key ++ c129_enter ++ [MT; MWrite [[120]]; MC; MCall; MC; MC; MT; MT; MBack [[122]]] ++ c129_key ++ [MBackW] ++ c129_key.
Example C129_ex :
  race_start c123_cf [Vis 62; Vis 32] (fun b _ => b) c129_in fresh 0 scr0 /\
  exists c o, preach c123_cf (c129_new c129_in) c /\ printable_log u0 (n_log c) /\ one_write (n_log c) /\
    n_p c = PWait /\ ss_err (n_s c) = None /\ ss_e (n_s c) = ERecv o /\
    n_log c = [LCall; LRes (ALine [97]); LWrite [[120]]; LCall; LBack [[122]]] /\
    c129_look c = ([[62;32;97;32;32;32]; [120;32;32;32;32;32]; [122;32;32;32;32;32]; [62;32;98;32;32;32]], 3, 2).
Proof.
  split.
  - apply c129_start; [reflexivity|repeat constructor; discriminate|]. unfold c129_in. press.
  - destruct (gos c123_cf c129_run (c129_new c129_in)) as [c|] eqn:E; [|vm_compute in E; discriminate].
    assert (R : preach c123_cf (c129_new c129_in) c) by (apply (gos_preach _ _ _ _ _ (pr_0 _ _) (eq_refl : polite c123_cf c129_run (c129_new c129_in) = true) E)).
    vm_compute in E. injection E as E. eexists c, _. split; [exact R|]. rewrite <- E. cbn [n_log n_p n_s ss_err ss_e].
    split; [repeat constructor; vm_compute; intuition congruence|]. split; [vm_compute; repeat split|]. repeat (split; [reflexivity|]). vm_compute. reflexivity.
Qed.

Ltac run E := lazymatch type of E with gos ?cf ?ms ?c0 = Some ?c =>
  let R := fresh "R" in assert (R : creach cf c0 c) by exact (gos_creach _ _ _ _ _ (cr_0 _ _) E);
  exists c; split; [exact R|]; vm_compute in E; injection E as <-; vm_compute; repeat (split; [reflexivity|]); try reflexivity end.
Ltac runs ms := lazymatch goal with |- exists c, creach ?cf ?c0 c /\ _ =>
  let c := fresh "c" in let E := fresh "E" in destruct (gos cf ms c0) as [c|] eqn:E; [run E|vm_compute in E; discriminate] end.

(** "a" entered and "x" printed through Instance.Stdout before the terminal goroutine has noted that it is idle
    (terminal.go:135): a prompt stands on the screen though Readline is not called. *)
Theorem C129_stray_refuted : exists c, creach c123_cf (c129_new [97; 13]) c /\ n_p c = PIdle /\
  n_log c = [LCall; LRes (ALine [97]); LWrite [[120]]] /\
  c129_look c = ([[62;32;97;32;32;32]; [120;32;32;32;32;32]; [62;32;32;32;32;32]; [32;32;32;32;32;32]], 2, 2).
Proof. runs (c129_begin ++ c129_key ++ c129_enter ++ [MWrite [[120]]; MC]). Qed.
Print Assumptions C129_stray_refuted.

(** "y" printed after it: behind that prompt. *)
Theorem C129_two_refuted : exists c, creach c123_cf (c129_new [97; 13]) c /\ n_p c = PIdle /\
  n_log c = [LCall; LRes (ALine [97]); LWrite [[120]]; LWrite [[121]]] /\
  c129_look c = ([[62;32;97;32;32;32]; [120;32;32;32;32;32]; [62;32;121;32;32;32]; [32;32;32;32;32;32]], 3, 0).
Proof. runs (c129_begin ++ c129_key ++ c129_enter ++ [MWrite [[120]]; MC; MT; MWrite [[121]]; MC]). Qed.
Print Assumptions C129_two_refuted.

(** Another goroutine prints "x" when the prompt is drawn but the terminal goroutine is not yet reading: "x" stands behind
    the prompt, and so it stays when a key is typed. *)
Theorem C129_early_refuted : exists c, creach c123_cf (c129_new [97]) c /\ n_p c = PWait /\ ss_err (n_s c) = None /\
  (exists o, ss_e (n_s c) = ERecv o /\ rb_buf (o_b o) = [97]) /\ n_log c = [LCall; LBack [[120]]] /\
  c129_look c = ([[62;32;120;32;32;32]; [62;32;97;32;32;32]; [32;32;32;32;32;32]; [32;32;32;32;32;32]], 1, 3).
Proof. runs ([MCall; MC; MT; MC; MBack [[120]]; MBackW; MT; MT] ++ c129_key). split; [eexists; split; reflexivity|]. repeat (split; [reflexivity|]). reflexivity. Qed.
Print Assumptions C129_early_refuted.

(** Ctrl-D deletes a character of "ab"; another goroutine prints "x" before the terminal goroutine is reading again: it is written
    into the line. *)
Theorem C129_ctrl_d_refuted : exists c, creach c123_cf (c129_new [97; 98; 2; 4]) c /\ n_p c = PWait /\ ss_err (n_s c) = None /\
  (exists o, ss_e (n_s c) = ERecv o /\ rb_buf (o_b o) = [97]) /\ n_log c = [LCall; LBack [[120]]] /\
  c129_look c = ([[62;32;97;120;32;32]; [32;32;32;32;32;32]; [32;32;32;32;32;32]; [32;32;32;32;32;32]], 1, 0).
Proof.
  runs (c129_begin ++ c129_key ++ c129_key ++ c129_key ++ [MT; ME; ME; MT; ME; ME; MBack [[120]]; MBackW]).
  split; [eexists; split; reflexivity|]. repeat (split; [reflexivity|]). reflexivity.
Qed.
Print Assumptions C129_ctrl_d_refuted.

(** Enter pressed after "a"; another goroutine prints "x" when the end of the line is drawn but Readline has not yet returned: a
    prompt stays on the screen. *)
Theorem C129_enter_refuted : exists c, creach c123_cf (c129_new [97; 13]) c /\ n_p c = PIdle /\
  n_log c = [LCall; LBack [[120]]; LRes (ALine [97])] /\
  c129_look c = ([[62;32;97;32;32;32]; [120;32;32;32;32;32]; [62;32;32;32;32;32]; [32;32;32;32;32;32]], 2, 2).
Proof. runs (c129_begin ++ c129_key ++ [MT; ME; MBack [[120]]; ME; MBackW; ME]). Qed.
Print Assumptions C129_enter_refuted.
