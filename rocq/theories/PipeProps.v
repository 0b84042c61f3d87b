(** Property C127: input that does not come from a terminal. *)
From Verif Require Import Base ListAux RunesModel RuneBufModel HistoryModel HistoryProofs ScreenModel RenderModel RenderMore RenderProps OpModel OpSpec OpKeys OpProps OpStep OutModel SeekModel SeekProps CompModel PipeModel PipeSpec PipeProofs.
Open Scope Z_scope.

(** Any session with any input (lines of any length, any characters, end of input, output from elsewhere at any time):
    what is written is the texts printed and a bell for each key reported to have no effect, in that order; no prompt,
    no escape sequence, whatever the width and wherever output goes; and drawing never fails. *)
Theorem C127_silent : forall cf is o rd d o' acts, oc_vim cf = false -> Forall (pipe_inp cf) is -> idle o ->
  d_inter d = false -> (exists v, ColorFilter (d_prompt d) = Ok v) -> op_run cf (keys_of is) o = Ok (o', acts) ->
  exists rd' d' out, pipe_run cf (o, (rd, d)) is = Ok ((o', (rd', d')), out, acts) /\ writes cf is o out o' acts /\
    (~ In ABell acts -> out = flat_map (fun i => match i with IPrint t => t | _ => [] end) is).
Proof.
  intros cf is o rd d o' acts V F D I (v & P) E. destruct (writes_exists cf is _ _ _ E) as (out & W).
  destruct (session_rings cf V (d_prompt d) v is P F o rd d o' out acts D ltac:(now split) W) as (rd' & d' & R).
  exists rd', d', out. split; [exact R|]. split; [exact W|]. intros N. now apply (writes_silent cf is o out o' acts).
Qed.
Print Assumptions C127_silent.

(** A file piped in: its lines are returned, an unterminated last one too, then the end; nothing is written. *)
Theorem C127_file : forall cf ls tail o rd d n, OpSpec.plain cf -> oc_vim cf = false -> at_rest o -> d_inter d = false ->
  (exists v, ColorFilter (d_prompt d) = Ok v) ->
  Forall (fun le => Forall ordinary (fst le) /\ (snd le = 13 \/ snd le = 10)) ls -> Forall ordinary tail -> (2 <= n)%nat ->
  exists o' rd' d', pipe_run cf (o, (rd, d)) (IRead :: map IKey (typed ls ++ tail ++ repeat 0 n)) =
    Ok ((o', (rd', d')), [], map (fun le => ALine (fst le)) ls ++ match tail with [] => [] | _ => [ALine tail] end ++ [AEof]).
Proof.
  intros cf ls tail o rd d n Pl V A I P Fl Ft N. destruct (C38_lines cf ls tail o n Pl A Fl Ft N) as (o' & E & _).
  set (rs := typed ls ++ tail ++ repeat 0 n) in *.
  assert (K : Forall (pipe_inp cf) (IRead :: map IKey rs)).
  { constructor; [exact Logic.I|]. apply Forall_map. assert (H : forall r, ordinary r \/ r = 13 \/ r = 10 \/ r = 0 -> pipe_inp cf (IKey r)).
    { intros r H r'. cbn [pipe_inp]. rewrite (proj2 Pl). intros X. injection X as <-. unfold ordinary in H. split.
      - cbn [In]. unfold CharBckSearch, CharFwdSearch, CharCtrlL, CharCtrlZ. lia.
      - unfold CharTab. lia. }
    unfold rs. apply Forall_app. split; [|apply Forall_app; split].
    - clear - Fl H. induction Fl as [|[l e] ls (X & Y) _ IH]; cbn in *; [constructor|]. apply Forall_app. split; [eapply Forall_impl; [|exact X]; auto|]. constructor; [apply H; tauto|exact IH].
    - eapply Forall_impl; [|exact Ft]. auto.
    - apply Forall_forall. intros r X. apply repeat_spec in X. auto. }
  rewrite <- (keys_of_keys rs) in E.
  assert (D : idle o) by (destruct A; constructor; assumption).
  destruct (C127_silent cf _ o rd d o' _ V K D I P E) as (rd' & d' & out & R & _ & S). exists o', rd', d'. rewrite R. do 3 f_equal.
  rewrite S.
  - cbn [flat_map app]. clear. induction rs; [reflexivity|assumption].
  - intros X. apply in_app_or in X. destruct X as [X|X]; [apply in_map_iff in X; destruct X as (x & X & _); discriminate|].
    apply in_app_or in X. destruct X as [X|[X|[]]]; [destruct tail; [destruct X|destruct X as [X|[]]; discriminate]|discriminate].
Qed.
Print Assumptions C127_file.

(** What the editor does does not depend on the width, not even without one (-1: no output is a terminal); so what is
    shown for a positive width (C74) holds. *)
Theorem C127_width : forall cf rs o w, oc_vim cf = false -> Forall (pipe_key cf) rs -> idle o ->
  op_run (set_width w cf) rs o = op_run cf rs o.
Proof. intros cf rs o w V F D. now apply run_width. Qed.
Print Assumptions C127_width.
Theorem C127_lives : forall cf rs o w, good_config (set_width 80 cf) -> oc_vim cf = false -> started o ->
  Forall (fun r => pipe_key cf r /\ r <> CharTranspose) rs -> exists o' acts, op_run (set_width w cf) rs o = Ok (o', acts).
Proof.
  intros cf rs o w G V S F. assert (D : idle o) by (destruct S as [[] ? ? ?]; constructor; assumption).
  assert (F' : Forall (pipe_key cf) rs) by (eapply Forall_impl; [|exact F]; intros ? X; apply X).
  rewrite (run_width cf V w rs F' o D), <- (run_width cf V 80 rs F' o D). apply C74_no_crash_partial; [exact G|exact S|].
  clear S F'. revert o D. induction F as [|r rs (K & T) _ IH]; intros o D; cbn [safe]; [exact I|]. split.
  - unfold trips. rewrite (id_vp _ D), (id_c _ D), (id_sel _ D). cbn [oc_vim set_width]. rewrite V. cbn [andb]. unfold CharTranspose in T. intuition congruence.
  - intros o1 a E. apply IH. rewrite (step_width cf V 80 r o D K) in E. apply (key_rings cf V r o o1 a D K E).
Qed.
Print Assumptions C127_lives.

(** "> " as prompt, no output is a terminal. *)
Definition c127_cf (auto : option (list Z -> nat -> list (list Z) * nat)) (w : Z) : ocfg := set_width w (excf u0 80 auto false).
Definition c127_d (w : Z) : rdr :=
  {| d_prompt := [62;32]; d_buf := []; d_idx := 0; d_width := w; d_had := false; d_inter := false; d_mask := None; d_paint := fun b _ => b |}.
Definition c127_out (w : Z) (is : list inp) : option (list Z * list act) :=
  match pipe_run (c127_cf None w) (fresh, (false, c127_d w)) is with Ok (_, out, acts) => Some (out, acts) | _ => None end.
(** Two characters, newline, "x" is printed by another goroutine, Up, Up (there is no older line: bell), "!", end of the input *)
Example C127_ex :
  let is := [IRead; IKey 104; IKey 20320; IKey 10; IRead; IPrint [120;10]; IKey 16; IKey 16; IKey 33; IKey 0; IRead; IKey 0] in
  Forall (pipe_inp (c127_cf None (-1))) is /\ idle fresh /\
  c127_out (-1) is = Some ([120;10;7], [ALine [104;20320]; ABell; ALine [104;20320;33]; AEof]).
Proof.
  cbv zeta. split.
  { repeat (constructor; [first [exact I | intros r' X; injection X as <-; split; [vm_compute; intuition discriminate|reflexivity]]|]). constructor. }
  split; [constructor; reflexivity|]. vm_compute. reflexivity.
Qed.

(** an editor which has returned a line; "h", Ctrl-A, Tab, Ctrl-W, Up, Down, Ctrl-D, Enter, Ctrl-C, end of the input *)
Definition c127_o : op := match op_run (c127_cf None (-1)) [120; 13] fresh with Ok (o, _) => o | _ => fresh end.
Example C127_ex2 : good_config (set_width 80 (c127_cf None (-1))) /\ started c127_o /\
  Forall (fun r => pipe_key (c127_cf None (-1)) r /\ r <> CharTranspose) [104;1;9;23;16;14;4;13;3;0] /\
  exists o', op_run (c127_cf None (-1)) [104;1;9;23;16;14;4;13;3;0] c127_o = Ok (o', [ABell; AKick; ABell; ALine [104]; AIntr []; AEof]).
Proof.
  split; [constructor; [reflexivity|cbn; lia|eexists; reflexivity|discriminate|reflexivity|reflexivity]|]. split.
  { vm_compute. constructor; try reflexivity; try discriminate. constructor; try reflexivity.
    constructor; cbn; [repeat constructor; cbn; intuition discriminate| | |tauto]; repeat constructor; cbn; lia. }
  split.
  { repeat (constructor; [split; [intros r' X; injection X as <-; split; [vm_compute; intuition discriminate|reflexivity]|discriminate]|]). constructor. }
  eexists. vm_compute. reflexivity.
Qed.

(** Ctrl-R in the input without any terminal: a crash (CursorLineCount is negative, bytes.Repeat panics). *)
Theorem C127_search_refuted : exists rs, rs = [97;18] /\ op_run (c127_cf None (-1)) rs fresh = Panic /\
  exists o' acts, op_run (c127_cf None 80) rs fresh = Ok (o', acts).
Proof. eexists. split; [reflexivity|]. split; [vm_compute; reflexivity|]. eexists _, _. vm_compute. reflexivity. Qed.
Print Assumptions C127_search_refuted.
(** So does a tabulator in the input if there is a completer with several candidates. *)
Theorem C127_tab_refuted : exists rs, rs = [97;9] /\ op_run (c127_cf (Some ab) (-1)) rs fresh = Panic /\
  exists o' acts, op_run (c127_cf (Some ab) 80) rs fresh = Ok (o', acts).
Proof. eexists. split; [reflexivity|]. split; [vm_compute; reflexivity|]. eexists _, _. vm_compute. reflexivity. Qed.
Print Assumptions C127_tab_refuted.
(** With a width Ctrl-R in the input writes the search status with its escape sequences. *)
Definition c127_seek (w : Z) (is : list inp) : option (list Z) :=
  match seek_run (c127_cf None w) (fresh, (false, c127_d w)) is with Ok (_, out, _) => Some out | _ => None end.
Theorem C127_status_refuted : exists out, c127_seek 80 [IRead; IKey 97; IKey 18] = Some out /\ In 27 out.
Proof. eexists. split; [vm_compute; reflexivity|]. cbn. tauto. Qed.
Print Assumptions C127_status_refuted.

(** When the width is missing: exactly when neither output is a terminal, and then the instance is not interactive. *)
Theorem C127_screen_width : forall f,
  (GetScreenWidth f = -1 <-> fd_out f = None /\ fd_err f = None) /\
  (DefaultIsTerminal f = true -> 0 <= GetScreenWidth f) /\
  (forall n, fd_out f = Some n -> GetScreenWidth f = Z.of_nat n) /\
  (forall n, fd_out f = None -> fd_err f = Some n -> GetScreenWidth f = Z.of_nat n).
Proof.
  intros [i o e]. unfold GetScreenWidth, DefaultIsTerminal, getWidth. cbn [fd_in fd_out fd_err]. destruct o as [o|]; cbn [IsTerminal].
  - replace (Z.of_nat o <? 0) with false by lia. split; [split; [lia|intros (X & _); discriminate]|]. split; [lia|]. split; [intros n E; injection E as ->; reflexivity|discriminate].
  - change (-1 <? 0) with true. cbv iota. destruct e as [e|]; cbn [IsTerminal].
    + split; [split; [lia|intros (_ & X); discriminate]|]. split; [lia|]. split; [discriminate|]. intros n _ E. injection E as ->. reflexivity.
    + split; [tauto|]. split; [destruct i; discriminate|]. split; discriminate.
Qed.
Print Assumptions C127_screen_width.
(** The instance is interactive exactly when the standard input and at least one of the outputs are terminals. *)
Theorem C127_interactive : forall f, DefaultIsTerminal f = true <-> fd_in f <> None /\ (fd_out f <> None \/ fd_err f <> None).
Proof.
  intros [[i|] [o|] [e|]]; cbn; split; try discriminate; try reflexivity; intros H; try (split; [|(left; discriminate) || (right; discriminate)]; discriminate);
    destruct H as (A & [B|B]); congruence.
Qed.
Print Assumptions C127_interactive.
(** Example: "prog < in > out" with standard error on a terminal of 80 columns has a width and is not interactive. *)
Example C127_fds_ex : GetScreenWidth {| fd_in := None; fd_out := None; fd_err := Some 80%nat |} = 80 /\
  DefaultIsTerminal {| fd_in := None; fd_out := None; fd_err := Some 80%nat |} = false /\
  DefaultIsTerminal {| fd_in := Some 80%nat; fd_out := None; fd_err := Some 80%nat |} = true.
Proof. repeat split. Qed.
