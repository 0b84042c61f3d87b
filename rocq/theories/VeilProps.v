(** Property C133: what is shown at a prompt with a mask. *)
From Verif Require Import Base ListAux RunesModel RunesSpec RuneBufModel RuneBufSpec HistoryModel HistoryProofs ScreenModel RenderModel RenderSpec RenderProofs RenderSession RenderProps OpModel OpSpec OpProofs OpStep OpProps OutModel OutSpec OutProofs OutProps PipeSpec WideSpec WideProps BroadSpec BroadProofs BroadProps VeilSpec VeilProofs.
Open Scope Z_scope.

(** the drawing state at the start with EnableMask and MaskRune [m] (readline.go:64-65, runebuf.go:82-86) *)
Definition veil_rdr (cf : ocfg) (ps : list piece) (paint : list Z -> nat -> list Z) (m : Z) : rdr :=
  let d := new_rdr cf ps paint in
  {| d_prompt := d_prompt d; d_buf := d_buf d; d_idx := d_idx d; d_width := d_width d; d_had := d_had d;
     d_inter := d_inter d; d_mask := Some m; d_paint := d_paint d |}.

(** C131's sessions with EnableMask: the screen shows one mask for each character (nothing for the mask NUL), whatever the characters;
    the output of the application is not masked. Nothing above changes. The cursor is two columns, not one, to the left for each
    character behind it. *)
Theorem C133_screen : forall cf ps paint m is o y0 s t o' acts, broad_session cf -> uenv_ok (oc_u cf) -> (1 <= u_tab (oc_u cf))%nat ->
  0 < oc_w cf <= 9223372036854775807 -> Forall sgr_digits ps -> Forall (glyph (oc_u cf)) (visible ps) ->
  columns (oc_u cf) (visible ps) + 1 < oc_w cf -> broad_colouring (oc_u cf) paint -> mask_ok (oc_u cf) m ->
  broad_prompt cf o -> rb_buf (o_b o) = [] -> rb_idx (o_b o) = 0%nat ->
  broad_turn cf (visible ps) is o false -> veil_leaves cf (visible ps) m is o t o' acts -> free_from (oc_w cf) y0 s ->
  exists st out, ses_run cf (o, (false, veil_rdr cf ps paint m)) is = Ok ((o', st), out, acts) /\
    let s' := sexecs (oc_u cf) (oc_w cf) s out in
    veil_screen (oc_u cf) (oc_w cf) (visible ps) m y0 t (length (rb_buf (o_b o'))) (rb_idx (o_b o')) (fst st) s' /\
    same_above y0 s s' /\ d_buf (snd st) = rb_buf (o_b o') /\ d_idx (snd st) = rb_idx (o_b o').
Proof.
  intros cf ps paint m is o y0 s t o' acts C U T W PD PV PS Pt M A B I Tn L F.
  assert (F0 : one_line cf (visible ps ++ [])) by (unfold one_line; rewrite app_nil_r; lia).
  destruct (veil_agrees cf C U T W ps PD PV PS m M is o false [] (false, veil_rdr cf ps paint m) y0 s s t o' acts A) as (st & out & E & _ & G).
  - now rewrite B.
  - exact Tn.
  - exact L.
  - unfold vagrees. cbn. rewrite B, I. split; [split; [constructor; cbn; auto|reflexivity]|].
    repeat (split; [first [reflexivity|apply Forall_nil|apply le_n|discriminate|exact F0]|]).
    split; [|apply same_above_refl]. split; [exact Logic.I|]. cbn. rewrite Z.add_0_r. exact F.
  - exists st, out. split; [exact E|]. destruct G as (_ & G1 & G2 & _ & _ & _ & _ & _ & _ & _ & G3 & G4). auto.
Qed.
Print Assumptions C133_screen.

(** What is shown of a line depends on its length only. *)
Theorem C133_secret : forall cf v m l l', length l = length l' ->
  veiled cf v m (ALine l) = veiled cf v m (ALine l') /\ veiled cf v m (AIntr l) = veiled cf v m (AIntr l').
Proof. intros cf v m l l' E. cbn [veiled]. now rewrite E. Qed.
Print Assumptions C133_secret.

(** With a mask of one column the cursor is where it belongs if and only if it is at the end of the line, or at its start and the
    prompt is empty. *)
Theorem C133_cursor_partial : forall u w v m y0 done len idx s, uenv_ok u -> (1 <= u_tab u)%nat -> RenderSpec.plain u m -> (idx <= len)%nat ->
  veil_screen u w v m y0 done len idx true s ->
  (s_col s = columns u (v ++ veil m idx) <-> idx = len \/ (idx = 0%nat /\ columns u v = 0)).
Proof.
  intros u w v m y0 done len idx s U T P L (_ & S). cbn zeta in S. destruct S as (_ & _ & _ & _ & ->).
  assert (V : forall n, columns u (veil m n) = Z.of_nat n).
  { intros n. unfold veil. destruct P as (P1 & P2 & P3). destruct (Z.eqb_spec m 0); [lia|]. unfold columns, cells_all.
    induction n as [|k IH]; [reflexivity|]. cbn [repeat flat_map]. rewrite app_length.
    assert (X : length (cells_of u m) = 1%nat) by (rewrite (cells_len u (proj1 U) T); [exact P3|right; split; [exact P1|split; [exact P2|now left]]]). lia. }
  rewrite !(columns_app u (proj1 U) T), !V. assert (0 <= columns u v) by (unfold columns; lia). lia.
Qed.
Print Assumptions C133_cursor_partial.

(** Such sessions run to their end. *)
Theorem C133_no_crash : forall cf ps m is o reading, broad_session cf -> (1 <= u_tab (oc_u cf))%nat -> 0 < oc_w cf <= 9223372036854775807 -> good_config cf -> started o ->
  hist_of (glyph (oc_u cf)) (o_h o) -> Forall (glyph (oc_u cf)) (rb_kill (o_b o)) ->
  broad_turn cf (visible ps) is o reading -> exists t o' acts, veil_leaves cf (visible ps) m is o t o' acts.
Proof.
  intros cf ps m is o reading C T W G S H K Tn. destruct (C131_no_crash cf ps is o reading C T W G S H K Tn) as (t & o' & acts & L).
  assert (X : exists t', veil_leaves cf (visible ps) m is o t' o' acts); [|destruct X as (t' & X); eauto].
  clear - L. induction L as [|? ? ? ? ? ? (t' & X)|? ? ? ? ? ? ? ? (t' & X)|? ? ? ? ? ? ? ? ? ? (t' & X)]; eexists; econstructor; eassumption.
Qed.
Print Assumptions C133_no_crash.

(** "> " with mask '*': "shi a" (three columns, two characters) entered, "hao" printed, "abc" typed, interrupted. *)
Definition c133_in : list inp := [IRead; IKey 19990; IKey 97; IKey 13; IPrint [22909; 10]; IRead; IKey 97; IKey 98; IKey 3; IRead; IKey 99].
Definition c133_seen (m : Z) (is : list inp) (n : nat) : option (list (list Z) * Z * Z * list Z * nat) :=
  match ses_run c131_cf (fresh, (false, veil_rdr c131_cf [Vis 62; Vis 32] (fun b _ => b) m)) is with
  | Ok ((o, _), out, _) => let s := sexecs u0 10 scr0 out in Some (cells s n 10, s_row s, s_col s, rb_buf (o_b o), rb_idx (o_b o))
  | _ => None
  end.
Example C133_ex : broad_session c131_cf /\ mask_ok u0 42 /\ broad_prompt c131_cf fresh /\ broad_turn c131_cf [62;32] c133_in fresh false /\
  (exists t o' acts, veil_leaves c131_cf [62;32] 42 c133_in fresh t o' acts) /\
  c133_seen 42 c133_in 4 = Some
    ([[62; 32; 42; 42; 32; 32; 32; 32; 32; 32]; [22909; -1; 32; 32; 32; 32; 32; 32; 32; 32];
      [62; 32; 42; 42; 42; 42; 32; 32; 32; 32]; [62; 32; 42; 32; 32; 32; 32; 32; 32; 32]], 3, 3, [99], 1%nat).
Proof.
  assert (G : forall r, In r [94; 67; 68; 19990; 22909; 97; 98; 99; 62; 32] -> glyph u0 r).
  { intros r I. cbn [In] in I. repeat destruct I as [<-|I]; try tauto; (split; [lia|]); (split; [lia|]); vm_compute; auto. }
  split; [|split; [|split; [|split; [|split]]]].
  - constructor; try reflexivity; repeat constructor; apply G; cbn; tauto.
  - left. split; [lia|]. split; [lia|reflexivity].
  - constructor; cbn; try reflexivity; try constructor; repeat constructor.
  - unfold c133_in.
    repeat lazymatch goal with
    | |- broad_turn _ _ [] _ _ => exact I
    | |- broad_turn _ _ (IRead :: _) _ _ => split; [reflexivity|]
    | |- broad_turn _ _ (IPrint [?a; 10] :: _) _ _ => split; [exists [[a]]; split; [constructor; [split; [constructor; [apply G; cbn; tauto|constructor]|vm_compute; reflexivity]|constructor]|reflexivity]|]
    | |- broad_turn _ _ (IKey ?r :: _) _ _ =>
        split; [reflexivity|split; [first [left; apply G; cbn; tauto|right; left; vm_compute; tauto]|
          split; [vm_compute; intuition discriminate|split; [discriminate|
          let o' := fresh "o" in let a := fresh "a" in let E := fresh "E" in
          intros o' a E; vm_compute in E; injection E as <- <-; cbn [results filter is_result];
          split; [vm_compute; reflexivity|split; [repeat constructor; vm_compute; reflexivity|]]]]]]
    end.
  - do 3 eexists. unfold c133_in.
    repeat first [apply VlNil | apply VlRead | apply (VlPrint _ _ _ [[22909]]); [constructor; [split; [constructor; [apply G; cbn; tauto|constructor]|vm_compute; reflexivity]|constructor]|]
      | eapply VlKey; [vm_compute; reflexivity|]].
  - vm_compute. reflexivity.
Qed.

(** The mask NUL, of no column in tables like those of the library (control characters): only the prompt is seen. *)
Definition c133_u : uenv := {| u_zero := fun r => (r =? 0) || u_zero u0 r; u_dbl := u_dbl u0; u_tab := u_tab u0; u_number := u_number u0 |}.
Example C133_nul : mask_ok c133_u 0 /\
  match ses_run (set_u c133_u c131_cf) (fresh, (false, veil_rdr (set_u c133_u c131_cf) [Vis 62; Vis 32] (fun b _ => b) 0)) [IRead; IKey 97; IKey 98] with
  | Ok ((o, _), out, _) => let s := sexecs c133_u 10 scr0 out in
      cells s 1 10 = [[62; 32; 32; 32; 32; 32; 32; 32; 32; 32]] /\ s_col s = 2 /\ rb_buf (o_b o) = [97; 98]
  | _ => False
  end.
Proof. split; [right; split; reflexivity|]. vm_compute. auto. Qed.

(** Ctrl-B moves the cursor by two columns. *)
Theorem C133_cursor_refuted : exists is, c133_seen 42 is 1 = Some ([[62; 32; 42; 42; 42; 32; 32; 32; 32; 32]], 0, 3, [97; 98; 99], 2%nat).
Proof. exists [IRead; IKey 97; IKey 98; IKey 99; IKey 2]. vm_compute. reflexivity. Qed.

(** Once the masks fill the row, the next key erases the row above: the application's output "x" is lost. *)
Theorem C133_full_row_refuted : exists is r,
  c133_seen 42 is 3 = Some ([[120; 32; 32; 32; 32; 32; 32; 32; 32; 32]; [62; 32; 42; 42; 42; 42; 42; 42; 42; 42]; [32; 32; 32; 32; 32; 32; 32; 32; 32; 32]], 1, 9, repeat 97 8, 8%nat) /\
  c133_seen 42 (is ++ [IKey r]) 3 = Some ([[62; 32; 42; 42; 42; 42; 42; 42; 42; 32]; [32; 32; 32; 32; 32; 32; 32; 32; 32; 32]; [32; 32; 32; 32; 32; 32; 32; 32; 32; 32]], 0, 9, repeat 97 7, 7%nat).
Proof. exists (IPrint [120; 10] :: IRead :: repeat (IKey 97) 8), 127. vm_compute. auto. Qed.
