(** Property C106: which painter draws the line. *)
From Verif Require Import Base RunesModel RenderModel PaintModel PaintSpec.
From Coq Require Import Lia.
Open Scope nat_scope.

Definition par (s : paints) (w : wanted) : Prop :=
  pt_new s = length (w_all w) /\ pt_cur s = w_now w /\ pt_backup s = w_back w /\ w_now w < length (w_all w) /\
  (forall i, w_back w = Some i -> i < length (w_all w)) /\
  forall i, i < length (w_all w) -> pt_cfg s i = nth_error (w_all w) i.

Lemma put_length {A} (x : A) l : forall i, length (put l i x) = length l.
Proof. induction l as [|a l IH]; intros [|i]; cbn; auto. Qed.
Lemma put_nth {A} (x : A) l : forall i j, i < length l -> nth_error (put l i x) j = if j =? i then Some x else nth_error l j.
Proof.
  induction l as [|a l IH]; intros [|i] j H; cbn in H; [lia|lia| |].
  - destruct j; reflexivity.
  - destruct j as [|j]; [reflexivity|]. cbn. apply IH. lia.
Qed.
Lemma add_nth {A} (l : list A) x i : i < S (length l) -> nth_error (l ++ [x]) i = if i =? length l then Some x else nth_error l i.
Proof.
  intros H. destruct (Nat.eqb_spec i (length l)) as [->|N].
  - rewrite nth_error_app2, Nat.sub_diag by lia. reflexivity.
  - rewrite nth_error_app1 by lia. reflexivity.
Qed.

Lemma par_add s w f back : par s w -> (forall i, back = Some i -> i < length (w_all w)) ->
  par {| pt_cfg := upd_p (pt_cfg s) (pt_new s) (Some f); pt_cur := pt_new s; pt_new := S (pt_new s); pt_backup := back |}
      {| w_all := w_all w ++ [f]; w_now := length (w_all w); w_back := back |}.
Proof.
  intros (P1 & P2 & P3 & P4 & P5 & P6) B. unfold par. cbn. rewrite app_length. cbn [length]. split; [lia|]. split; [exact P1|]. split; [reflexivity|]. split; [lia|].
  split; [intros i E; apply B in E; lia|]. intros i I. rewrite add_nth by lia. unfold upd_p. rewrite P1. destruct (Nat.eqb_spec i (length (w_all w))); [reflexivity|]. apply P6. lia.
Qed.

Lemma par_call s w c : par s w -> painted c -> par (p_call s c) (w_call w c).
Proof.
  intros P Q. pose proof P as (P1 & P2 & P3 & P4 & P5 & P6). destruct c as [[f|]|i|f| |[f|]|]; try (exfalso; exact Q).
  - replace (p_call s (PSet (Some f))) with {| pt_cfg := upd_p (pt_cfg s) (pt_new s) (Some f); pt_cur := pt_new s; pt_new := S (pt_new s); pt_backup := w_back w |} by (rewrite <- P3; reflexivity).
    apply par_add; [exact P|exact P5].
  - cbn [p_call w_call]. rewrite P1. destruct (Nat.ltb_spec i (length (w_all w))) as [L|L]; [|exact P]. unfold par, p_use. cbn. auto 10.
  - cbn [p_call w_call]. unfold par. cbn. rewrite put_length. repeat (split; [assumption|]). intros i I. rewrite put_nth by lia. unfold upd_p. rewrite P2.
    destruct (i =? w_now w); [reflexivity|]. now apply P6.
  - replace (p_call s PPassword) with {| pt_cfg := upd_p (pt_cfg s) (pt_new s) (Some defaultPainter); pt_cur := pt_new s; pt_new := S (pt_new s); pt_backup := Some (w_now w) |} by (rewrite <- P2; reflexivity).
    apply par_add; [exact P|]. intros i [= <-]. exact P4.
  - replace (p_call s (PPasswordWith (Some f))) with {| pt_cfg := upd_p (pt_cfg s) (pt_new s) (Some f); pt_cur := pt_new s; pt_new := S (pt_new s); pt_backup := Some (w_now w) |} by (rewrite <- P2; reflexivity).
    apply par_add; [exact P|]. intros i [= <-]. exact P4.
  - cbn [p_call w_call]. unfold p_exit. rewrite P3. destruct (w_back w) as [i|] eqn:B; [|exact P]. unfold par. cbn. split; [exact P1|]. split; [reflexivity|]. split; [reflexivity|].
    split; [now apply P5|]. split; [discriminate|]. exact P6.
Qed.
Lemma par_calls cs : Forall painted cs -> forall s w, par s w -> par (p_calls cs s) (fold_left w_call cs w).
Proof. induction 1 as [|c cs Q F IH]; intros s w P; [exact P|]. cbn. apply IH. now apply par_call. Qed.
Lemma par_new p : par (p_newex p) {| w_all := [or_default p]; w_now := 0; w_back := None |}.
Proof.
  unfold par. cbn. repeat (split; [solve [auto]|]). split; [discriminate|]. intros i I. replace i with 0 by lia. cbn. destruct p; reflexivity.
Qed.

(** ** C106: the line is drawn by the painter of the configuration in use *)
(** When every configuration given to SetConfig and ReadPasswordWithConfig has a Painter (the one of NewEx need not): each
    redraw uses the painter of the configuration the program chose, before, inside and after password prompts. *)
Theorem C106_painter_partial : forall u p cs d b i own, Forall painted cs ->
  p_refresh u (p_calls cs (p_newex p)) d b i own = refresh u (with_paint (expected p cs) d) b i own.
Proof.
  intros u p cs d b i own F. destruct (par_calls cs F _ _ (par_new p)) as (P1 & P2 & P3 & P4 & P5 & P6). unfold p_refresh, expected, w_calls.
  rewrite P2, P6 by exact P4. rewrite (nth_error_nth' (A := painter) _ (fun line _ => line)) by exact P4. reflexivity.
Qed.
Print Assumptions C106_painter_partial.

(** A configuration without a Painter, given to SetConfig: the next redraw of an instance on a terminal panics, whatever
    the line (unless it is masked). *)
Theorem C106_nil : forall u p d b i own c, d_inter d = true -> d_mask d = None -> clean u d = Ok c ->
  p_refresh u (p_calls [PSet None] (p_newex p)) d b i own = Panic.
Proof. intros u p d b i own c I M C. unfold p_refresh. cbn. rewrite I, M, C. reflexivity. Qed.
Print Assumptions C106_nil.

(** The same for ReadPasswordWithConfig, with or without masking, when its prompt opens (the line is empty). *)
Theorem C106_password_nil : forall u p d i own c, d_inter d = true -> clean u d = Ok c ->
  p_refresh u (p_calls [PPasswordWith None] (p_newex p)) d [] i own = Panic.
Proof. intros u p d i own c I C. unfold p_refresh. cbn. rewrite I, C. destruct (d_mask d); reflexivity. Qed.
Print Assumptions C106_password_nil.

(** Example: capitals for the first configuration's line "ab"; a password prompt; back to capitals. *)
Definition caps : painter := fun l _ => map (fun r => (r - 32)%Z) l.
Definition dr0 : rdr := {| d_prompt := [62]%Z; d_buf := []; d_idx := 0; d_width := 20%Z; d_had := true; d_inter := true; d_mask := None; d_paint := fun l _ => l |}.
Definition env4 : uenv := {| u_zero := fun _ => false; u_dbl := fun _ => false; u_tab := 4; u_number := fun _ => false |}.
Theorem C106_nil_refuted : exists u p cs d b i c, clean u d = Ok c /\ (exists r, refresh u (with_paint (expected p cs) d) b i [] = Ok r) /\
  p_refresh u (p_calls cs (p_newex p)) d b i [] = Panic.
Proof.
  exists env4, None, [PSet None], dr0, [97; 98]%Z, 2. eexists. split; [vm_compute; reflexivity|]. split; [eexists; vm_compute; reflexivity|]. vm_compute. reflexivity.
Qed.
Print Assumptions C106_nil_refuted.
Example C106_ex : let u := {| u_zero := fun _ => false; u_dbl := fun _ => false; u_tab := 4; u_number := fun _ => false |} in
  (exists d, p_refresh u (p_calls [PPassword; PPasswordEnd] (p_newex (Some caps))) dr0 [97; 98]%Z 2 [] = Ok (d, [62; 65; 66]%Z)) /\
  (exists d, p_refresh u (p_calls [PPassword] (p_newex (Some caps))) dr0 [97; 98]%Z 2 [] = Ok (d, [62; 97; 98]%Z)) /\
  exists c, clean u dr0 = Ok c.
Proof.
  cbn zeta. split; [eexists; vm_compute; reflexivity|]. split; [eexists; vm_compute; reflexivity|]. eexists. vm_compute. reflexivity.
Qed.
