(** Property C105: changes of the terminal's width. *)
From Verif Require Import Base WidthModel WidthSpec.
Open Scope Z_scope.

Lemma updn_same {A} (f : nat -> A) i x : updn f i x i = x.
Proof. unfold updn. now rewrite Nat.eqb_refl. Qed.
Lemma updn_other {A} (f : nat -> A) i x j : j <> i -> updn f i x j = f j.
Proof. intros N. unfold updn. destruct (Nat.eqb_spec j i); [contradiction|reflexivity]. Qed.

(** ** C105: an instance follows the width of the terminal *)
(** The instance created last: line and menu always have the terminal's width, whatever configurations are used. *)
Lemma line_inv es k : Forall (fun e => e <> WNew) es -> forall p, p_cb p = Some k -> wi_buf (p_inst p k) = p_width p -> wi_comp (p_inst p k) = p_width p ->
  wi_buf (p_inst (w_run es p) k) = p_width (w_run es p) /\ wi_comp (p_inst (w_run es p) k) = p_width (w_run es p).
Proof.
  induction 1 as [|e es N F IH]; intros p C B M; [cbn; auto|]. unfold w_run in *. cbn [fold_left]. apply IH; destruct e as [|k' i auto|w]; cbn; try congruence.
  - destruct (Nat.eq_dec k k') as [<-|X]; [rewrite updn_same|now rewrite updn_other]. unfold w_config. destruct (i =? wi_cur (p_inst p k))%nat; [exact B|exact B].
  - rewrite C, updn_same. reflexivity.
  - destruct (Nat.eq_dec k k') as [<-|X]; [rewrite updn_same|now rewrite updn_other]. unfold w_config. destruct (i =? wi_cur (p_inst p k))%nat; [exact M|].
    cbn. destruct auto; [reflexivity|exact M].
  - rewrite C, updn_same. reflexivity.
Qed.
Theorem C105_line_partial : forall before es w, Forall (fun e => e <> WNew) es ->
  let p := w_run (before ++ WNew :: es) (w_start w) in let k := p_count (w_run before (w_start w)) in
  wi_buf (p_inst p k) = p_width p /\ wi_comp (p_inst p k) = p_width p.
Proof.
  intros before es w F. cbn zeta.
  assert (E : w_run (before ++ WNew :: es) (w_start w) = w_run es (w_step WNew (w_run before (w_start w)))) by (unfold w_run; now rewrite fold_left_app).
  rewrite E. set (q := w_run before (w_start w)). apply (line_inv es (p_count q) F).
  - reflexivity.
  - cbn. rewrite updn_same. reflexivity.
  - cbn. rewrite updn_same. reflexivity.
Qed.
Print Assumptions C105_line_partial.

(** The search status too, when configurations other than the first are used once each and the width does not change
    while they are. *)
Lemma search_inv k es : forall seen p, used_once k (wi_cur (p_inst p k)) seen es -> p_cb p = Some k -> agrees k p ->
  wi_search (p_inst p k) 0%nat = Some (p_width p) -> (forall i, i <> 0%nat -> ~ In i seen -> wi_search (p_inst p k) i = None) ->
  In (wi_cur (p_inst p k)) seen -> agrees k (w_run es p).
Proof.
  induction es as [|[|k' i auto|w] es IH]; intros seen p U C (A1 & A2 & A3) S N I; cbn [used_once] in U; [split; auto|contradiction| |].
  - destruct U as (-> & D & U). unfold w_run. cbn [fold_left]. change (agrees k (w_run es (w_step (WConfig k i auto) p))).
    assert (Q : p_inst (w_step (WConfig k i auto) p) k = w_config (p_width p) i auto (p_inst p k)) by (cbn; apply updn_same).
    assert (Cu : wi_cur (w_config (p_width p) i auto (p_inst p k)) = i).
    { unfold w_config. destruct (Nat.eqb_spec i (wi_cur (p_inst p k))); [congruence|reflexivity]. }
    assert (Se : wi_search (w_config (p_width p) i auto (p_inst p k)) i = Some (p_width p)).
    { unfold w_config. destruct (Nat.eqb_spec i (wi_cur (p_inst p k))) as [E|E]; [rewrite E; exact A3|]. cbn.
      destruct D as [->|D]; [now rewrite S|]. destruct (Nat.eq_dec i 0) as [->|Z]; [now rewrite S|]. rewrite (N i Z D), updn_same. reflexivity. }
    assert (Oth : forall j, j <> i -> wi_search (w_config (p_width p) i auto (p_inst p k)) j = wi_search (p_inst p k) j).
    { intros j J. unfold w_config. destruct (i =? wi_cur (p_inst p k))%nat; [reflexivity|]. cbn. destruct (wi_search (p_inst p k) i); [reflexivity|now apply updn_other]. }
    apply (IH (i :: seen)).
    + rewrite Q, Cu. exact U.
    + exact C.
    + unfold agrees. rewrite Q, Cu, Se. cbn [w_step p_width]. unfold w_config. destruct (i =? wi_cur (p_inst p k))%nat; [auto|]. cbn. destruct auto; auto.
    + rewrite Q. cbn [w_step p_width]. destruct (Nat.eq_dec i 0) as [->|Z]; [exact Se|]. rewrite Oth by congruence. exact S.
    + intros j J1 J2. rewrite Q. rewrite Oth by (intros ->; apply J2; now left). apply N; [exact J1|]. intros X. apply J2. now right.
    + rewrite Q, Cu. now left.
  - destruct U as (Z & U). unfold w_run. cbn [fold_left]. change (agrees k (w_run es (w_step (WResize w) p))).
    assert (Q : p_inst (w_step (WResize w) p) k = w_changed w (p_inst p k)) by (cbn; rewrite C; apply updn_same).
    apply (IH seen).
    + rewrite Q. exact U.
    + exact C.
    + unfold agrees. rewrite Q. cbn [w_step p_width w_changed wi_buf wi_comp wi_search wi_cur]. rewrite updn_same. auto.
    + rewrite Q. cbn [w_step p_width w_changed wi_search]. rewrite Z, updn_same. reflexivity.
    + intros j J1 J2. rewrite Q. cbn [w_changed wi_search]. rewrite updn_other by congruence. auto.
    + rewrite Q. exact I.
Qed.
Theorem C105_search_partial : forall before es w, let k := p_count (w_run before (w_start w)) in used_once k 0 [0%nat] es ->
  agrees k (w_run (before ++ WNew :: es) (w_start w)).
Proof.
  intros before es w k U. unfold w_run. rewrite fold_left_app. cbn [fold_left]. fold (w_run before (w_start w)).
  change (agrees k (w_run es (w_step WNew (w_run before (w_start w))))). unfold k in *. clear k. set (q := w_run before (w_start w)) in *. clearbody q.
  assert (Q : p_inst (w_step WNew q) (p_count q) = w_new (p_width q)) by (cbn; apply updn_same).
  apply (search_inv (p_count q) es [0%nat]).
  - rewrite Q. exact U.
  - reflexivity.
  - unfold agrees. rewrite Q. cbn. auto.
  - rewrite Q. reflexivity.
  - intros i I1 I2. rewrite Q. cbn. now rewrite updn_other.
  - rewrite Q. now left.
Qed.
Print Assumptions C105_search_partial.

(** The width changes during a password prompt: back at the ordinary prompt the search status still uses the old one. *)
Theorem C105_password_refuted : exists es p, p = w_run (WNew :: es) (w_start 80) /\ es = [WConfig 0 1 false; WResize 40; WConfig 0 0 true] /\
  p_width p = 40 /\ wi_cur (p_inst p 0%nat) = 0%nat /\ wi_search (p_inst p 0%nat) 0%nat = Some 80.
Proof. do 2 eexists. split; [reflexivity|]. split; [reflexivity|]. split; [reflexivity|]. split; reflexivity. Qed.
Print Assumptions C105_password_refuted.
(** A second instance takes the signal: the first one keeps the old width. *)
Theorem C105_second_refuted : exists p, p = w_run [WNew; WNew; WResize 40] (w_start 80) /\
  wi_buf (p_inst p 0%nat) = 80 /\ p_width p = 40 /\ agrees 1 p.
Proof. eexists. split; [reflexivity|]. split; [reflexivity|]. split; [reflexivity|]. split; [reflexivity|]. split; reflexivity. Qed.
Print Assumptions C105_second_refuted.

(** Two instances; the second reads a password (its configuration number 1), is resized, reads another. *)
Example C105_ex : used_once 1 0 [0%nat] [WConfig 1 1 false; WConfig 1 0 true; WResize 40; WConfig 1 2 false; WConfig 1 0 true] /\
  agrees 1 (w_run ([WNew] ++ WNew :: [WConfig 1 1 false; WConfig 1 0 true; WResize 40; WConfig 1 2 false; WConfig 1 0 true]) (w_start 80)).
Proof. split; [cbn; intuition discriminate|]. split; [reflexivity|]. split; reflexivity. Qed.
