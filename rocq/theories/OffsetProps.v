(** Property C114: GetOffset gets the position that was asked for. *)
From Verif Require Import Base TerminalModel TerminalSpec TerminalProofs TerminalProps OffsetModel OffsetSpec.
From Coq Require Import ZifyBool.
Open Scope Z_scope.

Definition add_keys (k : list Z) (s : offs) : offs :=
  {| os_t := os_t s; os_buf := os_buf s; os_begun := os_begun s; os_wait := os_wait s; os_got := os_got s; os_keys := os_keys s ++ k; os_out := os_out s |}.

Lemma told_t o t s : told o (with_t t s) = with_t t (told o s).
Proof. destruct o; cbn; try reflexivity. unfold report, with_t; cbn. destruct (os_wait s); reflexivity. Qed.
Lemma told_os_t o s : os_t (told o s) = os_t s.
Proof. destruct o; cbn; try reflexivity. unfold report. destruct (os_wait s); reflexivity. Qed.
Lemma with_t_t t t' s : with_t t (with_t t' s) = with_t t s.
Proof. reflexivity. Qed.
Lemma with_t_id s : with_t (os_t s) s = s.
Proof. now destruct s. Qed.

Lemma tolds_t os : forall t s, fold_left (fun s o => told o s) os (with_t t s) = with_t t (fold_left (fun s o => told o s) os s).
Proof. induction os as [|o os IH]; intros t s; cbn [fold_left]; [reflexivity|]. now rewrite told_t, IH. Qed.

Lemma ins_run u vim l : forall s, oevents u vim (map OIn l) s = with_t (tend u vim (os_t s) l) (fold_left (fun s o => told o s) (trun u vim (os_t s) l) s).
Proof.
  induction l as [|r l IH]; intros s; cbn [map oevents fold_left tend trun].
  - cbn. now rewrite with_t_id.
  - cbn [oevent_step]. destruct (tstep u vim (os_t s) r) as [t o]. cbn [fst fold_left]. unfold oevents in IH. rewrite IH. rewrite told_os_t. cbn [with_t os_t].
    change (told o (with_t t s)) with (told o (with_t t s)). rewrite told_t, tolds_t, with_t_t. reflexivity.
Qed.

Lemma oevents_app u vim a b s : oevents u vim (a ++ b) s = oevents u vim b (oevents u vim a s).
Proof. apply fold_left_app. Qed.
Lemma no_reports os : reports os = [] -> forall s, fold_left (fun s o => told o s) os s = add_keys (tkeys os) s.
Proof.
  induction os as [|o os IH]; intros N s; cbn [fold_left tkeys flat_map]; [unfold add_keys; rewrite app_nil_r; now destruct s|].
  destruct o; cbn [reports flat_map app] in N; try discriminate; rewrite IH by exact N; cbn [told].
  - unfold add_keys. cbn. now rewrite <- app_assoc.
  - reflexivity.
Qed.

Lemma trun_app u vim a b : forall s, trun u vim s (a ++ b) = trun u vim s a ++ trun u vim (tend u vim s a) b.
Proof. induction a as [|r a IH]; intros s; cbn [app trun tend]; [reflexivity|]. destruct (tstep u vim s r) as [t o]. cbn [app fst]. now rewrite IH. Qed.
Lemma tend_app u vim a b : forall s, tend u vim s (a ++ b) = tend u vim (tend u vim s a) b.
Proof. induction a as [|r a IH]; intros s; cbn [app tend]; [reflexivity|]. apply IH. Qed.

Lemma plain_trun u ks : ~ In 27 ks -> trun u false TGround ks = map TKey ks /\ tend u false TGround ks = TGround.
Proof.
  induction ks as [|r ks IH]; intros N; [auto|]. cbn [trun tend tstep map]. unfold emit. cbn [In] in N. unfold CharEsc. replace (r =? 27) with false by lia. cbn [fst].
  destruct IH as (A & B); [auto|]. now rewrite A, B.
Qed.

Lemma position_params a : position a -> params a /\ Get2 a = true.
Proof.
  intros (d1 & d2 & -> & (N1 & F1 & L1) & (N2 & F2 & L2)). split.
  - unfold params. apply Forall_app. split; [eapply Forall_impl; [|exact F1]; cbn; auto|]. constructor; [auto|]. eapply Forall_impl; [|exact F2]; cbn; auto.
  - rewrite <- (app_nil_r d2). apply report_two; auto.
Qed.

Lemma report_trun u a : ascii_numbers u -> position a -> trun u false TGround (report_of a) = repeat TNone (S (S (length a))) ++ [TReport a] /\ tend u false TGround (report_of a) = TGround.
Proof.
  intros U P. destruct (position_params a P) as (Q & G). split.
  - pose proof (report_output u a [] U Q) as R. rewrite app_nil_r in R. unfold report_of, csi in *. cbn [app] in *. rewrite R, G. reflexivity.
  - destruct (csi_seg u a 82 U Q) as (_ & T); [|exact T]. split; [rewrite U by lia; reflexivity|lia].
Qed.

(** Nothing asked, nothing reported. *)
Definition quiet (s : offs) : Prop := os_t s = TGround /\ os_buf s = None /\ os_begun s = [] /\ os_wait s = [].

Lemma reports_app a b : reports (a ++ b) = reports a ++ reports b.
Proof. apply flat_map_app. Qed.
Lemma reports_none n : reports (repeat TNone n) = [].
Proof. induction n; [reflexivity|exact IHn]. Qed.
Lemma tkeys_none n : tkeys (repeat TNone n) = [].
Proof. induction n; [reflexivity|exact IHn]. Qed.
Lemma reports_keys l : reports (map TKey l) = [].
Proof. induction l; [reflexivity|exact IHl]. Qed.
Lemma tkeys_keys l : tkeys (map TKey l) = l.
Proof. unfold tkeys. induction l as [|x l IH]; [reflexivity|]. cbn. now rewrite IH. Qed.
Lemma tkeys_app a b : tkeys (a ++ b) = tkeys a ++ tkeys b.
Proof. apply flat_map_app. Qed.

Lemma question_run u i a pre q s : ascii_numbers u -> position a -> question i a pre q -> quiet s ->
  let s' := oevents u false q s in quiet s' /\ os_got s' = os_got s ++ [(i, a)] /\ os_keys s' = os_keys s ++ pre /\ os_out s' = os_out s ++ [27; 91; 54; 110].
Proof.
  intros U P Q (S1 & S2 & S3 & S4). destruct Q as [l1 l2 N E]. cbn zeta. unfold oevents. cbn [fold_left]. rewrite fold_left_app. cbn [fold_left].
  set (s1 := oevent_step u false (OAsk i) s).
  assert (B1 : os_t s1 = TGround /\ os_buf s1 = None /\ os_begun s1 = [i] /\ os_wait s1 = [] /\ os_got s1 = os_got s /\ os_keys s1 = os_keys s /\ os_out s1 = os_out s ++ [27; 91; 54; 110]).
  { unfold s1. cbn. rewrite S3. auto 8. }
  clearbody s1. destruct B1 as (B1 & B2 & B3 & B4 & B5 & B6 & B7).
  destruct (plain_trun u pre N) as (P1 & P2). destruct (report_trun u a U P) as (R1 & R2).
  assert (O : trun u false TGround l1 ++ trun u false (tend u false TGround l1) l2 = (map TKey pre ++ repeat TNone (S (S (length a)))) ++ [TReport a]).
  { rewrite <- trun_app, <- E, trun_app, P1, P2, R1, app_assoc. reflexivity. }
  assert (T : tend u false (tend u false TGround l1) l2 = TGround) by (rewrite <- tend_app, <- E, tend_app, P2, R2; reflexivity).
  change (fold_left (fun s e => oevent_step u false e s) (map OIn l1) s1) with (oevents u false (map OIn l1) s1).
  match goal with |- context [fold_left _ (map OIn l2) ?x] => change (fold_left (fun s e => oevent_step u false e s) (map OIn l2) x) with (oevents u false (map OIn l2) x) end.
  rewrite (ins_run u false l1 s1), B1. set (t1 := tend u false TGround l1) in *.
  remember (trun u false TGround l1) as O1 eqn:HO1. remember (trun u false t1 l2) as O2 eqn:HO2. symmetry in HO1, HO2.
  destruct (list_eq_dec Z.eq_dec l2 []) as [->|NE].
  - cbn [trun] in HO2. subst O2. rewrite app_nil_r in O. rewrite O, fold_left_app. cbn [fold_left told].
    rewrite no_reports by (rewrite reports_app, reports_keys; apply reports_none).
    rewrite tkeys_app, tkeys_keys, tkeys_none, app_nil_r. cbn [tend] in T. rewrite T. unfold report. cbn [add_keys os_wait]. rewrite B4. cbn [os_buf add_keys]. rewrite B2.
    cbn [oevent_step with_t os_begun os_buf add_keys]. rewrite B3. cbn [existsb]. rewrite Nat.eqb_refl. cbn [orb remove].
    destruct (Nat.eq_dec i i); [|contradiction]. cbn [map oevents fold_left].
    unfold quiet. cbn. rewrite B5, B6, B7. auto 9.
  - assert (NO : O2 <> []). { rewrite <- HO2. destruct l2; [contradiction|]. cbn. destruct (tstep u false t1 z). discriminate. }
    destruct (exists_last NO) as (O2' & x & EQ). rewrite EQ, app_assoc in O. apply app_inj_tail in O. destruct O as (O & ->).
    assert (NR : reports O1 = [] /\ reports O2' = []). { apply app_eq_nil. rewrite <- reports_app, O, reports_app, reports_keys. apply reports_none. }
    destruct NR as (NR1 & NR2). rewrite (no_reports O1 NR1).
    assert (TK : tkeys O1 ++ tkeys O2' = pre) by (rewrite <- tkeys_app, O, tkeys_app, tkeys_keys, tkeys_none, app_nil_r; reflexivity).
    cbn [oevent_step with_t os_begun os_buf add_keys]. rewrite B3, B2. cbn [existsb]. rewrite Nat.eqb_refl. cbn [orb remove].
    destruct (Nat.eq_dec i i); [|contradiction]. rewrite ins_run. cbn [os_t os_wait with_t]. rewrite HO2, EQ, fold_left_app, (no_reports O2' NR2). cbn [fold_left told].
    rewrite T. unfold report. cbn [add_keys os_wait with_t]. rewrite B4. cbn [app]. unfold quiet. cbn. rewrite B5, B6, B7, <- app_assoc, TK. auto 9.
Qed.

(** Any keys, any questions, each answered before the next is asked, whenever the goroutines run and whatever is typed before the report comes: every
    question is answered once, with the position the terminal reported to it; the keys all reach the editor and nothing else does. *)
Theorem C114_answered_partial : forall u qs k es s, ascii_numbers u -> conversation qs k es -> quiet s ->
  let s' := oevents u false es s in quiet s' /\ os_got s' = os_got s ++ qs /\ os_keys s' = os_keys s ++ k.
Proof.
  intros u qs k es s U C. revert s. induction C as [|ks qs k es N C IH|i a pre qs k q es P Q C IH]; intros s QS; cbn zeta.
  - cbn. rewrite !app_nil_r. auto.
  - rewrite oevents_app, ins_run. destruct QS as (S1 & S2 & S3 & S4). rewrite S1. destruct (plain_trun u ks N) as (-> & ->).
    rewrite no_reports by apply reports_keys. rewrite tkeys_keys.
    destruct (IH (with_t TGround (add_keys ks s))) as (I1 & I2 & I3); [repeat split; assumption|]. split; [exact I1|]. split; [exact I2|].
    rewrite I3. cbn. now rewrite <- app_assoc.
  - rewrite oevents_app. destruct (question_run u i a pre q s U P Q QS) as (Q1 & Q2 & Q3 & _).
    destruct (IH (oevents u false q s) Q1) as (I1 & I2 & I3). split; [exact I1|]. rewrite I2, I3, Q2, Q3, <- !app_assoc. auto.
Qed.
Print Assumptions C114_answered_partial.

(** In every schedule and for every input: answers are reports, each used at most once and in the order of the reports; while someone waits nothing is kept
    back. *)
Inductive subseq {A} : list A -> list A -> Prop :=
| sub_nil l : subseq [] l
| sub_take x a b : subseq a b -> subseq (x :: a) (x :: b)
| sub_skip x a b : subseq a b -> subseq a (x :: b).
Lemma sub_refl {A} (l : list A) : subseq l l.
Proof. induction l; constructor; assumption. Qed.
Lemma sub_grow {A} (a b c : list A) : subseq a b -> subseq a (b ++ c).
Proof. intros S. induction S; constructor; assumption. Qed.
Lemma sub_app {A} (a b c d : list A) : subseq a b -> subseq c d -> subseq (a ++ c) (b ++ d).
Proof.
  intros S T. induction S; cbn; [|now constructor|now constructor]. induction l as [|x l IH]; [exact T|]. cbn. now constructor.
Qed.
Lemma sub_left {A} (a b c : list A) : subseq (a ++ b) c -> subseq a c.
Proof.
  remember (a ++ b) as x. intros S. revert a b Heqx. induction S as [l|x l1 l2 S IH|x l1 l2 S IH]; intros a b E.
  - symmetry in E. apply app_eq_nil in E. destruct E as (-> & _). constructor.
  - destruct a as [|y a]; [constructor|]. injection E as -> E. constructor. exact (IH a b E).
  - constructor. exact (IH a b E).
Qed.

Definition input_of (es : list oevent) : list Z := flat_map (fun e => match e with OIn r => [r] | _ => [] end) es.

Theorem C114_once : forall u vim es, let s := oevents u vim es offs0 in
  subseq (map snd (os_got s)) (reports (trun u vim TGround (input_of es))) /\ (os_buf s <> None -> os_wait s = []).
Proof.
  intros u vim es.
  assert (K : let s := oevents u vim es offs0 in os_t s = tend u vim TGround (input_of es) /\
    subseq (map snd (os_got s) ++ match os_buf s with Some a => [a] | None => [] end) (reports (trun u vim TGround (input_of es))) /\ (os_buf s <> None -> os_wait s = [])).
  { induction es as [|e es IH] using rev_ind; cbn zeta.
    - cbn. split; [reflexivity|]. split; [constructor|auto].
    - unfold oevents in *. rewrite fold_left_app. cbn [fold_left]. set (s := fold_left _ es offs0) in *. cbn zeta in IH. destruct IH as (T & S & W).
      unfold input_of in *. rewrite flat_map_app. destruct e as [i|i|r]; cbn [flat_map app].
      + rewrite app_nil_r. cbn. auto.
      + rewrite app_nil_r. cbn [oevent_step]. destruct (existsb _ _); [|auto]. destruct (os_buf s) as [a|] eqn:B; cbn [os_t os_got os_buf os_wait].
        * split; [exact T|]. rewrite map_app. cbn [map snd]. rewrite app_nil_r. split; [exact S|congruence].
        * split; [exact T|]. split; [exact S|congruence].
      + rewrite trun_app, tend_app, reports_app, <- T. cbn [oevent_step trun tend]. destruct (tstep u vim (os_t s) r) as [t o]. cbn [fst].
        destruct o as [k|a|]; cbn [told reports flat_map app].
        * cbn. rewrite app_nil_r. auto.
        * unfold report. cbn [with_t os_wait]. destruct (os_wait s) as [|i w] eqn:WA; cbn [os_t os_got os_buf os_wait with_t].
          -- split; [reflexivity|]. split; [|auto]. destruct (os_buf s) as [b|]; [apply (sub_grow _ _ [a]); exact S|]. rewrite app_nil_r in S. apply sub_app; [exact S|apply sub_refl].
          -- split; [reflexivity|]. destruct (os_buf s) as [b|]; [assert (X : i :: w = []) by (apply W; discriminate); discriminate|].
             rewrite app_nil_r in *. split; [|congruence]. rewrite map_app. cbn [map snd]. apply sub_app; [exact S|apply sub_refl].
        * cbn. rewrite app_nil_r. auto. }
  cbn zeta in *. destruct K as (_ & S & W). split; [|exact W]. exact (sub_left _ _ _ S).
Qed.
Print Assumptions C114_once.

Definition pos11 : list Z := [49; 59; 49]. Definition pos52 : list Z := [53; 59; 50]. Definition pos73 : list Z := [55; 59; 51].
Lemma pos_ok a b : 48 <= a <= 57 -> 48 <= b <= 57 -> position [a; 59; b].
Proof.
  intros A B. exists [a], [b]. split; [reflexivity|]. split; (split; [discriminate|]; split; [constructor; [assumption|constructor]|cbn; lia]).
Qed.
Example C114_ex : ascii_numbers u_ascii /\
  conversation [(1%nat, pos52); (2%nat, pos11)] [97; 98]
    (map OIn [97] ++ (OAsk 1 :: map OIn [98; 27; 91; 53] ++ ORun 1 :: map OIn [59; 50; 82]) ++ ((OAsk 2 :: map OIn (report_of pos11) ++ ORun 2 :: map OIn []) ++ [])) /\
  quiet offs0.
Proof.
  split; [exact u_ascii_ok|]. split; [|repeat split].
  apply (Typed [97] _ [98]); [cbn; intuition discriminate|]. apply (Asked 1 pos52 [98] _ []); [apply pos_ok; lia|constructor; [cbn; intuition discriminate|reflexivity]|].
  apply (Asked 2 pos11 [] [] []); [apply pos_ok; lia|constructor; [intros []|reflexivity]|constructor].
Qed.

(** A report nobody asked for is kept, and from then on every question gets the position asked for by the one before. *)
Theorem C114_stale_refuted : exists es, es = map OIn (report_of pos11) ++ [OAsk 1; ORun 1] ++ map OIn (report_of pos52) ++ [OAsk 2; ORun 2] ++ map OIn (report_of pos73) /\
  os_got (oevents u_ascii false es offs0) = [(1%nat, pos11); (2%nat, pos52)].
Proof. eexists. split; [reflexivity|]. vm_compute. reflexivity. Qed.
Print Assumptions C114_stale_refuted.

(** Two questions at once, both reported before the goroutines run: the second report is dropped, and one of the two waits forever. *)
Theorem C114_dropped_refuted : exists es, es = [OAsk 1; OAsk 2] ++ map OIn (report_of pos11 ++ report_of pos52) ++ [ORun 1; ORun 2] /\
  os_got (oevents u_ascii false es offs0) = [(1%nat, pos11)] /\ os_wait (oevents u_ascii false es offs0) = [2%nat] /\ os_buf (oevents u_ascii false es offs0) = None.
Proof. eexists. split; [reflexivity|]. vm_compute. auto. Qed.
Print Assumptions C114_dropped_refuted.

(** In vim mode no question is ever answered, and the report is typed into the line. *)
Lemma vim_reports u input : forall o, In o (trun u true TGround input) -> exists k, o = TKey k.
Proof.
  induction input as [|r l IH]; intros o; cbn [trun]; [intros []|]. assert (E : tstep u true TGround r = (TGround, TKey r)) by (cbn; unfold emit; now destruct (r =? CharEsc)).
  rewrite E. intros [<-|I]; [eauto|exact (IH o I)].
Qed.
Lemma only_keys os : (forall o, In o os -> exists k, o = TKey k) -> reports os = [].
Proof.
  induction os as [|o l IH]; intros V; [reflexivity|]. destruct (V o (or_introl eq_refl)) as (k & ->). change (reports l = []). apply IH.
  intros x X. apply V. now right.
Qed.
Theorem C114_vim : forall u es, os_got (oevents u true es offs0) = [].
Proof.
  intros u es. destruct (C114_once u true es) as (S & _).
  assert (R : reports (trun u true TGround (input_of es)) = []).
  { apply only_keys. apply vim_reports. }
  rewrite R in S. inversion S as [E| |]. symmetry in H. now apply map_eq_nil in H.
Qed.
Print Assumptions C114_vim.
Theorem C114_vim_refuted : exists es, es = [OAsk 1; ORun 1] ++ map OIn (report_of pos52) /\ os_got (oevents u_ascii true es offs0) = [] /\
  os_keys (oevents u_ascii true es offs0) = report_of pos52.
Proof. eexists. split; [reflexivity|]. vm_compute. auto. Qed.
Print Assumptions C114_vim_refuted.
