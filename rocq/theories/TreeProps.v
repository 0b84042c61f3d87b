(** Property C107: the outline Tree prints. *)
From Verif Require Import Base RunesModel RunesProofs CompleterModel HistoryModel TreeModel TreeSpec.
From Coq Require Import Lia.
Open Scope nat_scope.

Section Induction.
  Variable P : ctree -> Prop.
  Hypothesis HI : forall n k, Forall P k -> P (Item n k).
  Hypothesis HD : forall f k, Forall P k -> P (Dynamic f k).
  Fixpoint tree_ind' (t : ctree) : P t :=
    match t with
    | Item n k => HI n k ((fix go l : Forall P l := match l with [] => Forall_nil _ | x :: l' => Forall_cons _ (tree_ind' x) (go l') end) k)
    | Dynamic f k => HD f k ((fix go l : Forall P l := match l with [] => Forall_nil _ | x :: l' => Forall_cons _ (tree_ind' x) (go l') end) k)
    end.
End Induction.

Lemma trim_nil l : TrimSpaceLeft l = [] <-> forallb IsSpace l = true.
Proof. induction l as [|x l IH]; cbn; [tauto|]. destruct (IsSpace x); cbn; [exact IH|]. split; discriminate. Qed.
Lemma trim_suffix l : exists p, l = p ++ TrimSpaceLeft l /\ forallb IsSpace p = true.
Proof.
  induction l as [|x l (p & E & B)]; [now exists []|]. cbn. destruct (IsSpace x) eqn:S; [|now exists []].
  exists (x :: p). cbn. rewrite S. split; [now f_equal|exact B].
Qed.
Lemma forallb_rev {A} (f : A -> bool) l : forallb f (rev l) = forallb f l.
Proof. induction l as [|x l IH]; [reflexivity|]. cbn. rewrite forallb_app, IH. cbn. destruct (f x), (forallb f l); reflexivity. Qed.
Lemma trim_blank l : (length (TrimSpace l) =? 0) = blank l.
Proof.
  unfold blank. assert (X : TrimSpace l = [] <-> forallb IsSpace l = true).
  { unfold TrimSpace. split; intros H.
    - apply (f_equal (@rev Z)) in H. rewrite rev_involutive in H. cbn in H. apply trim_nil in H. rewrite forallb_rev in H.
      destruct (trim_suffix l) as (p & E & B). rewrite E, forallb_app, B, H. reflexivity.
    - apply trim_nil in H. rewrite H. reflexivity. }
  destruct (forallb IsSpace l); [now rewrite (proj2 X)|]. destruct (TrimSpace l); [|reflexivity]. discriminate (proj1 X eq_refl).
Qed.
Lemma blank_name n : blank (n ++ [32%Z]) = blank n.
Proof. unfold blank. rewrite forallb_app. cbn. apply andb_true_r. Qed.

Lemma loop_flat prefix l ks :
  (fix loop (ks : list ctree) : list Z := match ks with [] => [] | c :: ks' => Print prefix l c ++ loop ks' end) ks = flat_map (Print prefix l) ks.
Proof. induction ks as [|c ks IH]; [reflexivity|]. cbn. now f_equal. Qed.
Lemma print_flat prefix l ks : Forall (fun t => forall d, Print prefix d t = flat_map (shown prefix) (flat_map (outline d) (commands t))) ks ->
  flat_map (Print prefix l) ks = flat_map (shown prefix) (flat_map (outline l) (flat_map commands ks)).
Proof. induction 1 as [|t ks H F IH]; [reflexivity|]. cbn. rewrite H, IH, !flat_map_app. reflexivity. Qed.
Lemma print_ok prefix t : forall d, Print prefix d t = flat_map (shown prefix) (flat_map (outline d) (commands t)).
Proof.
  induction t as [n k F|f k F] using tree_ind'; intros d; cbn [Print GetName].
  - rewrite trim_blank, blank_name, loop_flat. cbn [commands]. destruct (blank n); cbn [negb].
    + apply print_flat. exact F.
    + rewrite (print_flat _ _ _ F). cbn [flat_map]. rewrite app_nil_r. cbn [outline flat_map]. f_equal. unfold shown. cbn [fst snd]. f_equal.
      destruct d as [|d]; [cbn; now rewrite <- app_assoc|]. replace (0 <? S d) with true by (symmetry; apply Nat.ltb_lt; lia).
      replace (S d * 4 - 2) with (2 + 4 * d) by lia. generalize (repeat 9472%Z (2 + 4 * d)). intros q. cbn [app]. rewrite <- !app_assoc. reflexivity.
  - rewrite trim_blank, loop_flat. cbn [blank forallb negb]. apply print_flat. exact F.
Qed.

(** ** C107: Tree prints every command word once, under the words before it, with its depth *)
Theorem C107_outline : forall prefix t, Tree prefix t = flat_map (shown prefix) (flat_map (outline 0) (commands t)).
Proof. intros. apply print_ok. Qed.
Print Assumptions C107_outline.

(** The text says which commands there are: completers with different commands have different outlines. *)
Lemma cut_line a b x y : ~ In 10%Z a -> ~ In 10%Z b -> a ++ 10%Z :: x = b ++ 10%Z :: y -> a = b /\ x = y.
Proof.
  revert b. induction a as [|c a IH]; intros [|e b] A B E; cbn in *.
  - now injection E.
  - injection E as <- _. tauto.
  - injection E as -> _. tauto.
  - injection E as <- E. destruct (IH b) as (-> & ->); [tauto|tauto|exact E|auto].
Qed.
Definition branch (d : nat) : list Z := match d with O => [] | S d => 9500%Z :: repeat 9472%Z (2 + 4 * d) ++ [32%Z] end.
Lemma repeat_split (c e : Z) m n x y : c <> e -> repeat c m ++ e :: x = repeat c n ++ e :: y -> m = n /\ x = y.
Proof.
  intros N. revert n. induction m as [|m IH]; intros [|n] E; cbn in E.
  - now injection E.
  - injection E as E _. now destruct N.
  - injection E as E _. now destruct N.
  - injection E as E. destruct (IH n E) as (-> & ->). auto.
Qed.
Lemma branch_inj d e a b : readable a -> readable b -> branch d ++ a ++ [32%Z] = branch e ++ b ++ [32%Z] -> d = e /\ a = b.
Proof.
  intros (_ & A) (_ & B) E. destruct d as [|d], e as [|e]; unfold branch in E.
  - cbn [app] in E. apply app_inv_tail in E. auto.
  - exfalso. destruct a; cbn in E; [discriminate|]. now injection E.
  - exfalso. destruct b; cbn in E; [discriminate|]. injection E. intros. now subst.
  - rewrite <- !app_comm_cons, <- !app_assoc in E. injection E as E. cbn [app] in E.
    apply (repeat_split 9472 32) in E; [|discriminate]. destruct E as (E1 & E2). split; [lia|]. now apply app_inv_tail in E2.
Qed.
Lemma shown_eq prefix l x : shown prefix l ++ x = prefix ++ (branch (fst l) ++ snd l ++ [32%Z]) ++ 10%Z :: x.
Proof. unfold shown. fold (branch (fst l)). rewrite <- !app_assoc. reflexivity. Qed.
Lemma branch_line d w : readable w -> ~ In 10%Z (branch d ++ w ++ [32%Z]).
Proof.
  intros (R & _) I. rewrite !in_app_iff in I. destruct I as [I|[I|I]]; [|now apply R|cbn in I; intuition discriminate].
  destruct d; cbn -[repeat] in I; [exact I|]. rewrite in_app_iff in I. destruct I as [I|[I|I]]; [discriminate| |cbn in I; intuition discriminate].
  apply repeat_spec in I. discriminate.
Qed.
Lemma shown_inj prefix : forall l1 l2, Forall (fun x => readable (snd x)) l1 -> Forall (fun x => readable (snd x)) l2 ->
  flat_map (shown prefix) l1 = flat_map (shown prefix) l2 -> l1 = l2.
Proof.
  induction l1 as [|[d a] l1 IH]; intros [|[e b] l2] F1 F2 E; cbn [flat_map] in E; [reflexivity| | |].
  - exfalso. rewrite shown_eq in E. destruct prefix, (branch (fst (e, b))); try discriminate. destruct (snd (e, b)); discriminate.
  - exfalso. rewrite shown_eq in E. destruct prefix, (branch (fst (d, a))); try discriminate. destruct (snd (d, a)); discriminate.
  - apply Forall_cons_iff in F1. apply Forall_cons_iff in F2. destruct F1 as (R1 & F1), F2 as (R2 & F2). cbn [snd] in R1, R2.
    rewrite !shown_eq in E. apply app_inv_head in E. cbn [fst snd] in E. apply cut_line in E; [|now apply branch_line|now apply branch_line].
    destruct E as (E1 & E2). apply branch_inj in E1; [|assumption|assumption]. destruct E1 as (-> & ->). f_equal. now apply IH.
Qed.

Section WordsInduction.
  Variable P : words -> Prop.
  Hypothesis HW : forall n k, Forall P k -> P (Word n k).
  Fixpoint words_ind' (t : words) : P t :=
    match t with
    | Word n k => HW n k ((fix go l : Forall P l := match l with [] => Forall_nil _ | x :: l' => Forall_cons _ (words_ind' x) (go l') end) k)
    end.
End WordsInduction.
Lemma outline_depth w : forall d x, In x (outline d w) -> d <= fst x.
Proof.
  induction w as [n k F] using words_ind'. intros d x [<-|I]; [apply le_n|]. apply in_flat_map in I. destruct I as (y & Y & I). rewrite Forall_forall in F. apply (F y Y) in I. lia.
Qed.
Lemma split_depth d a b x y : Forall (fun l : nat * list Z => d < fst l) a -> Forall (fun l : nat * list Z => d < fst l) b ->
  match x with l :: _ => fst l = d | [] => True end -> match y with l :: _ => fst l = d | [] => True end -> a ++ x = b ++ y -> a = b /\ x = y.
Proof.
  intros A. revert b. induction A as [|l a L A IH]; intros [|m b] B X Y E; cbn in E.
  - auto.
  - subst x. apply Forall_cons_iff in B. lia.
  - subst y. lia.
  - injection E as <- E. apply Forall_cons_iff in B. destruct (IH b (proj2 B) X Y E) as (-> & ->). auto.
Qed.
Lemma below_deeper d k : Forall (fun l => d < fst l) (flat_map (outline (S d)) k).
Proof. apply Forall_forall. intros x I. apply in_flat_map in I. destruct I as (y & _ & I). apply outline_depth in I. lia. Qed.
Lemma forest_head d k : match flat_map (outline d) k with l :: _ => fst l = d | [] => True end.
Proof. destruct k as [|[n j] k]; cbn; auto. Qed.
Lemma outline_inj : forall m d k1 k2, length (flat_map (outline d) k1) <= m -> flat_map (outline d) k1 = flat_map (outline d) k2 -> k1 = k2.
Proof.
  induction m as [|m IH]; intros d [|[n1 j1] k1] [|[n2 j2] k2] L E; cbn in L, E; try reflexivity; try discriminate; try lia.
  injection E as <- E. rewrite app_length in L.
  apply (split_depth d) in E; [|apply below_deeper|apply below_deeper|apply forest_head|apply forest_head]. destruct E as (E1 & E2).
  apply IH in E1; [|lia]. apply IH in E2; [|lia]. now subst.
Qed.
Lemma readable_outline w : all_readable w -> forall d, Forall (fun x => readable (snd x)) (outline d w).
Proof.
  induction w as [n k F] using words_ind'. intros (R & K) d. cbn. constructor; [exact R|]. clear R. induction F as [|x k H F IHk]; [constructor|].
  cbn in K |- *. apply Forall_app. split; [now apply H|]. now apply IHk.
Qed.
Theorem C107_tells_partial : forall prefix t1 t2, Forall all_readable (commands t1) -> Forall all_readable (commands t2) ->
  Tree prefix t1 = Tree prefix t2 -> commands t1 = commands t2.
Proof.
  intros prefix t1 t2 R1 R2 E. rewrite !C107_outline in E.
  assert (Q : forall ws, Forall all_readable ws -> Forall (fun x => readable (snd x)) (flat_map (outline 0) ws)).
  { intros ws F. induction F as [|w ws H F IH]; [constructor|]. cbn. apply Forall_app. split; [now apply readable_outline|exact IH]. }
  apply shown_inj in E; [|now apply Q|now apply Q]. exact (outline_inj _ 0 _ _ (le_n _) E).
Qed.
Print Assumptions C107_tells_partial.

(** Without the condition: a word that starts like a branch is taken for one. *)
Theorem C107_tells_refuted : exists t1 t2, Tree [] t1 = Tree [] t2 /\ commands t1 <> commands t2.
Proof.
  exists (Item [] [Item [97]%Z [Item [98]%Z []]]), (Item [] [Item [97]%Z []; Item [9500; 9472; 9472; 32; 98]%Z []]).
  split; [vm_compute; reflexivity|]. vm_compute. discriminate.
Qed.
Print Assumptions C107_tells_refuted.
(** What the callback of a dynamic item offers is not in the outline: completers that offer different words look alike. *)
Theorem C107_dynamic_refuted : exists t1 t2, Tree [] t1 = Tree [] t2 /\ PrefixDo t1 [] 0 <> PrefixDo t2 [] 0.
Proof.
  exists (Item [] [Dynamic (fun _ => [[97]%Z]) []]), (Item [] [Dynamic (fun _ => [[98]%Z]) []]). split; [reflexivity|]. vm_compute. discriminate.
Qed.
Print Assumptions C107_dynamic_refuted.

(** Example: "mode" with "vi" and "emacs" below it, and "say" with a dynamic item that has "x" below. *)
Definition cmds0 : ctree := Item [] [Item [109]%Z [Item [118]%Z []; Item [101]%Z []]; Item [115]%Z [Dynamic (fun _ => []) [Item [120]%Z []]]].
Example C107_ex : Forall all_readable (commands cmds0) /\
  commands cmds0 = [Word [109]%Z [Word [118]%Z []; Word [101]%Z []]; Word [115]%Z [Word [120]%Z []]] /\
  Tree [35]%Z cmds0 = [35; 109; 32; 10; 35; 9500; 9472; 9472; 32; 118; 32; 10; 35; 9500; 9472; 9472; 32; 101; 32; 10;
    35; 115; 32; 10; 35; 9500; 9472; 9472; 32; 120; 32; 10]%Z.
Proof.
  split; [|split; [vm_compute; reflexivity|vm_compute; reflexivity]].
  assert (R : forall c, c <> 10%Z -> c <> 9500%Z -> readable [c]) by (intros c A B; split; [cbn; tauto|exact B]).
  vm_compute commands. repeat constructor; apply R; discriminate.
Qed.
