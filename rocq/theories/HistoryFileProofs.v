From Verif Require Import Base ListAux RunesModel RunesSpec RunesProofs Utf8Model Utf8Spec Utf8Proofs
  HistoryModel HistorySpec HistoryProofs.
From Coq Require Import ZifyBool Permutation.
Open Scope nat_scope.

Lemma encode_rune_10 r : In 10%Z (encode_rune r) -> r = 10%Z.
Proof.
  unfold encode_rune, RuneError, valid_rune. cbn zeta. intros I.
  pose proof (Z.mod_pos_bound r 64 ltac:(lia)). 
  pose proof (Z.mod_pos_bound (r / 64) 64 ltac:(lia)).
  pose proof (Z.mod_pos_bound (r / 4096) 64 ltac:(lia)).
  match type of I with context[if ?b then r else _] => destruct b eqn:V end.
  - destruct (r <=? 127)%Z eqn:E1; [destruct I as [I|[]]; lia|].
    assert (0 <= r / 64)%Z by (apply Z.div_pos; lia).
    assert (0 <= r / 4096)%Z by (apply Z.div_pos; lia).
    assert (0 <= r / 262144)%Z by (apply Z.div_pos; lia).
    destruct (r <=? 2047)%Z; [cbn [In] in I; lia|]. destruct (r <=? 65535)%Z; cbn [In] in I; lia.
  - vm_compute in I. intuition discriminate.
Qed.

Lemma encode_10 s : ~ In 10%Z s -> ~ In 10%Z (encode s).
Proof.
  intros N I. unfold encode in I. apply in_flat_map in I. destruct I as (r & Ir & I).
  apply encode_rune_10 in I. now subst r.
Qed.

Lemma read_lines_skip bs cur rest : ~ In 10%Z bs -> read_lines (bs ++ rest) cur = read_lines rest (cur ++ bs).
Proof.
  revert cur. induction bs as [|b bs IH]; intros cur N; cbn.
  - now rewrite app_nil_r.
  - destruct (b =? 10)%Z eqn:E; [elim N; left; lia|]. rewrite IH by (intros I; apply N; now right).
    now rewrite <- app_assoc.
Qed.

Lemma read_lines_torn torn cur : ~ In 10%Z torn -> read_lines torn cur = [].
Proof. intros N. rewrite <- (app_nil_r torn). rewrite read_lines_skip by exact N. reflexivity. Qed.

Definition plain_line (s : list Z) : Prop := ~ In 10%Z s.

Lemma read_lines_file ls torn : Forall plain_line ls -> ~ In 10%Z torn ->
  read_lines (flat_map file_line ls ++ torn) [] = map encode ls.
Proof.
  intros F T. induction F as [|l ls Hl F IH]; cbn [flat_map map].
  - now apply read_lines_torn.
  - unfold file_line at 1. rewrite <- !app_assoc. rewrite read_lines_skip by (now apply encode_10).
    cbn. now rewrite IH.
Qed.

Lemma TrimSpaceLeft_id l : (forall x t, l = x :: t -> IsSpace x = false) -> TrimSpaceLeft l = l.
Proof. destruct l as [|x l]; intros H; [reflexivity|]. cbn. now rewrite (H x l eq_refl). Qed.

Lemma clean_line_load s : clean_line s -> TrimSpace (decode (encode s)) = s.
Proof.
  intros (NE & SC & N & H1 & H2). rewrite decode_encode, map_sanitize_id by exact SC.
  unfold TrimSpace. rewrite (TrimSpaceLeft_id s) by exact H1.
  rewrite TrimSpaceLeft_id; [now rewrite rev_involutive|]. intros x t E.
  apply (f_equal (@rev _)) in E. rewrite rev_involutive in E. cbn in E. eauto.
Qed.

Lemma lastn_app_lastn {A} k (a b : list A) : lastn k (lastn k a ++ b) = lastn k (a ++ b).
Proof.
  unfold lastn. rewrite !app_length, skipn_length, !skipn_app, skipn_skipn, skipn_length. 
  f_equal; [|f_equal; lia].
  destruct (le_lt_dec (length a) (length a + length b - k)) as [G|G].
  - rewrite !skipn_all2 by lia. reflexivity.
  - f_equal. lia.
Qed.

Definition srcs (h : hist) : list (list Z) := map it_src (h_items h).

Lemma load_lines_srcs c ls h : Forall clean_line ls -> length (h_items h) <= keep c ->
  srcs (load_lines c (map encode ls) h) = lastn (keep c) (srcs h ++ ls).
Proof.
  intros F. revert h. induction F as [|l ls Hl F IH]; intros h L; cbn [map load_lines].
  - rewrite app_nil_r. unfold srcs. rewrite lastn_all; [reflexivity|]. now rewrite map_length.
  - rewrite clean_line_load by exact Hl. destruct Hl as (NE & _).
    destruct (Nat.eqb_spec (length l) 0) as [E|E]; [destruct l; [congruence|discriminate]|].
    rewrite IH by (rewrite Compact_items, lastn_length; lia).
    unfold srcs at 1. rewrite Compact_items. cbn [Push h_items]. rewrite <- lastn_map, map_app. cbn [map it_src].
    rewrite lastn_app_lastn. now rewrite <- app_assoc.
Qed.

Lemma load_lines_rest c ls h : h_enable (load_lines c ls h) = h_enable h /\ h_fd (load_lines c ls h) = h_fd h /\
  h_disk (load_lines c ls h) = h_disk h.
Proof.
  revert h. induction ls as [|l ls IH]; intros h; cbn [load_lines]; [auto|].
  destruct (IH (if length (TrimSpace (decode l)) =? 0 then h else Compact c (Push (TrimSpace (decode l)) h))) as (A & B & C).
  rewrite A, B, C. destruct (length _ =? 0); [auto|].
  destruct (Compact_rest c (Push (TrimSpace (decode l)) h)) as (_ & _ & _ & R4 & R5 & R6).
  rewrite R4, R5, R6. auto.
Qed.

Definition openf (c : hcfg) (disk : list Z) : hist := HInit c true (newOpHistory disk).

Lemma clean_plain l : clean_line l -> plain_line l.
Proof. intros (_ & _ & N & _). exact N. Qed.

(** Opening a file of clean lines, possibly followed by an unterminated one. *)
Lemma open_spec c ls torn : hc_file c = true -> Forall clean_line ls -> ~ In 10%Z torn ->
  let h := openf c (flat_map file_line ls ++ torn) in
  hwf h /\ h_enable h = true /\ h_fd h = FdOpen /\
  (exists com e, at_back h com e /\ map it_src com = lastn (keep c) ls /\ it_src e = []) /\
  h_disk h = if (hc_limit c <? Z.of_nat (length ls))%Z then flat_map file_line (lastn (keep c) ls)
             else flat_map file_line ls ++ torn.
Proof.
  intros HF CL T h. subst h. unfold openf, HInit. cbn [newOpHistory h_fd]. rewrite HF.
  set (disk := flat_map file_line ls ++ torn). set (h0 := newOpHistory disk).
  assert (W : hwf (historyUpdatePath c true h0)) by apply historyUpdatePath_ok, hwf_new.
  split; [exact W|]. unfold historyUpdatePath in *. cbn [negb] in *. change (h_disk h0) with disk in *.
  assert (RL : read_lines disk [] = map encode ls).
  { apply read_lines_file; [|exact T]. eapply Forall_impl; [|exact CL]. exact clean_plain. }
  rewrite RL, map_length in *.
  set (h1 := load_lines c (map encode ls) (set_file FdOpen disk h0)) in *.
  assert (S1 : srcs h1 = lastn (keep c) ls).
  { unfold h1. rewrite load_lines_srcs; [reflexivity|exact CL|cbn; lia]. }
  destruct (load_lines_rest c (map encode ls) (set_file FdOpen disk h0)) as (E1 & F1 & D1). fold h1 in E1, F1, D1.
  set (h2 := if (hc_limit c <? Z.of_nat (length ls))%Z then rewriteLocked c h1 else h1) in *.
  assert (I2 : h_items h2 = h_items h1) by (unfold h2, rewriteLocked; rewrite HF; destruct (_ <? _)%Z; reflexivity).
  assert (E2 : h_enable h2 = true) by (unfold h2, rewriteLocked; rewrite HF; destruct (_ <? _)%Z; cbn; exact E1).
  assert (F2 : h_fd h2 = FdOpen) by (unfold h2, rewriteLocked; rewrite HF; destruct (_ <? _)%Z; cbn; [reflexivity|exact F1]).
  split; [exact E2|]. split; [exact F2|]. split.
  - exists (h_items h1). eexists. split; [|split; [exact S1|]].
    + split; [exact W|]. cbn [Push bump_ver h_items h_cur]. rewrite I2. split; reflexivity.
    + reflexivity.
  - cbn [Push bump_ver h_disk]. unfold h2, rewriteLocked. rewrite HF. destruct (_ <? _)%Z.
    + cbn [set_file h_disk]. rewrite <- S1. unfold srcs.
      generalize (h_items h1). induction l as [|x l IH]; cbn; [reflexivity|]. now rewrite IH.
    + exact D1.
Qed.

Lemma open_committed c ls torn : hc_file c = true -> Forall clean_line ls -> ~ In 10%Z torn ->
  committed (openf c (flat_map file_line ls ++ torn)) = lastn (keep c) ls.
Proof.
  intros HF CL T. destruct (open_spec c ls torn HF CL T) as (W & _ & _ & (com & e & (_ & I & _) & S & _) & _).
  unfold committed. rewrite I, removelast_last. exact S.
Qed.

(** A session and the file it leaves *)
Definition clean_event (e : event) : Prop :=
  match e with Edit _ => True | Submit s => s = [] \/ clean_line s end.

Definition persisted (c : hcfg) (h : hist) (R F : list (list Z)) : Prop :=
  rests c h R /\ h_fd h = FdOpen /\ h_disk h = flat_map file_line F /\ Forall clean_line F /\
  lastn (keep c) F = lastn (keep c) R.

Lemma run_event_persisted c e h R F h' : (1 <= hc_limit c)%Z -> persisted c h R F -> clean_event e ->
  run_event c e h = Ok h' -> exists F', persisted c h' (record R e) F'.
Proof.
  intros Hl (A & FD & D & CF & LN) CE E.
  pose proof (run_event_rests c e h R h' Hl A E) as A'.
  destruct A as (com & x & AB & En & K).
  assert (HL : 1 <= keep c) by (unfold keep; lia).
  destruct e as [s|s]; cbn [run_event] in E.
  - destruct (Update_at_back c s false h com x h' AB E) as (_ & _ & _ & F' & _ & _ & D').
    exists F. split; [exact A'|]. split; [congruence|]. split; [congruence|]. auto.
  - pose proof (New_at_back c s h com x h' AB En E) as N.
    pose proof (submit_cases s com) as SC. cbn zeta in SC. destruct (_ || _).
    + destruct N as (_ & _ & D' & F'). exists F. split; [exact A'|]. split; [congruence|]. split; [congruence|].
      split; [exact CF|]. rewrite (record_skip c com R s); auto.
      destruct SC as [|SC]; auto. right. left. intros ->. discriminate.
    + destruct N as (e2 & _ & _ & _ & _ & D' & F'). destruct SC as (S1 & S2).
      destruct CE as [|CE]; [contradiction|].
      exists (F ++ [s]). split; [exact A'|]. split; [congruence|]. split; [|split].
      * rewrite D'. unfold after_write. rewrite FD, D, flat_map_app. cbn. now rewrite app_nil_r.
      * apply Forall_app. auto.
      * replace (keep c) with (S (keep c - 1)) in * by lia.
        rewrite lastn_app_S.
        assert (X : lastn (keep c - 1) F = lastn (keep c - 1) R).
        { rewrite <- (Nat.min_l (keep c - 1) (S (keep c - 1))) by lia. rewrite <- !lastn_lastn. now rewrite LN. }
        unfold record. destruct (list_eq_dec Z.eq_dec s []); [contradiction|].
        destruct (last_line R) as [y|] eqn:LL; [|rewrite lastn_app_S; now rewrite X].
        destruct (list_eq_dec Z.eq_dec y s) as [->|]; [|rewrite lastn_app_S; now rewrite X].
        (* only possible with a limit of one *)
        assert (NN : R <> []) by (intros ->; discriminate).
        destruct K as (K1 & K2 & K3). destruct com as [|a com].
        -- assert (keep c - 1 = 0).
           { destruct R; [congruence|]. cbn in K3. destruct (keep c - 1); [reflexivity|]. cbn in K3. lia. }
           rewrite H. destruct (exists_last NN) as (R0 & z & EQ). rewrite EQ in *. rewrite last_line_app in LL.
           injection LL as ->. rewrite (lastn_app_S 0). f_equal.
           unfold lastn. rewrite !Nat.sub_0_r, !skipn_all. reflexivity.
        -- exfalso. apply S2. unfold newest_src. rewrite K1. rewrite last_line_lastn by (cbn; lia). exact LL.
Qed.

Lemma run_events_persisted c es h R F : (1 <= hc_limit c)%Z -> persisted c h R F -> Forall clean_event es ->
  exists h' F', run_events c es h = Ok h' /\ persisted c h' (recorded R es) F'.
Proof.
  intros Hl. revert h R F. induction es as [|e es IH]; intros h R F P CE; cbn.
  - eauto.
  - inversion CE; subst.
    assert (exists h1, run_event c e h = Ok h1) as (h1 & E1).
    { destruct P as ((com & x & (W & _) & _) & _). destruct e; cbn.
      - destruct (Update_ok c s false h W) as (? & ? & _); eauto.
      - destruct (New_ok c s h W) as (? & ? & _); eauto. }
    rewrite E1. cbn. destruct (run_event_persisted c e h R F h1 Hl P H1 E1) as (F' & P'). eauto.
Qed.

Lemma open_persisted c ls : (1 <= hc_limit c)%Z -> hc_file c = true -> Forall clean_line ls ->
  exists F, persisted c (openf c (flat_map file_line ls)) (lastn (keep c) ls) F.
Proof.
  intros Hl HF CL. destruct (open_spec c ls [] HF CL (fun x => x)) as (W & En & FD & (com & e & AB & S & _) & D).
  rewrite app_nil_r in *.
  assert (LC : length com = Nat.min (keep c) (length ls)).
  { rewrite <- (map_length it_src), S, lastn_length. reflexivity. }
  assert (R : rests c (openf c (flat_map file_line ls)) (lastn (keep c) ls)).
  { exists com, e. split; [exact AB|]. split; [exact En|]. split; [|split].
    - rewrite S. rewrite (lastn_all (length com)); [reflexivity|]. rewrite lastn_length. lia.
    - lia.
    - rewrite lastn_length. lia. }
  exists (if (hc_limit c <? Z.of_nat (length ls))%Z then lastn (keep c) ls else ls).
  split; [exact R|]. split; [exact FD|]. destruct (hc_limit c <? Z.of_nat (length ls))%Z.
  - split; [exact D|]. split.
    + unfold lastn. rewrite Forall_forall in *. intros x I. apply CL. rewrite <- (firstn_skipn (length ls - keep c) ls).
      apply in_app_iff. auto.
    + reflexivity.
  - split; [exact D|]. split; [exact CL|]. now rewrite lastn_lastn, Nat.min_id.
Qed.

Lemma session_reload c c' es ls : (1 <= hc_limit c)%Z -> hc_file c = true -> hc_file c' = true ->
  (hc_limit c' <= hc_limit c)%Z -> Forall clean_line ls -> Forall clean_event es ->
  exists h, run_events c es (openf c (flat_map file_line ls)) = Ok h /\
    committed (openf c' (h_disk (HClose h))) = lastn (keep c') (recorded (lastn (keep c) ls) es).
Proof.
  intros Hl HF HF' LE CL CE. destruct (open_persisted c ls Hl HF CL) as (F & P).
  destruct (run_events_persisted c es _ _ _ Hl P CE) as (h' & F' & E & (_ & FD & D & CF & LN)).
  exists h'. split; [exact E|]. unfold HClose. rewrite FD. cbn [set_file h_disk]. rewrite D.
  rewrite <- (app_nil_r (flat_map file_line F')). rewrite open_committed by (auto; intros []).
  assert (X : Nat.min (keep c') (keep c) = keep c') by (unfold keep; lia).
  rewrite <- X, <- !lastn_lastn, LN. reflexivity.
Qed.

(** An unterminated last line: dropped on load and glued to the next recorded one. *)
Lemma torn_glued c ls torn s : (1 <= hc_limit c)%Z -> hc_file c = true -> Forall clean_line ls -> ~ In 10%Z torn ->
  (Z.of_nat (length ls) <= hc_limit c)%Z -> s <> [] -> last_line ls <> Some s -> plain_line s ->
  exists h, New c s (openf c (flat_map file_line ls ++ torn)) = Ok h /\
    h_disk h = flat_map file_line ls ++ torn ++ file_line s /\
    read_lines (h_disk h) [] = map encode ls ++ [torn ++ encode s].
Proof.
  intros Hl HF CL T LL NE ND PS.
  destruct (open_spec c ls torn HF CL T) as (W & En & FD & (com & e & AB & S & _) & D).
  destruct (hc_limit c <? Z.of_nat (length ls))%Z eqn:Q; [lia|].
  destruct (New_ok c s _ W) as (h & E & _). exists h. split; [exact E|].
  pose proof (New_at_back c s _ com e h AB En E) as N.
  pose proof (submit_cases s com) as SC. cbn zeta in SC. destruct (_ || _).
  - destruct SC as [|SC]; [contradiction|]. exfalso. apply ND. rewrite <- SC. unfold newest_src. rewrite S.
    rewrite lastn_all by (unfold keep; lia). reflexivity.
  - destruct N as (e2 & _ & _ & _ & _ & D' & _). unfold after_write in D'. rewrite FD, D in D'.
    rewrite <- app_assoc in D'. split; [exact D'|]. rewrite D'.
    clear - CL T PS. induction CL as [|l ls Hl F IH]; cbn [flat_map map app].
    + unfold file_line. rewrite read_lines_skip by exact T. cbn [app].
      rewrite read_lines_skip by now apply encode_10. reflexivity.
    + unfold file_line at 1. rewrite <- !app_assoc. rewrite read_lines_skip by (apply encode_10, clean_plain, Hl).
      cbn [app read_lines]. cbn [Z.eqb Pos.eqb]. now rewrite IH.
Qed.

Lemma load_lines_nil c ls h : keep c = 0 -> h_items h = [] -> h_items (load_lines c ls h) = [].
Proof.
  intros K. revert h. induction ls as [|l ls IH]; intros h E; cbn [load_lines]; [exact E|].
  apply IH. destruct (length _ =? 0); [exact E|]. rewrite Compact_items, K. cbn. rewrite E. reflexivity.
Qed.

Lemma disabled_truncates c disk : (hc_limit c < 0)%Z -> hc_file c = true -> h_disk (openf c disk) = [].
Proof.
  intros Hl HF. unfold openf, HInit. cbn [newOpHistory h_fd]. rewrite HF. unfold historyUpdatePath. cbn [negb].
  cbn [Push bump_ver h_disk newOpHistory].
  assert (X : (hc_limit c <? Z.of_nat (length (read_lines disk [])))%Z = true) by lia. rewrite X.
  unfold rewriteLocked. rewrite HF. cbn [set_file h_disk].
  rewrite load_lines_nil; [reflexivity|unfold keep; lia|reflexivity].
Qed.
