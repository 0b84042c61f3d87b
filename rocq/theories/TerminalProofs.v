From Verif Require Import Base ListAux TerminalModel TerminalSpec.
From Coq Require Import ZifyBool.
Open Scope Z_scope.

Lemma trun_app u vim s a b : trun u vim s (a ++ b) = trun u vim s a ++ trun u vim (tend u vim s a) b.
Proof.
  revert s. induction a as [|r a IH]; intros s; cbn; [reflexivity|].
  destruct (tstep u vim s r) as [s' o] eqn:E. cbn. now rewrite IH.
Qed.

Lemma tend_app u vim s a b : tend u vim s (a ++ b) = tend u vim (tend u vim s a) b.
Proof. revert s. induction a as [|r a IH]; intros s; cbn; [reflexivity|]. apply IH. Qed.

Lemma tkeys_app a b : tkeys (a ++ b) = tkeys a ++ tkeys b.
Proof. unfold tkeys. now rewrite flat_map_app. Qed.

(** Runs leaving no key behind, and the key of a segment. *)
Definition seg (u : uenv) (vim : bool) (s : tstate) (input keys : list Z) (s' : tstate) : Prop :=
  tkeys (trun u vim s input) = keys /\ tend u vim s input = s'.

Lemma seg_app u vim s a ka s1 b kb s2 : seg u vim s a ka s1 -> seg u vim s1 b kb s2 -> seg u vim s (a ++ b) (ka ++ kb) s2.
Proof.
  intros (A1 & A2) (B1 & B2). split.
  - rewrite trun_app, tkeys_app, A2. congruence.
  - rewrite tend_app, A2. exact B2.
Qed.

Lemma plain_seg u vim input : ~ In 27 input \/ vim = true -> seg u vim TGround input input TGround.
Proof.
  intros H. induction input as [|r l IH]; [split; reflexivity|].
  assert (E : tstep u vim TGround r = (TGround, TKey r)).
  { cbn. unfold emit. destruct (Z.eqb_spec r CharEsc) as [->|N]; [|reflexivity].
    destruct H as [H| ->]; [|reflexivity]. elim H. now left. }
  assert (H' : ~ In 27 l \/ vim = true) by (destruct H as [H|H]; [left; intros I; apply H; now right|auto]).
  destruct (IH H') as (A & B). split.
  - cbn [trun]. rewrite E. cbn. now rewrite <- A at 2.
  - cbn [tend]. rewrite E. exact B.
Qed.

Lemma csi_params u vim acc attr : ascii_numbers u -> params attr ->
  seg u vim (TCsi acc) attr [] (TCsi (acc ++ attr)).
Proof.
  intros U P. revert acc. induction P as [|r l Hr P IH]; intros acc.
  - split; cbn; [reflexivity|now rewrite app_nil_r].
  - assert (E : tstep u vim (TCsi acc) r = (TCsi (acc ++ [r]), TNone)).
    { cbn. assert (X : ((r =? 59) || u_number u r) = true); [|now rewrite X].
      destruct Hr as [Hr| ->]; [|reflexivity]. rewrite U by lia. lia. }
    destruct (IH (acc ++ [r])) as (A & B). split.
    + cbn [trun]. rewrite E. exact A.
    + cbn [tend]. rewrite E. cbn [fst]. rewrite B, <- app_assoc. reflexivity.
Qed.

Lemma ss3_params u vim acc attr : ascii_numbers u -> params attr ->
  seg u vim (TSs3 acc) attr [] (TSs3 (acc ++ attr)).
Proof.
  intros U P. revert acc. induction P as [|r l Hr P IH]; intros acc.
  - split; cbn; [reflexivity|now rewrite app_nil_r].
  - assert (E : tstep u vim (TSs3 acc) r = (TSs3 (acc ++ [r]), TNone)).
    { cbn. assert (X : ((r =? 59) || u_number u r) = true); [|now rewrite X].
      destruct Hr as [Hr| ->]; [|reflexivity]. rewrite U by lia. lia. }
    destruct (IH (acc ++ [r])) as (A & B). split.
    + cbn [trun]. rewrite E. exact A.
    + cbn [tend]. rewrite E. cbn [fst]. rewrite B, <- app_assoc. reflexivity.
Qed.

Lemma exkey_not_esc attr t : escapeExKey attr t <> CharEsc.
Proof.
  unfold escapeExKey. repeat (destruct (_ =? _); [try (vm_compute; congruence)|]); [|vm_compute; congruence].
  repeat match goal with |- match ?x with _ => _ end <> _ => destruct x end; vm_compute; congruence.
Qed.

Lemma ss3key_not_esc t : escapeSS3Key t <> CharEsc.
Proof. unfold escapeSS3Key. repeat (destruct (_ =? _); [vm_compute; congruence|]). vm_compute; congruence. Qed.

Lemma emit_key vim r : r <> CharEsc -> emit vim r = (TGround, TKey r).
Proof. intros N. unfold emit. destruct (Z.eqb_spec r CharEsc); [contradiction|reflexivity]. Qed.

(** The key a complete sequence stands for: none when there is no translation. *)
Definition key_list (k : Z) : list Z := if k =? 0 then [] else [k].

Lemma exkey_82 attr : escapeExKey attr 82 = 0.
Proof. reflexivity. Qed.

Lemma csi_seg u attr t : ascii_numbers u -> params attr -> final u t ->
  seg u false TGround (csi attr t) (key_list (escapeExKey attr t)) TGround.
Proof.
  intros U P (F1 & F2). unfold csi.
  change (27 :: 91 :: attr ++ [t]) with ([27; 91] ++ attr ++ [t]).
  change (key_list (escapeExKey attr t)) with ([] ++ [] ++ key_list (escapeExKey attr t)).
  apply seg_app with (s1 := TCsi []); [split; reflexivity|].
  apply seg_app with (s1 := TCsi attr); [exact (csi_params u false [] attr U P)|].
  assert (E : tstep u false (TCsi attr) t = (TGround, if escapeExKey attr t =? 0 then
      (if t =? 82 then if Get2 attr then TReport attr else TNone else TNone) else TKey (escapeExKey attr t))).
  { cbn [tstep]. rewrite F1, orb_false_r. destruct (Z.eqb_spec t 59); [contradiction|].
    destruct (Z.eqb_spec t 82) as [->|N]; [reflexivity|].
    destruct (escapeExKey attr t =? 0) eqn:K; [reflexivity|]. apply emit_key, exkey_not_esc. }
  split.
  - cbn [trun]. rewrite E. unfold key_list. destruct (escapeExKey attr t =? 0); [|reflexivity].
    destruct (t =? 82); [destruct (Get2 attr)|]; reflexivity.
  - cbn [tend]. rewrite E. reflexivity.
Qed.

Lemma ss3_seg u attr t : ascii_numbers u -> params attr -> final u t ->
  seg u false TGround (ss3 attr t) (key_list (escapeSS3Key t)) TGround.
Proof.
  intros U P (F1 & F2). unfold ss3.
  change (27 :: 79 :: attr ++ [t]) with ([27; 79] ++ attr ++ [t]).
  change (key_list (escapeSS3Key t)) with ([] ++ [] ++ key_list (escapeSS3Key t)).
  apply seg_app with (s1 := TSs3 []); [split; reflexivity|].
  apply seg_app with (s1 := TSs3 attr); [exact (ss3_params u false [] attr U P)|].
  assert (E : tstep u false (TSs3 attr) t = (TGround, if escapeSS3Key t =? 0 then TNone else TKey (escapeSS3Key t))).
  { cbn [tstep]. rewrite F1, orb_false_r. destruct (Z.eqb_spec t 59); [contradiction|].
    destruct (escapeSS3Key t =? 0) eqn:K; [reflexivity|]. apply emit_key, ss3key_not_esc. }
  split.
  - cbn [trun]. rewrite E. unfold key_list. destruct (escapeSS3Key t =? 0); reflexivity.
  - cbn [tend]. rewrite E. reflexivity.
Qed.

Lemma key_final_ok u k : ascii_numbers u -> final u (key_final k).
Proof. intros U. split; [rewrite U by (destruct k; cbn; lia); destruct k; reflexivity|destruct k; discriminate]. Qed.

Lemma key_rune_ex attr k : key_list (escapeExKey attr (key_final k)) = [key_rune k].
Proof. destruct k; reflexivity. Qed.

Lemma key_rune_ss3 k : key_list (escapeSS3Key (key_final k)) = [key_rune k].
Proof. destruct k; reflexivity. Qed.

Lemma meta_seg u m : seg u false TGround [27; meta_rune m] [meta_key m] TGround.
Proof. destruct m; split; reflexivity. Qed.

(** Any complete piece of input between two pieces: the keys concatenate. *)
Lemma seg_keys u vim pre kpre mid kmid post : seg u vim TGround pre kpre TGround -> seg u vim TGround mid kmid TGround ->
  keys_of u vim (pre ++ mid ++ post) = kpre ++ kmid ++ keys_of u vim post.
Proof.
  intros (A1 & A2) (B1 & B2). unfold keys_of. rewrite !trun_app, !tkeys_app, A1, A2, B1, B2. reflexivity.
Qed.

Lemma other_csi attr t : (forall k, t <> key_final k) -> (t = 126 -> attr <> [51]) -> key_list (escapeExKey attr t) = [].
Proof.
  intros H D. unfold escapeExKey.
  destruct (Z.eqb_spec t 68); [now elim (H KLeft)|]. destruct (Z.eqb_spec t 67); [now elim (H KRight)|].
  destruct (Z.eqb_spec t 65); [now elim (H KUp)|]. destruct (Z.eqb_spec t 66); [now elim (H KDown)|].
  destruct (Z.eqb_spec t 72); [now elim (H KHome)|]. destruct (Z.eqb_spec t 70); [now elim (H KEnd)|].
  destruct (Z.eqb_spec t 126) as [E|]; [|reflexivity]. specialize (D E).
  destruct attr as [|x [|y l]]; try reflexivity.
  - destruct (Z.eq_dec x 51) as [->|N]; [congruence|].
    assert (X : (match x with 51 => CharDelete | _ => 0 end) = 0).
    { destruct x as [|p|p]; try reflexivity. repeat (destruct p as [p|p|]; try reflexivity). congruence. }
    unfold key_list. rewrite X. reflexivity.
  - unfold key_list. destruct x as [|p|p]; try reflexivity. repeat (destruct p as [p|p|]; try reflexivity).
Qed.

Lemma other_ss3 t : (forall k, t <> key_final k) -> key_list (escapeSS3Key t) = [].
Proof.
  intros H. unfold escapeSS3Key.
  destruct (Z.eqb_spec t 68); [now elim (H KLeft)|]. destruct (Z.eqb_spec t 67); [now elim (H KRight)|].
  destruct (Z.eqb_spec t 65); [now elim (H KUp)|]. destruct (Z.eqb_spec t 66); [now elim (H KDown)|].
  destruct (Z.eqb_spec t 72); [now elim (H KHome)|]. destruct (Z.eqb_spec t 70); [now elim (H KEnd)|]. reflexivity.
Qed.

Lemma report_output u attr post : ascii_numbers u -> params attr ->
  trun u false TGround (csi attr 82 ++ post) =
    repeat TNone (S (S (length attr))) ++ (if Get2 attr then TReport attr else TNone) :: trun u false TGround post.
Proof.
  intros U P. unfold csi. cbn [app]. 
  assert (G : forall acc l, params l -> trun u false (TCsi acc) ((l ++ [82]) ++ post) =
     repeat TNone (length l) ++ (if Get2 (acc ++ l) then TReport (acc ++ l) else TNone) :: trun u false TGround post).
  { intros acc l Pl. revert acc. induction Pl as [|r l Hr Pl IH]; intros acc.
    - cbn [app trun length repeat]. rewrite app_nil_r. cbn [tstep].
      assert (X : u_number u 82 = false) by (rewrite U by lia; reflexivity). rewrite X. reflexivity.
    - cbn [app trun length repeat].
      assert (E : tstep u false (TCsi acc) r = (TCsi (acc ++ [r]), TNone)).
      { cbn. assert (X : ((r =? 59) || u_number u r) = true); [|now rewrite X].
        destruct Hr as [Hr| ->]; [|reflexivity]. rewrite U by lia. lia. }
      rewrite E. f_equal. rewrite IH, <- app_assoc. reflexivity. }
  cbn [trun tstep emit]. cbn. f_equal. f_equal. apply (G [] attr P).
Qed.

(** Without ESC every key decoded is an input rune, so it is also never lost. *)
Lemma vim_plain u input : keys_of u true input = input.
Proof. destruct (plain_seg u true input (or_intror eq_refl)) as (A & _). exact A. Qed.

(** *** other keys after ESC *)
Lemma escapeKey_other r : (forall m, r <> meta_rune m) -> escapeKey r = r.
Proof.
  intros M. pose proof (M MLeft) as M1. pose proof (M MRight) as M2. pose proof (M MDel) as M3. pose proof (M MTrans) as M4. pose proof (M MBack) as M5.
  cbn in M1, M2, M3, M4, M5. unfold escapeKey, CharTranspose, CharBackspace.
  destruct (Z.eqb_spec r 98); [lia|]. destruct (Z.eqb_spec r 102); [lia|]. destruct (Z.eqb_spec r 100); [lia|].
  destruct (Z.eqb_spec r 20); [lia|]. destruct (Z.eqb_spec r 127); [lia|]. reflexivity.
Qed.

Lemma other_meta_seg u r : (forall m, r <> meta_rune m) -> r <> 27 -> r <> 91 -> r <> 79 -> seg u false TGround [27; r] [r] TGround.
Proof.
  intros M N1 N2 N3. assert (E : tstep u false TEsc r = (TGround, TKey r)).
  { unfold tstep, CharEscapeEx, CharO. destruct (Z.eqb_spec r 91); [lia|]. destruct (Z.eqb_spec r 79); [lia|]. rewrite (escapeKey_other r M).
    unfold emit, CharEsc. destruct (Z.eqb_spec r 27); [lia|]. reflexivity. }
  split.
  - change (trun u false TGround [27; r]) with (TNone :: (let '(s', o) := tstep u false TEsc r in o :: trun u false s' [])). rewrite E. reflexivity.
  - change (tend u false TGround [27; r]) with (fst (tstep u false TEsc r)). rewrite E. reflexivity.
Qed.

(** *** cursor reports *)
Lemma split_run d : ~ In 59 d -> forall cur rest, split_semi (d ++ 59 :: rest) cur = (cur ++ d) :: split_semi rest [].
Proof.
  induction d as [|r d IH]; intros N cur rest; cbn [app split_semi].
  - now rewrite app_nil_r.
  - cbn in N. replace (r =? 59) with false by lia. rewrite IH by tauto. now rewrite <- app_assoc.
Qed.
Lemma split_last d : ~ In 59 d -> forall cur, split_semi d cur = [cur ++ d].
Proof.
  induction d as [|r d IH]; intros N cur; cbn [split_semi]; [now rewrite app_nil_r|]. cbn in N. replace (r =? 59) with false by lia.
  rewrite IH by tauto. now rewrite <- app_assoc.
Qed.
Lemma split_end d rest cur : ~ In 59 d -> rest = [] \/ hd 0 rest = 59 -> exists t, split_semi (d ++ rest) cur = (cur ++ d) :: t.
Proof.
  intros N [->|H]; [rewrite app_nil_r, split_last by assumption; eauto|].
  destruct rest as [|r rest]; [discriminate|]. cbn in H. subst r. rewrite split_run by assumption. eauto.
Qed.
Lemma atoi_digits d : Forall (fun r => 48 <= r <= 57) d -> forall a, atoi_val d a = Some (fold_left (fun a r => a * 10 + (r - 48)) d a).
Proof. induction 1 as [|r d R _ IH]; intros a; [reflexivity|]. cbn. replace ((48 <=? r) && (r <=? 57)) with true by lia. apply IH. Qed.
Lemma Atoi_decimal d : d <> [] -> Forall (fun r => 48 <= r <= 57) d -> decimal d <= 9223372036854775807 -> Atoi d = Some (decimal d).
Proof.
  intros N F L. unfold Atoi. destruct d as [|r d]; [contradiction|]. rewrite (atoi_digits _ F). fold (decimal (r :: d)).
  now replace (decimal (r :: d) <=? 9223372036854775807) with true by lia.
Qed.
Lemma digits_semi d : Forall (fun r => 48 <= r <= 57) d -> ~ In 59 d.
Proof. intros F H. rewrite Forall_forall in F. apply F in H. lia. Qed.

Lemma report_two d1 d2 rest : d1 <> [] -> d2 <> [] -> Forall (fun r => 48 <= r <= 57) d1 -> Forall (fun r => 48 <= r <= 57) d2 ->
  decimal d1 <= 9223372036854775807 -> decimal d2 <= 9223372036854775807 -> rest = [] \/ hd 0 rest = 59 ->
  Get2 (d1 ++ 59 :: d2 ++ rest) = true.
Proof.
  intros N1 N2 F1 F2 L1 L2 R. unfold Get2. rewrite split_run by now apply digits_semi.
  destruct (split_end d2 rest [] (digits_semi _ F2) R) as (t & ->). cbn [app]. now rewrite !Atoi_decimal by assumption.
Qed.
Lemma report_one attr : ~ In 59 attr -> Get2 attr = false.
Proof. intros N. unfold Get2. now rewrite split_last by assumption. Qed.
Lemma report_empty d1 d2 rest : d1 = [] \/ d2 = [] -> ~ In 59 d1 -> ~ In 59 d2 -> rest = [] \/ hd 0 rest = 59 ->
  Get2 (d1 ++ 59 :: d2 ++ rest) = false.
Proof.
  intros E N1 N2 R. unfold Get2. rewrite split_run by assumption. destruct (split_end d2 rest [] N2 R) as (t & ->). cbn [app].
  destruct E as [->| ->]; [reflexivity|]. destruct (Atoi d1); reflexivity.
Qed.
