From Verif Require Import Base ListAux TtyModel TtySpec TtyProofs WinTtyModel.
Open Scope Z_scope.

Definition wraw_inv (m : Z) (on : bool) (s : wraw) : Prop :=
  if on then w_saved s = Some m /\ w_mode s = wraw_of m
  else w_mode s = m /\ (w_saved s = None \/ w_saved s = Some m).

Lemma wraw_calls_inv m cs : forall on s, unnested on cs -> wraw_inv m on s -> wraw_inv m (final on cs) (wraw_calls cs s).
Proof.
  unfold wraw_calls. induction cs as [|c cs IH]; intros on s U I; cbn; [exact I|].
  destruct c; cbn [unnested final fold_left wraw_call] in *.
  - destruct U as (-> & U). apply IH; [exact U|]. cbn in I. destruct I as (E & _). cbn. now rewrite E.
  - apply IH; [exact U|]. destruct on; cbn in I.
    + destruct I as (E & _). rewrite E. cbn. auto.
    + destruct I as (E & [H|H]); rewrite H; cbn; auto.
Qed.

Lemma drop_last_other c l x : x <> c -> drop_last c (l ++ [x]) = l ++ [x].
Proof.
  intros N. unfold drop_last. rewrite rev_app_distr. cbn. destruct (Z.eqb_spec x c); [contradiction|reflexivity].
Qed.
Lemma drop_last_same c l : drop_last c (l ++ [c]) = l.
Proof. unfold drop_last. rewrite rev_app_distr. cbn. rewrite Z.eqb_refl. apply rev_involutive. Qed.
Lemma drop_last_none c l : ~ In c l -> drop_last c l = l.
Proof.
  destruct l as [|x l _] using rev_ind; [reflexivity|]. intros N. apply drop_last_other.
  intros ->. apply N. apply in_or_app. right. now left.
Qed.

(** What is left of the line after its last full sixteen bytes *)
Definition cr_cut (l : list Z) : bool := (length l mod 16 =? 15)%nat.

Lemma wread_some f ret buf q q' : tty_read 16 q = Some (buf, q') -> buf <> [] ->
  wpw_loop (S f) ret q =
    let got := drop_last 13 (drop_last 10 buf) in
    if (length got <? 16)%nat then PwLine (ret ++ got) q' else wpw_loop f (ret ++ got) q'.
Proof. intros E N. cbn [wpw_loop]. rewrite E. destruct buf; [contradiction|reflexivity]. Qed.

Lemma wpw_loop_line l : forall fuel ret q, ~ In 10 l -> ~ In 13 l -> (length l < fuel)%nat ->
  wpw_loop fuel ret ((l ++ [13; 10]) :: q) = PwLine (ret ++ l) (if cr_cut l then [10] :: q else q).
Proof.
  remember (length l) as n eqn:Hn. revert l Hn.
  induction n as [n IH] using lt_wf_ind. intros l Hn fuel ret q N10 N13 F.
  destruct fuel as [|f]; [lia|].
  destruct (Nat.lt_ge_cases (length l) 15) as [L|L].
  - rewrite (wread_some f ret (l ++ [13; 10]) _ q).
    + change [13; 10] with ([13] ++ [10]). rewrite app_assoc, drop_last_same, drop_last_same. cbn zeta.
      destruct (Nat.ltb_spec (length l) 16); [|lia]. f_equal.
      unfold cr_cut. rewrite Nat.mod_small by lia. destruct (Nat.eqb_spec (length l) 15); [lia|reflexivity].
    + apply tty_read_whole. rewrite app_length. cbn. lia.
    + intros E. apply (f_equal (@length _)) in E. rewrite app_length in E. cbn in E. lia.
  - destruct (Nat.eq_dec (length l) 15) as [L15|L15].
    + rewrite (wread_some f ret (l ++ [13]) _ ([10] :: q)).
      * rewrite (drop_last_other 10) by lia. rewrite drop_last_same. cbn zeta.
        destruct (Nat.ltb_spec (length l) 16); [|lia]. f_equal. unfold cr_cut. now rewrite L15.
      * unfold tty_read. rewrite app_length, L15. cbn [length Nat.add Nat.leb].
        change [13; 10] with ([13] ++ [10]). rewrite app_assoc.
        assert (K : length (l ++ [13]) = 16%nat) by (rewrite app_length, L15; reflexivity).
        rewrite <- K at 1 2. rewrite firstn_app_exact, skipn_app_exact. reflexivity.
      * now destruct l.
    + assert (L16 : (16 <= length l)%nat) by lia.
      assert (Lf : length (firstn 16 l) = 16%nat) by (rewrite firstn_length; lia).
      assert (I10 : ~ In 10 (firstn 16 l)).
      { intros I. apply N10. rewrite <- (firstn_skipn 16 l). apply in_or_app. now left. }
      assert (I13 : ~ In 13 (firstn 16 l)).
      { intros I. apply N13. rewrite <- (firstn_skipn 16 l). apply in_or_app. now left. }
      rewrite (wread_some f ret (firstn 16 l) _ ((skipn 16 l ++ [13; 10]) :: q)).
      * rewrite (drop_last_none 10) by exact I10. rewrite (drop_last_none 13) by exact I13. cbn zeta.
        rewrite Lf. cbn [Nat.ltb Nat.leb].
        assert (Q : (length (skipn 16 l) < n)%nat) by (rewrite skipn_length; lia).
        rewrite (IH _ Q (skipn 16 l) eq_refl).
        -- rewrite <- app_assoc, firstn_skipn. f_equal. unfold cr_cut. rewrite skipn_length.
           replace (length l) with (length l - 16 + 1 * 16)%nat at 2 by lia. rewrite Nat.mod_add by lia. reflexivity.
        -- intros I. apply N10. rewrite <- (firstn_skipn 16 l). apply in_or_app. now right.
        -- intros I. apply N13. rewrite <- (firstn_skipn 16 l). apply in_or_app. now right.
        -- rewrite skipn_length in *. lia.
      * unfold tty_read. rewrite app_length. destruct (Nat.leb_spec (length l + length [13;10]) 16); [cbn in *; lia|].
        rewrite firstn_app, skipn_app. replace (16 - length l)%nat with 0%nat by lia.
        now rewrite firstn_O, skipn_O, app_nil_r.
      * intros E. rewrite E in Lf. discriminate.
Qed.
