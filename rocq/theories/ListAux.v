(** List lemmas missing from the standard library. *)
From Verif Require Import Base.

Lemma Forall2_length {A B} (P : A -> B -> Prop) l l' : Forall2 P l l' -> length l = length l'.
Proof. induction 1; cbn; congruence. Qed.

Lemma firstn_S_nth {A} (l : list A) i x : nth_error l i = Some x -> firstn (S i) l = firstn i l ++ [x].
Proof.
  revert i. induction l as [|y l IH]; intros [|i] H; cbn in *; try discriminate.
  - congruence.
  - f_equal. apply IH. exact H.
Qed.

Lemma skipn_nth {A} (l : list A) i x : nth_error l i = Some x -> skipn i l = x :: skipn (S i) l.
Proof.
  revert i. induction l as [|y l IH]; intros [|i] H; cbn in *; try discriminate.
  - congruence.
  - apply IH. exact H.
Qed.

Lemma get_ok {A} (l : list A) i : i < length l -> exists x, get l i = Ok x /\ nth_error l i = Some x.
Proof.
  intros H. unfold get. destruct (nth_error l i) as [x|] eqn:E.
  - exists x. auto.
  - apply nth_error_None in E. lia.
Qed.

Lemma get_nth {A} (l : list A) i x : nth_error l i = Some x -> get l i = Ok x.
Proof. unfold get. now intros ->. Qed.

Lemma slice_ok {A} a b (l : list A) : a <= b <= length l ->
  slice a b l = Ok (firstn (b - a) (skipn a l)).
Proof.
  intros H. unfold slice.
  destruct (Nat.leb_spec a b); [|lia]. destruct (Nat.leb_spec b (length l)); [reflexivity|lia].
Qed.

Lemma slice_to {A} b (l : list A) : b <= length l -> slice 0 b l = Ok (firstn b l).
Proof. intros H. rewrite slice_ok by lia. cbn. now rewrite Nat.sub_0_r. Qed.

Lemma slice_from {A} a (l : list A) : a <= length l -> slice a (length l) l = Ok (skipn a l).
Proof.
  intros H. rewrite slice_ok by lia. f_equal. apply firstn_all2. rewrite skipn_length. lia.
Qed.

Lemma firstn_app_exact {A} (a b : list A) : firstn (length a) (a ++ b) = a.
Proof. rewrite firstn_app, Nat.sub_diag, firstn_all. cbn. apply app_nil_r. Qed.

Lemma skipn_app_exact {A} (a b : list A) : skipn (length a) (a ++ b) = b.
Proof. rewrite skipn_app, Nat.sub_diag, skipn_all. reflexivity. Qed.

Lemma skipn_skipn {A} a b (l : list A) : skipn a (skipn b l) = skipn (b + a) l.
Proof.
  revert l. induction b as [|b IH]; intros l; [reflexivity|].
  destruct l; cbn; [now rewrite skipn_nil|apply IH].
Qed.
