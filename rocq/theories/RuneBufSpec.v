(** Specification vocabulary for line editing, independent of the model's loops. *)
From Verif Require Import Base RuneBufModel.
Open Scope Z_scope.

(** A word consists of ASCII letters and digits. *)
Definition alnum (x : Z) : Prop := 48 <= x <= 57 \/ 65 <= x <= 90 \/ 97 <= x <= 122.

(** Position [i] of [b] holds a letter or digit / something else. *)
Definition alnum_at (b : list Z) (i : nat) : Prop := exists x, nth_error b i = Some x /\ alnum x.
Definition other_at (b : list Z) (i : nat) : Prop := exists x, nth_error b i = Some x /\ ~ alnum x.
Open Scope nat_scope.

(** A word starts at [i], not counting the start of the line. *)
Definition word_start (b : list Z) (i : nat) : Prop := 0 < i /\ alnum_at b i /\ other_at b (i - 1).

(** A word ends at [i], not counting the end of the line. *)
Definition word_end (b : list Z) (i : nat) : Prop := alnum_at b i /\ other_at b (i + 1).

Definition greatest (P : nat -> Prop) (k : nat) : Prop := P k /\ forall j, P j -> j <= k.
Definition least (P : nat -> Prop) (k : nat) : Prop := P k /\ forall j, P j -> k <= j.

(** The line as text left and right of the cursor. *)
Definition line (l r kill : list Z) : rbuf := {| rb_buf := l ++ r; rb_idx := length l; rb_kill := kill |}.

Definition inside (s : rbuf) : Prop := rb_idx s <= length (rb_buf s).

(** Commands that only move the cursor. *)
Definition is_motion (e : edit) : bool :=
  match e with
  | ELineStart | ELineEnd | EForward | EBackward | EPrevWord | ENextWord | EEndWord | EMoveTo _ _ _ => true
  | _ => false
  end.
