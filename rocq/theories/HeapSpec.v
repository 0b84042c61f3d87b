(** What it means for the slices of a line buffer to be in order, and what an edit may touch. *)
From Verif Require Import Base RuneBufModel HeapModel.
Open Scope nat_scope.

(** A slice lies inside an allocated array. *)
Definition valid (m : mem) (s : slc) : Prop :=
  sl_a s < mm_new m /\ sl_len s <= sl_cap s /\ sl_off s + sl_cap s <= length (mm m (sl_a s)).

(** The line and the kill buffer are slices of different arrays. *)
Definition hok (m : mem) (b : hbuf) : Prop :=
  valid m (h_buf b) /\ valid m (h_kill b) /\ sl_a (h_buf b) <> sl_a (h_kill b).

(** Everything an edit does to memory: other arrays keep their contents; either the line stays where
    it is, and its new text is written over its old place, or it moves to a new array and the old
    one keeps its contents.  Unless [free], it moves only when the new text does not fit. *)
Definition in_place (m m' : mem) (b b' : hbuf) : Prop :=
  sl_a (h_buf b') = sl_a (h_buf b) /\ sl_off (h_buf b') = sl_off (h_buf b) /\
  sl_cap (h_buf b') = sl_cap (h_buf b) /\
  mm m' (sl_a (h_buf b)) = put_at (sl_off (h_buf b)) (view m' (h_buf b')) (mm m (sl_a (h_buf b))).

Definition moved (m m' : mem) (b b' : hbuf) : Prop :=
  mm_new m <= sl_a (h_buf b') /\ mm m' (sl_a (h_buf b)) = mm m (sl_a (h_buf b)).

Definition touches_only_line (free : bool) (m m' : mem) (b b' : hbuf) : Prop :=
  mm_new m <= mm_new m' /\
  (forall a, a < mm_new m -> a <> sl_a (h_buf b) -> mm m' a = mm m a) /\
  (in_place m m' b b' \/
   (moved m m' b b' /\ (free = true \/ sl_cap (h_buf b) < length (view m' (h_buf b'))))).

(** The kill buffer is the old one or a new array. *)
Definition kill_old_or_new (m : mem) (b b' : hbuf) : Prop :=
  h_kill b' = h_kill b \/ mm_new m <= sl_a (h_kill b').

(** Edits that put the line into a new array whether it fits or not. *)
Definition moves_freely (e : edit) : bool :=
  match e with
  | EYank | ESet _ => true
  | _ => false
  end.
