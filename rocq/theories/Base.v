(** Common definitions: outcomes of Go code, Go slicing and indexing on lists, key codes. *)
From Coq Require Export List ZArith Lia Bool Arith.
Export ListNotations.

(** Result of running a piece of Go code.  [Panic] models a run-time panic
    (index out of range, nil dereference, integer division by zero, negative Repeat count),
    [Hang] models a loop that never ends. *)
Inductive outcome (A : Type) : Type :=
| Ok (a : A)
| Panic
| Hang.
Arguments Ok {A} a.
Arguments Panic {A}.
Arguments Hang {A}.

Definition obind {A B} (x : outcome A) (f : A -> outcome B) : outcome B :=
  match x with
  | Ok a => f a
  | Panic => Panic
  | Hang => Hang
  end.
Notation "x <- e ;; f" := (obind e (fun x => f))
  (at level 61, e at next level, right associativity).

(** Go indexing [l[i]]: panics outside the slice. *)
Definition get {A} (l : list A) (i : nat) : outcome A :=
  match nth_error l i with
  | Some x => Ok x
  | None => Panic
  end.

(** Go slicing [l[a:b]] on a slice whose capacity equals its length
    (see HeapModel.v for slicing into spare capacity). *)
Definition slice {A} (a b : nat) (l : list A) : outcome (list A) :=
  if (a <=? b) && (b <=? length l) then Ok (firstn (b - a) (skipn a l)) else Panic.

(** Go assignment [l[i] = x]. *)
Definition set {A} (l : list A) (i : nat) (x : A) : outcome (list A) :=
  if i <? length l then Ok (firstn i l ++ x :: skipn (S i) l) else Panic.

Definition is_ok {A} (x : outcome A) : bool :=
  match x with Ok _ => true | _ => false end.

(** The parts of Go's [unicode] package that the code consults, kept abstract:
    every theorem holds for all of them.
    [u_zero]: member of Mn, Me, Cc or Cf (runes.go:132-137);
    [u_dbl]: member of Han, Hangul, Hiragana, Katakana (runes.go:139-144);
    [u_tab]: the exported variable TabWidth (runes.go:10, initially 4);
    [u_number]: unicode.IsNumber (utils.go:174). *)
Record uenv := {
  u_zero : Z -> bool;
  u_dbl : Z -> bool;
  u_tab : nat;
  u_number : Z -> bool
}.

(** Key codes, utils.go:22-57. *)
Open Scope Z_scope.
Definition CharLineStart := 1.
Definition CharBackward := 2.
Definition CharInterrupt := 3.
Definition CharDelete := 4.
Definition CharLineEnd := 5.
Definition CharForward := 6.
Definition CharBell := 7.
Definition CharCtrlH := 8.
Definition CharTab := 9.
Definition CharCtrlJ := 10.
Definition CharKill := 11.
Definition CharCtrlL := 12.
Definition CharEnter := 13.
Definition CharNext := 14.
Definition CharPrev := 16.
Definition CharBckSearch := 18.
Definition CharFwdSearch := 19.
Definition CharTranspose := 20.
Definition CharCtrlU := 21.
Definition CharCtrlW := 23.
Definition CharCtrlY := 25.
Definition CharCtrlZ := 26.
Definition CharEsc := 27.
Definition CharO := 79.
Definition CharEscapeEx := 91.
Definition CharBackspace := 127.
Definition MetaBackward := -1.
Definition MetaForward := -2.
Definition MetaDelete := -3.
Definition MetaBackspace := -4.
Definition MetaTranspose := -5.
Close Scope Z_scope.
