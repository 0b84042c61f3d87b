(** The painter a program expects: the one it put into the configuration it chose last, none meaning "show the line". *)
From Verif Require Import Base PaintModel.
Open Scope nat_scope.

(** The program's own record: the painters of its configurations, and the choice in force with the one to return to after a
    password prompt. *)
Record wanted := { w_all : list painter; w_now : nat; w_back : option nat }.
Definition or_default (p : option painter) : painter := match p with Some f => f | None => fun line _ => line end.
Fixpoint put {A} (l : list A) (i : nat) (x : A) : list A :=
  match l, i with [], _ => [] | _ :: t, O => x :: t | a :: t, S j => a :: put t j x end.
Definition w_call (w : wanted) (c : pcall) : wanted :=
  match c with
  | PSet p => {| w_all := w_all w ++ [or_default p]; w_now := length (w_all w); w_back := w_back w |}
  | PReuse i => if i <? length (w_all w) then {| w_all := w_all w; w_now := i; w_back := w_back w |} else w
  | PPainter p => {| w_all := put (w_all w) (w_now w) p; w_now := w_now w; w_back := w_back w |}
  | PPassword => {| w_all := w_all w ++ [fun line _ => line]; w_now := length (w_all w); w_back := Some (w_now w) |}
  | PPasswordWith p => {| w_all := w_all w ++ [or_default p]; w_now := length (w_all w); w_back := Some (w_now w) |}
  | PPasswordEnd => match w_back w with Some i => {| w_all := w_all w; w_now := i; w_back := None |} | None => w end
  end.
Definition w_calls (p : option painter) (cs : list pcall) : wanted :=
  fold_left w_call cs {| w_all := [or_default p]; w_now := 0; w_back := None |}.
Definition expected (p : option painter) (cs : list pcall) : painter :=
  let w := w_calls p cs in nth (w_now w) (w_all w) (fun line _ => line).

(** Every configuration given to the instance after NewEx has a Painter. *)
Definition painted (c : pcall) : Prop := match c with PSet None | PPasswordWith None => False | _ => True end.
