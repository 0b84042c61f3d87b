(** What a program with several goroutines wants of an instance. *)
Require Import List Arith.
From Verif Require Import LockModel.
Import ListNotations.

(** Every goroutine has come to the end of its sequence. *)
Definition finished (s : sys) : Prop := Forall (fun t => t = []) (s_th s).

(** Whatever has happened so far, every goroutine can still be brought to its
    end: no set of goroutines waits for one another's locks, and none waits for
    a lock it holds itself. *)
Definition deadlock_free (ts : list (list act)) : Prop :=
  forall s, reach (start ts) s -> exists s', reach s s' /\ finished s'.

(** Somebody has steps left and nobody can make one. *)
Definition stuck (s : sys) : Prop := ~ finished s /\ forall s', ~ step s s'.

(** Two goroutines are both about to use a field and one of them writes it. *)
Definition about (v : var) (t : list act) : Prop :=
  exists u, t = Rd v :: u \/ t = Wr v :: u.
Definition race (v : var) (s : sys) : Prop :=
  exists i j t u, i <> j /\ nth_error (s_th s) i = Some t /\
    nth_error (s_th s) j = Some u /\
    (exists r, t = Wr v :: r) /\ about v u.

(** Sequences of the given pieces of code, one per goroutine. *)
Definition sequences (ps : list prog) (ts : list (list act)) : Prop := Forall2 tr ps ts.

(** Users' callbacks called under a lock keep off the locks that may be held:
    Painter and Stdout are called under the buffer's lock and perhaps o.m,
    FuncGetWidth under o.m. *)
Definition polite (g : given) : Prop :=
  quiet (g_paint g) /\ quiet (g_write g) /\
  drawing g (g_width g).
