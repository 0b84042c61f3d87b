(** Model of FillableStdin: /repo/std.go:135-197.  The copying goroutine is modelled by the [Fill] step: it
    moves what was written to the returned writer (in pieces of at most 100 bytes) into [buf] under the lock.
    The underlying reader delivers the bytes of [stdin] in order, as many as asked for (the least favourable
    case for losing data; a shorter read only splits the result). *)
From Verif Require Import Base.
Open Scope nat_scope.

Record fstdin := { f_buf : list Z; f_in : list Z }.

Inductive fop := FFill (piece : list Z) | FRead (n : nat).

(** std.go:156-172 and 174-192 *)
Definition fstep (s : fstdin) (o : fop) : fstdin * list Z :=
  match o with
  | FFill piece => ({| f_buf := f_buf s ++ piece; f_in := f_in s |}, [])
  | FRead n =>
      if 0 <? Nat.min n (length (f_buf s)) then
        ({| f_buf := []; f_in := f_in s |}, firstn n (f_buf s))            (* s.buf = s.buf[:0] *)
      else ({| f_buf := f_buf s; f_in := skipn n (f_in s) |}, firstn n (f_in s))
  end.

Fixpoint frun (s : fstdin) (ops : list fop) : fstdin * list Z :=
  match ops with
  | [] => (s, [])
  | o :: ops' => let '(s1, out1) := fstep s o in let '(s2, out2) := frun s1 ops' in (s2, out1 ++ out2)
  end.
