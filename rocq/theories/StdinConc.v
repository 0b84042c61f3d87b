(** Model of CancelableStdin: /repo/std.go:69-133.  The pumping goroutine, a goroutine calling Read and one calling
    Close; one transition is one channel operation, one atomic access or one read of the underlying reader.  Calls
    of Read are serialised by the mutex (108-109), so one reader is enough; its buffers are numbered. *)
From Verif Require Import Base.
Open Scope Z_scope.

(** std.go:90-105 ioloop: at the outer select; in r.Read into buffer [b] of [k] bytes; at the inner select; returned *)
Inductive pm_proc := PSel | PRead (b k : nat) | PSend (bs : list Z) (err : bool) | PDone.
(** std.go:107-126 Read into buffer [b] of [k] bytes: not called; before 110; at the first select; at the second *)
Inductive cr_proc := QIdle | QCheck (b k : nat) | QNotify (b k : nat) | QWait (b k : nat).
(** std.go:128-133 Close: not called; the flag is set; returned (stop is closed) *)
Inductive cc_proc := X0 | X1 | X2.

(** What Read returned: the buffer it was given, the bytes, and whether err is non-nil. *)
Inductive cres := CGot (b : nat) (bs : list Z) (err : bool).

Record cst := mkC {
  cv_in : list Z;            (* bytes the underlying reader still has *)
  cv_p : pm_proc;
  cv_q : cr_proc;
  cv_x : cc_proc;
  cv_out : list cres;
  cv_mem : list nat;         (* buffers written by the underlying reader, in order *)
  cv_next : nat }.           (* number of the next buffer *)

Definition cst_new (i : list Z) : cst := mkC i PSel QIdle X0 [] [] 0.
Definition flag_set (x : cc_proc) : bool := match x with X0 => false | _ => true end.
Definition stopped (x : cc_proc) : bool := match x with X2 => true | _ => false end.

Inductive cwork : cst -> cst -> Prop :=
(* 110-114 *)
| cw_closed i p b k x o m n : flag_set x = true ->
    cwork (mkC i p (QCheck b k) x o m n) (mkC i p QIdle x (o ++ [CGot b [] true]) m n)
| cw_open i p b k x o m n : flag_set x = false -> cwork (mkC i p (QCheck b k) x o m n) (mkC i p (QNotify b k) x o m n)
(* 116, 94: rendezvous *)
| cw_notify i b k x o m n : cwork (mkC i PSel (QNotify b k) x o m n) (mkC i (PRead b k) (QWait b k) x o m n)
(* 117-118, 123-124 *)
| cw_stop1 i p b k x o m n : stopped x = true -> cwork (mkC i p (QNotify b k) x o m n) (mkC i p QIdle x (o ++ [CGot b [] true]) m n)
| cw_stop2 i p b k x o m n : stopped x = true -> cwork (mkC i p (QWait b k) x o m n) (mkC i p QIdle x (o ++ [CGot b [] true]) m n)
(* 95: any number of bytes, with or without an error *)
| cw_read i b k q x o m n j e : (j <= k)%nat -> (j <= length i)%nat ->
    cwork (mkC i (PRead b k) q x o m n) (mkC (skipn j i) (PSend (firstn j i) e) q x o (if (0 <? j)%nat then m ++ [b] else m) n)
(* 97, 121-122: rendezvous *)
| cw_reply i bs e b k x o m n : cwork (mkC i (PSend bs e) (QWait b k) x o m n) (mkC i PSel QIdle x (o ++ [CGot b bs e]) m n)
(* 98-102 *)
| cw_end1 i q x o m n : stopped x = true -> cwork (mkC i PSel q x o m n) (mkC i PDone q x o m n)
| cw_end2 i bs e q x o m n : stopped x = true -> cwork (mkC i (PSend bs e) q x o m n) (mkC i PDone q x o m n)
(* 129-131 *)
| cw_close i p q o m n : cwork (mkC i p q X1 o m n) (mkC i p q X2 o m n).

Inductive ccall : cst -> cst -> Prop :=
| cc_read i p k x o m n : ccall (mkC i p QIdle x o m n) (mkC i p (QCheck n k) x o m (S n))
| cc_close i p q o m n : ccall (mkC i p q X0 o m n) (mkC i p q X1 o m n).

Inductive csteps : cst -> cst -> Prop :=
| cs_refl s : csteps s s
| cs_work s s1 s2 : cwork s s1 -> csteps s1 s2 -> csteps s s2
| cs_call s s1 s2 : ccall s s1 -> csteps s1 s2 -> csteps s s2.
