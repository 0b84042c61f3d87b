(** Model of FillableStdin with its goroutine: /repo/std.go:135-197, and Instance.WriteStdin (readline.go:311-313,
    terminal.go:70-72), which calls Write on the pipe's writing end.  io.Pipe is modelled after its documentation:
    Write hands its bytes to Read calls and returns when all are taken; Read returns what the current Write
    offers, at most as much as asked for; after CloseWrite Read returns EOF; after CloseRead both return
    ErrClosedPipe.  When the pipe is closed while a Write waits, Read may still take from it (the select in
    pipe.read may choose either).  Writes queue for the pipe's mutex; the queue is in the order they get it.
    Code between Lock and Unlock is one step (buf is used nowhere else); the assignment to bufErr is not
    under the lock (line 162) and belongs to the step of the pipe's Read. *)
From Verif Require Import Base.
Open Scope nat_scope.

Inductive perr := NoErr | EofErr | ClosedErr.

(** std.go:156-173 ioloop: in stdinBuffer.Read; at s.Lock with the bytes read and whether another round follows; returned *)
Inductive pump := PRead | PLock (got : list Z) | PEnd.

(** Who returned what: Read with bytes from WriteStdin or from the real input; Write *)
Inductive fout := OFill (l : list Z) (e : perr) | OStdin (l : list Z) | OWrote | OWriteErr.

Record fst_t := {
  fs_buf : list Z; fs_err : perr; fs_pump : pump;
  fs_queue : list (list Z);          (* what is left of the Writes that have not returned, the first one in progress *)
  fs_wclosed : bool; fs_rclosed : bool;
  fs_wait : option nat               (* a Read waiting in s.stdin.Read (line 189) with room for so many bytes *)
}.
Definition fs0 : fst_t :=
  {| fs_buf := []; fs_err := NoErr; fs_pump := PRead; fs_queue := []; fs_wclosed := false; fs_rclosed := false; fs_wait := None |}.

Definition f_q (q : list (list Z)) (s : fst_t) : fst_t :=
  {| fs_buf := fs_buf s; fs_err := fs_err s; fs_pump := fs_pump s; fs_queue := q; fs_wclosed := fs_wclosed s; fs_rclosed := fs_rclosed s; fs_wait := fs_wait s |}.
Definition f_p (p : pump) (e : perr) (s : fst_t) : fst_t :=
  {| fs_buf := fs_buf s; fs_err := e; fs_pump := p; fs_queue := fs_queue s; fs_wclosed := fs_wclosed s; fs_rclosed := fs_rclosed s; fs_wait := fs_wait s |}.
Definition f_b (b : list Z) (e : perr) (s : fst_t) : fst_t :=
  {| fs_buf := b; fs_err := e; fs_pump := fs_pump s; fs_queue := fs_queue s; fs_wclosed := fs_wclosed s; fs_rclosed := fs_rclosed s; fs_wait := fs_wait s |}.
Definition f_w (w : option nat) (s : fst_t) : fst_t :=
  {| fs_buf := fs_buf s; fs_err := fs_err s; fs_pump := fs_pump s; fs_queue := fs_queue s; fs_wclosed := fs_wclosed s; fs_rclosed := fs_rclosed s; fs_wait := w |}.
Definition f_c (w r : bool) (s : fst_t) : fst_t :=
  {| fs_buf := fs_buf s; fs_err := fs_err s; fs_pump := fs_pump s; fs_queue := fs_queue s; fs_wclosed := w; fs_rclosed := r; fs_wait := fs_wait s |}.

(** What happens: Write is called, the goroutine takes from the pipe or finds it closed, goes through the lock; a waiting Write fails;
    Read is called with room for [k] bytes; the real input delivers [l] to the waiting Read; the writing end and the
    reading end are closed. *)
Inductive fev := EWrite (b : list Z) | ETake | EClosed | EAppend | EFail | ERead (k : nat) | EInput (l : list Z) | ECloseW | ECloseR.

Definition pipe_chunk : nat := 100.   (* line 159 *)

Inductive fstep : fst_t -> fev -> list fout -> fst_t -> Prop :=
(* the pipe's Write waits for a Read even if [b] is empty *)
| f_write : forall s b, fstep s (EWrite b) [] (f_q (fs_queue s ++ [b]) s)
(* std.go:159-161 *)
| f_take : forall s b q, fs_pump s = PRead -> fs_queue s = b :: q ->
    fstep s ETake (match skipn pipe_chunk b with [] => [OWrote] | _ => [] end)
      (f_p (PLock (firstn pipe_chunk b)) NoErr (f_q (match skipn pipe_chunk b with [] => q | r => r :: q end) s))
(* std.go:161-166 *)
| f_eof : forall s, fs_pump s = PRead -> fs_wclosed s = true -> fs_rclosed s = false ->
    fstep s EClosed [] (f_p (PLock []) EofErr s)
| f_closed : forall s, fs_pump s = PRead -> fs_rclosed s = true -> fstep s EClosed [] (f_p PEnd ClosedErr s)
(* std.go:168-170 *)
| f_append : forall s c, fs_pump s = PLock c -> fstep s EAppend [] (f_b (fs_buf s ++ c) (fs_err s) (f_p PRead (fs_err s) s))
| f_fail : forall s b q, fs_queue s = b :: q -> fs_wclosed s = true \/ fs_rclosed s = true -> fstep s EFail [OWriteErr] (f_q q s)
(* std.go:176-187 *)
| f_fill : forall s k, fs_wait s = None -> 0 < Nat.min k (length (fs_buf s)) ->
    fstep s (ERead k) [OFill (firstn k (fs_buf s)) (fs_err s)] (f_b [] NoErr s)
(* std.go:188-190 *)
| f_read : forall s k, fs_wait s = None -> Nat.min k (length (fs_buf s)) = 0 -> fstep s (ERead k) [] (f_w (Some k) s)
| f_input : forall s k l, fs_wait s = Some k -> length l <= k -> fstep s (EInput l) [OStdin l] (f_w None s)
| f_closew : forall s, fstep s ECloseW [] (f_c true (fs_rclosed s) s)
(* std.go:194-197 *)
| f_closer : forall s, fstep s ECloseR [] (f_c (fs_wclosed s) true s).

(** Executions: what happened and what was returned. *)
Inductive fruns : fst_t -> list fev -> list fout -> fst_t -> Prop :=
| fr_nil : forall s, fruns s [] [] s
| fr_snoc : forall s tr o s1 e o1 s2, fruns s tr o s1 -> fstep s1 e o1 s2 -> fruns s (tr ++ [e]) (o ++ o1) s2.
