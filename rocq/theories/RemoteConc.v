(** Model of the goroutines of RemoteSvr (/repo/remote.go:127-228): the read loop and a goroutine calling Read; the
    write loop and any number of goroutines calling Write, EnterRawMode or ExitRawMode.  One transition is one
    channel operation, one locked section or one atomic access; any enabled transition may happen next.  The two
    halves share only [closed]/stopChan, which Close (192-198) may set at any moment, so they are modelled
    separately.  Messages that crash the read loop (C69) are not received here.  Read is called by one goroutine
    at a time. *)
From Verif Require Import Base RemoteModel.
Open Scope Z_scope.

(** ** Reading *)
(** remote.go:200-228 readLoop: in ReadMessage; at the select with the non-blocking send on reciveChan (unbuffered);
    returned *)
Inductive rl_proc := RRead | RSend | RDone.
(** remote.go:127-150 Read with len(b) = [k]: not called; before 128-130; before the checkEOF of 131-135 with n = 0
    ([e]: err is io.EOF); before the receive of 138; queued at the receive; before 139-141; before the checkEOF of
    143-147 with n = 0 *)
Inductive rd_proc := DIdle | DFirst (k : nat) | DCheck1 (k : nat) (e : bool) | DRecv (k : nat) | DWait (k : nat)
  | DSecond (k : nat) | DCheck2 (e : bool).
(** What Read returns: the bytes and whether err is io.EOF (else nil). *)
Inductive rres := RGot (bs : list Z) (eof : bool).

Record rsv := mkR {
  rv_net : list message;     (* messages still to be received *)
  rv_s : svr;                (* dataBuf, eof, width, isTerminal *)
  rv_l : rl_proc;
  rv_d : rd_proc;
  rv_out : list rres;        (* what Read has returned so far *)
  rv_closed : bool }.

(** remote.go:58-76 NewRemoteSvr after the handshake *)
Definition rsv_new (ms : list message) (s : svr) : rsv := mkR ms s RRead DIdle [] false.

Definition set_data (bs : list Z) (s : svr) : svr :=
  {| sv_eof := sv_eof s; sv_width := sv_width s; sv_term := sv_term s; sv_data := bs |}.
(** bytes.Buffer.Read into [k] bytes: the bytes, what remains, whether it returns io.EOF *)
Definition buf_read (k : nat) (buf : list Z) : list Z * list Z * bool :=
  match buf with [] => ([], [], (0 <? k)%nat) | _ => (firstn k buf, skipn k buf, false) end.
(** remote.go:208-221: the messages that try to wake a reader *)
Definition wakes (m : message) : bool := (m_type m =? T_EOF) || (m_type m =? T_DATA).

(** [fin]: the peer closes the connection after its last message. *)
Inductive rwork (fin : bool) : rsv -> rsv -> Prop :=
(* 203, 207-226 *)
| rw_msg m ms s s' d o c : svr_handle m s = Ok s' ->
    rwork fin (mkR (m :: ms) s RRead d o c) (mkR ms s' (if wakes m then RSend else RRead) d o c)
(* 210-213, 218-221: a receiver is queued *)
| rw_wake ms s k o c : rwork fin (mkR ms s RSend (DWait k) o c) (mkR ms s RRead (DSecond k) o c)
| rw_miss ms s d o c : (forall k, d <> DWait k) -> rwork fin (mkR ms s RSend d o c) (mkR ms s RRead d o c)
(* 203-206, 201: ReadMessage fails, deferred Close *)
| rw_end ms s d o c : c = true \/ (fin = true /\ ms = []) -> rwork fin (mkR ms s RRead d o c) (mkR ms s RDone d o true)
(* 128-130 *)
| rw_first ms s l k bs r e o c : buf_read k (sv_data s) = (bs, r, e) -> bs <> [] ->
    rwork fin (mkR ms s l (DFirst k) o c) (mkR ms (set_data r s) l DIdle (o ++ [RGot bs false]) c)
| rw_first0 ms s l k r e o c : buf_read k (sv_data s) = ([], r, e) ->
    rwork fin (mkR ms s l (DFirst k) o c) (mkR ms (set_data r s) l (DCheck1 k e) o c)
(* 131-137 *)
| rw_eof1 ms s l k e o c : sv_eof s = true ->
    rwork fin (mkR ms s l (DCheck1 k e) o c) (mkR ms s l DIdle (o ++ [RGot [] true]) c)
| rw_check1 ms s l k e o c : sv_eof s = false ->
    rwork fin (mkR ms s l (DCheck1 k e) o c) (mkR ms s l (if e then DRecv k else DCheck2 e) o c)
(* 138 *)
| rw_queue ms s l k o c : rwork fin (mkR ms s l (DRecv k) o c) (mkR ms s l (DWait k) o c)
(* 139-141 *)
| rw_second ms s l k bs r e o c : buf_read k (sv_data s) = (bs, r, e) -> bs <> [] ->
    rwork fin (mkR ms s l (DSecond k) o c) (mkR ms (set_data r s) l DIdle (o ++ [RGot bs false]) c)
| rw_second0 ms s l k r e o c : buf_read k (sv_data s) = ([], r, e) ->
    rwork fin (mkR ms s l (DSecond k) o c) (mkR ms (set_data r s) l (DCheck2 e) o c)
(* 143-149 *)
| rw_return ms s l e o c :
    rwork fin (mkR ms s l (DCheck2 e) o c) (mkR ms s l DIdle (o ++ [RGot [] (sv_eof s || e)]) c).

(** What others do: call Read with room for [k] bytes; call Close. *)
Inductive rcall : rsv -> rsv -> Prop :=
| rc_read ms s l k o c : rcall (mkR ms s l DIdle o c) (mkR ms s l (DFirst k) o c)
| rc_close ms s l d o c : rcall (mkR ms s l d o c) (mkR ms s l d o true).

Inductive rsteps (fin : bool) : rsv -> rsv -> Prop :=
| rs_refl s : rsteps fin s s
| rs_work s s1 s2 : rwork fin s s1 -> rsteps fin s1 s2 -> rsteps fin s s2
| rs_call s s1 s2 : rcall s s1 -> rsteps fin s1 s2 -> rsteps fin s s2.

(** ** Writing *)
(** remote.go:152-164 writeMsg, Write: not called; at the send on writeChan (unbuffered); at the receive of the reply *)
Inductive wr_proc := WIdle | WSend (m : message) | WWait (m : message).
(** remote.go:174-190 writeLoop: at the select; in WriteTo for caller [i]; at the send of the reply (unbuffered) *)
Inductive wl_proc := LSel | LWrite (i : nat) (m : message) | LReply (i : nat) (m : message) (n : nat) (err : bool) | LDone.

Record wsv := mkW {
  wv_w : nat -> wr_proc;                          (* the goroutines that write *)
  wv_l : wl_proc;
  wv_out : list Z;                                (* bytes written to the connection *)
  wv_res : list (nat * message * nat * bool);     (* caller, message, n and whether there was an error *)
  wv_closed : bool }.

Definition wsv_new : wsv := mkW (fun _ => WIdle) LSel [] [] false.
Definition upd_w (f : nat -> wr_proc) (i : nat) (x : wr_proc) : nat -> wr_proc := fun j => if (j =? i)%nat then x else f j.

Inductive wwork : wsv -> wsv -> Prop :=
(* 154, 161, 180: rendezvous on writeChan *)
| ww_take w i m o r c : w i = WSend m -> wwork (mkW w LSel o r c) (mkW (upd_w w i (WWait m)) (LWrite i m) o r c)
(* 184 (WriteTo is 276-283): the whole frame, or a part of it and an error *)
| ww_write w i m o r : wwork (mkW w (LWrite i m) o r false) (mkW w (LReply i m (length (WriteTo m)) false) (o ++ WriteTo m) r false)
| ww_fail w i m o r c n : (n <= length (WriteTo m))%nat ->
    wwork (mkW w (LWrite i m) o r c) (mkW w (LReply i m n true) (o ++ firstn n (WriteTo m)) r c)
(* 155, 162, 185: the reply *)
| ww_reply w i m n e o r c : w i = WWait m ->
    wwork (mkW w (LReply i m n e) o r c) (mkW (upd_w w i WIdle) LSel o (r ++ [(i, m, n, e)]) c)
(* 186-187, 175 *)
| ww_stop w o r : wwork (mkW w LSel o r true) (mkW w LDone o r true).

Inductive wcall : wsv -> wsv -> Prop :=
| wc_write w i m l o r c : w i = WIdle -> wcall (mkW w l o r c) (mkW (upd_w w i (WSend m)) l o r c)
| wc_close w l o r c : wcall (mkW w l o r c) (mkW w l o r true).

Inductive wsteps : wsv -> wsv -> Prop :=
| wt_refl s : wsteps s s
| wt_work s s1 s2 : wwork s s1 -> wsteps s1 s2 -> wsteps s s2
| wt_call s s1 s2 : wcall s s1 -> wsteps s1 s2 -> wsteps s s2.
