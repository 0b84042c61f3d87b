(** Model of the remote client: what RemoteCli does with the server's messages and with its input (/repo/remote.go:377-416). *)
From Verif Require Import Base RemoteModel TtyModel.
Open Scope Z_scope.

(** The client's terminal (remote.go:291 raw) and what it has written to os.Stdout. *)
Record cli := { cl_raw : rawmode; cl_out : list Z }.

(** remote.go:384-391, one message.  Errors of Enter, Exit and of writing to the standard output are ignored there;
    they are assumed to succeed here. *)
Definition cli_handle (m : message) (c : cli) : cli :=
  if m_type m =? T_ERAW then {| cl_raw := raw_exit (cl_raw c); cl_out := cl_out c |}
  else if m_type m =? T_RAW then {| cl_raw := raw_enter (cl_raw c); cl_out := cl_out c |}
  else if m_type m =? T_DATA then {| cl_raw := cl_raw c; cl_out := cl_out c ++ m_data m |}
  else c.
Definition cli_handle_all (ms : list message) (c : cli) : cli := fold_left (fun c m => cli_handle m c) ms c.

(** remote.go:377-393 readLoop on the bytes that arrive before the connection ends, and the deferred Exit of ServeBy
    (remote.go:409), which also runs when ReadMessage panics. *)
Definition ServeBy (bs : list Z) (c : cli) : cli :=
  let c' := cli_handle_all (fst (read_all bs)) c in
  {| cl_raw := raw_exit (cl_raw c'); cl_out := cl_out c' |}.

(** remote.go:166-172 EnterRawMode, ExitRawMode and 159-164 Write of the server *)
Inductive scall := SWrite (b : list Z) | SEnter | SExit.
Definition svr_msg (x : scall) : message :=
  match x with
  | SWrite b => {| m_type := T_DATA; m_data := b |}
  | SEnter => {| m_type := T_RAW; m_data := [] |}
  | SExit => {| m_type := T_ERAW; m_data := [] |}
  end.

(** io.Copy(r, source) (remote.go:403): what the calls of source.Read return, data and whether with an error (io.EOF or
    another); [] is a Read that does not return.  Each non-empty piece is one RemoteCli.Write.  Result: the pieces written,
    the number of bytes, the reads left, whether Copy returns.  RemoteCli.Write reports all bytes as written, with
    connection errors ending the Copy; a broken connection is treated in [feed].  Simplification: the source has no WriteTo
    method. *)
Fixpoint copy (ok : bool) (rs : list (list Z * bool)) : list (list Z) * nat * list (list Z * bool) * bool :=
  match rs with
  | [] => ([], 0%nat, [], false)
  | (d, e) :: rs' =>
      match d with
      | [] => if e then ([], 0%nat, rs', true) else copy ok rs'
      | _ =>
          if e || negb ok then ([d], length d, rs', true)
          else let '(c, n, r, ret) := copy ok rs' in (d :: c, (length d + n)%nat, r, ret)
      end
  end.
(** remote.go:400-408 the goroutine of ServeBy: Copy until nothing is copied, then Close (T_EOF).  [ok]: the connection
    takes what is written.  Result: the pieces written, the reads left, whether Close was called. *)
Fixpoint feed_fuel (fuel : nat) (ok : bool) (rs : list (list Z * bool)) : list (list Z) * list (list Z * bool) * bool :=
  match fuel with
  | O => ([], rs, false)
  | S f =>
      let '(c, n, r, ret) := copy ok rs in
      if negb ret then (c, r, false)
      else if (n =? 0)%nat then (c, r, true)
      else let '(c', r', cl) := feed_fuel f ok r in (c ++ c', r', cl)
  end.
Definition feed (ok : bool) (rs : list (list Z * bool)) : list (list Z) * list (list Z * bool) * bool := feed_fuel (S (length rs)) ok rs.
