(** Model of the remote protocol: /repo/remote.go (codec, handshake, what the server does with a message).
    The goroutines of RemoteSvr are modelled in RemoteConc.v. *)
From Verif Require Import Base.
Open Scope Z_scope.

(** remote.go:251-254 Message; Type is an int16, Data a byte string *)
Record message := { m_type : Z; m_data : list Z }.

(** remote.go:15-25 *)
Definition T_DATA := 0.
Definition T_WIDTH := 1.
Definition T_WIDTH_REPORT := 2.
Definition T_ISTTY_REPORT := 3.
Definition T_RAW := 4.
Definition T_ERAW := 5.
Definition T_EOF := 6.

(** binary.Write(BigEndian) of an int32 / int16 / uint16: two's complement, most significant byte first *)
Definition be32 (v : Z) : list Z :=
  let u := v mod 4294967296 in [u / 16777216; (u / 65536) mod 256; (u / 256) mod 256; u mod 256].
Definition be16 (v : Z) : list Z := let u := v mod 65536 in [u / 256; u mod 256].

(** binary.Read(BigEndian) *)
Definition signed (bits u : Z) : Z := if u <? 2 ^ (bits - 1) then u else u - 2 ^ bits.
Definition rd32 (a b c d : Z) : Z := signed 32 (a * 16777216 + b * 65536 + c * 256 + d).
Definition rd16 (a b : Z) : Z := signed 16 (a * 256 + b).

(** remote.go:276-283 WriteTo: length (of type and data, converted to int32), type, data *)
Definition WriteTo (m : message) : list Z :=
  be32 (Z.of_nat (length (m_data m)) + 2) ++ be16 (m_type m) ++ m_data m.

(** Result of ReadMessage on the bytes that will ever arrive *)
Inductive rresult := RMsg (m : message) (rest : list Z) | RErr | RPanic.

(** remote.go:256-270 ReadMessage: make([]byte, int(length)-2) panics for a negative size
    (running out of memory for a large one is not modelled). *)
Definition ReadMessage (bs : list Z) : rresult :=
  match bs with
  | a :: b :: c :: d :: t1 :: t2 :: rest =>
      let n := rd32 a b c d - 2 in
      if n <? 0 then RPanic
      else if Z.of_nat (length rest) <? n then RErr
      else RMsg {| m_type := rd16 t1 t2; m_data := firstn (Z.to_nat n) rest |} (skipn (Z.to_nat n) rest)
  | _ => RErr
  end.

(** The read loop: messages until an error or a panic (one message needs at least six bytes). *)
Fixpoint read_all_fuel (fuel : nat) (bs : list Z) : list message * rresult :=
  match fuel with
  | O => ([], RErr)
  | S f =>
      match ReadMessage bs with
      | RMsg m rest => let '(ms, e) := read_all_fuel f rest in (m :: ms, e)
      | e => ([], e)
      end
  end.
Definition read_all (bs : list Z) : list message * rresult := read_all_fuel (S (length bs)) bs.

(** remote.go:27-40 the fields of RemoteSvr that messages set *)
Record svr := { sv_eof : bool; sv_width : Z; sv_term : bool; sv_data : list Z }.
Definition svr0 : svr := {| sv_eof := false; sv_width := -1; sv_term := false; sv_data := [] |}.

(** binary.BigEndian.Uint16: panics on fewer than two bytes *)
Definition Uint16 (data : list Z) : outcome Z :=
  match data with a :: b :: _ => Ok (a * 256 + b) | _ => Panic end.

(** remote.go:230-236 GotIsTerminal *)
Definition GotIsTerminal (data : list Z) (s : svr) : outcome svr :=
  v <- Uint16 data ;;
  Ok {| sv_eof := sv_eof s; sv_width := sv_width s; sv_term := negb (v =? 0); sv_data := sv_data s |}.

(** remote.go:238-243 GotReportWidth (the registered callback is the caller's) *)
Definition GotReportWidth (data : list Z) (s : svr) : outcome svr :=
  v <- Uint16 data ;;
  Ok {| sv_eof := sv_eof s; sv_width := v; sv_term := sv_term s; sv_data := sv_data s |}.

(** remote.go:78-100 init *)
Inductive init_result := IOk (s : svr) (rest : list Z) | IErr | IPanic.
Definition svr_init (bs : list Z) : init_result :=
  match ReadMessage bs with
  | RMsg m1 r1 =>
      if negb (m_type m1 =? T_ISTTY_REPORT) then IErr
      else match GotIsTerminal (m_data m1) svr0 with
           | Ok s1 =>
               match ReadMessage r1 with
               | RMsg m2 r2 =>
                   if negb (m_type m2 =? T_WIDTH_REPORT) then IErr
                   else match GotReportWidth (m_data m2) s1 with Ok s2 => IOk s2 r2 | _ => IPanic end
               | RErr => IErr
               | RPanic => IPanic
               end
           | _ => IPanic
           end
  | RErr => IErr
  | RPanic => IPanic
  end.

(** remote.go:207-226, the switch of readLoop *)
Definition svr_handle (m : message) (s : svr) : outcome svr :=
  if m_type m =? T_EOF then
    Ok {| sv_eof := true; sv_width := sv_width s; sv_term := sv_term s; sv_data := sv_data s |}
  else if m_type m =? T_DATA then
    Ok {| sv_eof := sv_eof s; sv_width := sv_width s; sv_term := sv_term s; sv_data := sv_data s ++ m_data m |}
  else if m_type m =? T_WIDTH_REPORT then GotReportWidth (m_data m) s
  else if m_type m =? T_ISTTY_REPORT then GotIsTerminal (m_data m) s
  else Ok s.
Fixpoint svr_handle_all (ms : list message) (s : svr) : outcome svr :=
  match ms with
  | [] => Ok s
  | m :: ms' => s' <- svr_handle m s ;; svr_handle_all ms' s'
  end.

(** remote.go:345-375 reportIsTerminal, reportWidth; [width] is what GetScreenWidth returns (-1 on failure) *)
Definition reportIsTerminal (t : bool) : message :=
  {| m_type := T_ISTTY_REPORT; m_data := be16 (if t then 1 else 0) |}.
Definition reportWidth (width : Z) : message := {| m_type := T_WIDTH_REPORT; m_data := be16 width |}.

(** remote.go:310-328 init of the client, then one Write per chunk of input (330-336) and Close (425-427) *)
Definition cli_bytes (t : bool) (width : Z) (chunks : list (list Z)) (closed : bool) : list Z :=
  WriteTo (reportIsTerminal t) ++ WriteTo (reportWidth width) ++
  flat_map (fun c => WriteTo {| m_type := T_DATA; m_data := c |}) chunks ++
  (if closed then WriteTo {| m_type := T_EOF; m_data := [] |} else []).

(** remote.go:159-164, 177-189: what RemoteSvr.Write returns when the connection takes everything *)
Definition svr_Write_n (b : list Z) : nat := length (WriteTo {| m_type := T_DATA; m_data := b |}).
(** remote.go:337-343 what RemoteCli.Write returns *)
Definition cli_Write_n (b : list Z) : nat := length b.
