(** Model of what an instance does with several configurations: whose input is read, whose writer WriteStdin uses, whose
    functions switch the terminal, and which goroutines Config.Init starts.  Configurations are numbers.  Left out: the
    schedule inside FillableStdin (C118: here a text written is in its buffer at once), reads shorter than what is
    there (C56), errors, and the waiting in Close (C76). *)
From Verif Require Import Base TtyModel.
Open Scope nat_scope.

Record cfgs := mkCfgs {
  c_tty : termios;                    (* settings of the process's terminal *)
  c_saved : nat -> option termios;    (* the state fields of the RawMode values (utils.go:264-278) *)
  c_inst : nat;                       (* Instance.Config *)
  c_term : nat;                       (* Terminal.cfg *)
  c_op : nat;                         (* Operation.cfg *)
  c_rdr : option nat;                 (* whose Stdin the terminal goroutine reads (terminal.go:132), once it runs *)
  c_buf : nat -> list Z;              (* FillableStdin.buf of each configuration *)
  c_read : list (nat * bool * list Z);(* what the terminal goroutine was given: by which configuration, whether from the buffer *)
  c_init : list nat;                  (* configurations with inited set (readline.go:95-99), clones not counted *)
  c_fill : list nat;                  (* running goroutines of FillableStdin (std.go:156-174) *)
  c_canc : list nat;                  (* running goroutines of CancelableStdin (std.go:87-103) *)
  c_closed : bool                     (* Terminal.closed *)
}.

(** Calls and steps: the terminal goroutine begins; Instance.SetConfig; Operation.SetConfig (all that ReadPassword does
    to configurations, before and after); Readline is called and returns (its EnterRawMode and ExitRawMode,
    operation.go:381-383); Ctrl-Z (terminal.go:42-54); WriteStdin; the terminal goroutine reads, [k] being what the
    keyboard has when it is asked; Close. *)
Inductive cev := VStart | VSet (c : nat) | VOp (c : nat) | VEnter | VExit | VStop | VWrite (b : list Z) | VRead (k : list Z) | VClose.

Section model.
(** Which RawMode value a configuration's FuncMakeRaw and FuncExitRaw belong to (readline.go:132-138 makes a new one for each
    configuration that does not bring its own); whose Stdin and StdinWriter it has: its own, or after Clone
    (readline.go:149-153) of an initialised one, inited included, those of that one; whether the program gave it a Stdin. *)
Variables (rm rt : nat -> nat) (own : nat -> bool).

Definition upd {A} (f : nat -> A) (i : nat) (x : A) : nat -> A := fun j => if j =? i then x else f j.

(** readline.go:95-147 Config.Init: with std.go:77-85 and 146-154, the goroutines *)
Definition cfg_init (c : nat) (s : cfgs) : cfgs :=
  if existsb (Nat.eqb (rt c)) (c_init s) then s
  else mkCfgs (c_tty s) (c_saved s) (c_inst s) (c_term s) (c_op s) (c_rdr s) (c_buf s) (c_read s) (rt c :: c_init s) (rt c :: c_fill s)
         (if own (rt c) then c_canc s else rt c :: c_canc s) (c_closed s).

(** operation.go:458-481 SetConfig, as far as it goes here *)
Definition op_set (c : nat) (s : cfgs) : cfgs :=
  if c_op s =? c then s
  else let s := cfg_init c s in
    mkCfgs (c_tty s) (c_saved s) (c_inst s) (c_term s) c (c_rdr s) (c_buf s) (c_read s) (c_init s) (c_fill s) (c_canc s) (c_closed s).
(** terminal.go:252-260 SetConfig *)
Definition term_set (c : nat) (s : cfgs) : cfgs :=
  let s := cfg_init c s in
  mkCfgs (c_tty s) (c_saved s) (c_inst s) c (c_op s) (c_rdr s) (c_buf s) (c_read s) (c_init s) (c_fill s) (c_canc s) (c_closed s).
(** readline.go:315-324 SetConfig *)
Definition inst_set (c : nat) (s : cfgs) : cfgs :=
  if c_inst s =? c then s
  else term_set c (op_set c
    (mkCfgs (c_tty s) (c_saved s) c (c_term s) (c_op s) (c_rdr s) (c_buf s) (c_read s) (c_init s) (c_fill s) (c_canc s) (c_closed s))).

Definition set_tty (t : termios) (v : nat -> option termios) (s : cfgs) : cfgs :=
  mkCfgs t v (c_inst s) (c_term s) (c_op s) (c_rdr s) (c_buf s) (c_read s) (c_init s) (c_fill s) (c_canc s) (c_closed s).
(** terminal.go:56-62 EnterRawMode and ExitRawMode, utils.go:268-278 *)
Definition enter_raw (s : cfgs) : cfgs := set_tty (raw_of (c_tty s)) (upd (c_saved s) (rm (c_term s)) (Some (c_tty s))) s.
Definition exit_raw (s : cfgs) : cfgs := match c_saved s (rm (c_term s)) with None => s | Some t => set_tty t (c_saved s) s end.

(** std.go:194-198 FillableStdin.Close: ends its goroutine and nothing else *)
Definition fill_close (c : nat) (s : cfgs) : cfgs :=
  mkCfgs (c_tty s) (c_saved s) (c_inst s) (c_term s) (c_op s) (c_rdr s) (c_buf s) (c_read s) (c_init s) (filter (fun x => negb (x =? c)) (c_fill s)) (c_canc s) (c_closed s).

(** readline.go:277-284 Close and terminal.go:220-230 *)
Definition cfg_close (s : cfgs) : cfgs :=
  let s := fill_close (rt (c_inst s)) s in
  if c_closed s then s
  else exit_raw (let s := fill_close (rt (c_term s)) s in
    mkCfgs (c_tty s) (c_saved s) (c_inst s) (c_term s) (c_op s) (c_rdr s) (c_buf s) (c_read s) (c_init s) (c_fill s) (c_canc s) true).

Definition set_io (r : option nat) (b : nat -> list Z) (d : list (nat * bool * list Z)) (s : cfgs) : cfgs :=
  mkCfgs (c_tty s) (c_saved s) (c_inst s) (c_term s) (c_op s) r b d (c_init s) (c_fill s) (c_canc s) (c_closed s).

Definition cfg_step (e : cev) (s : cfgs) : cfgs :=
  match e with
  (* terminal.go:132, 244-250 *)
  | VStart => match c_rdr s with None => set_io (Some (rt (c_term s))) (c_buf s) (c_read s) s | Some _ => s end
  | VSet c => inst_set c s
  | VOp c => op_set c s
  | VEnter => enter_raw s
  | VExit => exit_raw s
  | VStop => enter_raw (exit_raw s)
  (* terminal.go:70-72 *)
  | VWrite b => set_io (c_rdr s) (upd (c_buf s) (rt (c_term s)) (c_buf s (rt (c_term s)) ++ b)) (c_read s) s
  (* std.go:176-192 *)
  | VRead k => match c_rdr s with
               | None => s
               | Some r => match c_buf s r with
                           | [] => set_io (Some r) (c_buf s) (c_read s ++ [(r, false, k)]) s
                           | b => set_io (Some r) (upd (c_buf s) r []) (c_read s ++ [(r, true, b)]) s
                           end
               end
  | VClose => cfg_close s
  end.
Definition cfg_run (es : list cev) (s : cfgs) : cfgs := fold_left (fun s e => cfg_step e s) es s.

(** readline.go:164-178 NewEx with configuration [c] on a terminal set to [t] *)
Definition cfg_new (c : nat) (t : termios) : cfgs :=
  cfg_init c (mkCfgs t (fun _ => None) c c c None (fun _ => []) [] [] [] [] false).
End model.
