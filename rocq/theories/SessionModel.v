(** Model of the three goroutines of an instance and their channels: the terminal goroutine (/repo/terminal.go:
    118-214, [tproc]), the editor goroutine (/repo/operation.go:107-366, [eproc]), the goroutine calling Readline
    (/repo/operation.go:381-401 Runes, [cproc]) and the one calling Close (/repo/readline.go:277-284, [kproc]).
    One transition is one channel operation or one computation between two of them; any enabled transition may
    happen next.  Reading and decoding of the input is TerminalModel.v, one iteration of the editor loop
    OpModel.v.  Left out: writing to the terminal never blocks; the wait inside SleepToResume; the configuration
    does not change while the session runs; Readline is called by one goroutine at a time. *)
From Verif Require Import Base HistoryModel TerminalModel OpModel.
Open Scope Z_scope.

(** terminal.go:132-211: waiting for a kick or for stopChan; about to read a rune; sending a key on t.outchan
    (unbuffered); returned, with t.outchan closed *)
Inductive tproc := TWait | TRead | TSend (k : Z) | TDone.

(** operation.go:107-366: in t.ReadRune; having computed the iteration that leads from [o] to [o'] and performing
    the remaining actions (in order); returned; dead by a panic or looping forever *)
Inductive eproc := ERecv (o : op) | EDo (o o' : op) (acts : list act) | EDone (o : op) | ECrash.

(** operation.go:381-401 Runes: not called; called but not yet at KickRead; in the select *)
Inductive cproc := CIdle | CCalled | CWait.

(** readline.go:277-284: not called; Config.Stdin closed (std.go:189-192 closes the pipe of WriteStdin only: a
    read of the real input is not interrupted); Operation.Close done; Terminal.Close has closed stopChan and
    waits for the terminal goroutine; returned *)
Inductive kproc := K0 | K1 | K2 | K3 | K4.

Record sess := mkS {
  ss_in : list Z;            (* runes still to be read from the input *)
  ss_ts : tstate;            (* key decoder *)
  ss_t : tproc;
  ss_kick : bool;            (* kickChan, capacity 1 (terminal.go:32) *)
  ss_e : eproc;
  ss_err : option act;       (* errchan, capacity 1 (operation.go:75) *)
  ss_c : cproc;
  ss_res : list act;         (* results returned by Readline so far *)
  ss_k : kproc;
  ss_file : option (list Z)   (* contents of the history file when history.Close ran *)
}.

(** NewEx (readline.go:164-178) on input [i] *)
Definition sess_new (i : list Z) (o : op) : sess := mkS i TGround TWait false (ERecv o) None CIdle [] K0 None.

(** The history at a moment of an iteration: history.New runs after the line was sent (operation.go:256-259), so
    it may or may not have happened yet. *)
Definition hist_at (e : eproc) (h : hist) : Prop :=
  match e with
  | ERecv o | EDone o => h = o_h o
  | EDo o o' _ => h = o_h o \/ h = o_h o'
  | ECrash => False
  end.

Definition no_key (x : tout) : Prop := match x with TKey _ => False | _ => True end.
Definition is_quiet (x : act) : bool := match x with ABell | ASuspend | AClear => true | _ => false end.
Definition is_err (x : act) : bool := match x with AIntr _ | AEof => true | _ => false end.

(** The transitions, [eof]: whether the input ever ends (a read past a live input blocks).  Parameters: input,
    decoder, terminal, kick, editor, errchan, caller, results, closer, file. *)
Inductive work (u : uenv) (cf : ocfg) (eof : bool) : sess -> sess -> Prop :=
(* terminal.go:134-143 *)
| w_kick i d e er c rs k f :
    work u cf eof (mkS i d TWait true e er c rs k f) (mkS i d TRead false e er c rs k f)
| w_stop i d q e er c rs k f : k = K3 \/ k = K4 ->
    work u cf eof (mkS i d TWait q e er c rs k f) (mkS i d TDone q e er c rs k f)
(* terminal.go:144-211 *)
| w_skip r i d d' x q e er c rs k f : tstep u (oc_vim cf) d r = (d', x) -> no_key x ->
    work u cf eof (mkS (r :: i) d TRead q e er c rs k f) (mkS i d' TRead q e er c rs k f)
| w_key r i d d' y q e er c rs k f : tstep u (oc_vim cf) d r = (d', TKey y) ->
    work u cf eof (mkS (r :: i) d TRead q e er c rs k f) (mkS i d' (TSend y) q e er c rs k f)
| w_eof d q e er c rs k f : eof = true ->
    work u cf eof (mkS [] d TRead q e er c rs k f) (mkS [] d TDone q e er c rs k f)
(* terminal.go:199-211 and 98-105: a rune goes to the editor *)
| w_recv i d y q o o' a er c rs k f : op_step cf y o = Ok (o', a) ->
    work u cf eof (mkS i d (TSend y) q (ERecv o) er c rs k f)
                  (mkS i d (if pauses y then TWait else TRead) q (EDo o o' a) er c rs k f)
| w_crash i d y q o er c rs k f : op_step cf y o = Panic \/ op_step cf y o = Hang ->
    work u cf eof (mkS i d (TSend y) q (ERecv o) er c rs k f)
                  (mkS i d (if pauses y then TWait else TRead) q ECrash er c rs k f)
(* terminal.go:99-103: closed channel *)
| w_recv0 i d q o o' a er c rs k f : op_step cf 0 o = Ok (o', a) ->
    work u cf eof (mkS i d TDone q (ERecv o) er c rs k f) (mkS i d TDone q (EDo o o' a) er c rs k f)
| w_crash0 i d q o er c rs k f : op_step cf 0 o = Panic \/ op_step cf 0 o = Hang ->
    work u cf eof (mkS i d TDone q (ERecv o) er c rs k f) (mkS i d TDone q ECrash er c rs k f)
(* actions of the editor *)
| w_quiet i d t q o o' x a er c rs k f : is_quiet x = true ->
    work u cf eof (mkS i d t q (EDo o o' (x :: a)) er c rs k f) (mkS i d t q (EDo o o' a) er c rs k f)
| w_ekick i d t q o o' a er c rs k f :
    work u cf eof (mkS i d t q (EDo o o' (AKick :: a)) er c rs k f) (mkS i d t true (EDo o o' a) er c rs k f)
| w_line i d t q o o' l a er rs k f :
    work u cf eof (mkS i d t q (EDo o o' (ALine l :: a)) er CWait rs k f)
                  (mkS i d t q (EDo o o' a) er CIdle (rs ++ [ALine l]) k f)
| w_err i d t q o o' x a c rs k f : is_err x = true ->
    work u cf eof (mkS i d t q (EDo o o' (x :: a)) None c rs k f) (mkS i d t q (EDo o o' a) (Some x) c rs k f)
| w_next i d t q o o' er c rs k f :
    work u cf eof (mkS i d t q (EDo o o' []) er c rs k f)
                  (mkS i d t q (if o_end o' then EDone o' else ERecv o') er c rs k f)
(* operation.go:390-400: Runes *)
| w_ckick i d t q e er rs k f :
    work u cf eof (mkS i d t q e er CCalled rs k f) (mkS i d t true e er CWait rs k f)
| w_cerr i d t q e x rs k f :
    work u cf eof (mkS i d t q e (Some x) CWait rs k f) (mkS i d t q e None CIdle (rs ++ [x]) k f)
(* operation.go:438-444 Close, history.go:139-145; terminal.go:220-230 *)
| w_opclose i d t q e er c rs h f : hist_at e h ->
    work u cf eof (mkS i d t q e er c rs K1 f)
                  (mkS i d t q e (match er with None => Some AEof | _ => er end) c rs K2 (Some (h_disk h)))
| w_tclose i d t q e er c rs f :
    work u cf eof (mkS i d t q e er c rs K2 f) (mkS i d t q e er c rs K3 f)
| w_closed i d q e er c rs f :
    work u cf eof (mkS i d TDone q e er c rs K3 f) (mkS i d TDone q e er c rs K4 f).

(** Readline is called (operation.go:390); Close is called (readline.go:277-278). *)
Definition call (s s' : sess) : Prop :=
  ss_c s = CIdle /\
  s' = mkS (ss_in s) (ss_ts s) (ss_t s) (ss_kick s) (ss_e s) (ss_err s) CCalled (ss_res s) (ss_k s) (ss_file s).
Definition close (s s' : sess) : Prop :=
  ss_k s = K0 /\
  s' = mkS (ss_in s) (ss_ts s) (ss_t s) (ss_kick s) (ss_e s) (ss_err s) (ss_c s) (ss_res s) K1 (ss_file s).

Definition step (u : uenv) (cf : ocfg) (eof : bool) (s s' : sess) : Prop :=
  work u cf eof s s' \/ call s s' \/ close s s'.

Inductive reach (u : uenv) (cf : ocfg) (eof : bool) (s0 : sess) : sess -> Prop :=
| reach_0 : reach u cf eof s0 s0
| reach_1 s s' : reach u cf eof s0 s -> step u cf eof s s' -> reach u cf eof s0 s'.

(** The goroutines run on their own, without further calls. *)
Inductive works (u : uenv) (cf : ocfg) (eof : bool) (s0 : sess) : sess -> Prop :=
| works_0 : works u cf eof s0 s0
| works_1 s s' : works u cf eof s0 s -> work u cf eof s s' -> works u cf eof s0 s'.

(** Nothing more happens without a further call. *)
Definition at_a_stop (u : uenv) (cf : ocfg) (eof : bool) (s : sess) : Prop := forall s', ~ work u cf eof s s'.
