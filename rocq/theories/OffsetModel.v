(** Asking the terminal where the cursor is: GetOffset and the reports it waits for, /repo/terminal.go:79-84 and 173-184. *)
From Verif Require Import Base TerminalModel.
Open Scope Z_scope.

(** [os_t]: the decoder; [os_buf]: what is in sizeChan, which holds one report (terminal.go:35); [os_begun]: goroutines of GetOffset that have not come to
    their receive yet; [os_wait]: those waiting in it, first come first served (as channels of the Go runtime do); [os_got]: the calls of [f] so far, oldest
    first; [os_keys]: runes sent to the editor; [os_out]: what was written to the terminal. *)
Record offs := { os_t : tstate; os_buf : option (list Z); os_begun : list nat; os_wait : list nat; os_got : list (nat * list Z); os_keys : list Z; os_out : list Z }.
Definition offs0 : offs := {| os_t := TGround; os_buf := None; os_begun := []; os_wait := []; os_got := []; os_keys := []; os_out := [] |}.

(** GetOffset number [i] is called; its goroutine comes to the receive; a rune is read by ioloop *)
Inductive oevent := OAsk (i : nat) | ORun (i : nat) | OIn (r : Z).

(** terminal.go:176-180: the send that does not wait *)
Definition report (attr : list Z) (s : offs) : offs :=
  match os_wait s with
  | i :: w => {| os_t := os_t s; os_buf := os_buf s; os_begun := os_begun s; os_wait := w; os_got := os_got s ++ [(i, attr)]; os_keys := os_keys s; os_out := os_out s |}
  | [] => {| os_t := os_t s; os_buf := match os_buf s with None => Some attr | b => b end; os_begun := os_begun s; os_wait := []; os_got := os_got s; os_keys := os_keys s;
             os_out := os_out s |}
  end.
Definition told (o : tout) (s : offs) : offs :=
  match o with
  | TKey k => {| os_t := os_t s; os_buf := os_buf s; os_begun := os_begun s; os_wait := os_wait s; os_got := os_got s; os_keys := os_keys s ++ [k]; os_out := os_out s |}
  | TReport a => report a s
  | TNone => s
  end.
Definition with_t (t : tstate) (s : offs) : offs :=
  {| os_t := t; os_buf := os_buf s; os_begun := os_begun s; os_wait := os_wait s; os_got := os_got s; os_keys := os_keys s; os_out := os_out s |}.

Definition oevent_step (u : uenv) (vim : bool) (e : oevent) (s : offs) : offs :=
  match e with
  | OAsk i => (* terminal.go:80-83 *)
      {| os_t := os_t s; os_buf := os_buf s; os_begun := i :: os_begun s; os_wait := os_wait s; os_got := os_got s; os_keys := os_keys s; os_out := os_out s ++ [27; 91; 54; 110] |}
  | ORun i => (* terminal.go:81 *)
      if existsb (Nat.eqb i) (os_begun s) then
        let left := remove Nat.eq_dec i (os_begun s) in
        match os_buf s with
        | Some a => {| os_t := os_t s; os_buf := None; os_begun := left; os_wait := os_wait s; os_got := os_got s ++ [(i, a)]; os_keys := os_keys s; os_out := os_out s |}
        | None => {| os_t := os_t s; os_buf := None; os_begun := left; os_wait := os_wait s ++ [i]; os_got := os_got s; os_keys := os_keys s; os_out := os_out s |}
        end
      else s
  | OIn r => let '(t, o) := tstep u vim (os_t s) r in told o (with_t t s)
  end.
Definition oevents (u : uenv) (vim : bool) (es : list oevent) (s : offs) : offs := fold_left (fun s e => oevent_step u vim e s) es s.
