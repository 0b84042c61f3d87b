(** Model of what an application gets from Readline, ReadSlice and Line, and of the loop around Line
    (example/readline-im/readline-im.go:48-57). *)
From Verif Require Import Base RunesModel Utf8Model RuneBufModel HistoryModel RenderModel OpModel.
Open Scope Z_scope.

(** The error of a call: nil, ErrInterrupt (operation.go:12-14), io.EOF *)
Inductive rerr := ENil | EInterrupt | EEof.
(** readline.go:237-240 Result; strings and byte slices are lists of bytes. *)
Record result := { r_line : list Z; r_err : rerr }.

(** operation.go:376-401 Runes and String, for what the editor sends: a line, an InterruptError carrying a line, io.EOF.
    readline.go:256-258 Readline and 250-253 Line return the same.  Other actions end no call. *)
Definition String_ (a : act) : option result :=
  match a with
  | ALine l => Some {| r_line := encode l; r_err := ENil |}
  | AIntr l => Some {| r_line := encode l; r_err := EInterrupt |}
  | AEof => Some {| r_line := []; r_err := EEof |}
  | _ => None
  end.
(** operation.go:430-436 Slice; readline.go:270-272 ReadSlice *)
Definition Slice (a : act) : option result :=
  match a with
  | ALine l => Some {| r_line := encode l; r_err := ENil |}
  | AIntr l => Some {| r_line := []; r_err := EInterrupt |}
  | AEof => Some {| r_line := []; r_err := EEof |}
  | _ => None
  end.

(** readline.go:242-244 CanContinue *)
Definition CanContinue (r : result) : bool :=
  negb (length (r_line r) =? 0)%nat && match r_err r with EInterrupt => true | _ => false end.
(** readline.go:246-248 CanBreak *)
Definition CanBreak (r : result) : bool :=
  negb (CanContinue r) && match r_err r with ENil => false | _ => true end.

(** example/readline-im/readline-im.go:48-57, over the results of the calls to come: the lines handled, and whether the
    loop is left. *)
Fixpoint loop (rs : list result) : list (list Z) * bool :=
  match rs with
  | [] => ([], false)
  | r :: rs' =>
      if CanContinue r then loop rs'
      else if CanBreak r then ([], true)
      else let '(ls, e) := loop rs' in (r_line r :: ls, e)
  end.

Fixpoint somes {A} (l : list (option A)) : list A :=
  match l with [] => [] | Some x :: l' => x :: somes l' | None :: l' => somes l' end.
