(** Input that does not come from a terminal (Config.FuncIsTerminal is false, readline.go:88-93; RuneBuffer.interactive
    is false): the editor with its drawing, including the end of the input. *)
From Verif Require Import Base RunesModel RuneBufModel HistoryModel RenderModel OpModel OutModel.
Open Scope Z_scope.

(** operation.go:107-366, one rune; the end of the input is rune 0: on an empty line Clean (operation.go:123-129),
    otherwise the rune counts as Enter (operation.go:130-135).  Without vim mode, completion and search. *)
Definition pipe_draws (cf : ocfg) (r : Z) (o : op) : outcome (list oev) :=
  if o_end o then Ok []
  else
    match (match oc_filter cf with None => Some r | Some f => f r end) with
    | None => Ok [ODraw (VLine (rb_buf (o_b o)) (rb_idx (o_b o)))]
    | Some r' =>
        if r' =? 0 then
          if (length (rb_buf (o_b o)) =? 0)%nat then Ok [OClean] else after_vim cf CharEnter o
        else after_vim cf r' o
    end.

Definition pipe_step (cf : ocfg) (x : op * (bool * rdr)) (i : inp)
    : outcome ((op * (bool * rdr)) * list Z * list act) :=
  let '(o, st) := x in
  match i with
  | IRead => a <- ostep (oc_u cf) st (ODraw VRead) ;; Ok ((o, fst a), snd a, [])
  | IPrint t => a <- ostep (oc_u cf) st (ODraw (VOut t)) ;; Ok ((o, fst a), snd a, [])
  | IKey r =>
      es <- pipe_draws cf r o ;;
      a <- orun (oc_u cf) st es ;;
      y <- op_step cf r o ;;
      Ok ((fst y, fst a), snd a, snd y)
  end.

Fixpoint pipe_run (cf : ocfg) (x : op * (bool * rdr)) (is : list inp)
    : outcome ((op * (bool * rdr)) * list Z * list act) :=
  match is with
  | [] => Ok (x, [], [])
  | i :: is' =>
      a <- pipe_step cf x i ;;
      let '(x1, out1, acts1) := a in
      b <- pipe_run cf x1 is' ;;
      let '(x2, out2, acts2) := b in
      Ok (x2, out1 ++ out2, acts1 ++ acts2)
  end.

(** The descriptors of the process: for a terminal its number of columns (TIOCGWINSZ, an uint16) *)
Record fds := { fd_in : option nat; fd_out : option nat; fd_err : option nat }.
(** utils_unix.go:31-37 getWidth with term_unix.go:17-24 GetSize: both ioctl calls succeed exactly on a terminal *)
Definition getWidth (f : option nat) : Z := match f with None => -1 | Some cols => Z.of_nat cols end.
(** utils_unix.go:39-45 *)
Definition GetScreenWidth (f : fds) : Z :=
  let w := getWidth (fd_out f) in if w <? 0 then getWidth (fd_err f) else w.
(** term.go:30-33, utils_unix.go:52-54 *)
Definition IsTerminal (f : option nat) : bool := match f with None => false | Some _ => true end.
Definition DefaultIsTerminal (f : fds) : bool := IsTerminal (fd_in f) && (IsTerminal (fd_out f) || IsTerminal (fd_err f)).
