(** Specification vocabulary for the remote client. *)
From Verif Require Import Base RemoteModel RemoteSpec TtyModel CliModel.
Open Scope Z_scope.

(** What the server wrote, and the changes of mode it asked for. *)
Definition written (xs : list scall) : list Z := flat_map (fun x => match x with SWrite b => b | _ => [] end) xs.
Definition modes (xs : list scall) : list rawcall :=
  flat_map (fun x => match x with SWrite _ => [] | SEnter => [REnter] | SExit => [RExit] end) xs.

(** The input up to an end of file without data since the one before, and whether this came. *)
Fixpoint input (had : bool) (rs : list (list Z * bool)) : list Z * bool :=
  match rs with
  | [] => ([], false)
  | (d, e) :: rs' =>
      let had := had || negb (length d =? 0)%nat in
      if e then
        if had then (d ++ fst (input false rs'), snd (input false rs')) else ([], true)
      else (d ++ fst (input had rs'), snd (input had rs'))
  end.
