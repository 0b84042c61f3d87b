(** File-system view of the history rewrite, /repo/history.go:109-137 rewriteLocked. *)
From Verif Require Import Base Utf8Model HistoryModel.
Open Scope nat_scope.

(** The two paths involved: HistoryFile and HistoryFile + ".tmp".
    What a kernel crash does to data not synced to disk is not modelled: the state is what other processes
    see, and what remains after the process stops. *)
Record fs := { fs_main : list Z; fs_tmp : option (list Z) }.

(** The system calls rewriteLocked issues. *)
Inductive sysop :=
| OTrunc                 (* OpenFile(tmp, O_CREATE|O_WRONLY|O_TRUNC|O_APPEND) *)
| OWrite (bs : list Z)   (* write(2) on the temporary file, bytes actually written *)
| ORename.               (* Rename(tmp, HistoryFile) *)

Definition sys (o : sysop) (s : fs) : fs :=
  match o with
  | OTrunc => {| fs_main := fs_main s; fs_tmp := Some [] |}
  | OWrite bs =>
      match fs_tmp s with
      | Some t => {| fs_main := fs_main s; fs_tmp := Some (t ++ bs) |}
      | None => s
      end
  | ORename =>
      match fs_tmp s with
      | Some t => {| fs_main := t; fs_tmp := None |}
      | None => s
      end
  end.
Definition syss (os : list sysop) (s : fs) : fs := fold_left (fun s o => sys o s) os s.

(** history.go:120-123: what goes through the bufio.Writer *)
Definition rewrite_contents (h : hist) : list Z := flat_map (fun x => file_line (it_src x)) (h_items h).

(** bufio.Writer splits the contents into chunks (its buffer is 4096 bytes; large strings may be written
    directly), so [chunks] is any list of byte strings.  Each write(2) is given the number of bytes it manages
    to write; a short write is an error, after which bufio.Writer drops everything (bufio.Writer.err) and the
    result of Flush is ignored (history.go:124), so that Rename follows in any case. *)
Fixpoint bufio_writes (chunks : list (list Z * nat)) : list sysop :=
  match chunks with
  | [] => []
  | (c, n) :: rest =>
      OWrite (firstn n c) :: (if length c <=? n then bufio_writes rest else [])
  end.
Definition rewrite_ops (chunks : list (list Z * nat)) : list sysop := OTrunc :: bufio_writes chunks ++ [ORename].
