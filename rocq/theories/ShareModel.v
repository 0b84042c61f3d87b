(** Several programs (or several instances in one program) with the same HistoryFile: /repo/history.go:65-137, 301-324 over a file system in which the
    name of a file and the file itself are different things. *)
From Verif Require Import Base RunesModel Utf8Model HistoryModel HistorySpec.
Open Scope nat_scope.

(** One opHistory: its configuration, its state and the file its descriptor o.fd refers to.  [h_disk] of the state is not used between calls. *)
Record user := { us_cfg : hcfg; us_hist : hist; us_file : nat }.

(** [sh_name] is the file that HistoryFile names at present; [sh_data] the contents of every file ever created, also of those without a name; [sh_next] is
    the number of the next file. *)
Record shared := { sh_name : nat; sh_data : nat -> list Z; sh_next : nat; sh_user : nat -> option user }.

Definition put {A} (f : nat -> A) (i : nat) (x : A) : nat -> A := fun j => if j =? i then x else f j.

(** What happens: an instance opens its history (NewEx, SetHistoryPath; an instance that was open before is replaced), or edits or submits a line. *)
Inductive doing := Opens (i : nat) (c : hcfg) | Does (i : nat) (e : event).

(** history.go:53-95, 109-137: historyUpdatePath opens the file by its name (O_APPEND); when rewriteLocked runs, it makes a new file, renames it to
    HistoryFile and keeps its descriptor, so that the name now is that of the new file and descriptors opened before still are those of the old one.
    Simplifications: opening and rewriting is one step (no other instance writes in between); every file operation succeeds. *)
Definition opens (i : nat) (c : hcfg) (w : shared) : shared :=
  let disk := sh_data w (sh_name w) in
  let h := HInit c true (newOpHistory disk) in
  if hc_file c && (hc_limit c <? Z.of_nat (length (read_lines disk [])))%Z then
    {| sh_name := sh_next w; sh_data := put (sh_data w) (sh_next w) (h_disk h); sh_next := S (sh_next w);
       sh_user := put (sh_user w) i (Some {| us_cfg := c; us_hist := h; us_file := sh_next w |}) |}
  else
    {| sh_name := sh_name w; sh_data := sh_data w; sh_next := sh_next w;
       sh_user := put (sh_user w) i (Some {| us_cfg := c; us_hist := h; us_file := sh_name w |}) |}.

(** history.go:246-294, 301-324: the call of one instance, writing through its descriptor (one Write of a whole line at the end of the file, history.go:316) *)
Definition does (i : nat) (e : event) (w : shared) : outcome shared :=
  match sh_user w i with
  | None => Ok w
  | Some u =>
      h <- run_event (us_cfg u) e (set_file (h_fd (us_hist u)) (sh_data w (us_file u)) (us_hist u)) ;;
      Ok {| sh_name := sh_name w; sh_data := put (sh_data w) (us_file u) (h_disk h); sh_next := sh_next w;
            sh_user := put (sh_user w) i (Some {| us_cfg := us_cfg u; us_hist := h; us_file := us_file u |}) |}
  end.

Definition happens (d : doing) (w : shared) : outcome shared :=
  match d with Opens i c => Ok (opens i c w) | Does i e => does i e w end.
Fixpoint happen (ds : list doing) (w : shared) : outcome shared :=
  match ds with [] => Ok w | d :: ds' => w' <- happens d w ;; happen ds' w' end.

(** Nobody has the file open. *)
Definition nobody (disk : list Z) : shared :=
  {| sh_name := 0; sh_data := fun k => if k =? 0 then disk else []; sh_next := 1; sh_user := fun _ => None |}.
(** The contents of the file HistoryFile names. *)
Definition on_disk (w : shared) : list Z := sh_data w (sh_name w).
