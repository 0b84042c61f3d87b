(** Model of terminal settings and of reading a password from a descriptor:
    /repo/utils.go:264-278 (RawMode), /repo/term.go:38-123. *)
From Verif Require Import Base.
Open Scope Z_scope.

(** Termios (syscall.Termios on Linux): flag words and control characters; ioctls are assumed to succeed. *)
Record termios := { t_iflag : Z; t_oflag : Z; t_cflag : Z; t_lflag : Z; t_cc : list Z }.

(** Linux constants used by term.go *)
Definition IGNBRK := 1.   Definition BRKINT := 2.   Definition PARMRK := 8.    Definition ISTRIP := 32.
Definition INLCR := 64.   Definition IGNCR := 128.  Definition ICRNL := 256.   Definition IXON := 1024.
Definition ISIG := 1.     Definition ICANON := 2.   Definition ECHO := 8.      Definition ECHONL := 64.
Definition IEXTEN := 32768.
Definition CSIZE := 48.   Definition CS8 := 48.     Definition PARENB := 256.
Definition VTIME := 5%nat. Definition VMIN := 6%nat.

Definition lors (l : list Z) : Z := fold_right Z.lor 0 l.

(** Go's Cc is a fixed array of at least 19 bytes, so the index is always valid *)
Definition set_cc (i : nat) (v : Z) (l : list Z) : list Z := firstn i l ++ v :: skipn (S i) l.

(** term.go:47-57, the settings MakeRaw installs *)
Definition raw_of (t : termios) : termios :=
  {| t_iflag := Z.ldiff (t_iflag t) (lors [IGNBRK; BRKINT; PARMRK; ISTRIP; INLCR; IGNCR; ICRNL; IXON]);
     t_oflag := t_oflag t;
     t_lflag := Z.ldiff (t_lflag t) (lors [ECHO; ECHONL; ICANON; ISIG; IEXTEN]);
     t_cflag := Z.lor (Z.ldiff (t_cflag t) (lors [CSIZE; PARENB])) CS8;
     t_cc := set_cc VTIME 0 (set_cc VMIN 1 (t_cc t)) |}.

(** The kernel's settings and the [state] pointer of one RawMode value *)
Record rawmode := { r_tty : termios; r_saved : option termios }.

(** utils.go:268-271 Enter, term.go:38-60 MakeRaw *)
Definition raw_enter (s : rawmode) : rawmode := {| r_tty := raw_of (r_tty s); r_saved := Some (r_tty s) |}.
(** utils.go:273-278 Exit *)
Definition raw_exit (s : rawmode) : rawmode :=
  match r_saved s with None => s | Some t => {| r_tty := t; r_saved := Some t |} end.

Inductive rawcall := REnter | RExit.
Definition raw_call (c : rawcall) (s : rawmode) : rawmode :=
  match c with REnter => raw_enter s | RExit => raw_exit s end.
Definition raw_calls (cs : list rawcall) (s : rawmode) : rawmode := fold_left (fun s c => raw_call c s) cs s.

(** A terminal in canonical mode: each record is what one Enter (ending in 10) or Ctrl-D made available, and
    read(2) returns at most the rest of the first record.  An empty record is end of file. *)
Definition tty_read (n : nat) (q : list (list Z)) : option (list Z * list (list Z)) :=
  match q with
  | [] => None                                  (* blocks *)
  | rec :: q' =>
      if (length rec <=? n)%nat then Some (rec, q')
      else Some (firstn n rec, skipn n rec :: q')
  end.

Inductive pw_result := PwLine (l : list Z) (q : list (list Z)) | PwEOF (q : list (list Z)) | PwBlocked | PwFuel.

(** term.go:102-122, the read loop; [fuel] bounds the number of reads *)
Fixpoint pw_loop (fuel : nat) (ret : list Z) (q : list (list Z)) : pw_result :=
  match fuel with
  | O => PwFuel
  | S f =>
      match tty_read 16 q with
      | None => PwBlocked
      | Some (buf, q') =>
          match rev buf with
          | [] => match ret with [] => PwEOF q' | _ => PwLine ret q' end
          | last :: front =>
              let got := if last =? 10 then rev front else buf in
              if (length got <? 16)%nat then PwLine (ret ++ got) q' else pw_loop f (ret ++ got) q'
          end
      end
  end.

(** The settings ReadPassword installs before reading, term.go:88-91 *)
Definition pw_settings (t : termios) : termios :=
  {| t_iflag := Z.lor (t_iflag t) ICRNL; t_oflag := t_oflag t; t_cflag := t_cflag t;
     t_lflag := Z.lor (Z.ldiff (t_lflag t) ECHO) (Z.lor ICANON ISIG); t_cc := t_cc t |}.

(** term.go:82-123 ReadPassword as a sequence of settings.  getTermios returns a pointer; [newState := oldState]
    copies the pointer, so the fields assigned through newState are those of *oldState too, and the deferred
    setTermios(fd, oldState) installs the modified record again.  Memory is modelled explicitly. *)
Definition ptr := nat.
Record pw_mem := { pm_heap : ptr -> termios; pm_tty : termios }.
Definition pm_get (p : ptr) (m : pw_mem) : termios := pm_heap m p.
Definition pm_put (p : ptr) (t : termios) (m : pw_mem) : pw_mem :=
  {| pm_heap := fun q => if (q =? p)%nat then t else pm_heap m q; pm_tty := pm_tty m |}.
Definition setTermios (p : ptr) (m : pw_mem) : pw_mem := {| pm_heap := pm_heap m; pm_tty := pm_heap m p |}.

Record pw_run := { pr_during : termios; pr_result : pw_result; pr_after : termios }.
Definition ReadPassword_fd (fuel : nat) (tty : termios) (q : list (list Z)) : pw_run :=
  let oldState : ptr := 0%nat in
  let m0 := pm_put oldState tty {| pm_heap := fun _ => tty; pm_tty := tty |} in   (* getTermios *)
  let newState : ptr := oldState in
  let m1 := pm_put newState (pw_settings (pm_get newState m0)) m0 in
  let m2 := setTermios newState m1 in
  let res := pw_loop fuel [] q in
  let m3 := setTermios oldState m2 in                                             (* deferred *)
  {| pr_during := pm_tty m2; pr_result := res; pr_after := pm_tty m3 |}.
