(** Model of suspension with Ctrl-Z: /repo/terminal.go:42-54 SleepToResume, /repo/utils.go:59-82 WaitForResume,
    /repo/utils_unix.go:20-28 SuspendMe. *)
From Verif Require Import Base TtyModel.
Open Scope Z_scope.

(** utils.go:66-78, the goroutine of WaitForResume: [t] is the time of the last tick, [ticks] are the times the ticker
    delivers, in milliseconds.  Some: the ticks left when the loop ends and the channel is ready; None: it still waits. *)
Fixpoint WaitForResume (t : Z) (ticks : list Z) : option (list Z) :=
  match ticks with
  | [] => None
  | now :: rest => if 100 <? now - t then Some rest else WaitForResume now rest
  end.

(** terminal.go:42-54 SleepToResume on the terminal settings; SuspendMe stops the process, [shell] is what the programs
    run meanwhile do to the settings.  The result is the state when the channel delivers. *)
Definition SleepToResume (shell : termios -> termios) (s : rawmode) : rawmode :=
  let s1 := raw_exit s in
  raw_enter {| r_tty := shell (r_tty s1); r_saved := r_saved s1 |}.

(** operation.go:382-400 Runes: raw mode around the prompt; [shells]: the suspensions while it is open (operation.go:231-234).
    The settings found by each of them are collected. *)
Fixpoint suspensions (shells : list (termios -> termios)) (s : rawmode) : rawmode * list termios :=
  match shells with
  | [] => (s, [])
  | f :: fs => let r := suspensions fs (SleepToResume f s) in (fst r, r_tty (raw_exit s) :: snd r)
  end.
Definition Runes_tty (shells : list (termios -> termios)) (s : rawmode) : rawmode * list termios :=
  let r := suspensions shells (raw_enter s) in (raw_exit (fst r), snd r).
