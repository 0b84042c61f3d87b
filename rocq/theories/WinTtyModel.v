(** Model of console modes and of reading a password on Windows: /repo/term_windows.go:78-171, with RawMode of
    /repo/utils.go:264-278.  A console mode is one word; GetConsoleMode and SetConsoleMode succeed. *)
From Verif Require Import Base TtyModel.
Open Scope Z_scope.

(** term_windows.go:26-38 *)
Definition enableProcessedInput := 1.  Definition enableLineInput := 2.  Definition enableEchoInput := 4.
Definition enableProcessedOutput := 1.

(** term_windows.go:81-93 MakeRaw: the mode it installs *)
Definition wraw_of (st : Z) : Z :=
  Z.ldiff st (lors [enableEchoInput; enableProcessedInput; enableLineInput; enableProcessedOutput]).

(** The console's mode and the [state] pointer of one RawMode value *)
Record wraw := { w_mode : Z; w_saved : option Z }.
(** utils.go:268-278 Enter and Exit with MakeRaw and restoreTerm (term_windows.go:108-111) *)
Definition wraw_call (c : rawcall) (s : wraw) : wraw :=
  match c with
  | REnter => {| w_mode := wraw_of (w_mode s); w_saved := Some (w_mode s) |}
  | RExit => match w_saved s with None => s | Some m => {| w_mode := m; w_saved := Some m |} end
  end.
Definition wraw_calls (cs : list rawcall) (s : wraw) : wraw := fold_left (fun s c => wraw_call c s) cs s.

(** [buf[:n]] without its last rune if that is [c] (162-167) *)
Definition drop_last (c : Z) (buf : list Z) : list Z :=
  match rev buf with x :: front => if x =? c then rev front else buf | [] => buf end.

(** term_windows.go:148-169, the read loop; [fuel] bounds the number of reads.  The console in line mode is
    [tty_read] (TtyModel.v): a read returns at most the rest of the line, here ended by 13 10. *)
Fixpoint wpw_loop (fuel : nat) (ret : list Z) (q : list (list Z)) : pw_result :=
  match fuel with
  | O => PwFuel
  | S f =>
      match tty_read 16 q with
      | None => PwBlocked
      | Some ([], q') => match ret with [] => PwEOF q' | _ => PwLine ret q' end
      | Some (buf, q') =>
          let got := drop_last 13 (drop_last 10 buf) in
          if (length got <? 16)%nat then PwLine (ret ++ got) q' else wpw_loop f (ret ++ got) q'
      end
  end.

(** term_windows.go:126-146: the mode while reading *)
Definition wpw_mode (st : Z) : Z :=
  Z.lor (Z.ldiff st enableEchoInput) (lors [enableProcessedInput; enableLineInput; enableProcessedOutput]).

(** term_windows.go:126-171 ReadPassword; [old] is a copy of the mode word, set again by the deferred call *)
Record wpw_run := { wr_during : Z; wr_result : pw_result; wr_after : Z }.
Definition WReadPassword (fuel : nat) (st : Z) (q : list (list Z)) : wpw_run :=
  let old := st in
  {| wr_during := wpw_mode st; wr_result := wpw_loop fuel [] q; wr_after := old |}.
