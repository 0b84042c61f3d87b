(** Model of the Windows console reader: /repo/rawreader_windows.go. *)
From Verif Require Import Base Utf8Model TerminalModel.
Open Scope Z_scope.

(** rawreader_windows.go:7-25, the codes that are used *)
Definition VK_BACK := 8.
Definition VK_MENU := 18.
Definition VK_LEFT := 37.
Definition VK_UP := 38.
Definition VK_RIGHT := 39.
Definition VK_DOWN := 40.
Definition VK_LCONTROL := 162.
Definition VK_RCONTROL := 163.

(** windows_api.go:43-58: one input record: another event than a key, or a key with bKeyDown, wRepeatCount,
    wVirtualKeyCode and unicodeChar (a UTF-16 unit). *)
Inductive event := EOther | EKey (down : bool) (rep vk ch : Z).

(** rawreader_windows.go:29-32 RawReader *)
Record rawreader := { rr_ctrl : bool; rr_alt : bool }.

(** rawreader_windows.go:118-121 write and 112-116 writeEsc, into a buffer of [n] bytes *)
Definition wr_write (n : nat) (char : Z) : outcome (list Z) := Ok (firstn n (encode_rune char)).
Definition wr_writeEsc (n : nat) (char : Z) : outcome (list Z) :=
  match n with O => Panic | S n' => Ok (27 :: firstn n' (encode_rune char)) end.

(** rawreader_windows.go:70-86: the key for a record without a character *)
Definition arrow (vk : Z) : Z :=
  if vk =? VK_LEFT then CharBackward else if vk =? VK_RIGHT then CharForward
  else if vk =? VK_UP then CharPrev else if vk =? VK_DOWN then CharNext else 0.

(** rawreader_windows.go:54-109, after one record has been read: what Read returns, None for "goto next" *)
Definition on_event (n : nat) (s : rawreader) (ev : event) : outcome (rawreader * option (list Z)) :=
  match ev with
  | EOther => Ok (s, None)
  | EKey false _ vk _ =>
      if rr_ctrl s || rr_alt s then
        if (vk =? VK_RCONTROL) || (vk =? VK_LCONTROL) then Ok ({| rr_ctrl := false; rr_alt := rr_alt s |}, None)
        else if vk =? VK_MENU then Ok ({| rr_ctrl := rr_ctrl s; rr_alt := false |}, None)
        else Ok (s, None)
      else Ok (s, None)
  | EKey true _ vk ch =>
      if ch =? 0 then
        if (vk =? VK_RCONTROL) || (vk =? VK_LCONTROL) then Ok ({| rr_ctrl := true; rr_alt := rr_alt s |}, None)
        else if vk =? VK_MENU then Ok ({| rr_ctrl := rr_ctrl s; rr_alt := true |}, None)
        else if arrow vk =? 0 then Ok (s, None)
        else b <- wr_write n (arrow vk) ;; Ok (s, Some b)
      else if rr_ctrl s then
        let char := if ch =? 65 then CharLineStart else if ch =? 69 then CharLineEnd
                    else if ch =? 82 then CharBckSearch else if ch =? 83 then CharFwdSearch else ch in
        b <- wr_write n char ;; Ok (s, Some b)
      else if rr_alt s then
        let char := if ch =? VK_BACK then CharBackspace else ch in
        b <- wr_writeEsc n char ;; Ok (s, Some b)
      else b <- wr_write n ch ;; Ok (s, Some b)
  end.

(** rawreader_windows.go:40-110 Read with a buffer of [n] bytes, when the console will deliver [evs]:
    the bytes and the records not read yet; None: it waits for more records.  Errors of the console are not modelled. *)
Fixpoint wr_read (n : nat) (s : rawreader) (evs : list event) : outcome (rawreader * option (list Z * list event)) :=
  match evs with
  | [] => Ok (s, None)
  | ev :: evs' =>
      x <- on_event n s ev ;;
      match x with
      | (s', Some b) => Ok (s', Some (b, evs'))
      | (s', None) => wr_read n s' evs'
      end
  end.

(** Read again and again until it waits; [fuel]: more calls than there are records. *)
Fixpoint wr_reads (fuel n : nat) (s : rawreader) (evs : list event) : outcome (list Z) :=
  match fuel with
  | O => Ok []
  | S f =>
      x <- wr_read n s evs ;;
      match x with
      | (_, None) => Ok []
      | (s', Some (b, evs')) => bs <- wr_reads f n s' evs' ;; Ok (b ++ bs)
      end
  end.
Definition NewRawReader : rawreader := {| rr_ctrl := false; rr_alt := false |}.
(** Everything a new reader delivers for the records [evs]. *)
Definition console_bytes (n : nat) (evs : list event) : outcome (list Z) := wr_reads (S (length evs)) n NewRawReader evs.
