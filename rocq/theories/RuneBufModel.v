(** Model of the text part of /repo/runebuf.go (line, cursor, kill buffer).
    The slices are lists; sharing of their backing arrays is modelled in HeapModel.v.
    The screen output of Refresh is modelled in RenderModel.v; here every operation is the
    function passed to Refresh (runebuf.go:450-466). *)
From Verif Require Import Base RunesModel.
Open Scope nat_scope.

(** runebuf.go:17-36: fields buf, idx, lastKill *)
Record rbuf := { rb_buf : list Z; rb_idx : nat; rb_kill : list Z }.

Definition rb_empty : rbuf := {| rb_buf := []; rb_idx := 0; rb_kill := [] |}.

Definition with_idx (i : nat) (s : rbuf) : rbuf :=
  {| rb_buf := rb_buf s; rb_idx := i; rb_kill := rb_kill s |}.

(** runebuf.go:139-146 MoveToLineStart *)
Definition MoveToLineStart (s : rbuf) : outcome rbuf := Ok (with_idx 0 s).

(** runebuf.go:148-155 MoveBackward *)
Definition MoveBackward (s : rbuf) : outcome rbuf :=
  if (rb_idx s =? 0)%nat then Ok s else Ok (with_idx (rb_idx s - 1) s).

(** runebuf.go:165-171 WriteRunes (157-163: WriteString and WriteRune call it) *)
Definition WriteRunes (t : list Z) (s : rbuf) : outcome rbuf :=
  rest <- slice (rb_idx s) (length (rb_buf s)) (rb_buf s) ;;
  front <- slice 0 (rb_idx s) (rb_buf s) ;;
  Ok {| rb_buf := front ++ t ++ rest; rb_idx := rb_idx s + length t; rb_kill := rb_kill s |}.

(** runebuf.go:173-180 MoveForward *)
Definition MoveForward (s : rbuf) : outcome rbuf :=
  if (rb_idx s =? length (rb_buf s))%nat then Ok s else Ok (with_idx (rb_idx s + 1) s).

(** runebuf.go:182-186 IsCursorInEnd *)
Definition IsCursorInEnd (s : rbuf) : bool := (rb_idx s =? length (rb_buf s))%nat.

(** runebuf.go:188-192 Replace *)
Definition Replace (ch : Z) (s : rbuf) : outcome rbuf :=
  b <- set (rb_buf s) (rb_idx s) ch ;;
  Ok {| rb_buf := b; rb_idx := rb_idx s; rb_kill := rb_kill s |}.

(** runebuf.go:194-200 Erase *)
Definition Erase (s : rbuf) : outcome rbuf :=
  Ok {| rb_buf := []; rb_idx := 0; rb_kill := rb_buf s |}.

(** runebuf.go:202-212 Delete; the boolean is the returned success *)
Definition Delete (s : rbuf) : outcome (rbuf * bool) :=
  let b := rb_buf s in let i := rb_idx s in
  if (i =? length b)%nat then Ok (s, false)
  else
    k <- slice i (i + 1) b ;;
    front <- slice 0 i b ;;
    rest <- slice (i + 1) (length b) b ;;
    Ok ({| rb_buf := front ++ rest; rb_idx := i; rb_kill := k |}, true).

(** runebuf.go:267-272 Kill *)
Definition Kill (s : rbuf) : outcome rbuf :=
  let b := rb_buf s in
  k <- slice (rb_idx s) (length b) b ;;
  front <- slice 0 (rb_idx s) b ;;
  Ok {| rb_buf := front; rb_idx := rb_idx s; rb_kill := k |}.

(** runebuf.go:219-221: skip separators; [n] is the number of runes from [i] on *)
Fixpoint skip_breaks (b : list Z) (n i : nat) : outcome nat :=
  match n with
  | O => Ok i
  | S n' => x <- get b i ;; if IsWordBreak x then skip_breaks b n' (i + 1) else Ok i
  end.

(** The loop [for i := i0; i < len(buf); i++] looking for a word start
    (runebuf.go:222-230 and 296-301); [n] is len(buf)-i. *)
Fixpoint next_word (b : list Z) (n i : nat) : outcome (option nat) :=
  match n with
  | O => Ok None
  | S n' =>
      x <- get b i ;;
      if negb (IsWordBreak x) then
        y <- get b (i - 1) ;;
        if IsWordBreak y then Ok (Some i) else next_word b n' (i + 1)
      else next_word b n' (i + 1)
  end.

(** The loop [for i := r.idx - 1; i > 0; i--] looking for a word start
    (runebuf.go:240-246 and 334-341) *)
Fixpoint prev_word (b : list Z) (i : nat) : outcome (option nat) :=
  match i with
  | O => Ok None
  | S i' =>
      x <- get b i ;;
      if negb (IsWordBreak x) then
        y <- get b i' ;;
        if IsWordBreak y then Ok (Some i) else prev_word b i'
      else prev_word b i'
  end.

(** runebuf.go:214-232 DeleteWord *)
Definition DeleteWord (s : rbuf) : outcome rbuf :=
  let b := rb_buf s in
  if (rb_idx s =? length b)%nat then Ok s
  else
    init <- skip_breaks b (length b - rb_idx s) (rb_idx s) ;;
    o <- next_word b (length b - (init + 1)) (init + 1) ;;
    match o with
    | Some i =>
        k <- slice (rb_idx s) (i - 1) b ;;
        front <- slice 0 (rb_idx s) b ;;
        rest <- slice (i - 1) (length b) b ;;
        Ok {| rb_buf := front ++ rest; rb_idx := rb_idx s; rb_kill := k |}
    | None => Kill s
    end.

(** runebuf.go:234-251 MoveToPrevWord *)
Definition MoveToPrevWord (s : rbuf) : outcome (rbuf * bool) :=
  if (rb_idx s =? 0)%nat then Ok (s, false)
  else
    o <- prev_word (rb_buf s) (rb_idx s - 1) ;;
    match o with
    | Some i => Ok (with_idx i s, true)
    | None => Ok (with_idx 0 s, true)
    end.

(** runebuf.go:253-265 KillFront *)
Definition KillFront (s : rbuf) : outcome rbuf :=
  let b := rb_buf s in
  if (rb_idx s =? 0)%nat then Ok s
  else
    k <- slice 0 (rb_idx s) b ;;
    rest <- slice (rb_idx s) (length b) b ;;
    Ok {| rb_buf := rest; rb_idx := 0; rb_kill := k |}.

(** runebuf.go:274-292 Transpose *)
Definition Transpose (s : rbuf) : outcome rbuf :=
  let b := rb_buf s in
  let i := if (length b =? 1)%nat then rb_idx s + 1 else rb_idx s in
  if (length b <? 2)%nat then Ok (with_idx i s)
  else
    let i := if (i =? 0)%nat then 1
             else if (length b <=? i)%nat then length b - 1 else i in
    x <- get b (i - 1) ;;
    y <- get b i ;;
    b1 <- set b i x ;;
    b2 <- set b1 (i - 1) y ;;
    Ok {| rb_buf := b2; rb_idx := i + 1; rb_kill := rb_kill s |}.

(** runebuf.go:294-305 MoveToNextWord *)
Definition MoveToNextWord (s : rbuf) : outcome rbuf :=
  let b := rb_buf s in
  o <- next_word b (length b - (rb_idx s + 1)) (rb_idx s + 1) ;;
  match o with
  | Some i => Ok (with_idx i s)
  | None => Ok (with_idx (length b) s)
  end.

(** runebuf.go:319-324: look for the end of a word *)
Fixpoint end_word (b : list Z) (n i : nat) : outcome (option nat) :=
  match n with
  | O => Ok None
  | S n' =>
      x <- get b i ;;
      if IsWordBreak x then
        y <- get b (i - 1) ;;
        if negb (IsWordBreak y) then Ok (Some (i - 1)) else end_word b n' (i + 1)
      else end_word b n' (i + 1)
  end.

(** runebuf.go:307-327 MoveToEndWord *)
Definition MoveToEndWord (s : rbuf) : outcome rbuf :=
  let b := rb_buf s in let i := rb_idx s in
  if (i =? length b)%nat then Ok s
  else
    x <- get b i ;;
    i <- (if negb (IsWordBreak x) then
            y <- get b (i + 1) ;; if IsWordBreak y then Ok (i + 1) else Ok i
          else Ok i) ;;
    o <- end_word b (length b - (i + 1)) (i + 1) ;;
    match o with
    | Some j => Ok (with_idx j s)
    | None => Ok (with_idx (length b) s)
    end.

(** runebuf.go:329-346 BackEscapeWord *)
Definition BackEscapeWord (s : rbuf) : outcome rbuf :=
  let b := rb_buf s in
  if (rb_idx s =? 0)%nat then Ok s
  else
    o <- prev_word b (rb_idx s - 1) ;;
    match o with
    | Some i =>
        k <- slice i (rb_idx s) b ;;
        front <- slice 0 i b ;;
        rest <- slice (rb_idx s) (length b) b ;;
        Ok {| rb_buf := front ++ rest; rb_idx := i; rb_kill := k |}
    | None => Ok {| rb_buf := []; rb_idx := 0; rb_kill := rb_kill s |}
    end.

(** runebuf.go:348-360 Yank *)
Definition Yank (s : rbuf) : outcome rbuf :=
  let b := rb_buf s in
  if (length (rb_kill s) =? 0)%nat then Ok s
  else
    front <- slice 0 (rb_idx s) b ;;
    rest <- slice (rb_idx s) (length b) b ;;
    Ok {| rb_buf := front ++ rb_kill s ++ rest;
          rb_idx := rb_idx s + length (rb_kill s); rb_kill := rb_kill s |}.

(** runebuf.go:362-371 Backspace *)
Definition BufBackspace (s : rbuf) : outcome rbuf :=
  let b := rb_buf s in
  if (rb_idx s =? 0)%nat then Ok s
  else
    let i := rb_idx s - 1 in
    front <- slice 0 i b ;;
    rest <- slice (i + 1) (length b) b ;;
    Ok {| rb_buf := front ++ rest; rb_idx := i; rb_kill := rb_kill s |}.

(** runebuf.go:373-381 MoveToLineEnd *)
Definition MoveToLineEnd (s : rbuf) : outcome rbuf := Ok (with_idx (length (rb_buf s)) s).

(** runebuf.go:394-403: search left; [n] is i+1 *)
Fixpoint find_left (b : list Z) (ch : Z) (n : nat) : outcome (option nat) :=
  match n with
  | O => Ok None
  | S i => x <- get b i ;; if (x =? ch)%Z then Ok (Some i) else find_left b ch i
  end.

(** runebuf.go:406-415: search right; [n] is len(buf)-i *)
Fixpoint find_right (b : list Z) (ch : Z) (n i : nat) : outcome (option nat) :=
  match n with
  | O => Ok None
  | S n' => x <- get b i ;; if (x =? ch)%Z then Ok (Some i) else find_right b ch n' (i + 1)
  end.

(** runebuf.go:391-418 MoveTo *)
Definition MoveTo (ch : Z) (prevChar reverse : bool) (s : rbuf) : outcome (rbuf * bool) :=
  let b := rb_buf s in
  if reverse then
    o <- find_left b ch (rb_idx s) ;;
    match o with
    | Some i => Ok (with_idx (if prevChar then i + 1 else i) s, true)
    | None => Ok (s, false)
    end
  else
    o <- find_right b ch (length b - (rb_idx s + 1)) (rb_idx s + 1) ;;
    match o with
    | Some i => Ok (with_idx (if prevChar then i - 1 else i) s, true)
    | None => Ok (s, false)
    end.

(** runebuf.go:542-547 Reset *)
Definition Reset (s : rbuf) : list Z * rbuf :=
  (rb_buf s, {| rb_buf := []; rb_idx := 0; rb_kill := rb_kill s |}).

(** runebuf.go:574-579 SetWithIdx *)
Definition SetWithIdx (idx : nat) (b : list Z) (s : rbuf) : rbuf :=
  {| rb_buf := b; rb_idx := idx; rb_kill := rb_kill s |}.

(** runebuf.go:581-583 Set *)
Definition Set_ (b : list Z) (s : rbuf) : rbuf := SetWithIdx (length b) b s.

(** runebuf.go:105-117 RuneSlice; [i] may be negative *)
Definition RuneSlice (i : Z) (s : rbuf) : outcome (list Z) :=
  if (0 <? i)%Z then slice (rb_idx s) (rb_idx s + Z.to_nat i) (rb_buf s)
  else
    let j := (Z.of_nat (rb_idx s) + i)%Z in
    if (j <? 0)%Z then Panic else slice (Z.to_nat j) (rb_idx s) (rb_buf s).

(** The editing commands as data, so that sequences of them can be quantified over. *)
Inductive edit :=
| EWrite (t : list Z) | EBackspace | EDelete | EDeleteWord | EKill | EKillFront | EErase
| EYank | EBackEscapeWord | ETranspose | EReplace (ch : Z)
| ELineStart | ELineEnd | EForward | EBackward | EPrevWord | ENextWord | EEndWord
| EMoveTo (ch : Z) (prevChar reverse : bool) | EReset | ESet (b : list Z).

Definition run_edit (e : edit) (s : rbuf) : outcome rbuf :=
  match e with
  | EWrite t => WriteRunes t s
  | EBackspace => BufBackspace s
  | EDelete => r <- Delete s ;; Ok (fst r)
  | EDeleteWord => DeleteWord s
  | EKill => Kill s
  | EKillFront => KillFront s
  | EErase => Erase s
  | EYank => Yank s
  | EBackEscapeWord => BackEscapeWord s
  | ETranspose => Transpose s
  | EReplace ch => Replace ch s
  | ELineStart => MoveToLineStart s
  | ELineEnd => MoveToLineEnd s
  | EForward => MoveForward s
  | EBackward => MoveBackward s
  | EPrevWord => r <- MoveToPrevWord s ;; Ok (fst r)
  | ENextWord => MoveToNextWord s
  | EEndWord => MoveToEndWord s
  | EMoveTo ch p r => x <- MoveTo ch p r s ;; Ok (fst x)
  | EReset => Ok (snd (Reset s))
  | ESet b => Ok (Set_ b s)
  end.

Fixpoint run_edits (es : list edit) (s : rbuf) : outcome rbuf :=
  match es with
  | [] => Ok s
  | e :: es' => s' <- run_edit e s ;; run_edits es' s'
  end.
