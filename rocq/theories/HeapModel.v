(** Slices with their backing arrays, and /repo/runebuf.go on top of them.
    RuneBufModel.v treats a slice as a list; here a slice is an array number, an offset, a length
    and a capacity, so that two slices can share memory.  [append] writes in place when the
    capacity suffices, exactly as in Go; how far it grows an array otherwise is left to an
    arbitrary function [g]. *)
From Verif Require Import Base RunesModel RuneBufModel.
Open Scope nat_scope.

(** A Go slice header: backing array, first element, len, cap. *)
Record slc := { sl_a : nat; sl_off : nat; sl_len : nat; sl_cap : nat }.

(** Memory: the contents of every array; arrays [0 .. mm_new-1] are allocated. *)
Record mem := { mm : nat -> list Z; mm_new : nat }.

(** The elements of a slice (Go: s[0], ..., s[len(s)-1]). *)
Definition view (m : mem) (s : slc) : list Z := firstn (sl_len s) (skipn (sl_off s) (mm m (sl_a s))).

(** [x] with [t] written over it from position [i] on. *)
Definition put_at (i : nat) (t x : list Z) : list Z := firstn i x ++ t ++ skipn (i + length t) x.

Definition upd (f : nat -> list Z) (a : nat) (x : list Z) : nat -> list Z :=
  fun b => if (b =? a)%nat then x else f b.

(** Write [t] into array [a] from position [i] on. *)
Definition write (a i : nat) (t : list Z) (m : mem) : mem :=
  {| mm := upd (mm m) a (put_at i t (mm m a)); mm_new := mm_new m |}.

(** A new array holding [x], as a slice of length [n] and capacity [length x]. *)
Definition alloc (x : list Z) (n : nat) (m : mem) : mem * slc :=
  ({| mm := upd (mm m) (mm_new m) x; mm_new := S (mm_new m) |},
   {| sl_a := mm_new m; sl_off := 0; sl_len := n; sl_cap := length x |}).

(** Go: make([]rune, n, c) *)
Definition make (n c : nat) (m : mem) : mem * slc := alloc (repeat 0%Z c) n m.

(** runes.go:170-174 Runes.Copy, also the copies made at runebuf.go:119-125: make and copy; the capacity is the length. *)
Definition copy_of (t : list Z) (m : mem) : mem * slc := alloc t (length t) m.

(** Go: s[a:b], allowed up to the capacity. *)
Definition reslice (a b : nat) (s : slc) : outcome slc :=
  if (a <=? b) && (b <=? sl_cap s)
  then Ok {| sl_a := sl_a s; sl_off := sl_off s + a; sl_len := b - a; sl_cap := sl_cap s - a |}
  else Panic.

(** Go: s[i] = x *)
Definition store (s : slc) (i : nat) (x : Z) (m : mem) : outcome mem :=
  if i <? sl_len s then Ok (write (sl_a s) (sl_off s + i) [x] m) else Panic.

(** Go: copy(dst, src) with the elements of src given *)
Definition copy_to (s : slc) (t : list Z) (m : mem) : mem :=
  write (sl_a s) (sl_off s) (firstn (sl_len s) t) m.

Section heap.

(** Growth of append: [g old_cap needed] is the capacity the runtime would like. *)
Variable g : nat -> nat -> nat.

(** Go: append(s, t...) with the elements of t read before anything is written (memmove). *)
Definition append (s : slc) (t : list Z) (m : mem) : mem * slc :=
  let n := sl_len s + length t in
  if n <=? sl_cap s then
    (write (sl_a s) (sl_off s + sl_len s) t m,
     {| sl_a := sl_a s; sl_off := sl_off s; sl_len := n; sl_cap := sl_cap s |})
  else alloc (view m s ++ t ++ repeat 0%Z (g (sl_cap s) n - n)) n m.

(** A slice literal or conversion ([]rune{c}, []rune(string)): a new array with any capacity. *)
Definition lit (t : list Z) (m : mem) : mem * slc :=
  alloc (t ++ repeat 0%Z (g 0 (length t) - length t)) (length t) m.

(** runebuf.go:17-36: fields buf, idx, lastKill, bck *)
Record hbuf := { h_buf : slc; h_idx : nat; h_kill : slc; h_bck : option (slc * nat) }.

(** The list-level buffer it stands for. *)
Definition abs (m : mem) (b : hbuf) : rbuf :=
  {| rb_buf := view m (h_buf b); rb_idx := h_idx b; rb_kill := view m (h_kill b) |}.

Definition hst : Type := mem * hbuf.
Definition hlen (b : hbuf) : nat := sl_len (h_buf b).
Definition h_with_idx (i : nat) (b : hbuf) : hbuf :=
  {| h_buf := h_buf b; h_idx := i; h_kill := h_kill b; h_bck := h_bck b |}.
Definition h_with_buf (s : slc) (i : nat) (b : hbuf) : hbuf :=
  {| h_buf := s; h_idx := i; h_kill := h_kill b; h_bck := h_bck b |}.

(** runebuf.go:38-40 pushKill *)
Definition h_pushKill (text : slc) (m : mem) (b : hbuf) : hst :=
  let '(m1, e) := make 0 0 m in
  let '(m2, k) := append e (view m1 text) m1 in
  (m2, {| h_buf := h_buf b; h_idx := h_idx b; h_kill := k; h_bck := h_bck b |}).

(** runebuf.go:48-52 Backup: the slice header is stored, not its contents *)
Definition h_Backup (m : mem) (b : hbuf) : hst :=
  (m, {| h_buf := h_buf b; h_idx := h_idx b; h_kill := h_kill b; h_bck := Some (h_buf b, h_idx b) |}).

(** runebuf.go:54-62 Restore *)
Definition h_Restore (m : mem) (b : hbuf) : hst :=
  match h_bck b with
  | None => (m, b)
  | Some (s, i) => (m, h_with_buf s i b)
  end.

(** runebuf.go:165-171 WriteRunes with the caller's slice [s] *)
Definition h_WriteRunes (s : slc) (m : mem) (b : hbuf) : outcome hst :=
  rest <- reslice (h_idx b) (hlen b) (h_buf b) ;;
  let '(m1, tail) := append s (view m rest) m in
  front <- reslice 0 (h_idx b) (h_buf b) ;;
  let '(m2, nb) := append front (view m1 tail) m1 in
  Ok (m2, h_with_buf nb (h_idx b + sl_len s) b).

(** runebuf.go:157-163 WriteString, WriteRune *)
Definition h_write (t : list Z) (m : mem) (b : hbuf) : outcome hst :=
  let '(m1, s) := lit t m in h_WriteRunes s m1 b.

(** runebuf.go:188-192 Replace *)
Definition h_Replace (ch : Z) (m : mem) (b : hbuf) : outcome hst :=
  m1 <- store (h_buf b) (h_idx b) ch m ;; Ok (m1, b).

(** runebuf.go:194-200 Erase *)
Definition h_Erase (m : mem) (b : hbuf) : outcome hst :=
  let '(m1, b1) := h_pushKill (h_buf b) m b in
  nb <- reslice 0 0 (h_buf b1) ;;
  Ok (m1, h_with_buf nb 0 b1).

(** The pattern [append(r.buf[:i], r.buf[j:]...)] of runebuf.go:208, 226, 337, 369; the cursor becomes [i] *)
Definition h_cut (i j : nat) (m : mem) (b : hbuf) : outcome hst :=
  front <- reslice 0 i (h_buf b) ;;
  rest <- reslice j (hlen b) (h_buf b) ;;
  let '(m1, nb) := append front (view m rest) m in
  Ok (m1, h_with_buf nb i b).

(** runebuf.go:202-212 Delete *)
Definition h_Delete (m : mem) (b : hbuf) : outcome hst :=
  let i := h_idx b in
  if (i =? hlen b)%nat then Ok (m, b)
  else
    k <- reslice i (i + 1) (h_buf b) ;;
    let '(m1, b1) := h_pushKill k m b in
    h_cut i (i + 1) m1 b1.

(** runebuf.go:267-272 Kill *)
Definition h_Kill (m : mem) (b : hbuf) : outcome hst :=
  k <- reslice (h_idx b) (hlen b) (h_buf b) ;;
  let '(m1, b1) := h_pushKill k m b in
  nb <- reslice 0 (h_idx b) (h_buf b1) ;;
  Ok (m1, h_with_buf nb (h_idx b) b1).

(** runebuf.go:214-232 DeleteWord; the loops only read, so they are those of RuneBufModel.v on the elements of the slice *)
Definition h_DeleteWord (m : mem) (b : hbuf) : outcome hst :=
  let x := view m (h_buf b) in
  if (h_idx b =? hlen b)%nat then Ok (m, b)
  else
    init <- skip_breaks x (hlen b - h_idx b) (h_idx b) ;;
    o <- next_word x (hlen b - (init + 1)) (init + 1) ;;
    match o with
    | Some i =>
        k <- reslice (h_idx b) (i - 1) (h_buf b) ;;
        let '(m1, b1) := h_pushKill k m b in
        h_cut (h_idx b) (i - 1) m1 b1
    | None => h_Kill m b
    end.

(** runebuf.go:253-265 KillFront *)
Definition h_KillFront (m : mem) (b : hbuf) : outcome hst :=
  if (h_idx b =? 0)%nat then Ok (m, b)
  else
    k <- reslice 0 (h_idx b) (h_buf b) ;;
    let '(m1, b1) := h_pushKill k m b in
    if hlen b <? h_idx b then Panic      (* length is negative *)
    else
      let n := hlen b - h_idx b in
      dst <- reslice 0 n (h_buf b1) ;;
      src <- reslice (h_idx b) (hlen b) (h_buf b1) ;;
      let m2 := copy_to dst (view m1 src) m1 in
      nb <- reslice 0 n (h_buf b1) ;;
      Ok (m2, h_with_buf nb 0 b1).

(** runebuf.go:274-292 Transpose *)
Definition h_Transpose (m : mem) (b : hbuf) : outcome hst :=
  let n := hlen b in
  let i := if (n =? 1)%nat then h_idx b + 1 else h_idx b in
  if (n <? 2)%nat then Ok (m, h_with_idx i b)
  else
    let i := if (i =? 0)%nat then 1 else if (n <=? i)%nat then n - 1 else i in
    x <- get (view m (h_buf b)) (i - 1) ;;
    y <- get (view m (h_buf b)) i ;;
    m1 <- store (h_buf b) i x m ;;
    m2 <- store (h_buf b) (i - 1) y m1 ;;
    Ok (m2, h_with_idx (i + 1) b).

(** runebuf.go:329-346 BackEscapeWord *)
Definition h_BackEscapeWord (m : mem) (b : hbuf) : outcome hst :=
  if (h_idx b =? 0)%nat then Ok (m, b)
  else
    o <- prev_word (view m (h_buf b)) (h_idx b - 1) ;;
    match o with
    | Some i =>
        k <- reslice i (h_idx b) (h_buf b) ;;
        let '(m1, b1) := h_pushKill k m b in
        h_cut i (h_idx b1) m1 b1
    | None => nb <- reslice 0 0 (h_buf b) ;; Ok (m, h_with_buf nb 0 b)
    end.

(** runebuf.go:348-360 Yank *)
Definition h_Yank (m : mem) (b : hbuf) : outcome hst :=
  if (sl_len (h_kill b) =? 0)%nat then Ok (m, b)
  else
    let '(m1, s0) := make 0 (hlen b + sl_len (h_kill b)) m in
    front <- reslice 0 (h_idx b) (h_buf b) ;;
    let '(m2, s1) := append s0 (view m1 front) m1 in
    let '(m3, s2) := append s1 (view m2 (h_kill b)) m2 in
    rest <- reslice (h_idx b) (hlen b) (h_buf b) ;;
    let '(m4, s3) := append s2 (view m3 rest) m3 in
    Ok (m4, h_with_buf s3 (h_idx b + sl_len (h_kill b)) b).

(** runebuf.go:362-371 Backspace *)
Definition h_Backspace (m : mem) (b : hbuf) : outcome hst :=
  if (h_idx b =? 0)%nat then Ok (m, b)
  else h_cut (h_idx b - 1) (h_idx b - 1 + 1) m b.

(** runebuf.go:542-547 Reset: the array is kept; the returned slice is a copy *)
Definition h_Reset (m : mem) (b : hbuf) : outcome hst :=
  let '(m1, ret) := copy_of (view m (h_buf b)) m in
  nb <- reslice 0 0 (h_buf b) ;;
  Ok (m1, h_with_buf nb 0 b).

(** runebuf.go:574-583 SetWithIdx, Set with the caller's slice: no copy is made *)
Definition h_SetWithIdx (i : nat) (s : slc) (m : mem) (b : hbuf) : outcome hst := Ok (m, h_with_buf s i b).

(** Cursor motions (runebuf.go:139-155, 173-180, 234-251, 294-327, 373-381, 391-418) only read the
    line and set the cursor: the new cursor is the one of RuneBufModel.v. *)
Definition h_motion (e : edit) (m : mem) (b : hbuf) : outcome hst :=
  s <- run_edit e (abs m b) ;; Ok (m, h_with_idx (rb_idx s) b).

(** The editing commands of RuneBufModel.v on slices.  Text given by the caller ([EWrite], [ESet])
    arrives in a new array; see [h_WriteRunes] and [h_SetWithIdx] for shared ones. *)
Definition h_edit (e : edit) (m : mem) (b : hbuf) : outcome hst :=
  match e with
  | EWrite t => h_write t m b
  | EBackspace => h_Backspace m b
  | EDelete => h_Delete m b
  | EDeleteWord => h_DeleteWord m b
  | EKill => h_Kill m b
  | EKillFront => h_KillFront m b
  | EErase => h_Erase m b
  | EYank => h_Yank m b
  | EBackEscapeWord => h_BackEscapeWord m b
  | ETranspose => h_Transpose m b
  | EReplace ch => h_Replace ch m b
  | EReset => h_Reset m b
  | ESet t => let '(m1, s) := copy_of t m in h_SetWithIdx (length t) s m1 b
  | _ => h_motion e m b
  end.

Fixpoint h_edits (es : list edit) (m : mem) (b : hbuf) : outcome hst :=
  match es with
  | [] => Ok (m, b)
  | e :: es' => r <- h_edit e m b ;; h_edits es' (fst r) (snd r)
  end.

End heap.

(** A new RuneBuffer (runebuf.go:64-73): buf and lastKill are nil. *)
Definition mem0 : mem := {| mm := fun _ => []; mm_new := 2 |}.
Definition nil_in (a : nat) : slc := {| sl_a := a; sl_off := 0; sl_len := 0; sl_cap := 0 |}.
Definition hbuf0 : hbuf := {| h_buf := nil_in 0; h_idx := 0; h_kill := nil_in 1; h_bck := None |}.

(** complete_segment.go:42-52 RetSegment on the application's slices: the ones that start with [last], cut *)
Fixpoint h_RetSegment (last : list Z) (m : mem) (cands : list slc) : outcome (list slc) :=
  match cands with
  | [] => Ok []
  | c :: cands' =>
      if HasPrefix (view m c) last then
        r <- reslice (length last) (sl_len c) c ;;
        rs <- h_RetSegment last m cands' ;;
        Ok (r :: rs)
      else h_RetSegment last m cands'
  end.

(** complete_segment.go:78-80: newLine[idx] = append(newLine[idx], ' ') for every idx *)
Fixpoint h_blanks (g : nat -> nat -> nat) (rs : list slc) (m : mem) : mem * list slc :=
  match rs with
  | [] => (m, [])
  | r :: rs' =>
      let '(m1, s) := append g r [32%Z] m in
      let '(m2, ss) := h_blanks g rs' m1 in
      (m2, s :: ss)
  end.

(** complete_segment.go:72-82 SegmentComplete.Do from the point where DoSegment has returned [cands]; [last] is the last segment *)
Definition h_SegmentDo (g : nat -> nat -> nat) (last : list Z) (cands : list slc) (m : mem) : outcome (mem * list slc) :=
  rs <- h_RetSegment last m cands ;; Ok (h_blanks g rs m).
