(** Model of the editor goroutine: /repo/operation.go (ioloop), /repo/search.go, /repo/complete.go and
    /repo/vim.go.  One step handles one rune received from the terminal goroutine.  The line, kill buffer and
    history are those of RuneBufModel.v and HistoryModel.v.  Drawing of the line itself (RuneBuffer.Refresh,
    Clean) is modelled in RenderModel.v and left out here; the output of SearchRefresh and CompleteRefresh is
    modelled because it can panic and because it sets the column count.  The terminal width is a constant of
    a step.  nil and empty slices are identified, except for candidateSource. *)
From Verif Require Import Base RunesModel RuneBufModel HistoryModel RenderModel.
Open Scope Z_scope.

(** operation.go:21-35, the Config fields read by the editor goroutine (GetConfig, operation.go:100-105), the
    Unicode tables and the terminal width. *)
Record ocfg := {
  oc_u : uenv;
  oc_h : hcfg;
  oc_w : Z;                                                    (* width, the same in buf, search, completer *)
  oc_prompt : list Z;
  oc_auto : option (list Z -> nat -> list (list Z) * nat);     (* AutoComplete.Do, a function of its arguments *)
  oc_vim : bool;
  oc_unique : bool;                                            (* UniqueEditLine *)
  oc_nosave : bool;                                            (* DisableAutoSaveHistory *)
  oc_listen : option (list Z -> nat -> Z -> option (list Z * nat)); (* Listener.OnChange *)
  oc_filter : option (Z -> option Z);                          (* FuncFilterInputRune; None: not processed *)
  oc_eofp : list Z;                                            (* EOFPrompt *)
  oc_intp : list Z                                             (* InterruptPrompt *)
}.

(** search.go:20-33 opSearch *)
Record srch := {
  s_in : bool; s_fail : bool; s_bck : bool; s_src : option nat; s_data : list Z; s_ms : nat; s_me : nat }.

(** complete.go:27-39 opCompleter *)
Record comp := {
  c_in : bool; c_sel : bool; c_cand : list (list Z); c_src : option (list Z);
  c_off : Z; c_choice : Z; c_col : Z }.

(** A vim command waiting for its second key (the calls of readNext in vim.go:62, 64, 81, 113) *)
Inductive vpend := VReplace | VDel | VChange | VFind (prevChar reverse : bool).

(** operation.go:21-35 Operation; [o_vn]: vimMode == VIM_NORMAL; [o_end]: ioloop has returned *)
Record op := {
  o_b : rbuf; o_h : hist; o_s : srch; o_c : comp; o_vn : bool; o_vp : option vpend; o_end : bool }.

(** What the other goroutines observe: a kick of the terminal (Terminal.KickRead), a line sent on outchan, an
    error sent on errchan, the bell, suspension (Terminal.SleepToResume), a cleared screen (ClearScreen). *)
Inductive act := AKick | ALine (l : list Z) | AIntr (l : list Z) | AEof | ABell | ASuspend | AClear.

Definition s0 : srch :=
  {| s_in := false; s_fail := false; s_bck := true; s_src := None; s_data := []; s_ms := 0; s_me := 0 |}.
(** complete.go:41-47 newOpCompleter: zero values *)
Definition c0 : comp :=
  {| c_in := false; c_sel := false; c_cand := []; c_src := None; c_off := 0; c_choice := 0; c_col := 0 |}.
(** operation.go:69-90 NewOperation; vim.go:15-22: insert mode *)
Definition op_new (h : hist) : op :=
  {| o_b := rb_empty; o_h := h; o_s := s0; o_c := c0; o_vn := false; o_vp := None; o_end := false |}.

Definition with_b (b : rbuf) (o : op) : op :=
  {| o_b := b; o_h := o_h o; o_s := o_s o; o_c := o_c o; o_vn := o_vn o; o_vp := o_vp o; o_end := o_end o |}.
Definition with_h (h : hist) (o : op) : op :=
  {| o_b := o_b o; o_h := h; o_s := o_s o; o_c := o_c o; o_vn := o_vn o; o_vp := o_vp o; o_end := o_end o |}.
Definition with_s (s : srch) (o : op) : op :=
  {| o_b := o_b o; o_h := o_h o; o_s := s; o_c := o_c o; o_vn := o_vn o; o_vp := o_vp o; o_end := o_end o |}.
Definition with_c (c : comp) (o : op) : op :=
  {| o_b := o_b o; o_h := o_h o; o_s := o_s o; o_c := c; o_vn := o_vn o; o_vp := o_vp o; o_end := o_end o |}.
Definition with_v (n : bool) (p : option vpend) (o : op) : op :=
  {| o_b := o_b o; o_h := o_h o; o_s := o_s o; o_c := o_c o; o_vn := n; o_vp := p; o_end := o_end o |}.
Definition with_end (o : op) : op :=
  {| o_b := o_b o; o_h := o_h o; o_s := o_s o; o_c := o_c o; o_vn := o_vn o; o_vp := o_vp o; o_end := true |}.

(** The drawing state of the line, of which only prompt, text, cursor and width matter below. *)
Definition op_rdr (cf : ocfg) (b : rbuf) : rdr :=
  {| d_prompt := oc_prompt cf; d_buf := rb_buf b; d_idx := rb_idx b; d_width := oc_w cf;
     d_had := false; d_inter := true; d_mask := None; d_paint := fun l _ => l |}.

(** runebuf.go:383-389 LineCount(width) with a width other than -1, for which r.width is taken; both are the
    same value here.  runebuf.go:446-448 CursorLineCount. *)
Definition CursorLineCount (cf : ocfg) (b : rbuf) : outcome Z :=
  p <- promptLen (oc_u cf) (op_rdr cf b) ;;
  n <- LineCount (oc_w cf) (Z.of_nat (WidthAll (oc_u cf) (rb_buf b)) + p) ;;
  i <- idxLine (oc_u cf) (op_rdr cf b) (oc_w cf) ;;
  Ok (n - i).

(** bytes.Repeat of one byte: panics on a negative count *)
Definition Repeat (r : Z) (n : Z) : outcome (list Z) :=
  if n <? 0 then Panic else Ok (repeat r (Z.to_nat n)).

(** ** search.go *)

(** runebuf.go:556-572 SetStyle with runebuf.go:549-554 calWidth: what it prints, style "4" *)
Definition SetStyle (u : uenv) (start end_ : nat) (b : rbuf) : outcome (list Z) :=
  if (end_ <? start)%nat then Panic
  else
    pre <- (if (rb_idx b <? start)%nat then slice (rb_idx b) start (rb_buf b)
            else x <- slice start (rb_idx b) (rb_buf b) ;; Ok (repeat 8 (WidthAll u x))) ;;
    mid <- slice start end_ (rb_buf b) ;;
    Ok (pre ++ [27; 91; 52; 109] ++ mid ++ [27; 91; 48; 109]).

(** search.go:127-164 SearchRefresh, its output; [x] is the argument, -1 and -2 stand for the cursor *)
Definition search_out (cf : ocfg) (x : Z) (s : srch) (b : rbuf) : outcome (list Z) :=
  front <- slice 0 (if x <? 0 then rb_idx b else Z.to_nat x) (rb_buf b) ;;
  p <- promptLen (oc_u cf) (op_rdr cf b) ;;
  if oc_w cf =? 0 then Panic
  else
    let col := Z.rem (Z.of_nat (WidthAll (oc_u cf) front) + p) (oc_w cf) in
    mark <- (if (0 <? s_ms s)%nat then SetStyle (oc_u cf) (s_ms s) (s_me s) b else Ok []) ;;
    lc <- CursorLineCount cf b ;;
    nl <- Repeat 10 lc ;;
    Ok (mark ++ nl ++ [27; 91; 74]
        ++ (if s_fail s then [102; 97; 105; 108; 105; 110; 103; 32] else [])
        ++ (if s_bck s then [98; 99; 107] else [102; 119; 100])
        ++ [45; 105; 45; 115; 101; 97; 114; 99; 104; 58; 32] ++ s_data s
        ++ [27; 91; 52; 109; 32; 27; 91; 48; 109]
        ++ [13; 27; 91] ++ Itoa lc ++ [65]
        ++ (if 0 <? col then [27; 91] ++ Itoa col ++ [67] else [])).

(** search.go:127-132: the new state *)
Definition set_fail (x : Z) (s : srch) : srch :=
  {| s_in := s_in s;
     s_fail := if x =? -2 then true else if 0 <=? x then false else s_fail s;
     s_bck := s_bck s; s_src := s_src s; s_data := s_data s; s_ms := s_ms s; s_me := s_me s |}.

Definition SearchRefresh (cf : ocfg) (x : Z) (o : op) : outcome op :=
  let s := set_fail x (o_s o) in
  _ <- search_out cf x s (o_b o) ;;
  Ok (with_s s o).

Definition set_data (d : list Z) (s : srch) : srch :=
  {| s_in := s_in s; s_fail := s_fail s; s_bck := s_bck s; s_src := s_src s; s_data := d;
     s_ms := s_ms s; s_me := s_me s |}.
Definition set_mark (a b : nat) (s : srch) : srch :=
  {| s_in := s_in s; s_fail := s_fail s; s_bck := s_bck s; s_src := s_src s; s_data := s_data s;
     s_ms := a; s_me := b |}.
Definition set_found (s : srch) : srch :=
  {| s_in := s_in s; s_fail := false; s_bck := s_bck s; s_src := s_src s; s_data := s_data s;
     s_ms := s_ms s; s_me := s_me s |}.

(** search.go:60-65 findHistoryBy, 67-92 search *)
Definition search (cf : ocfg) (isChange : bool) (o : op) : outcome op :=
  let s := o_s o in
  match s_data s with
  | [] => SearchRefresh cf (-1) (with_s (set_found s) o)
  | _ =>
      r <- (if s_bck s then FindBck (oc_h cf) isChange (s_data s) (rb_idx (o_b o)) (o_h o)
            else FindFwd (oc_h cf) isChange (s_data s) (rb_idx (o_b o)) (o_h o)) ;;
      match r with
      | None => SearchRefresh cf (-2) o
      | Some (idx, id) =>
          x <- deref (o_h o) id ;;
          let i := Z.to_nat idx in
          let e := (i + length (s_data s))%nat in
          let c := if s_bck s then i else e in
          let o1 := with_b (SetWithIdx c (showItem (o_h o) x) (o_b o)) (with_h (set_cur (Some id) (o_h o)) o) in
          SearchRefresh cf (Z.of_nat c) (with_s (set_mark i e s) o1)
      end
  end.

(** search.go:94-97 SearchChar *)
Definition SearchChar (cf : ocfg) (r : Z) (o : op) : outcome op :=
  search cf true (with_s (set_data (s_data (o_s o) ++ [r]) (o_s o)) o).

(** search.go:53-58 SearchBackspace *)
Definition SearchBackspace (cf : ocfg) (o : op) : outcome op :=
  match s_data (o_s o) with
  | [] => Ok o
  | d => search cf true (with_s (set_data (firstn (length d - 1) d) (o_s o)) o)
  end.

(** search.go:99-113 SearchMode; the boolean is the result *)
Definition SearchMode (cf : ocfg) (bck : bool) (o : op) : outcome (op * bool) :=
  if oc_w cf =? 0 then Ok (o, false)
  else
    let s := o_s o in
    let s' := {| s_in := true; s_fail := s_fail s; s_bck := bck; s_src := h_cur (o_h o); s_data := s_data s;
                 s_ms := s_ms s; s_me := s_me s |} in
    let o' := with_s s' o in
    o'' <- (if s_in s then search cf false o' else SearchRefresh cf (-1) o') ;;
    Ok (o'', true).

(** search.go:115-125 ExitSearchMode *)
Definition ExitSearchMode (revert : bool) (o : op) : outcome op :=
  o1 <- (if revert then
           let h := set_cur (s_src (o_s o)) (o_h o) in
           match s_src (o_s o) with
           | None => Panic (* o.history.current.Value with current == nil *)
           | Some id => x <- deref h id ;; Ok (with_b (Set_ (showItem h x) (o_b o)) (with_h h o))
           end
         else Ok o) ;;
  Ok (with_s {| s_in := false; s_fail := false; s_bck := s_bck (o_s o1); s_src := None; s_data := [];
                s_ms := 0; s_me := 0 |} o1).

(** ** complete.go *)

(** complete.go:193-199: the widest candidate *)
Definition max_width (u : uenv) (cs : list (list Z)) : Z :=
  fold_left (fun m c => Z.max m (Z.of_nat (WidthAll u c))) cs 0.

(** complete.go:214-236: the candidates; [idx] of the next one, [colIdx] of its column *)
Fixpoint cells_out (u : uenv) (same : list Z) (colWidth colNum choice : Z) (sel : bool)
    (cs : list (list Z)) (idx colIdx : Z) : outcome (list Z * Z) :=
  match cs with
  | [] => Ok ([], 0)
  | c :: cs' =>
      let hl := (idx =? choice) && sel in
      sp <- Repeat 32 (colWidth - Z.of_nat (WidthAll u c) - Z.of_nat (WidthAll u same)) ;;
      let wrap := colIdx + 1 =? colNum in
      r <- cells_out u same colWidth colNum choice sel cs' (idx + 1) (if wrap then 0 else colIdx + 1) ;;
      Ok ((if hl then [27; 91; 51; 48; 59; 52; 55; 109] else []) ++ same ++ c ++ sp
          ++ (if hl then [27; 91; 48; 109] else []) ++ (if wrap then [10] else []) ++ fst r,
          snd r + (if wrap then 1 else 0))
  end.

(** complete.go:188-242 CompleteRefresh in complete mode: output and column count *)
Definition menu_out (cf : ocfg) (c : comp) (b : rbuf) : outcome (list Z * Z) :=
  let u := oc_u cf in
  lc <- CursorLineCount cf b ;;
  let cw := max_width u (c_cand c) + (c_off c + 1) in
  same <- RuneSlice (- c_off c) b ;;
  let width := oc_w cf - 1 in
  if cw =? 0 then Panic
  else
    let colNum := Z.quot width cw in
    let cw' := if colNum =? 0 then cw else cw + Z.quot (width - cw * colNum) colNum in
    nl <- Repeat 10 lc ;;
    body <- cells_out u same cw' colNum (c_choice c) (c_sel c) (c_cand c) 0 0 ;;
    p <- promptLen u (op_rdr cf b) ;;
    Ok (nl ++ [27; 91; 74] ++ fst body
        ++ [27; 91] ++ Itoa (lc - 1 + (1 + snd body)) ++ [65; 13]
        ++ [27; 91] ++ Itoa (Z.of_nat (rb_idx b) + p) ++ [67], colNum).

Definition set_col (n : Z) (c : comp) : comp :=
  {| c_in := c_in c; c_sel := c_sel c; c_cand := c_cand c; c_src := c_src c;
     c_off := c_off c; c_choice := c_choice c; c_col := n |}.
Definition set_choice (n : Z) (c : comp) : comp :=
  {| c_in := c_in c; c_sel := c_sel c; c_cand := c_cand c; c_src := c_src c;
     c_off := c_off c; c_choice := n; c_col := c_col c |}.

(** complete.go:188-242 CompleteRefresh *)
Definition CompleteRefresh (cf : ocfg) (o : op) : outcome op :=
  if negb (c_in (o_c o)) then Ok o
  else r <- menu_out cf (o_c o) (o_b o) ;; Ok (with_c (set_col (snd r) (o_c o)) o).

(** complete.go:274-280 ExitCompleteSelectMode *)
Definition ExitCompleteSelectMode (c : comp) : comp :=
  {| c_in := c_in c; c_sel := false; c_cand := []; c_src := None; c_off := -1; c_choice := -1; c_col := c_col c |}.

(** complete.go:282-285 ExitCompleteMode *)
Definition ExitCompleteMode (c : comp) : comp :=
  {| c_in := false; c_sel := false; c_cand := []; c_src := None; c_off := -1; c_choice := -1; c_col := c_col c |}.

(** complete.go:59-65 nextCandidate; Go's % panics on an empty candidate list *)
Definition nextCandidate (i : Z) (c : comp) : outcome comp :=
  let n := Z.of_nat (length (c_cand c)) in
  if n =? 0 then Panic
  else
    let x := Z.rem (c_choice c + i) n in
    Ok (set_choice (if x <? 0 then n + x else x) c).

(** complete.go:49-57 doSelect *)
Definition doSelect (cf : ocfg) (o : op) : outcome op :=
  match c_cand (o_c o) with
  | [c] =>
      b <- WriteRunes c (o_b o) ;;
      Ok (with_c (ExitCompleteMode (o_c o)) (with_b b o))
  | _ => c <- nextCandidate 1 (o_c o) ;; CompleteRefresh cf (with_c c o)
  end.

(** complete.go:176-182 getMatrixSize *)
Definition getMatrixSize (c : comp) : outcome Z :=
  let n := Z.of_nat (length (c_cand c)) in
  if c_col c =? 0 then Panic
  else
    let line := Z.quot n (c_col c) in
    let line := if Z.rem n (c_col c) =? 0 then line else line + 1 in
    Ok (line * c_col c).

(** complete.go:67-111 OnComplete, with [Do] the completer; the result is false exactly when width == 0 *)
Definition OnComplete (cf : ocfg) (Do : list Z -> nat -> list (list Z) * nat) (o : op) : outcome op :=
  if oc_w cf =? 0 then Ok o
  else if c_sel (o_c o) then doSelect cf o
  else
    let rs := rb_buf (o_b o) in
    if c_in (o_c o) && match c_src (o_c o) with Some s => Equal rs s | None => false end then
      let c := o_c o in
      let c' := {| c_in := c_in c; c_sel := true; c_cand := c_cand c; c_src := c_src c;
                   c_off := c_off c; c_choice := -1; c_col := c_col c |} in
      o1 <- CompleteRefresh cf (with_c c' o) ;;
      doSelect cf o1
    else
      let c := ExitCompleteSelectMode (o_c o) in
      let c1 := {| c_in := c_in c; c_sel := false; c_cand := []; c_src := Some rs;
                   c_off := -1; c_choice := -1; c_col := c_col c |} in
      let '(cands, off) := Do rs (rb_idx (o_b o)) in
      match cands with
      | [] => Ok (with_c (ExitCompleteMode c1) o)
      | x :: rest =>
          r <- (if c_in c1 then Ok None
                else match rest with
                     | [] => Ok (Some x)
                     | _ => a <- Aggregate cands ;;
                            let '(same, size, _) := a in
                            if (0 <? size)%nat then Ok (Some same) else Ok None
                     end) ;;
          match r with
          | Some ins =>
              b <- WriteRunes ins (o_b o) ;;
              Ok (with_c (ExitCompleteMode c1) (with_b b o))
          | None =>
              let c2 := {| c_in := true; c_sel := false; c_cand := cands; c_src := Some rs;
                           c_off := Z.of_nat off; c_choice := -1; c_col := c_col c |} in
              CompleteRefresh cf (with_c c2 o)
          end
      end.

(** complete.go:121-174 HandleCompleteSelect; the boolean is the result *)
Definition HandleCompleteSelect (cf : ocfg) (r : Z) (o : op) : outcome (op * bool) :=
  let c := o_c o in
  let n := Z.of_nat (length (c_cand c)) in
  let next (c' : outcome comp) : outcome (op * bool) :=
    x <- c' ;; o' <- CompleteRefresh cf (with_c x o) ;; Ok (o', true) in
  if (r =? CharEnter) || (r =? CharCtrlJ) then
    if c_choice c <? 0 then Panic
    else x <- get (c_cand c) (Z.to_nat (c_choice c)) ;;
         b <- WriteRunes x (o_b o) ;;
         Ok (with_c (ExitCompleteMode c) (with_b b o), false)
  else if r =? CharLineStart then
    next (if c_col c =? 0 then Panic else nextCandidate (- Z.rem (c_choice c) (c_col c)) c)
  else if r =? CharLineEnd then
    next (if c_col c =? 0 then Panic
          else let x := c_choice c + (c_col c - Z.rem (c_choice c) (c_col c) - 1) in
               Ok (set_choice (if n <=? x then n - 1 else x) c))
  else if r =? CharBackspace then Ok (with_c (ExitCompleteSelectMode c) o, false)
  else if (r =? CharTab) || (r =? CharForward) then
    o1 <- doSelect cf o ;; o2 <- CompleteRefresh cf o1 ;; Ok (o2, true)
  else if (r =? CharBell) || (r =? CharInterrupt) then Ok (with_c (ExitCompleteMode c) o, false)
  else if r =? CharNext then
    next (m <- getMatrixSize c ;;
          let t := c_choice c + c_col c in
          Ok (set_choice (if m <=? t then t - m else if n <=? t then t + c_col c - m else t) c))
  else if r =? CharBackward then next (nextCandidate (-1) c)
  else if r =? CharPrev then
    next (let t := c_choice c - c_col c in
          if t <? 0 then
            m <- getMatrixSize c ;;
            let t := t + m in
            Ok (set_choice (if n <=? t then t - c_col c else t) c)
          else Ok (set_choice t c))
  else Ok (with_c (ExitCompleteSelectMode c) o, false).

(** ** vim.go *)

(** Result of HandleVim: a key for the switch of ioloop, 0 (ioloop continues), or waiting for the next key. *)
Inductive vres := VKey (r : Z) | VDone | VWait (p : vpend).

(** The buffer commands chosen by the second key of d and c (vim.go:65-74, 114-123) *)
Definition vim_del (next : Z) (b : rbuf) : outcome rbuf :=
  if next =? 119 then DeleteWord b
  else if next =? 104 then BufBackspace b
  else if next =? 108 then r <- Delete b ;; Ok (fst r)
  else Ok b.

(** The rest of a vim command when its second key arrives (vim.go:61-90, 112-130); the letters d and c are
    100 and 99.  The second key is read directly from the terminal: no filter, no end-of-input handling. *)
Definition vim_next (p : vpend) (next : Z) (o : op) : outcome op :=
  match p with
  | VReplace => b <- Replace next (o_b o) ;; Ok (with_b b (with_v (o_vn o) None o))
  | VDel =>
      b <- (if next =? 100 then Erase (o_b o) else vim_del next (o_b o)) ;;
      Ok (with_b b (with_v (o_vn o) None o))
  | VChange =>
      b <- (if next =? 99 then Erase (o_b o) else vim_del next (o_b o)) ;;
      Ok (with_b b (with_v false None o))
  | VFind prevChar reverse =>
      b <- (if next =? CharEsc then Ok (o_b o)
            else r <- MoveTo next prevChar reverse (o_b o) ;; Ok (fst r)) ;;
      Ok (with_b b (with_v (o_vn o) None o))
  end.

(** vim.go:40-96 handleVimNormalMovement and 98-131 handleVimNormalEnterInsert as far as the first key goes,
    133-151 HandleVimNormal; runes are given by their codes: h j k l 0 ^ $ x r d p b B w W e E f F t T,
    i I a A s S c. *)
Definition HandleVimNormal (r : Z) (o : op) : outcome (op * vres * list act) :=
  let b := o_b o in
  let mov (x : outcome rbuf) : outcome (op * vres * list act) := b' <- x ;; Ok (with_b b' o, VDone, []) in
  let ins (x : outcome rbuf) : outcome (op * vres * list act) :=
    b' <- x ;; Ok (with_v false None (with_b b' o), VDone, []) in
  if (r =? CharEnter) || (r =? CharInterrupt) then Ok (with_v false None o, VKey r, [])
  else if r =? 104 then Ok (o, VKey CharBackward, [])
  else if r =? 106 then Ok (o, VKey CharNext, [])
  else if r =? 107 then Ok (o, VKey CharPrev, [])
  else if r =? 108 then Ok (o, VKey CharForward, [])
  else if (r =? 48) || (r =? 94) then mov (MoveToLineStart b)
  else if r =? 36 then mov (MoveToLineEnd b)
  else if r =? 120 then
    mov (x <- Delete b ;; if IsCursorInEnd (fst x) then MoveBackward (fst x) else Ok (fst x))
  else if r =? 114 then Ok (o, VWait VReplace, [])
  else if r =? 100 then Ok (o, VWait VDel, [])
  else if r =? 112 then mov (Yank b)
  else if (r =? 98) || (r =? 66) then mov (x <- MoveToPrevWord b ;; Ok (fst x))
  else if (r =? 119) || (r =? 87) then mov (MoveToNextWord b)
  else if (r =? 101) || (r =? 69) then mov (MoveToEndWord b)
  else if (r =? 102) || (r =? 70) || (r =? 116) || (r =? 84) then
    Ok (o, VWait (VFind ((r =? 116) || (r =? 84)) ((r =? 70) || (r =? 84))), [])
  else if r =? 105 then ins (Ok b)
  else if r =? 73 then ins (MoveToLineStart b)
  else if r =? 97 then ins (MoveForward b)
  else if r =? 65 then ins (MoveToLineEnd b)
  else if r =? 115 then ins (x <- Delete b ;; Ok (fst x))
  else if r =? 83 then ins (Erase b)
  else if r =? 99 then Ok (o, VWait VChange, [])
  else Ok (o, VDone, [ABell]).

(** vim.go:161-176 HandleVim *)
Definition HandleVim (r : Z) (o : op) : outcome (op * vres * list act) :=
  if o_vn o then HandleVimNormal r o
  else if r =? CharEsc then Ok (with_v true None o, VDone, [])
  else Ok (o, VKey r, []).

(** ** operation.go *)

(** operation.go:454-456 IsNormalMode *)
Definition IsNormalMode (o : op) : bool := negb (c_in (o_c o)) && negb (s_in (o_s o)).

(** Result of the switch in ioloop: state, actions, keepInSearchMode, keepInCompleteMode, isUpdateHistory *)
Definition swres : Type := op * list act * bool * bool * bool.

Definition edit_buf (x : outcome rbuf) (o : op) : outcome swres :=
  b <- x ;; Ok (with_b b o, [], false, false, true).

(** operation.go:242-262, the Enter key *)
Definition key_enter (cf : ocfg) (o : op) : outcome swres :=
  o1 <- (if s_in (o_s o) then ExitSearchMode false o else Ok o) ;;
  b <- MoveToLineEnd (o_b o1) ;;
  r <- (if negb (oc_unique cf) then
          b <- WriteRunes [10] b ;;
          let '(data, b') := Reset b in
          d <- slice 0 (length data - 1) data ;; Ok (d, b')
        else Ok (Reset b)) ;;
  let '(data, b') := r in
  let o2 := with_b b' o1 in
  if negb (oc_nosave cf) then
    h <- New (oc_h cf) data (o_h o2) ;;
    Ok (with_h h o2, [ALine data], false, false, true)
  else Ok (o2, [ALine data], false, false, false).

(** operation.go:281-300, Ctrl-D *)
Definition key_delete (cf : ocfg) (o : op) : outcome swres :=
  if (0 <? length (rb_buf (o_b o)))%nat || negb (IsNormalMode o) then
    x <- Delete (o_b o) ;;
    Ok (with_b (fst x) o, AKick :: (if snd x then [] else [ABell]), false, false, true)
  else
    b <- (if negb (oc_unique cf) then WriteRunes (oc_eofp cf ++ [10]) (o_b o) else Ok (o_b o)) ;;
    Ok (with_h (Revert (o_h o)) (with_b (snd (Reset b)) o), [AEof], false, false, false).

(** operation.go:301-325, Ctrl-C *)
Definition key_interrupt (cf : ocfg) (o : op) : outcome swres :=
  if s_in (o_s o) then o1 <- ExitSearchMode true o ;; Ok (o1, [AKick], false, false, true)
  else if c_in (o_c o) then Ok (with_c (ExitCompleteMode (o_c o)) o, [AKick], false, false, true)
  else
    b <- MoveToLineEnd (o_b o) ;;
    let hint := oc_intp cf ++ [10] in
    b <- (if negb (oc_unique cf) then WriteRunes hint b else Ok b) ;;
    let '(remain, b') := Reset b in
    remain <- (if negb (oc_unique cf) then
                 if (length remain <? length hint)%nat then Panic
                 else slice 0 (length remain - length hint) remain
               else Ok remain) ;;
    Ok (with_h (Revert (o_h o)) (with_b b' o), [AIntr remain], false, false, false).

(** operation.go:165-337, the switch *)
Definition key_switch (cf : ocfg) (r : Z) (o : op) : outcome swres :=
  let b := o_b o in
  if r =? CharBell then
    o1 <- (if s_in (o_s o) then ExitSearchMode true o else Ok o) ;;
    let o2 := if c_in (o_c o1) then with_c (ExitCompleteMode (o_c o1)) o1 else o1 in
    Ok (o2, [], false, false, true)
  else if r =? CharTab then
    match oc_auto cf with
    | None => Ok (o, [ABell], false, false, true)
    | Some Do =>
        if oc_w cf =? 0 then Ok (o, [ABell], false, false, true)
        else o1 <- OnComplete cf Do o ;; Ok (o1, [], false, true, true)
    end
  else if r =? CharBckSearch then
    x <- SearchMode cf true o ;;
    Ok (fst x, if snd x then [] else [ABell], snd x, false, true)
  else if r =? CharCtrlU then edit_buf (KillFront b) o
  else if r =? CharFwdSearch then
    x <- SearchMode cf false o ;;
    Ok (fst x, if snd x then [] else [ABell], snd x, false, true)
  else if r =? CharKill then b' <- Kill b ;; Ok (with_b b' o, [], false, true, true)
  else if r =? MetaForward then edit_buf (MoveToNextWord b) o
  else if r =? CharTranspose then edit_buf (Transpose b) o
  else if r =? MetaBackward then edit_buf (x <- MoveToPrevWord b ;; Ok (fst x)) o
  else if r =? MetaDelete then edit_buf (DeleteWord b) o
  else if r =? CharLineStart then edit_buf (MoveToLineStart b) o
  else if r =? CharLineEnd then edit_buf (MoveToLineEnd b) o
  else if (r =? CharBackspace) || (r =? CharCtrlH) then
    if s_in (o_s o) then o1 <- SearchBackspace cf o ;; Ok (o1, [], true, false, true)
    else if (length (rb_buf b) =? 0)%nat then Ok (o, [ABell], false, false, true)
    else
      b' <- BufBackspace b ;;
      let o1 := with_b b' o in
      o2 <- (if c_in (o_c o1) then
               match oc_auto cf with Some Do => OnComplete cf Do o1 | None => Panic end
             else Ok o1) ;;
      Ok (o2, [], false, false, true)
  else if r =? CharCtrlZ then Ok (o, [ASuspend], false, false, true)
  else if r =? CharCtrlL then Ok (o, [AClear], false, false, true)
  else if (r =? MetaBackspace) || (r =? CharCtrlW) then edit_buf (BackEscapeWord b) o
  else if r =? CharCtrlY then edit_buf (Yank b) o
  else if (r =? CharEnter) || (r =? CharCtrlJ) then key_enter cf o
  else if r =? CharBackward then edit_buf (MoveBackward b) o
  else if r =? CharForward then edit_buf (MoveForward b) o
  else if r =? CharPrev then
    x <- Prev (o_h o) ;;
    match fst x with
    | Some l => Ok (with_b (Set_ l b) (with_h (snd x) o), [], false, false, true)
    | None => Ok (with_h (snd x) o, [ABell], false, false, true)
    end
  else if r =? CharNext then
    x <- Next (o_h o) ;;
    match fst x with
    | Some l => Ok (with_b (Set_ l b) (with_h (snd x) o), [], false, false, true)
    | None => Ok (with_h (snd x) o, [ABell], false, false, true)
    end
  else if r =? CharDelete then key_delete cf o
  else if r =? CharInterrupt then key_interrupt cf o
  else if s_in (o_s o) then o1 <- SearchChar cf r o ;; Ok (o1, [], true, false, true)
  else
    b' <- WriteRunes [r] b ;;
    let o1 := with_b b' o in
    if c_in (o_c o1) then
      match oc_auto cf with
      | Some Do => o2 <- OnComplete cf Do o1 ;; Ok (o2, [], false, true, true)
      | None => Panic (* o.op.cfg.AutoComplete is nil *)
      end
    else Ok (o1, [], false, false, true).

(** operation.go:339-363: the listener, leaving search and completion mode, recording the line *)
Definition after_switch (cf : ocfg) (r : Z) (x : swres) : outcome (op * list act) :=
  let '(o, acts, keepS, keepC, upd) := x in
  let o1 := match oc_listen cf with
            | Some f =>
                match f (rb_buf (o_b o)) (rb_idx (o_b o)) r with
                | Some (l, pos) => with_b (SetWithIdx pos l (o_b o)) o
                | None => o
                end
            | None => o
            end in
  o2 <- (if negb keepS && s_in (o_s o1) then ExitSearchMode false o1
         else if c_in (o_c o1) then
           if negb keepC then Ok (with_c (ExitCompleteMode (o_c o1)) o1) else CompleteRefresh cf o1
         else Ok o1) ;;
  o3 <- (if upd && negb (s_in (o_s o2)) then
           h <- Update (oc_h cf) (rb_buf (o_b o2)) false (o_h o2) ;; Ok (with_h h o2)
         else Ok o2) ;;
  Ok (o3, acts).

(** operation.go:158-165: vim keys, then the switch *)
Definition vim_and_switch (cf : ocfg) (r : Z) (o : op) : outcome (op * list act) :=
  if oc_vim cf then
    x <- HandleVim r o ;;
    let '(o1, v, acts) := x in
    match v with
    | VDone => Ok (o1, acts)
    | VWait p => Ok (with_v (o_vn o1) (Some p) o1, acts)
    | VKey r' =>
        if r' =? 0 then Ok (o1, acts)
        else y <- key_switch cf r' o1 ;; after_switch cf r' y
    end
  else y <- key_switch cf r o ;; after_switch cf r y.

(** operation.go:123-165: end of input, selection among candidates *)
Definition handle_key (cf : ocfg) (r : Z) (o : op) : outcome (op * list act) :=
  if (r =? 0) && (length (rb_buf (o_b o)) =? 0)%nat then Ok (with_end o, [AEof])
  else
    let r := if r =? 0 then CharEnter else r in
    if c_sel (o_c o) then
      x <- HandleCompleteSelect cf r o ;;
      let '(o1, keep) := x in
      if keep then Ok (o1, [])
      else if (r =? CharEnter) || (r =? CharCtrlJ) then
        h <- Update (oc_h cf) (rb_buf (o_b o1)) false (o_h o1) ;; Ok (with_h h o1, [AKick])
      else if r =? CharInterrupt then Ok (o1, [AKick])
      else if r =? CharBell then Ok (o1, [])
      else vim_and_switch cf r o1
    else vim_and_switch cf r o.

(** operation.go:107-366 ioloop, one rune.  A vim command waiting for its second key takes it directly. *)
Definition op_step (cf : ocfg) (r : Z) (o : op) : outcome (op * list act) :=
  if o_end o then Ok (o, [])
  else
    match o_vp o with
    | Some p => o1 <- vim_next p r o ;; Ok (o1, [])
    | None =>
        match oc_filter cf with
        | None => handle_key cf r o
        | Some f => match f r with
                    | None => Ok (o, [AKick])
                    | Some r' => handle_key cf r' o
                    end
        end
    end.

Fixpoint op_run (cf : ocfg) (rs : list Z) (o : op) : outcome (op * list act) :=
  match rs with
  | [] => Ok (o, [])
  | r :: rs' =>
      x <- op_step cf r o ;;
      y <- op_run cf rs' (fst x) ;;
      Ok (fst y, snd x ++ snd y)
  end.
