(** Model of the drawing part of /repo/runebuf.go.  Output is a list of runes (UTF-8 encoding is C05). *)
From Verif Require Import Base RunesModel RuneBufModel.
Open Scope Z_scope.

(** runebuf.go:17-36, the fields drawing depends on; [d_mask]: EnableMask and MaskRune; the default Painter
    (operation.go:533-537 defaultPainter) returns the line itself. *)
Record rdr := {
  d_prompt : list Z; d_buf : list Z; d_idx : nat; d_width : Z;
  d_had : bool;             (* hadClean *)
  d_inter : bool;           (* interactive *)
  d_mask : option Z;
  d_paint : list Z -> nat -> list Z
}.

(** runebuf.go:101-103 promptLen *)
Definition promptLen (u : uenv) (d : rdr) : outcome Z :=
  f <- ColorFilter (d_prompt d) ;; Ok (Z.of_nat (WidthAll u f)).

(** runebuf.go:428-430 getSplitByLine *)
Definition getSplitByLine (u : uenv) (d : rdr) (rs : list Z) : outcome (list (list Z)) :=
  p <- promptLen u d ;; Ok (SplitByLine u p (d_width d) rs).

(** runebuf.go:420-426 isInLineEdge (not Windows) *)
Definition isInLineEdge (u : uenv) (d : rdr) : outcome bool :=
  sp <- getSplitByLine u d (d_buf d) ;;
  match rev sp with [] => Panic | last :: _ => Ok (length last =? 0)%nat end.

(** runebuf.go:438-444 idxLine *)
Definition idxLine (u : uenv) (d : rdr) (width : Z) : outcome Z :=
  if width =? 0 then Ok 0
  else
    front <- slice 0 (d_idx d) (d_buf d) ;;
    sp <- getSplitByLine u d front ;;
    Ok (Z.of_nat (length sp) - 1).

(** strconv.Itoa *)
Fixpoint digits_fuel (fuel : nat) (n : Z) (acc : list Z) : list Z :=
  match fuel with
  | O => acc
  | S f => if n <? 10 then (48 + n) :: acc else digits_fuel f (n / 10) ((48 + n mod 10) :: acc)
  end.
Definition Itoa (n : Z) : list Z :=
  if n <? 0 then 45 :: digits_fuel (Z.to_nat (- n) + 1) (- n) [] else digits_fuel (Z.to_nat n + 1) n [].

(** runebuf.go:513-527: the loop computing the separators, after at most [fuel] rounds; None: still running *)
Fixpoint sep_loop (fuel : nat) (all p width i : Z) (sep : list Z) : option (list Z) :=
  if all <=? i then Some sep
  else
    match fuel with
    | O => None
    | S f =>
        let i' := (if i =? 0 then i - p else i) + width in
        sep_loop f all p width i' (i' :: sep)
    end.

(** Enough rounds for every terminating case (RenderProofs.sep_loop_fuel). *)
Definition sep_fuel (all p : Z) : nat := Z.to_nat (all + p + 2).

(** runebuf.go:528-536: one '\b' per rune, and the jump to the end of the previous row at a separator;
    [n] runes are left to pass, the cursor is before position [i] *)
Fixpoint back_loop (sep : list Z) (width : Z) (n : nat) (i : Z) : list Z :=
  match n with
  | O => []
  | S n' =>
      8 :: (if existsb (Z.eqb i) sep then [27; 91; 65; 13; 27; 91] ++ Itoa width ++ [67] else [])
      ++ back_loop sep width n' (i - 1)
  end.

(** runebuf.go:512-540 getBackspaceSequence *)
Definition getBackspaceSequence (u : uenv) (d : rdr) : outcome (list Z) :=
  p <- promptLen u d ;;
  let all := Z.of_nat (WidthAll u (d_buf d)) in
  match sep_loop (sep_fuel all p) all p (d_width d) 0 [] with
  | None => Hang
  | Some sep => Ok (back_loop sep (d_width d) (length (d_buf d) - d_idx d) (Z.of_nat (length (d_buf d))))
  end.

(** tabs are shown as spaces (runebuf.go:494-500) *)
Definition expand_tabs (u : uenv) (l : list Z) : list Z :=
  flat_map (fun e => if e =? 9 then repeat 32 (u_tab u) else [e]) l.

(** runebuf.go:479-510 output *)
Definition output (u : uenv) (d : rdr) : outcome (list Z) :=
  let b := d_buf d in
  let after := (d_idx d <? length b)%nat in
  back <- (if after then getBackspaceSequence u d else Ok []) ;;
  body <- match d_mask d, b with
          | Some m, _ :: _ =>
              Ok (repeat m (length b - 1) ++ [if last b 0 =? 10 then 10 else m] ++ back)
          | _, _ =>
              edge <- isInLineEdge u d ;;
              Ok (expand_tabs u (d_paint d b (d_idx d)) ++ (if edge then [32; 8] else []))
          end ;;
  Ok (d_prompt d ++ body ++ back).

Definition with_had (h : bool) (d : rdr) : rdr :=
  {| d_prompt := d_prompt d; d_buf := d_buf d; d_idx := d_idx d; d_width := d_width d; d_had := h;
     d_inter := d_inter d; d_mask := d_mask d; d_paint := d_paint d |}.
Definition with_line (b : list Z) (i : nat) (d : rdr) : rdr :=
  {| d_prompt := d_prompt d; d_buf := b; d_idx := i; d_width := d_width d; d_had := d_had d;
     d_inter := d_inter d; d_mask := d_mask d; d_paint := d_paint d |}.

(** runebuf.go:474-477 print *)
Definition print (u : uenv) (d : rdr) : outcome (rdr * list Z) :=
  o <- output u d ;; Ok (with_had false d, o).

(** runebuf.go:591-611 cleanOutput; the count of "\r\b" in the width 0 case *)
Definition cleanOutput (u : uenv) (d : rdr) (line : Z) : outcome (list Z) :=
  if d_width d =? 0 then
    p <- promptLen u d ;;
    Ok (flat_map (fun _ => [13; 8]) (repeat tt (length (d_buf d) + Z.to_nat p)) ++ [27; 91; 74])
  else
    Ok ([27; 91; 74] ++
        if line =? 0 then [27; 91; 50; 75; 13]
        else flat_map (fun _ => [27; 91; 50; 75; 13; 27; 91; 65]) (repeat tt (Z.to_nat line)) ++ [27; 91; 50; 75; 13]).

(** runebuf.go:619-629 clean, cleanWithIdxLine *)
Definition clean (u : uenv) (d : rdr) : outcome (rdr * list Z) :=
  line <- idxLine u d (d_width d) ;;
  if d_had d || negb (d_inter d) then Ok (d, [])
  else o <- cleanOutput u d line ;; Ok (with_had true d, o).

(** runebuf.go:450-466 Refresh; [f] gives the new line and cursor and what [f] itself writes *)
Definition refresh (u : uenv) (d : rdr) (b : list Z) (i : nat) (own : list Z) : outcome (rdr * list Z) :=
  if negb (d_inter d) then Ok (with_line b i d, own)
  else
    c <- clean u d ;;
    p <- print u (with_line b i (fst c)) ;;
    Ok (fst p, snd c ++ own ++ snd p).

(** operation.go:246-251 (Enter), 291-294 (EOF) and 313-322 (Interrupt): go to the end of the line, write [hint] and
    a newline, Reset (runebuf.go:542-547, no redraw); without UniqueEditLine *)
Definition submit (u : uenv) (d : rdr) (hint : list Z) : outcome (rdr * list Z) :=
  a <- refresh u d (d_buf d) (length (d_buf d)) [] ;;
  let b := d_buf d ++ hint ++ [10] in
  c <- refresh u (fst a) b (length b) [] ;;
  Ok (with_line [] 0 (fst c), snd a ++ snd c).

(** operation.go:246, 252-255: Enter with UniqueEditLine *)
Definition submit_unique (u : uenv) (d : rdr) : outcome (rdr * list Z) :=
  a <- refresh u d (d_buf d) (length (d_buf d)) [] ;;
  c <- clean u (fst a) ;;
  Ok (with_line [] 0 (fst c), snd a ++ snd c).

(** operation.go:313-322: Interrupt with UniqueEditLine *)
Definition interrupt_unique (u : uenv) (d : rdr) : outcome (rdr * list Z) :=
  a <- refresh u d (d_buf d) (length (d_buf d)) [] ;;
  c <- refresh u (fst a) (d_buf (fst a)) (d_idx (fst a)) [] ;;
  Ok (with_line [] 0 (fst c), snd a ++ snd c).

(** What draws during a session: a Readline call (operation.go:390), an edit, the end of a line, output through
    Instance.Stdout (operation.go:47-67, outside search and completion mode). *)
Inductive dev :=
| VRead
| VLine (b : list Z) (i : nat)
| VSubmit (hint : list Z)
| VUnique
| VOut (text : list Z).

(** [reading]: Terminal.IsReading *)
Definition dstep (u : uenv) (st : bool * rdr) (e : dev) : outcome ((bool * rdr) * list Z) :=
  let '(reading, d) := st in
  match e with
  | VRead => r <- refresh u d (d_buf d) (d_idx d) [] ;; Ok ((true, fst r), snd r)
  | VLine b i => r <- refresh u d b i [] ;; Ok ((reading, fst r), snd r)
  | VSubmit hint => r <- submit u d hint ;; Ok ((false, fst r), snd r)
  | VUnique => r <- submit_unique u d ;; Ok ((false, fst r), snd r)
  | VOut text =>
      if reading then r <- refresh u d (d_buf d) (d_idx d) text ;; Ok ((reading, fst r), snd r)
      else Ok ((reading, d), text)
  end.

Fixpoint drun (u : uenv) (st : bool * rdr) (es : list dev) : outcome ((bool * rdr) * list Z) :=
  match es with
  | [] => Ok (st, [])
  | e :: es' => a <- dstep u st e ;; b <- drun u (fst a) es' ;; Ok (fst b, snd a ++ snd b)
  end.

(** Every editing command of runebuf.go is a function passed to Refresh: the redraws of a sequence of commands.
    Commands that return early without calling f (e.g. Backspace at the start) redraw the unchanged line. *)
Fixpoint edit_events (es : list edit) (s : rbuf) : outcome (list dev) :=
  match es with
  | [] => Ok []
  | e :: es' => s' <- run_edit e s ;; r <- edit_events es' s' ;; Ok (VLine (rb_buf s') (rb_idx s') :: r)
  end.

(** operation.go:426-428 SetTitle *)
Definition SetTitle (t : list Z) : list Z := [27; 91; 50; 59] ++ t ++ [7].
