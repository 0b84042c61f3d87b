(** Model of the Windows escape sequence translator: /repo/ansi_windows.go:15-194. *)
From Verif Require Import Base TerminalModel.
Open Scope Z_scope.

(** ansi_windows.go:15-29 *)
Definition COLOR_FINTENSITY := 8.
Definition COLOR_BINTENSITY := 128.
Definition COMMON_LVB_UNDERSCORE := 32768.
Definition COMMON_LVB_BOLD := 7.
(** ansi_windows.go:31-51 *)
Definition ColorTableFg : list Z := [0; 4; 2; 6; 1; 5; 3; 7].
Definition ColorTableBg : list Z := [0; 64; 32; 96; 16; 80; 48; 112].

(** What reaches the console: text, a colour attribute, a cursor movement (final letter and count),
    clearing below the cursor, clearing the line.  Flushing (wantFlush) does not change what is written. *)
Inductive wout := WText (r : Z) | WAttr (c : Z) | WMove (dir count : Z) | WKillBelow | WEraseLine.

(** ansi_windows.go:73-79 ANSIWriterCtx *)
Record wctx := { w_esc : bool; w_seq : bool; w_arg : list (list Z) }.
Definition wctx0 : wctx := {| w_esc := false; w_seq := false; w_arg := [] |}.

(** strconv.Atoi: optional sign, digits, int64 range *)
Definition Atoi_signed (l : list Z) : option Z :=
  match l with
  | 43 :: l' => Atoi l'
  | 45 :: l' => match l' with
                | [] => None
                | _ => match atoi_val l' 0 with
                       | Some v => if v <=? 9223372036854775808 then Some (- v) else None
                       | None => None
                       end
                end
  | _ => Atoi l
  end.

(** utils.go:253-262 GetInt *)
Definition GetInt (s : list (list Z)) (def : Z) : Z :=
  match s with [] => def | x :: _ => match Atoi_signed x with Some v => v | None => def end end.

(** [c] converted to the console's 16-bit short (ansi_windows.go:126) *)
Definition short (c : Z) : Z := (c + 32768) mod 65536 - 32768.

(** ansi_windows.go:152-172: the loop over the parameters; None = a parameter is not a number *)
Fixpoint sgr (arg : list (list Z)) (color : Z) : outcome (option Z) :=
  match arg with
  | [] => Ok (Some color)
  | item :: arg' =>
      match Atoi_signed item with
      | None => Ok None
      | Some c =>
          if (30 <=? c) && (c <? 40) then
            t <- get ColorTableFg (Z.to_nat (c - 30)) ;; sgr arg' (Z.lor (Z.lxor color COLOR_FINTENSITY) t)
          else if (40 <=? c) && (c <? 50) then
            t <- get ColorTableBg (Z.to_nat (c - 40)) ;; sgr arg' (Z.lor (Z.lxor color COLOR_BINTENSITY) t)
          else if c =? 4 then sgr arg' (Z.lor color (Z.lor COMMON_LVB_UNDERSCORE 7))
          else if c =? 1 then sgr arg' (Z.lor color (Z.lor COMMON_LVB_BOLD COLOR_FINTENSITY))
          else sgr arg' 7
      end
  end.

Fixpoint join_semi (l : list (list Z)) : list Z :=
  match l with [] => [] | [x] => x | x :: l' => x ++ 59 :: join_semi l' end.

(** append a rune to the last argument (ansi_windows.go:185-189) *)
Definition push_last (arg : list (list Z)) (r : Z) : list (list Z) :=
  match rev arg with [] => [[r]] | x :: front => rev front ++ [x ++ [r]] end.

(** ansi_windows.go:121-194 ioloopEscSeq: (still in the sequence, arguments, output).
    [string(r)] for an invalid rune is U+FFFD; DecodeRune already yields only valid runes. *)
Definition ioloopEscSeq (r : Z) (arg : list (list Z)) : outcome (bool * list (list Z) * list wout) :=
  if (65 <=? r) && (r <=? 68) then Ok (false, arg, [WMove r (short (GetInt arg 1))])
  else if r =? 74 then Ok (false, [], [WKillBelow])
  else if r =? 75 then Ok (false, [], [WEraseLine])
  else if r =? 109 then
    c <- sgr arg 0 ;;
    match c with
    | Some c => Ok (false, [], [WAttr c])
    | None => Ok (false, [], map WText (91 :: join_semi arg ++ [109]))
    end
  else if r =? 7 then Ok (false, [], [])
  else if r =? 59 then
    match rev arg with
    | [] :: _ => Ok (true, arg, [])
    | _ => Ok (true, arg ++ [[]], [])
    end
  else Ok (true, push_last arg r, []).

(** ansi_windows.go:91-119 process *)
Definition wprocess (s : wctx) (r : Z) : outcome (wctx * list wout) :=
  if w_seq s then
    res <- ioloopEscSeq r (w_arg s) ;;
    let '(more, arg, out) := res in
    Ok ({| w_esc := w_esc s; w_seq := more; w_arg := arg |}, out)
  else if r =? CharEsc then Ok ({| w_esc := true; w_seq := false; w_arg := w_arg s |}, [])
  else if (r =? 91) && w_esc s then Ok ({| w_esc := false; w_seq := true; w_arg := [] |}, [])
  else Ok (s, [WText r]).

(** ansi_windows.go:196-211 Write, after UTF-8 decoding *)
Fixpoint wwrite (s : wctx) (l : list Z) : outcome (wctx * list wout) :=
  match l with
  | [] => Ok (s, [])
  | r :: l' =>
      a <- wprocess s r ;;
      b <- wwrite (fst a) l' ;;
      Ok (fst b, snd a ++ snd b)
  end.
