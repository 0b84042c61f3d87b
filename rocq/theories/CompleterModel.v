(** Model of /repo/complete_helper.go (PrefixCompleter) and /repo/complete_segment.go. *)
From Verif Require Import Base RunesModel.
Open Scope nat_scope.

(** complete_helper.go:25-30 PrefixCompleter as built by PcItem (86-93) and PcItemDynamic (95-101).
    Other implementations of PrefixCompleterInterface are not modelled.  The callback is a function of the
    runes of the line; the conversions string(line) and []rune(name+" ") (66-72) are the identity on valid
    runes (property C05) and are left out. *)
Inductive ctree :=
| Item (name : list Z) (children : list ctree)
| Dynamic (callback : list Z -> list (list Z)) (children : list ctree).

Definition children (t : ctree) : list ctree :=
  match t with Item _ k => k | Dynamic _ k => k end.

(** complete_helper.go:116-123: the names of one child; PcItem and GetDynamicNames add a blank. *)
Definition child_names (orig : list Z) (t : ctree) : list (list Z) :=
  match t with
  | Item n _ => [n ++ [32%Z]]
  | Dynamic cb _ => map (fun n => n ++ [32%Z]) (cb orig)
  end.

(** newLine, offset, goNext and doInternal(lineCompleter, ...) *)
Definition scan_state : Type :=
  list (list Z) * nat * bool * (list Z -> list (list Z) * nat).

(** complete_helper.go:125-144: the loop over the names of one child *)
Fixpoint scan_names (line : list Z) (child : list Z -> list (list Z) * nat)
    (names : list (list Z)) (st : scan_state) : scan_state :=
  match names with
  | [] => st
  | childName :: names' =>
      let '(newLine, offset, goNext, lineCompleter) := st in
      let st' :=
        if length childName <=? length line then
          if HasPrefix line childName then
            (newLine ++ [if length line =? length childName then [32%Z] else childName],
             length childName, true, child)
          else st
        else
          if HasPrefix childName line then
            (newLine ++ [skipn (length line) childName], length line, goNext, child)
          else st in
      scan_names line child names' st'
  end.

(** complete_helper.go:152-159: the first index >= offset that is not a blank, as the rest of the line *)
Fixpoint skip_blanks (l : list Z) : list Z :=
  match l with
  | [] => []
  | x :: l' => if (x =? 32)%Z then skip_blanks l' else l
  end.

(** complete_helper.go:111-165 doInternal; [line] is line[:pos].  The recursion always goes to a child. *)
Fixpoint doInternal (p : ctree) (orig line : list Z) {struct p} : list (list Z) * nat :=
  let line := TrimSpaceLeft line in
  let kids := match p with Item _ k => k | Dynamic _ k => k end in
  let '(newLine, offset, goNext, lineCompleter) :=
    (fix loop (ks : list ctree) (st : scan_state) : scan_state :=
       match ks with
       | [] => st
       | c :: ks' => loop ks' (scan_names line (doInternal c orig) (child_names orig c) st)
       end) kids ([], 0, false, fun _ => ([], 0)) in
  if negb (length newLine =? 1) then (newLine, offset)
  else
    match skip_blanks (skipn offset line) with
    | [] => if goNext then lineCompleter [] else (newLine, offset)
    | tmpLine => lineCompleter tmpLine
    end.

(** complete_helper.go:103-109 Do *)
Definition PrefixDo (p : ctree) (line : list Z) (pos : nat) : outcome (list (list Z) * nat) :=
  l <- slice 0 pos line ;; Ok (doInternal p line l).

(** complete_segment.go:59-67: the loop of SplitSegment; [start] is lastIdx+1 *)
Fixpoint split_seg (line rest : list Z) (idx start pos : nat) (segs : list (list Z))
    : outcome (list (list Z) * nat) :=
  match rest with
  | [] => last <- slice start (length line) line ;; Ok (segs ++ [last], pos)
  | l :: rest' =>
      if (l =? 32)%Z then
        s <- slice start idx line ;;
        split_seg line rest' (idx + 1) (idx + 1) 0 (segs ++ [s])
      else split_seg line rest' (idx + 1) start (pos + 1) segs
  end.

(** complete_segment.go:54-70 SplitSegment *)
Definition SplitSegment (line : list Z) (pos : nat) : outcome (list (list Z) * nat) :=
  l <- slice 0 pos line ;; split_seg l l 0 0 0 [].

(** complete_segment.go:42-52 RetSegment *)
Definition RetSegment (segments cands : list (list Z)) (idx : nat) : outcome (list (list Z) * nat) :=
  lastSegment <- get segments (length segments - 1) ;;
  Ok (fold_left (fun ret cand =>
        if negb (HasPrefix cand lastSegment) then ret
        else ret ++ [skipn (length lastSegment) cand]) cands [], idx).

(** complete_segment.go:72-82 SegmentComplete.Do; [f] is the user's DoSegment *)
Definition SegmentDo (f : list (list Z) -> nat -> list (list Z)) (line : list Z) (pos : nat)
    : outcome (list (list Z) * nat) :=
  si <- SplitSegment line pos ;;
  let '(segment, idx) := si in
  r <- RetSegment segment (f segment idx) idx ;;
  let '(newLine, offset) := r in
  Ok (map (fun c => c ++ [32%Z]) newLine, offset).
