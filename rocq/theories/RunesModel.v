(** Model of /repo/runes.go (the [Runes] helper methods) and of the pure text helpers in /repo/utils.go. *)
From Verif Require Import Base.
Open Scope Z_scope.

(** runes.go:14-30 EqualRune *)
Definition EqualRune (a b : Z) (fold : bool) : bool :=
  if a =? b then true
  else if negb fold then false
  else
    let '(a, b) := if a >? b then (b, a) else (a, b) in
    if (b <? 128) && (65 <=? a) && (a <=? 90)
    then (if b =? a + 97 - 65 then true else false)
    else false.

(** runes.go:32-34 EqualRuneFold *)
Definition EqualRuneFold (a b : Z) : bool := EqualRune a b true.

(** The comparison loop shared by EqualFold, Equal and the search functions:
    true iff [f] holds position by position over the whole of [b]
    (an out of range read of [a] cannot occur behind the length checks of the callers). *)
Fixpoint match_prefix (f : Z -> Z -> bool) (a b : list Z) {struct b} : bool :=
  match b with
  | [] => true
  | y :: b' =>
      match a with
      | [] => false
      | x :: a' => if f x y then match_prefix f a' b' else false
      end
  end.

(** runes.go:36-48 EqualFold *)
Definition EqualFold (a b : list Z) : bool :=
  if negb (length a =? length b)%nat then false
  else match_prefix EqualRuneFold a b.

(** runes.go:50-60 Equal *)
Definition Equal (a b : list Z) : bool :=
  if negb (length a =? length b)%nat then false
  else match_prefix (fun x y => x =? y) a b.

(** runes.go:62-76 IndexAllBckEx.  [bck_from i] is the loop counting down from [i]. *)
Fixpoint bck_from (r sub : list Z) (fold : bool) (i : nat) : Z :=
  if match_prefix (fun x y => EqualRune x y fold) (skipn i r) sub then Z.of_nat i
  else match i with
       | O => -1
       | S i' => bck_from r sub fold i'
       end.

Definition IndexAllBckEx (r sub : list Z) (fold : bool) : Z :=
  if (length sub <=? length r)%nat
  then bck_from r sub fold (length r - length sub)
  else -1.

(** runes.go:79-81 IndexAllBck *)
Definition IndexAllBck (r sub : list Z) : Z := IndexAllBckEx r sub false.

(** runes.go:88-105 IndexAllEx.  [fwd_from] receives the rest [r[i:]] and [i]. *)
Fixpoint fwd_from (rest sub : list Z) (fold : bool) (i : Z) : Z :=
  match rest with
  | [] => -1
  | _ :: rest' =>
      if (length rest <? length sub)%nat then -1
      else if match_prefix (fun x y => EqualRune x y fold) rest sub then i
      else fwd_from rest' sub fold (i + 1)
  end.

Definition IndexAllEx (r sub : list Z) (fold : bool) : Z := fwd_from r sub fold 0.

(** runes.go:84-86 IndexAll *)
Definition IndexAll (r sub : list Z) : Z := IndexAllEx r sub false.

(** runes.go:107-114 Index (None for -1) *)
Fixpoint Index (r : Z) (rs : list Z) : option nat :=
  match rs with
  | [] => None
  | x :: rs' => if x =? r then Some O else option_map S (Index r rs')
  end.

(** runes.go:116-130 ColorFilter.  [skip] counts the runes still to be jumped over by
    [pos += idx + 2]; the read [r[pos+1]] behind a final ESC panics. *)
Fixpoint color_filter (r : list Z) (skip : nat) : outcome (list Z) :=
  match r with
  | [] => Ok []
  | x :: r' =>
      match skip with
      | S k => color_filter r' k
      | O =>
          if x =? 27 then
            match r' with
            | [] => Panic
            | y :: r'' =>
                if y =? 91 then
                  match Index 109 r'' with
                  | None => color_filter r' 0
                  | Some idx => color_filter r' (idx + 2)
                  end
                else (newr <- color_filter r' 0 ;; Ok (x :: newr))
            end
          else (newr <- color_filter r' 0 ;; Ok (x :: newr))
      end
  end.

Definition ColorFilter (r : list Z) : outcome (list Z) := color_filter r 0.

(** runes.go:146-157 Width (unicode tables are parameters, see Base.uenv) *)
Definition Width (u : uenv) (r : Z) : nat :=
  if r =? 9 then u_tab u
  else if u_zero u r then 0
  else if u_dbl u r then 2
  else 1.

(** runes.go:159-164 WidthAll *)
Definition WidthAll (u : uenv) (r : list Z) : nat :=
  fold_left (fun len x => (len + Width u x)%nat) r 0%nat.

(** runes.go:166-168 Backspace *)
Definition Backspace (u : uenv) (r : list Z) : list Z := repeat 8 (WidthAll u r).

(** runes.go:183-188 HasPrefix *)
Definition HasPrefix (r prefix : list Z) : bool :=
  if (length r <? length prefix)%nat then false
  else Equal (firstn (length prefix) r) prefix.

(** runes.go:176-181 HasPrefixFold *)
Definition HasPrefixFold (r prefix : list Z) : bool :=
  if (length r <? length prefix)%nat then false
  else EqualFold (firstn (length prefix) r) prefix.

(** runes.go:190-201: the inner loop for column [i] (no [goto aggregate] taken) *)
Fixpoint agg_column (cands : list (list Z)) (i : nat) : bool :=
  match cands with
  | cj :: rest =>
      match rest with
      | [] => true
      | ck :: _ =>
          match nth_error cj i, nth_error ck i with
          | Some x, Some y => if x =? y then agg_column rest i else false
          | _, _ => false
          end
      end
  | [] => true
  end.

(** runes.go:191-201: the outer loop; [n] columns of candicate[0] are left, [i] is the column. *)
Fixpoint agg_loop (cands : list (list Z)) (n i : nat) : nat :=
  match n with
  | O => i
  | S n' => if agg_column cands i then agg_loop cands n' (S i) else i
  end.

(** runes.go:190-212 Aggregate: (same, size) and the candidate list as modified in place. *)
Definition Aggregate (cands : list (list Z)) : outcome (list Z * nat * list (list Z)) :=
  match cands with
  | [] => Panic
  | c0 :: _ =>
      let size := agg_loop cands (length c0) 0 in
      if (0 <? size)%nat
      then Ok (firstn size c0, size, map (skipn size) cands)
      else Ok ([], size, cands)
  end.

(** Go unicode.IsSpace *)
Definition IsSpace (r : Z) : bool :=
  (r =? 32) || ((9 <=? r) && (r <=? 13)) || (r =? 133) || (r =? 160)
  || (r =? 5760) || ((8192 <=? r) && (r <=? 8202)) || (r =? 8232) || (r =? 8233)
  || (r =? 8239) || (r =? 8287) || (r =? 12288).

(** runes.go:214-223 TrimSpaceLeft *)
Fixpoint TrimSpaceLeft (l : list Z) : list Z :=
  match l with
  | [] => []
  | x :: l' => if IsSpace x then TrimSpaceLeft l' else l
  end.

(** utils.go:242-251 IsWordBreak *)
Definition IsWordBreak (i : Z) : bool :=
  if (97 <=? i) && (i <=? 122) then false
  else if (65 <=? i) && (i <=? 90) then false
  else if (48 <=? i) && (i <=? 57) then false
  else true.

(** utils.go:215-231 SplitByLine; [cur] is the line under construction, [w] currentWidth.
    screenWidth may be 0 or negative in the code, hence Z. *)
Fixpoint split_loop (u : uenv) (screenWidth : Z) (rs cur : list Z) (w : Z) : list (list Z) :=
  match rs with
  | [] => [cur]
  | r :: rs' =>
      let w' := w + Z.of_nat (Width u r) in
      let cur' := cur ++ [r] in
      if w' >=? screenWidth
      then cur' :: split_loop u screenWidth rs' [] 0
      else split_loop u screenWidth rs' cur' w'
  end.

Definition SplitByLine (u : uenv) (start screenWidth : Z) (rs : list Z) : list (list Z) :=
  split_loop u screenWidth rs [] start.

(** utils.go:234-240 LineCount: Go division truncates toward zero and panics on 0. *)
Definition LineCount (screenWidth w : Z) : outcome Z :=
  if screenWidth =? 0 then Panic
  else
    let r := Z.quot w screenWidth in
    if negb (Z.rem w screenWidth =? 0) then Ok (r + 1) else Ok r.
