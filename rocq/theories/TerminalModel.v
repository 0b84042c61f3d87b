(** Model of the key decoder: /repo/terminal.go:118-214 (ioloop) and /repo/utils.go (escape keys). *)
From Verif Require Import Base.
Open Scope Z_scope.

(** utils.go:148-151 escapeKeyPair: parameters and final rune *)

(** utils.go:103-125 escapeExKey *)
Definition escapeExKey (attr : list Z) (typ : Z) : Z :=
  if typ =? 68 then CharBackward
  else if typ =? 67 then CharForward
  else if typ =? 65 then CharPrev
  else if typ =? 66 then CharNext
  else if typ =? 72 then CharLineStart
  else if typ =? 70 then CharLineEnd
  else if typ =? 126 then (match attr with [51] => CharDelete | _ => 0 end)
  else 0.

(** utils.go:128-146 escapeSS3Key *)
Definition escapeSS3Key (typ : Z) : Z :=
  if typ =? 68 then CharBackward
  else if typ =? 67 then CharForward
  else if typ =? 65 then CharPrev
  else if typ =? 66 then CharNext
  else if typ =? 72 then CharLineStart
  else if typ =? 70 then CharLineEnd
  else 0.

(** utils.go:187-213 escapeKey; the case 'O' cannot be reached from ioloop (terminal.go:160-165). *)
Definition escapeKey (r : Z) : Z :=
  if r =? 98 then MetaBackward
  else if r =? 102 then MetaForward
  else if r =? 100 then MetaDelete
  else if r =? CharTranspose then MetaTranspose
  else if r =? CharBackspace then MetaBackspace
  else r.

(** strings.Split(attr, ";") *)
Fixpoint split_semi (attr cur : list Z) : list (list Z) :=
  match attr with
  | [] => [cur]
  | r :: attr' => if r =? 59 then cur :: split_semi attr' [] else split_semi attr' (cur ++ [r])
  end.

(** strconv.Atoi succeeds: decimal digits with a value in the int64 range (attr holds no sign) *)
Fixpoint atoi_val (l : list Z) (acc : Z) : option Z :=
  match l with
  | [] => Some acc
  | r :: l' => if (48 <=? r) && (r <=? 57) then atoi_val l' (acc * 10 + (r - 48)) else None
  end.
Definition Atoi (l : list Z) : option Z :=
  match l with
  | [] => None
  | _ => match atoi_val l 0 with
         | Some v => if v <=? 9223372036854775807 then Some v else None
         | None => None
         end
  end.

(** utils.go:153-167 Get2, whether it succeeds *)
Definition Get2 (attr : list Z) : bool :=
  match split_semi attr [] with
  | a :: b :: _ => match Atoi a, Atoi b with Some _, Some _ => true | _, _ => false end
  | _ => false
  end.

(** The local variables isEscape, isEscapeEx, isEscapeSS3 of ioloop (at most one is true).  readEscKey
    (utils.go:169-184) reads runes from the same reader until one is neither ';' nor a number; it is
    modelled rune by rune, [TCsi attr] and [TSs3 attr] being the loop of readEscKey with buffer [attr]. *)
Inductive tstate := TGround | TEsc | TCsi (attr : list Z) | TSs3 (attr : list Z).

(** What happens on one input rune: a rune sent to outchan, a cursor report sent to sizeChan, or nothing. *)
Inductive tout := TKey (r : Z) | TReport (attr : list Z) | TNone.

(** terminal.go:198-211: the final switch, [r] being the rune after escape processing *)
Definition emit (vim : bool) (r : Z) : tstate * tout :=
  if r =? CharEsc then (if vim then (TGround, TKey r) else (TEsc, TNone))
  else (TGround, TKey r).

(** terminal.go:144-211, one rune read *)
Definition tstep (u : uenv) (vim : bool) (s : tstate) (r : Z) : tstate * tout :=
  match s with
  | TGround => emit vim r
  | TEsc =>
      if r =? CharEscapeEx then (TCsi [], TNone)
      else if r =? CharO then (TSs3 [], TNone)
      else emit vim (escapeKey r)
  | TCsi attr =>
      if (r =? 59) || u_number u r then (TCsi (attr ++ [r]), TNone)
      else
        let k := escapeExKey attr r in
        if r =? 82 then (TGround, if Get2 attr then TReport attr else TNone)
        else if k =? 0 then (TGround, TNone)
        else emit vim k
  | TSs3 attr =>
      if (r =? 59) || u_number u r then (TSs3 (attr ++ [r]), TNone)
      else
        let k := escapeSS3Key r in
        if k =? 0 then (TGround, TNone) else emit vim k
  end.

(** expectNextChar = false after this rune: ioloop then waits for a kick (terminal.go:206-207, 134-142) *)
Definition pauses (r : Z) : bool :=
  (r =? CharInterrupt) || (r =? CharEnter) || (r =? CharCtrlJ) || (r =? CharDelete).

(** Whole input; end of input inside readEscKey yields rune 0, which ends the sequence without a key. *)
Fixpoint trun (u : uenv) (vim : bool) (s : tstate) (input : list Z) : list tout :=
  match input with
  | [] => []
  | r :: input' => let '(s', o) := tstep u vim s r in o :: trun u vim s' input'
  end.
Fixpoint tend (u : uenv) (vim : bool) (s : tstate) (input : list Z) : tstate :=
  match input with
  | [] => s
  | r :: input' => tend u vim (fst (tstep u vim s r)) input'
  end.

(** The runes sent to the editor. *)
Definition tkeys (os : list tout) : list Z :=
  flat_map (fun o => match o with TKey r => [r] | _ => [] end) os.
Definition keys_of (u : uenv) (vim : bool) (input : list Z) : list Z := tkeys (trun u vim TGround input).
