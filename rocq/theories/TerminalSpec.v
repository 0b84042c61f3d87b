(** Specification of the key decoder: the documented keys. *)
From Verif Require Import Base TerminalModel.
Open Scope Z_scope.

(** unicode.IsNumber on ASCII *)
Definition ascii_numbers (u : uenv) : Prop :=
  forall r, 0 <= r <= 127 -> u_number u r = ((48 <=? r) && (r <=? 57)).

(** Parameter part of a control sequence. *)
Definition params (attr : list Z) : Prop := Forall (fun r => 48 <= r <= 57 \/ r = 59) attr.

(** Final rune of a sequence, as far as the decoder is concerned. *)
Definition final (u : uenv) (r : Z) : Prop := u_number u r = false /\ r <> 59.

(** ESC [ params final *)
Definition csi (attr : list Z) (typ : Z) : list Z := 27 :: 91 :: attr ++ [typ].
(** ESC O params final *)
Definition ss3 (attr : list Z) (typ : Z) : list Z := 27 :: 79 :: attr ++ [typ].

(** Arrow and editing keys with the editor key they stand for. *)
Inductive key_name := KLeft | KRight | KUp | KDown | KHome | KEnd.
Definition key_final (k : key_name) : Z :=
  match k with KLeft => 68 | KRight => 67 | KUp => 65 | KDown => 66 | KHome => 72 | KEnd => 70 end.
Definition key_rune (k : key_name) : Z :=
  match k with KLeft => CharBackward | KRight => CharForward | KUp => CharPrev | KDown => CharNext
             | KHome => CharLineStart | KEnd => CharLineEnd end.

(** Meta keys: ESC followed by the rune. *)
Inductive meta_name := MLeft | MRight | MDel | MTrans | MBack.
Definition meta_rune (m : meta_name) : Z :=
  match m with MLeft => 98 | MRight => 102 | MDel => 100 | MTrans => 20 | MBack => 127 end.
Definition meta_key (m : meta_name) : Z :=
  match m with MLeft => MetaBackward | MRight => MetaForward | MDel => MetaDelete
             | MTrans => MetaTranspose | MBack => MetaBackspace end.

(** The number written with decimal digits. *)
Definition decimal (d : list Z) : Z := fold_left (fun a r => a * 10 + (r - 48)) d 0.
