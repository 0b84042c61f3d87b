(** What keys pressed in a Windows console mean. *)
From Verif Require Import Base Utf8Spec TerminalSpec WinReaderModel.
Open Scope Z_scope.

(** A record that is no modifier key: mouse, focus and so on; a key released; a key pressed, whose character, if it
    has one, is not half of a surrogate pair. *)
Definition plain_event (ev : event) : Prop :=
  match ev with
  | EOther => True
  | EKey _ _ vk ch => vk <> VK_LCONTROL /\ vk <> VK_RCONTROL /\ vk <> VK_MENU /\ scalar ch
  end.
(** The arrow keys by their virtual key codes. *)
Definition arrow_key (vk : Z) : option key_name :=
  match vk with 37 => Some KLeft | 38 => Some KUp | 39 => Some KRight | 40 => Some KDown | _ => None end.
(** What was typed: the character of a key pressed, an arrow key, or nothing. *)
Definition typed (ev : event) : list Z :=
  match ev with
  | EKey true _ vk ch => if ch =? 0 then match arrow_key vk with Some k => [key_rune k] | None => [] end else [ch]
  | _ => []
  end.
Definition typed_all (evs : list event) : list Z := flat_map typed evs.

(** Alt or Ctrl held while one other key is pressed and released. *)
Definition with_mod (m vk ch : Z) : list event := [EKey true 1 m 0; EKey true 1 vk ch; EKey false 1 vk ch; EKey false 1 m 0].
