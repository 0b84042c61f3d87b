(** Specification vocabulary for the remote protocol. *)
From Verif Require Import Base RemoteModel.
Open Scope Z_scope.

Definition byte (b : Z) : Prop := 0 <= b <= 255.
(** A message as the API can build it: an int16 type, bytes, and a length that fits the header. *)
Definition msg_ok (m : message) : Prop :=
  -32768 <= m_type m <= 32767 /\ Z.of_nat (length (m_data m)) < 2147483646.

Definition encode_msgs (ms : list message) : list Z := flat_map WriteTo ms.
