(** What users of WriteStdin rely on. *)
From Verif Require Import Base FillModel.
Open Scope nat_scope.

(** All bytes given to Write, in order. *)
Definition written (tr : list fev) : list Z := flat_map (fun e => match e with EWrite b => b | _ => [] end) tr.
(** All bytes the real input delivered, in order. *)
Definition keyed (tr : list fev) : list Z := flat_map (fun e => match e with EInput l => l | _ => [] end) tr.
(** What Read returned, by source. *)
Definition got_written (o : list fout) : list Z := flat_map (fun x => match x with OFill l _ => l | _ => [] end) o.
Definition got_keyed (o : list fout) : list Z := flat_map (fun x => match x with OStdin l => l | _ => [] end) o.
(** Everything Read returned, in order. *)
Definition read_bytes (o : list fout) : list Z := flat_map (fun x => match x with OFill l _ => l | OStdin l => l | _ => [] end) o.

Definition open_all (tr : list fev) : Prop := Forall (fun e => e <> ECloseW /\ e <> ECloseR) tr.
Definition roomy (n : nat) (tr : list fev) : Prop := Forall (fun e => match e with ERead k => n <= k | _ => True end) tr.
Definition calls (tr : list fev) : nat := length (filter (fun e => match e with EWrite _ => true | _ => false end) tr).
Definition returns (o : list fout) : nat := length (filter (fun x => match x with OWrote => true | _ => false end) o).

(** Steps of the goroutine. *)
Definition own (e : fev) : bool := match e with ETake | EClosed | EAppend => true | _ => false end.
Definition turns (tr : list fev) : nat := length (filter own tr).

(** The goroutine has nothing to do and nothing is left over. *)
Definition settled (s : fst_t) : Prop := fs_pump s = PRead /\ fs_queue s = [] /\ fs_buf s = [].
