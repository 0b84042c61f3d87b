(** What is expected of the goroutines of RemoteSvr. *)
From Verif Require Import Base RemoteModel RemoteConc.
Open Scope Z_scope.

(** The input a client sends, and what Read returned. *)
Definition payload (ms : list message) : list Z := flat_map (fun m => if m_type m =? T_DATA then m_data m else []) ms.
Definition bytes_of (o : list rres) : list Z := flat_map (fun x => match x with RGot bs _ => bs end) o.

(** Nothing can happen until somebody calls. *)
Definition rstill (fin : bool) (s : rsv) : Prop := forall s', ~ rwork fin s s'.
Definition wstill (s : wsv) : Prop := forall s', ~ wwork s s'.

(** The calls that returned without error, in order. *)
Definition sent (r : list (nat * message * nat * bool)) : list message := map (fun x => snd (fst (fst x))) r.
Definition no_error (r : list (nat * message * nat * bool)) : Prop := Forall (fun x => snd x = false) r.
