(** Property C56: FillableStdin. *)
From Verif Require Import Base ListAux StdinModel StdinSpec StdinProofs.
Open Scope nat_scope.

(** C56, partial: for any interleaving of fills and reads, if every read offers room for everything filled, the bytes
    returned are the filled bytes and the bytes of the underlying stdin, each in order, none lost or duplicated;
    the rest of each is still pending. *)
Theorem C56_nothing_lost_partial : forall ops s k, reads_at_least k ops -> 1 <= k -> length (f_buf s) + length (filled ops) <= k ->
  exists taken_fill taken_in, merge taken_fill taken_in (snd (frun s ops)) /\
    taken_fill ++ f_buf (fst (frun s ops)) = f_buf s ++ filled ops /\
    taken_in ++ f_in (fst (frun s ops)) = f_in s.
Proof. exact frun_merge. Qed.
Print Assumptions C56_nothing_lost_partial.
Example C56_ex : let ops := [FRead 4; FFill [1;2]%Z; FFill [3]%Z; FRead 4; FRead 4] in
  reads_at_least 4 ops /\ length (filled ops) <= 4 /\
  snd (frun {| f_buf := []; f_in := [10;11;12;13;14]%Z |} ops) = [10;11;12;13;1;2;3;14]%Z.
Proof. cbn. split; [repeat constructor|]. split; [lia|reflexivity]. Qed.

(** C56: filled bytes come before the bytes of stdin not yet read. *)
Theorem C56_fill_first : forall s n p, f_buf s = [] -> p <> [] -> length p <= n ->
  exists s1, fstep s (FFill p) = (s1, []) /\ fstep s1 (FRead n) = ({| f_buf := []; f_in := f_in s |}, p).
Proof.
  intros s n p E NE L. eexists. split; [reflexivity|]. cbn [fstep f_buf f_in]. rewrite E. cbn [app].
  destruct p as [|x p]; [congruence|].
  destruct (Nat.ltb_spec 0 (Nat.min n (length (x :: p)))) as [H|H]; [|cbn [length] in *; lia].
  rewrite firstn_all2 by exact L. reflexivity.
Qed.
Print Assumptions C56_fill_first.

(** C56 fails when a read is smaller than the pending fill: the rest is dropped (the key reader asks for 4096
    bytes at a time, so fills of more than 4096 bytes between two reads lose data). *)
Theorem C56_refuted : exists ops, filled ops = [1;2;3]%Z /\
  frun {| f_buf := []; f_in := [10]%Z |} ops = ({| f_buf := []; f_in := [] |}, [1;2;10]%Z).
Proof. exists [FFill [1;2;3]%Z; FRead 2; FRead 2]. split; reflexivity. Qed.
Print Assumptions C56_refuted.
