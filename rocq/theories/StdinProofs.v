From Verif Require Import Base ListAux StdinModel StdinSpec.
Open Scope nat_scope.

Lemma merge_app_l {A} (p a b o : list A) : merge a b o -> merge (p ++ a) b (p ++ o).
Proof. intros M. induction p; cbn; [exact M|]. now constructor. Qed.
Lemma merge_app_r {A} (p a b o : list A) : merge a b o -> merge a (p ++ b) (p ++ o).
Proof. intros M. induction p; cbn; [exact M|]. now constructor. Qed.

(** Nothing lost, duplicated or reordered as long as no read is smaller than what was filled so far. *)
Lemma frun_merge ops : forall s k, reads_at_least k ops -> 1 <= k -> length (f_buf s) + length (filled ops) <= k ->
  exists taken_fill taken_in, merge taken_fill taken_in (snd (frun s ops)) /\
    taken_fill ++ f_buf (fst (frun s ops)) = f_buf s ++ filled ops /\
    taken_in ++ f_in (fst (frun s ops)) = f_in s.
Proof.
  induction ops as [|o ops IH]; intros s k R K L.
  - exists [], []. cbn. rewrite app_nil_r. repeat split. constructor.
  - inversion R as [|? ? Ho R']; subst. destruct o as [p|n].
    + cbn [frun fstep filled] in *.
      destruct (IH {| f_buf := f_buf s ++ p; f_in := f_in s |} k R' K) as (tf & ti & M & A & B).
      { cbn. rewrite !app_length in *. lia. }
      destruct (frun {| f_buf := f_buf s ++ p; f_in := f_in s |} ops) as (s2 & out2). cbn [fst snd f_buf f_in] in *.
      exists tf, ti. split; [exact M|]. rewrite A, <- app_assoc. auto.
    + cbn [frun fstep filled] in *.
      destruct (Nat.ltb_spec 0 (Nat.min n (length (f_buf s)))) as [P|P].
      * destruct (IH {| f_buf := []; f_in := f_in s |} k R' K) as (tf & ti & M & A & B).
        { cbn. lia. }
        destruct (frun {| f_buf := []; f_in := f_in s |} ops) as (s2 & out2). cbn [fst snd f_buf f_in app] in *.
        exists (f_buf s ++ tf), ti. rewrite firstn_all2 by lia. split; [now apply merge_app_l|].
        split; [|exact B]. now rewrite <- app_assoc, A.
      * assert (E : f_buf s = []) by (destruct (f_buf s); cbn in *; [reflexivity|lia]).
        destruct (IH {| f_buf := f_buf s; f_in := skipn n (f_in s) |} k R' K) as (tf & ti & M & A & B).
        { exact L. }
        destruct (frun {| f_buf := f_buf s; f_in := skipn n (f_in s) |} ops) as (s2 & out2). cbn [fst snd f_buf f_in] in *.
        exists tf, (firstn n (f_in s) ++ ti). split; [now apply merge_app_r|]. split; [exact A|].
        rewrite <- app_assoc, B. apply firstn_skipn.
Qed.
