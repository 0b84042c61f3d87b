(** What a history search shows. *)
From Verif Require Import Base ListAux RunesModel RunesSpec RuneBufModel RuneBufSpec HistoryModel HistorySpec HistoryProofs HistoryNavProofs RenderModel OpModel OpSpec OpProofs OpModes.
Open Scope nat_scope.

(** The editor [o] is searching; the current entry is number [p] of the history, [x]. *)
Definition looking (o : op) (p : nat) (x : item) : Prop :=
  (exists h0 id, searching h0 id o) /\ nth_error (h_items (o_h o)) p = Some x /\ h_cur (o_h o) = Some (it_id x).

(** The result [r] of a search for [d] from the editor [o] is what the editor [o'] shows: nothing found, and the line, the cursor and the
    current entry stay; or the text of the entry found, with the match marked and the cursor before it (after it when
    searching forward). *)
Definition shows_result (back : bool) (d : list Z) (r : option (Z * nat)) (o o' : op) : Prop :=
  s_in (o_s o') = true /\ s_bck (o_s o') = back /\ s_data (o_s o') = d /\
  h_items (o_h o') = h_items (o_h o) /\
  match r with
  | None => s_fail (o_s o') = true /\ o_b o' = o_b o /\ h_cur (o_h o') = h_cur (o_h o)
  | Some (k, id) => s_fail (o_s o') = false /\ h_cur (o_h o') = Some id /\
      exists y, In y (elems (o_h o)) /\ it_id y = id /\ rb_buf (o_b o') = showItem (o_h o) y /\
        s_ms (o_s o') = Z.to_nat k /\ s_me (o_s o') = Z.to_nat k + length d /\
        rb_idx (o_b o') = if back then Z.to_nat k else Z.to_nat k + length d
  end.

(** The nearest match going back: in the current entry [x] left of [limit], then in the older entries; the rightmost one in its entry. *)
Definition match_back (c : hcfg) (d : list Z) (limit : nat) (h : hist) (p : nat) (x : item) (r : option (Z * nat)) : Prop :=
  nearest (fun t k => forall m, occurs (hc_fold c) d t m -> m <= k) (occurs (hc_fold c) d)
    ((it_id x, firstn limit (showItem h x)) :: map (fun y => (it_id y, showItem h y)) (rev (firstn p (h_items h)))) r.
(** Going forward: in the current entry from [st] on, then in the newer entries; the leftmost one in its entry. *)
Definition match_forward (c : hcfg) (d : list Z) (st : nat) (h : hist) (p : nat) (x : item) (r : option (Z * nat)) : Prop :=
  (exists k, r = Some (Z.of_nat k, it_id x) /\ st <= k /\ occurs (hc_fold c) d (showItem h x) k /\
     forall m, st <= m -> occurs (hc_fold c) d (showItem h x) m -> k <= m)
  \/ ((forall m, st <= m -> ~ occurs (hc_fold c) d (showItem h x) m) /\
     nearest (fun t k => forall m, occurs (hc_fold c) d t m -> k <= m) (occurs (hc_fold c) d)
      (map (fun y => (it_id y, showItem h y)) (skipn (S p) (h_items h))) r).
Definition match_from (back new : bool) (c : hcfg) (d : list Z) (pos : nat) (h : hist) (p : nat) (x : item) (r : option (Z * nat)) : Prop :=
  if back then match_back c d (if new then pos + length d else pos) h p x r
  else match_forward c d (if new then pos - length d else pos) h p x r.
