From Verif Require Import Base ListAux RunesModel RuneBufModel RuneBufSpec.
From Coq Require Import ZifyBool.
Open Scope nat_scope.

Lemma IsWordBreak_spec x : IsWordBreak x = false <-> alnum x.
Proof.
  unfold IsWordBreak, alnum.
  destruct ((97 <=? x) && (x <=? 122))%Z eqn:E1; [split; [lia|reflexivity]|].
  destruct ((65 <=? x) && (x <=? 90))%Z eqn:E2; [split; [lia|reflexivity]|].
  destruct ((48 <=? x) && (x <=? 57))%Z eqn:E3; [split; [lia|reflexivity]|].
  split; [discriminate|lia].
Qed.

Lemma IsWordBreak_true x : IsWordBreak x = true <-> ~ alnum x.
Proof. rewrite <- IsWordBreak_spec. destruct (IsWordBreak x); split; congruence. Qed.

Lemma alnum_at_wb b i x : nth_error b i = Some x -> (alnum_at b i <-> IsWordBreak x = false).
Proof.
  intros H. rewrite IsWordBreak_spec. split.
  - intros (y & Hy & A). congruence.
  - intros A. exists x. auto.
Qed.

Lemma other_at_wb b i x : nth_error b i = Some x -> (other_at b i <-> IsWordBreak x = true).
Proof.
  intros H. rewrite IsWordBreak_true. split.
  - intros (y & Hy & A). congruence.
  - intros A. exists x. auto.
Qed.

Lemma alnum_at_lt b i : alnum_at b i -> i < length b.
Proof. intros (x & H & _). apply nth_error_Some. congruence. Qed.

Lemma other_at_lt b i : other_at b i -> i < length b.
Proof. intros (x & H & _). apply nth_error_Some. congruence. Qed.

Lemma at_dec b i : i < length b -> alnum_at b i \/ other_at b i.
Proof.
  intros H. destruct (get_ok b i H) as (x & _ & Hx).
  destruct (IsWordBreak x) eqn:E.
  - right. now apply (other_at_wb b i x Hx).
  - left. now apply (alnum_at_wb b i x Hx).
Qed.

Lemma at_excl b i : alnum_at b i -> other_at b i -> False.
Proof. intros (x & H & A) (y & H' & B). congruence. Qed.

Lemma prev_word_spec b i : i < length b ->
  exists o, prev_word b i = Ok o /\
  match o with
  | Some k => greatest (fun j => j <= i /\ word_start b j) k
  | None => forall j, j <= i -> ~ word_start b j
  end.
Proof.
  induction i as [|i IH]; intros H.
  - exists None. split; [reflexivity|]. intros j Hj (Hp & _). lia.
  - destruct (get_ok b (S i) H) as (x & G & Hx).
    destruct (get_ok b i ltac:(lia)) as (y & G' & Hy).
    destruct IH as (o & E & SP); [lia|].
    cbn [prev_word]. rewrite G. cbn [obind].
    assert (D : word_start b (S i) \/ ~ word_start b (S i) /\
      (if negb (IsWordBreak x) then y <- get b i ;; (if IsWordBreak y then Ok (Some (S i)) else prev_word b i)
       else prev_word b i) = prev_word b i).
    { destruct (IsWordBreak x) eqn:Ex; cbn [negb].
      - right. split; [|reflexivity]. intros (_ & A & _). apply (alnum_at_wb b _ x Hx) in A. congruence.
      - rewrite G'. cbn [obind]. destruct (IsWordBreak y) eqn:Ey.
        + left. split; [lia|]. replace (S i - 1) with i by lia. split.
          * now apply (alnum_at_wb b _ x Hx).
          * now apply (other_at_wb b _ y Hy).
        + right. split; [|reflexivity]. intros (_ & _ & A). replace (S i - 1) with i in A by lia.
          apply (other_at_wb b _ y Hy) in A. congruence. }
    destruct D as [D|[D ->]].
    + exists (Some (S i)). split.
      * destruct D as (_ & A & B). replace (S i - 1) with i in B by lia.
        apply (alnum_at_wb b _ x Hx) in A. apply (other_at_wb b _ y Hy) in B.
        rewrite A, G'. cbn. now rewrite B.
      * split; [auto with arith|]. intros j (Hj & _). exact Hj.
    + exists o. split; [exact E|]. destruct o as [k|].
      * destruct SP as ((Hk & W) & M). split; [split; [lia|exact W]|].
        intros j (Hj & Wj). destruct (Nat.eq_dec j (S i)) as [->|N]; [contradiction|].
        apply M. split; [lia|exact Wj].
      * intros j Hj Wj. destruct (Nat.eq_dec j (S i)) as [->|N]; [contradiction|].
        apply (SP j); [lia|exact Wj].
Qed.

Lemma next_word_spec b n i : 0 < i -> n = length b - i ->
  exists o, next_word b n i = Ok o /\
  match o with
  | Some k => least (fun j => i <= j /\ word_start b j) k
  | None => forall j, i <= j -> ~ word_start b j
  end.
Proof.
  revert i. induction n as [|n IH]; intros i Hi Hn.
  - exists None. split; [reflexivity|]. intros j Hj (_ & A & _). apply alnum_at_lt in A. lia.
  - destruct (get_ok b i ltac:(lia)) as (x & G & Hx).
    destruct (get_ok b (i - 1) ltac:(lia)) as (y & G' & Hy).
    destruct (IH (i + 1)) as (o & E & SP); [lia|lia|].
    cbn [next_word]. rewrite G. cbn [obind].
    assert (D : word_start b i /\ IsWordBreak x = false /\ IsWordBreak y = true \/ ~ word_start b i /\
      (if negb (IsWordBreak x) then y <- get b (i - 1) ;; (if IsWordBreak y then Ok (Some i) else next_word b n (i + 1))
       else next_word b n (i + 1)) = next_word b n (i + 1)).
    { destruct (IsWordBreak x) eqn:Ex; cbn [negb].
      - right. split; [|reflexivity]. intros (_ & A & _). apply (alnum_at_wb b _ x Hx) in A. congruence.
      - rewrite G'. cbn [obind]. destruct (IsWordBreak y) eqn:Ey.
        + left. split; [split; [lia|split]|auto].
          * now apply (alnum_at_wb b _ x Hx).
          * now apply (other_at_wb b _ y Hy).
        + right. split; [|reflexivity]. intros (_ & _ & A).
          apply (other_at_wb b _ y Hy) in A. congruence. }
    destruct D as [(D & A & B)|[D ->]].
    + exists (Some i). rewrite A, G'. cbn. rewrite B. split; [reflexivity|].
      split; [auto|]. intros j (Hj & _). exact Hj.
    + exists o. split; [exact E|]. destruct o as [k|].
      * destruct SP as ((Hk & W) & M). split; [split; [lia|exact W]|].
        intros j (Hj & Wj). destruct (Nat.eq_dec j i) as [->|N]; [contradiction|].
        apply M. split; [lia|exact Wj].
      * intros j Hj Wj. destruct (Nat.eq_dec j i) as [->|N]; [contradiction|].
        apply (SP j); [lia|exact Wj].
Qed.

Lemma end_word_spec b n i : 0 < i -> n = length b - i ->
  exists o, end_word b n i = Ok o /\
  match o with
  | Some k => least (fun j => i - 1 <= j /\ word_end b j) k
  | None => forall j, i - 1 <= j -> ~ word_end b j
  end.
Proof.
  revert i. induction n as [|n IH]; intros i Hi Hn.
  - exists None. split; [reflexivity|]. intros j Hj (_ & A). apply other_at_lt in A. lia.
  - destruct (get_ok b i ltac:(lia)) as (x & G & Hx).
    destruct (get_ok b (i - 1) ltac:(lia)) as (y & G' & Hy).
    destruct (IH (i + 1)) as (o & E & SP); [lia|lia|].
    replace (i + 1 - 1) with i in SP by lia.
    cbn [end_word]. rewrite G. cbn [obind].
    assert (D : word_end b (i - 1) /\ IsWordBreak x = true /\ IsWordBreak y = false \/ ~ word_end b (i - 1) /\
      (if IsWordBreak x then y <- get b (i - 1) ;; (if negb (IsWordBreak y) then Ok (Some (i - 1)) else end_word b n (i + 1))
       else end_word b n (i + 1)) = end_word b n (i + 1)).
    { unfold word_end. replace (i - 1 + 1) with i by lia.
      destruct (IsWordBreak x) eqn:Ex.
      - rewrite G'. cbn [obind]. destruct (IsWordBreak y) eqn:Ey; cbn [negb].
        + right. split; [|reflexivity]. intros (A & _).
          apply (alnum_at_wb b _ y Hy) in A. congruence.
        + left. split; [split|auto].
          * now apply (alnum_at_wb b _ y Hy).
          * now apply (other_at_wb b _ x Hx).
      - right. split; [|reflexivity]. intros (_ & A). apply (other_at_wb b _ x Hx) in A. congruence. }
    destruct D as [(D & A & B)|[D ->]].
    + exists (Some (i - 1)). rewrite A, G'. cbn. rewrite B. split; [reflexivity|].
      split; [auto|]. intros j (Hj & _). exact Hj.
    + exists o. split; [exact E|]. destruct o as [k|].
      * destruct SP as ((Hk & W) & M). split; [split; [lia|exact W]|].
        intros j (Hj & Wj). destruct (Nat.eq_dec j (i - 1)) as [->|N]; [contradiction|].
        apply M. split; [lia|exact Wj].
      * intros j Hj Wj. destruct (Nat.eq_dec j (i - 1)) as [->|N]; [contradiction|].
        apply (SP j); [lia|exact Wj].
Qed.

Lemma skip_breaks_spec b n i : n = length b - i -> i <= length b ->
  exists k, skip_breaks b n i = Ok k /\ i <= k <= length b /\
    (forall j, i <= j < k -> other_at b j) /\ (k < length b -> alnum_at b k).
Proof.
  revert i. induction n as [|n IH]; intros i Hn Hi.
  - exists i. cbn. split; [reflexivity|]. split; [lia|]. split; intros; lia.
  - destruct (get_ok b i ltac:(lia)) as (x & G & Hx). cbn [skip_breaks]. rewrite G. cbn [obind].
    destruct (IsWordBreak x) eqn:E.
    + destruct (IH (i + 1)) as (k & K & R & B & A); [lia|lia|].
      exists k. split; [exact K|]. split; [lia|]. split; [|exact A].
      intros j Hj. destruct (Nat.eq_dec j i) as [->|N].
      * now apply (other_at_wb b _ x Hx).
      * apply B. lia.
    + exists i. split; [reflexivity|]. split; [lia|]. split; [intros; lia|].
      intros _. now apply (alnum_at_wb b _ x Hx).
Qed.

Lemma find_left_spec b ch n : n <= length b ->
  exists o, find_left b ch n = Ok o /\
  match o with
  | Some k => greatest (fun j => j < n /\ nth_error b j = Some ch) k
  | None => forall j, j < n -> nth_error b j <> Some ch
  end.
Proof.
  induction n as [|i IH]; intros H.
  - exists None. split; [reflexivity|]. intros. lia.
  - destruct (get_ok b i H) as (x & G & Hx). cbn [find_left]. rewrite G. cbn [obind].
    destruct (Z.eqb_spec x ch) as [E|E].
    + exists (Some i). split; [reflexivity|]. split; [split; [lia|congruence]|]. intros j (Hj & _). lia.
    + destruct IH as (o & F & SP); [lia|]. exists o. split; [exact F|]. destruct o as [k|].
      * destruct SP as ((Hk & W) & M). split; [split; [lia|exact W]|].
        intros j (Hj & Wj). apply M. split; [|exact Wj].
        destruct (Nat.eq_dec j i) as [Q|Q]; [subst; congruence|lia].
      * intros j Hj. destruct (Nat.eq_dec j i) as [Q|Q]; [subst; congruence|apply SP; lia].
Qed.

Lemma find_right_spec b ch n i : n = length b - i ->
  exists o, find_right b ch n i = Ok o /\
  match o with
  | Some k => least (fun j => i <= j /\ nth_error b j = Some ch) k
  | None => forall j, i <= j -> nth_error b j <> Some ch
  end.
Proof.
  revert i. induction n as [|n IH]; intros i Hn.
  - exists None. split; [reflexivity|]. intros j Hj E.
    assert (j < length b) by (apply nth_error_Some; congruence). lia.
  - destruct (get_ok b i ltac:(lia)) as (x & G & Hx). cbn [find_right]. rewrite G. cbn [obind].
    destruct (Z.eqb_spec x ch) as [E|E].
    + exists (Some i). split; [reflexivity|]. split; [split; [lia|congruence]|]. intros j (Hj & _). lia.
    + destruct (IH (i + 1)) as (o & F & SP); [lia|]. exists o. split; [exact F|]. destruct o as [k|].
      * destruct SP as ((Hk & W) & M). split; [split; [lia|exact W]|].
        intros j (Hj & Wj). apply M. split; [|exact Wj].
        destruct (Nat.eq_dec j i) as [Q|Q]; [subst; congruence|lia].
      * intros j Hj. destruct (Nat.eq_dec j i) as [Q|Q]; [subst; congruence|apply SP; lia].
Qed.

(** Splitting the line at the cursor. *)
Lemma inside_line s : inside s ->
  s = line (firstn (rb_idx s) (rb_buf s)) (skipn (rb_idx s) (rb_buf s)) (rb_kill s).
Proof.
  intros H. destruct s as [b i k]. unfold inside, line in *. cbn in *.
  rewrite firstn_skipn, firstn_length_le by exact H. reflexivity.
Qed.

Lemma line_inside l r k : inside (line l r k).
Proof. unfold inside, line. cbn. rewrite app_length. lia. Qed.

Lemma slice_left {A} (l r : list A) : slice 0 (length l) (l ++ r) = Ok l.
Proof. rewrite slice_to by (rewrite app_length; lia). now rewrite firstn_app_exact. Qed.

Lemma slice_right {A} (l r : list A) : slice (length l) (length (l ++ r)) (l ++ r) = Ok r.
Proof. rewrite slice_from by (rewrite app_length; lia). now rewrite skipn_app_exact. Qed.

Lemma write_line t l r k : WriteRunes t (line l r k) = Ok (line (l ++ t) r k).
Proof.
  unfold WriteRunes, line. cbn [rb_buf rb_idx rb_kill]. rewrite slice_right, slice_left. cbn [obind].
  now rewrite app_length, <- app_assoc.
Qed.

Lemma backspace_line l x r k : BufBackspace (line (l ++ [x]) r k) = Ok (line l r k).
Proof.
  unfold BufBackspace, line. cbn [rb_buf rb_idx rb_kill]. rewrite app_length. cbn [length].
  replace (length l + 1 =? 0) with false by lia.
  replace (length l + 1 - 1) with (length l) by lia.
  rewrite <- app_assoc. rewrite slice_left. cbn [obind].
  rewrite app_assoc. replace (length l + 1) with (length (l ++ [x])) by (rewrite app_length; reflexivity).
  rewrite slice_right. reflexivity.
Qed.

Lemma backspace_start r k : BufBackspace (line [] r k) = Ok (line [] r k).
Proof. reflexivity. Qed.

Lemma delete_line l x r k : Delete (line l (x :: r) k) = Ok (line l r [x], true).
Proof.
  unfold Delete, line. cbn [rb_buf rb_idx rb_kill].
  replace (length l =? length (l ++ x :: r)) with false by (rewrite app_length; cbn [length]; lia).
  rewrite slice_ok by (rewrite app_length; cbn [length]; lia).
  rewrite slice_left. cbn [obind].
  rewrite skipn_app_exact. replace (length l + 1 - length l) with 1 by lia. cbn [firstn].
  replace (l ++ x :: r) with ((l ++ [x]) ++ r) by (rewrite <- app_assoc; reflexivity).
  replace (length l + 1) with (length (l ++ [x])) by (rewrite app_length; reflexivity).
  rewrite slice_right. reflexivity.
Qed.

Lemma delete_end l k : Delete (line l [] k) = Ok (line l [] k, false).
Proof.
  unfold Delete, line. cbn [rb_buf rb_idx rb_kill]. rewrite app_nil_r, Nat.eqb_refl. reflexivity.
Qed.

Lemma kill_line l r k : Kill (line l r k) = Ok (line l [] r).
Proof.
  unfold Kill, line. cbn [rb_buf rb_idx rb_kill]. rewrite slice_right, slice_left. cbn [obind].
  now rewrite app_nil_r.
Qed.

Lemma killfront_line l r k : l <> [] -> KillFront (line l r k) = Ok (line [] r l).
Proof.
  intros H. unfold KillFront, line. cbn [rb_buf rb_idx rb_kill].
  destruct l; [congruence|]. cbn [length Nat.eqb]. change (S (length l)) with (length (z :: l)).
  rewrite slice_left, slice_right. reflexivity.
Qed.

Lemma yank_line l r k : Yank (line l r k) = Ok (line (l ++ k) r k).
Proof.
  unfold Yank, line. cbn [rb_buf rb_idx rb_kill].
  destruct (Nat.eqb_spec (length k) 0) as [E|E].
  - destruct k; [|discriminate]. now rewrite app_nil_r.
  - rewrite slice_right, slice_left. cbn [obind]. now rewrite app_length, <- app_assoc.
Qed.

Lemma erase_line l r k : Erase (line l r k) = Ok (line [] [] (l ++ r)).
Proof. reflexivity. Qed.

(** The line cut into three at two positions. *)
Lemma cut3 {A} (b : list A) i j : i <= j -> j <= length b ->
  b = firstn i b ++ firstn (j - i) (skipn i b) ++ skipn j b.
Proof.
  intros H1 H2. rewrite <- (firstn_skipn i b) at 1. f_equal.
  rewrite <- (firstn_skipn (j - i) (skipn i b)) at 1. f_equal.
  rewrite skipn_skipn. f_equal. lia.
Qed.

Lemma cut2 {A} (b : list A) i j : i <= j -> j <= length b ->
  firstn j b = firstn i b ++ firstn (j - i) (skipn i b).
Proof.
  intros H1 H2. replace j with (i + (j - i)) at 1 by lia.
  generalize (j - i) as n. intros n. clear H1 H2. revert i. induction b as [|x b IH]; intros i.
  - rewrite skipn_nil, !firstn_nil. reflexivity.
  - destruct i; [reflexivity|]. cbn. f_equal. apply IH.
Qed.

Lemma line_of b i k : i <= length b ->
  {| rb_buf := b; rb_idx := i; rb_kill := k |} = line (firstn i b) (skipn i b) k.
Proof. intros H. unfold line. rewrite firstn_skipn, firstn_length_le by exact H. reflexivity. Qed.

(** Delete word *)
Lemma deleteword_spec s : inside s -> rb_idx s < length (rb_buf s) ->
  exists e, DeleteWord s = Ok (line (firstn (rb_idx s) (rb_buf s)) (skipn e (rb_buf s))
                                 (firstn (e - rb_idx s) (skipn (rb_idx s) (rb_buf s)))) /\
    rb_idx s <= e <= length (rb_buf s) /\
    let next_start := fun i => word_start (rb_buf s) i /\
                       exists w, rb_idx s <= w < i /\ alnum_at (rb_buf s) w in
    (least next_start (e + 1) \/ e = length (rb_buf s) /\ forall i, ~ next_start i).
Proof.
  intros Hin Hlt. destruct s as [b idx k]. unfold inside in Hin. cbn [rb_buf rb_idx rb_kill] in *.
  unfold DeleteWord. cbn [rb_buf rb_idx rb_kill].
  replace (idx =? length b) with false by lia.
  destruct (skip_breaks_spec b (length b - idx) idx eq_refl Hin) as (w & E & Hw & B & A).
  rewrite E. cbn [obind].
  destruct (next_word_spec b (length b - (w + 1)) (w + 1) ltac:(lia) eq_refl) as (o & En & SP).
  rewrite En. cbn [obind]. destruct o as [i|].
  - destruct SP as ((Hi & W) & M).
    assert (Hil : i < length b) by (destruct W as (_ & X & _); apply alnum_at_lt in X; exact X).
    exists (i - 1). split; [|split; [lia|]].
    + rewrite slice_ok by lia. rewrite slice_to by lia. rewrite slice_from by lia. cbn [obind].
      unfold line. rewrite firstn_length_le by lia. reflexivity.
    + cbn zeta. left. replace (i - 1 + 1) with i by lia. split.
      * split; [exact W|]. exists w. split; [lia|]. apply A. lia.
      * intros j (Wj & (w' & Hw' & Aw')). apply M. split; [|exact Wj].
        destruct (le_lt_dec w w') as [|L]; [lia|]. exfalso. apply (at_excl b w'); [exact Aw'|apply B; lia].
  - exists (length b). split; [|split; [lia|]].
    + rewrite line_of by lia. rewrite kill_line. do 2 f_equal.
      * rewrite skipn_all. reflexivity.
      * rewrite firstn_all2; [reflexivity|rewrite skipn_length; lia].
    + cbn zeta. right. split; [reflexivity|]. intros i (Wi & (w' & Hw' & Aw')).
      apply (SP i); [|exact Wi].
      destruct (le_lt_dec w w') as [|L]; [lia|]. exfalso. apply (at_excl b w'); [exact Aw'|apply B; lia].
Qed.

Lemma deleteword_end l k : DeleteWord (line l [] k) = Ok (line l [] k).
Proof. unfold DeleteWord, line. cbn [rb_buf rb_idx]. rewrite app_nil_r, Nat.eqb_refl. reflexivity. Qed.

(** Ctrl-W *)
Lemma backescape_spec s : inside s -> 0 < rb_idx s ->
  (exists p, greatest (fun j => j < rb_idx s /\ word_start (rb_buf s) j) p /\
     BackEscapeWord s = Ok (line (firstn p (rb_buf s)) (skipn (rb_idx s) (rb_buf s))
                              (firstn (rb_idx s - p) (skipn p (rb_buf s)))))
  \/ ((forall j, j < rb_idx s -> ~ word_start (rb_buf s) j) /\
      BackEscapeWord s = Ok (line [] [] (rb_kill s))).
Proof.
  intros Hin Hpos. destruct s as [b idx k]. unfold inside in Hin. cbn [rb_buf rb_idx rb_kill] in *.
  unfold BackEscapeWord. cbn [rb_buf rb_idx rb_kill]. replace (idx =? 0) with false by lia.
  destruct (prev_word_spec b (idx - 1) ltac:(lia)) as (o & E & SP). rewrite E. cbn [obind].
  destruct o as [p|].
  - left. exists p. destruct SP as ((Hp & W) & M). split.
    + split; [split; [lia|exact W]|]. intros j (Hj & Wj). apply M. split; [lia|exact Wj].
    + rewrite slice_ok by lia. rewrite slice_to by lia. rewrite slice_from by lia. cbn [obind].
      unfold line. rewrite firstn_length_le by lia. reflexivity.
  - right. split; [|reflexivity]. intros j Hj. apply SP. lia.
Qed.

Lemma backescape_start r k : BackEscapeWord (line [] r k) = Ok (line [] r k).
Proof. reflexivity. Qed.

(** Motions *)
Lemma prevword_spec s : inside s -> 0 < rb_idx s ->
  exists p, MoveToPrevWord s = Ok (with_idx p s, true) /\
    (greatest (fun j => j < rb_idx s /\ word_start (rb_buf s) j) p
     \/ p = 0 /\ forall j, j < rb_idx s -> ~ word_start (rb_buf s) j).
Proof.
  intros Hin Hpos. unfold inside in Hin. unfold MoveToPrevWord. replace (rb_idx s =? 0) with false by lia.
  destruct (prev_word_spec (rb_buf s) (rb_idx s - 1) ltac:(lia)) as (o & E & SP). rewrite E. cbn [obind].
  destruct o as [p|].
  - exists p. split; [reflexivity|]. left. destruct SP as ((Hp & W) & M).
    split; [split; [lia|exact W]|]. intros j (Hj & Wj). apply M. split; [lia|exact Wj].
  - exists 0. split; [reflexivity|]. right. split; [reflexivity|]. intros j Hj. apply SP. lia.
Qed.

Lemma nextword_spec s : inside s ->
  exists p, MoveToNextWord s = Ok (with_idx p s) /\
    (least (fun j => rb_idx s < j /\ word_start (rb_buf s) j) p
     \/ p = length (rb_buf s) /\ forall j, rb_idx s < j -> ~ word_start (rb_buf s) j).
Proof.
  intros Hin. unfold MoveToNextWord.
  destruct (next_word_spec (rb_buf s) (length (rb_buf s) - (rb_idx s + 1)) (rb_idx s + 1) ltac:(lia) eq_refl)
    as (o & E & SP). rewrite E. cbn [obind]. destruct o as [p|].
  - exists p. split; [reflexivity|]. left. destruct SP as ((Hp & W) & M).
    split; [split; [lia|exact W]|]. intros j (Hj & Wj). apply M. split; [lia|exact Wj].
  - exists (length (rb_buf s)). split; [reflexivity|]. right. split; [reflexivity|].
    intros j Hj. apply SP. lia.
Qed.

Lemma endword_spec s : rb_idx s < length (rb_buf s) ->
  (rb_idx s + 1 = length (rb_buf s) -> other_at (rb_buf s) (rb_idx s)) ->
  exists p, MoveToEndWord s = Ok (with_idx p s) /\
    (least (fun j => rb_idx s < j /\ word_end (rb_buf s) j) p
     \/ p = length (rb_buf s) /\ forall j, rb_idx s < j -> ~ word_end (rb_buf s) j).
Proof.
  intros Hin Hlast. destruct s as [b i k]. cbn [rb_buf rb_idx rb_kill] in *.
  unfold MoveToEndWord. cbn [rb_buf rb_idx rb_kill].
  replace (i =? length b) with false by lia.
  destruct (get_ok b i Hin) as (x & G & Hx). rewrite G. cbn [obind].
  assert (exists j, (if negb (IsWordBreak x) then y <- get b (i + 1) ;; if IsWordBreak y then Ok (i + 1) else Ok i
          else Ok i) = Ok j /\ (j = i /\ ~ word_end b i \/ j = i + 1 /\ other_at b (i + 1))) as (j & Ej & Hj).
  { destruct (IsWordBreak x) eqn:Ex; cbn [negb].
    - exists i. split; [reflexivity|]. left. split; [reflexivity|].
      intros (A & _). apply (alnum_at_wb b _ x Hx) in A. congruence.
    - assert (Hi1 : i + 1 < length b).
      { destruct (Nat.eq_dec (i + 1) (length b)) as [Q|Q]; [|lia].
        specialize (Hlast Q). apply (other_at_wb b _ x Hx) in Hlast. congruence. }
      destruct (get_ok b (i + 1) Hi1) as (y & G' & Hy). rewrite G'. cbn [obind].
      destruct (IsWordBreak y) eqn:Ey.
      + exists (i + 1). split; [reflexivity|]. right. split; [reflexivity|]. now apply (other_at_wb b _ y Hy).
      + exists i. split; [reflexivity|]. left. split; [reflexivity|].
        intros (_ & A). apply (other_at_wb b _ y Hy) in A. congruence. }
  rewrite Ej. cbn [obind].
  destruct (end_word_spec b (length b - (j + 1)) (j + 1) ltac:(lia) eq_refl) as (o & E & SP).
  replace (j + 1 - 1) with j in SP by lia.
  rewrite E. cbn [obind].
  assert (Nj : ~ word_end b j).
  { destruct Hj as [(-> & N)|(-> & O)]; [exact N|]. intros (A & _). exact (at_excl b (i + 1) A O). }
  destruct o as [p|].
  - exists p. split; [reflexivity|]. left. destruct SP as ((Hp & W) & M).
    assert (p <> j) by (intros ->; contradiction).
    split; [split; [lia|exact W]|]. intros q (Hq & Wq). apply M. split; [|exact Wq]. lia.
  - exists (length b). split; [reflexivity|]. right. split; [reflexivity|]. intros q Hq Wq.
    apply (SP q); [lia|exact Wq].
Qed.

Lemma endword_end l k : MoveToEndWord (line l [] k) = Ok (line l [] k).
Proof. unfold MoveToEndWord, line. cbn [rb_buf rb_idx]. rewrite app_nil_r, Nat.eqb_refl. reflexivity. Qed.

Lemma endword_panics s : rb_idx s + 1 = length (rb_buf s) -> alnum_at (rb_buf s) (rb_idx s) ->
  MoveToEndWord s = Panic.
Proof.
  intros H (x & Hx & A). unfold MoveToEndWord. replace (rb_idx s =? length (rb_buf s)) with false by lia.
  rewrite (get_nth _ _ _ Hx). cbn [obind]. apply IsWordBreak_spec in A. rewrite A. cbn [negb].
  unfold get. replace (nth_error (rb_buf s) (rb_idx s + 1)) with (@None Z); [reflexivity|].
  symmetry. apply nth_error_None. lia.
Qed.

Lemma moveto_rev_spec ch prevChar s : inside s ->
  (exists k, greatest (fun j => j < rb_idx s /\ nth_error (rb_buf s) j = Some ch) k /\
     MoveTo ch prevChar true s = Ok (with_idx (if prevChar then k + 1 else k) s, true))
  \/ ((forall j, j < rb_idx s -> nth_error (rb_buf s) j <> Some ch) /\
      MoveTo ch prevChar true s = Ok (s, false)).
Proof.
  intros Hin. unfold MoveTo. destruct (find_left_spec (rb_buf s) ch (rb_idx s) Hin) as (o & E & SP).
  rewrite E. cbn [obind]. destruct o as [k|]; [left; exists k; auto|right; auto].
Qed.

Lemma moveto_fwd_spec ch prevChar s : 
  (exists k, least (fun j => rb_idx s < j /\ nth_error (rb_buf s) j = Some ch) k /\
     MoveTo ch prevChar false s = Ok (with_idx (if prevChar then k - 1 else k) s, true))
  \/ ((forall j, rb_idx s < j -> nth_error (rb_buf s) j <> Some ch) /\
      MoveTo ch prevChar false s = Ok (s, false)).
Proof.
  unfold MoveTo.
  destruct (find_right_spec (rb_buf s) ch (length (rb_buf s) - (rb_idx s + 1)) (rb_idx s + 1) eq_refl)
    as (o & E & SP).
  rewrite E. cbn [obind]. destruct o as [k|].
  - left. exists k. split; [|reflexivity]. destruct SP as ((Hp & W) & M).
    split; [split; [lia|exact W]|]. intros j (Hj & Wj). apply M. split; [lia|exact Wj].
  - right. split; [|reflexivity]. intros j Hj. apply SP. lia.
Qed.

(** Transpose *)
Lemma set_app {A} (l : list A) x r y : set (l ++ x :: r) (length l) y = Ok (l ++ y :: r).
Proof.
  unfold set. replace (length l <? length (l ++ x :: r)) with true by (rewrite app_length; cbn [length]; lia).
  rewrite firstn_app_exact. do 3 f_equal.
  replace (S (length l)) with (length (l ++ [x])) by (rewrite app_length; cbn; lia).
  replace (l ++ x :: r) with ((l ++ [x]) ++ r) by (rewrite <- app_assoc; reflexivity).
  apply skipn_app_exact.
Qed.

Lemma get_app {A} (l : list A) x r : get (l ++ x :: r) (length l) = Ok x.
Proof. apply get_nth. rewrite nth_error_app2, Nat.sub_diag; auto. Qed.

Lemma swap_at (l : list Z) x y r : 
  (a <- get (l ++ x :: y :: r) (length l) ;; b <- get (l ++ x :: y :: r) (length l + 1) ;;
   b1 <- set (l ++ x :: y :: r) (length l + 1) a ;; b2 <- set b1 (length l) b ;; Ok b2)
  = Ok (l ++ y :: x :: r).
Proof.
  rewrite get_app. cbn [obind].
  replace (length l + 1) with (length (l ++ [x])) by (rewrite app_length; reflexivity).
  replace (l ++ x :: y :: r) with ((l ++ [x]) ++ y :: r) by (rewrite <- app_assoc; reflexivity).
  rewrite get_app. cbn [obind]. rewrite set_app. cbn [obind].
  rewrite <- app_assoc. cbn [app]. rewrite set_app. reflexivity.
Qed.

Lemma split_two {A} (b : list A) i : i + 1 < length b ->
  exists l x y r, b = l ++ x :: y :: r /\ length l = i.
Proof.
  intros H. exists (firstn i b).
  destruct (get_ok b i ltac:(lia)) as (x & _ & Hx).
  destruct (get_ok b (i + 1) H) as (y & _ & Hy).
  exists x, y, (skipn (S (S i)) b). split; [|apply firstn_length_le; lia].
  rewrite <- (firstn_skipn i b) at 1. f_equal.
  rewrite (skipn_nth b i x Hx). f_equal.
  replace (i + 1) with (S i) in Hy by lia. apply (skipn_nth b (S i) y Hy).
Qed.

Lemma transpose_spec s : 2 <= length (rb_buf s) ->
  exists l x y r, rb_buf s = l ++ x :: y :: r /\
    Transpose s = Ok (line (l ++ [y; x]) r (rb_kill s)) /\
    (rb_idx s = 0 /\ l = [] \/ rb_idx s = length l + 1 \/ length (rb_buf s) <= rb_idx s /\ r = []).
Proof.
  intros H. destruct s as [b idx k]. cbn [rb_buf rb_idx rb_kill] in *.
  set (i := if (idx =? 0) then 1 else if (length b <=? idx) then length b - 1 else idx).
  assert (Hi : 1 <= i < length b).
  { unfold i. destruct (Nat.eqb_spec idx 0); [lia|]. destruct (Nat.leb_spec (length b) idx); lia. }
  destruct (split_two b (i - 1) ltac:(lia)) as (l & x & y & r & E & L).
  exists l, x, y, r. split; [exact E|]. split.
  - unfold Transpose. cbn [rb_buf rb_idx rb_kill].
    replace (length b =? 1) with false by lia. replace (length b <? 2) with false by lia.
    fold i. rewrite <- L. replace i with (length l + 1) by lia.
    pose proof (swap_at l x y r) as Sw. rewrite <- E in Sw.
    destruct (get b (length l)); try discriminate. cbn [obind] in *.
    destruct (get b (length l + 1)); try discriminate. cbn [obind] in *.
    destruct (set b (length l + 1) a); try discriminate. cbn [obind] in *.
    destruct (set a1 (length l) a0); try discriminate. cbn [obind] in *.
    injection Sw as ->. unfold line. rewrite <- app_assoc, app_length. cbn [app length].
    do 2 f_equal. lia.
  - unfold i in L. destruct (Nat.eqb_spec idx 0) as [Z|Z].
    + left. split; [exact Z|]. destruct l; [reflexivity|cbn in L; lia].
    + destruct (Nat.leb_spec (length b) idx) as [Q|Q].
      * right; right. split; [exact Q|]. destruct r; [reflexivity|].
        rewrite E in L. rewrite app_length in L. cbn [length] in L. lia.
      * right; left. lia.
Qed.

Lemma transpose_short s : length (rb_buf s) <= 1 ->
  Transpose s = Ok (with_idx (rb_idx s + length (rb_buf s)) s).
Proof.
  intros H. unfold Transpose. destruct s as [[|x [|y b]] i k]; cbn in *.
  - unfold with_idx. cbn. now rewrite Nat.add_0_r.
  - reflexivity.
  - lia.
Qed.

Lemma replace_line l x r k ch : Replace ch (line l (x :: r) k) = Ok (line l (ch :: r) k).
Proof. unfold Replace, line. cbn [rb_buf rb_idx rb_kill]. rewrite set_app. reflexivity. Qed.

Lemma replace_end l k ch : Replace ch (line l [] k) = Panic.
Proof.
  unfold Replace, line, set. cbn [rb_buf rb_idx rb_kill]. rewrite app_nil_r.
  replace (length l <? length l) with false by lia. reflexivity.
Qed.

(** Exactly which commands can panic when the cursor is inside the line. *)
Definition edit_panics (e : edit) (s : rbuf) : Prop :=
  match e with
  | EReplace _ => rb_idx s = length (rb_buf s)
  | EEndWord => rb_idx s + 1 = length (rb_buf s) /\ alnum_at (rb_buf s) (rb_idx s)
  | _ => False
  end.

Lemma backescape_ok s : inside s -> exists s', BackEscapeWord s = Ok s' /\ inside s'.
Proof.
  intros H. destruct (Nat.eq_dec (rb_idx s) 0) as [E|E].
  - exists s. split; [|exact H]. unfold BackEscapeWord. now rewrite E.
  - destruct (backescape_spec s H ltac:(lia)) as [(p & _ & Q)|(_ & Q)]; rewrite Q; eexists;
      (split; [reflexivity|apply line_inside]).
Qed.

Lemma edit_ok e s : inside s -> ~ edit_panics e s -> exists s', run_edit e s = Ok s' /\
  (inside s' \/ e = ETranspose /\ length (rb_buf s) = 1).
Proof.
  intros H NP. pose proof (inside_line s H) as L.
  set (l := firstn (rb_idx s) (rb_buf s)) in L. set (r := skipn (rb_idx s) (rb_buf s)) in L.
  destruct e; cbn [run_edit].
  - rewrite L, write_line. eexists. split; [reflexivity|]. left. apply line_inside.
  - destruct (rev l) as [|x l'] eqn:E.
    + apply (f_equal (@rev Z)) in E. rewrite rev_involutive in E. cbn in E. rewrite L, E, backspace_start.
      eexists. split; [reflexivity|]. left. apply line_inside.
    + apply (f_equal (@rev Z)) in E. rewrite rev_involutive in E. cbn [rev] in E. rewrite L, E, backspace_line.
      eexists. split; [reflexivity|]. left. apply line_inside.
  - rewrite L. destruct r as [|x r']; [rewrite delete_end|rewrite delete_line]; cbn [obind fst];
      eexists; (split; [reflexivity|]; left; apply line_inside).
  - destruct (Nat.eq_dec (rb_idx s) (length (rb_buf s))) as [E|E].
    + exists s. split; [|left; exact H]. unfold DeleteWord. now rewrite E, Nat.eqb_refl.
    + unfold inside in H. destruct (deleteword_spec s H ltac:(lia)) as (e & Q & _). rewrite Q.
      eexists; (split; [reflexivity|]; left; apply line_inside).
  - rewrite L, kill_line. eexists. split; [reflexivity|]. left. apply line_inside.
  - rewrite L. destruct l as [|x l']; [cbn; eexists; split; [reflexivity|]; left; apply (line_inside [])|].
    rewrite killfront_line by discriminate. eexists. split; [reflexivity|]. left. apply line_inside.
  - eexists. split; [reflexivity|]. left. unfold inside. cbn. lia.
  - rewrite L, yank_line. eexists. split; [reflexivity|]. left. apply line_inside.
  - destruct (backescape_ok s H) as (s' & Q & I). exists s'. auto.
  - destruct (le_lt_dec (length (rb_buf s)) 1) as [S|S].
    + rewrite (transpose_short s S). eexists. split; [reflexivity|].
      destruct (rb_buf s) as [|x b] eqn:B.
      * left. unfold inside in *. cbn. rewrite B in *. cbn in *. lia.
      * right. cbn in *. split; [reflexivity|lia].
    + destruct (transpose_spec s ltac:(lia)) as (l0 & x & y & r0 & _ & Q & _). rewrite Q.
      eexists. split; [reflexivity|]. left. apply line_inside.
  - rewrite L. destruct r as [|x r'] eqn:R.
    + exfalso. apply NP. cbn. unfold inside in H.
      apply (f_equal (@length Z)) in R. unfold r in R. rewrite skipn_length in R. cbn in R. lia.
    + rewrite replace_line. eexists. split; [reflexivity|]. left. apply line_inside.
  - eexists. split; [reflexivity|]. left. unfold inside. cbn. lia.
  - eexists. split; [reflexivity|]. left. unfold inside. cbn. lia.
  - unfold MoveForward. unfold inside in *. destruct (Nat.eqb_spec (rb_idx s) (length (rb_buf s))); eexists;
      (split; [reflexivity|]; left; cbn; lia).
  - unfold MoveBackward. unfold inside in *. destruct (Nat.eqb_spec (rb_idx s) 0); eexists;
      (split; [reflexivity|]; left; cbn; lia).
  - destruct (Nat.eq_dec (rb_idx s) 0) as [E|E].
    + exists s. split; [|left; exact H]. unfold MoveToPrevWord. now rewrite E.
    + destruct (prevword_spec s H ltac:(lia)) as (p & Q & P). rewrite Q. cbn [obind fst].
      eexists. split; [reflexivity|]. left. unfold inside in *. cbn.
      destruct P as [((P & _) & _)|(-> & _)]; lia.
  - destruct (nextword_spec s H) as (p & Q & P). rewrite Q.
    eexists. split; [reflexivity|]. left. unfold inside in *. cbn.
    destruct P as [((_ & (_ & A & _)) & _)|(-> & _)]; [apply alnum_at_lt in A; lia|lia].
  - destruct (Nat.eq_dec (rb_idx s) (length (rb_buf s))) as [E|E].
    + exists s. split; [|left; exact H]. unfold MoveToEndWord. now rewrite E, Nat.eqb_refl.
    + unfold inside in H. destruct (endword_spec s ltac:(lia)) as (p & Q & P).
      * intros E1. destruct (at_dec (rb_buf s) (rb_idx s) ltac:(lia)) as [A|A]; [|exact A].
        exfalso. apply NP. cbn. auto.
      * rewrite Q. eexists. split; [reflexivity|]. left. unfold inside. cbn.
        destruct P as [((_ & (A & _)) & _)|(-> & _)]; [apply alnum_at_lt in A; lia|lia].
  - destruct reverse.
    + destruct (moveto_rev_spec ch prevChar s H) as [(k & ((K & _) & _) & Q)|(_ & Q)]; rewrite Q; cbn [obind fst];
        eexists; (split; [reflexivity|]; left; unfold inside in *; cbn; try lia).
      destruct prevChar; lia.
    + destruct (moveto_fwd_spec ch prevChar s) as [(k & ((K & N) & _) & Q)|(_ & Q)]; rewrite Q; cbn [obind fst];
        eexists; (split; [reflexivity|]; left; unfold inside in *; cbn; try lia).
      assert (k < length (rb_buf s)) by (apply nth_error_Some; congruence). destruct prevChar; lia.
  - eexists. split; [reflexivity|]. left. unfold inside. cbn. lia.
  - eexists. split; [reflexivity|]. left. unfold inside. cbn. lia.
Qed.

Lemma edit_panic e s : inside s -> edit_panics e s -> run_edit e s = Panic.
Proof.
  intros H P. destruct e; cbn in P; try contradiction; cbn [run_edit].
  - rewrite (inside_line s H). replace (skipn (rb_idx s) (rb_buf s)) with (@nil Z).
    + apply replace_end.
    + rewrite P, skipn_all. reflexivity.
  - destruct P. now apply endword_panics.
Qed.

Lemma edit_panic_iff e s : inside s -> (run_edit e s = Panic <-> edit_panics e s).
Proof.
  intros H. split; [|apply edit_panic; exact H].
  intros E. destruct e; cbn [edit_panics];
    try (destruct (edit_ok EBackspace s H) as (s' & Q & _); [cbn; tauto|]; cbn in Q; congruence);
    try (match type of E with run_edit ?e _ = _ =>
           destruct (edit_ok e s H) as (s' & Q & _); [cbn; tauto|]; congruence end).
  - destruct (Nat.eq_dec (rb_idx s) (length (rb_buf s))) as [|N]; [assumption|].
    destruct (edit_ok (EReplace ch) s H N) as (s' & Q & _). congruence.
  - destruct (Nat.eq_dec (rb_idx s + 1) (length (rb_buf s))) as [A|N].
    + destruct (at_dec (rb_buf s) (rb_idx s) ltac:(lia)) as [B|B]; [auto|].
      destruct (edit_ok EEndWord s H) as (s' & Q & _); [|congruence].
      intros (_ & C). exact (at_excl _ _ C B).
    + destruct (edit_ok EEndWord s H) as (s' & Q & _); [|congruence]. intros (C & _). contradiction.
Qed.

(** Sequences of commands. *)
Fixpoint no_short_transpose (es : list edit) (s : rbuf) : Prop :=
  match es with
  | [] => True
  | e :: es' => (e = ETranspose -> length (rb_buf s) <> 1) /\
      forall s', run_edit e s = Ok s' -> no_short_transpose es' s'
  end.

Lemma edits_inside es s s' : inside s -> no_short_transpose es s -> run_edits es s = Ok s' -> inside s'.
Proof.
  revert s. induction es as [|e es IH]; intros s H N E.
  - cbn in E. congruence.
  - cbn in E, N. destruct N as (N1 & N2). destruct (run_edit e s) as [s1| |] eqn:R; try discriminate.
    cbn [obind] in E. apply (IH s1); [|apply N2; reflexivity|exact E].
    destruct (edit_ok e s H) as (s2 & Q & I).
    + intros P. rewrite (edit_panic e s H P) in R. discriminate.
    + rewrite R in Q. injection Q as <-. destruct I as [I|(-> & L)]; [exact I|]. now elim N1.
Qed.

Lemma motion_keeps e s s' : is_motion e = true -> run_edit e s = Ok s' ->
  rb_buf s' = rb_buf s /\ rb_kill s' = rb_kill s.
Proof.
  intros M E. destruct e; try discriminate; cbn [run_edit] in E.
  - injection E as <-. auto.
  - injection E as <-. auto.
  - unfold MoveForward in E. destruct (_ =? _); injection E as <-; auto.
  - unfold MoveBackward in E. destruct (_ =? _); injection E as <-; auto.
  - unfold MoveToPrevWord in E. destruct (_ =? _); [injection E as <-; auto|].
    destruct (prev_word _ _) as [[i|]| |]; cbn in E; try discriminate; injection E as <-; auto.
  - unfold MoveToNextWord in E.
    destruct (next_word _ _ _) as [[i|]| |]; cbn in E; try discriminate; injection E as <-; auto.
  - unfold MoveToEndWord in E. destruct (_ =? _); [injection E as <-; auto|].
    destruct (get _ _) as [x| |]; cbn [obind] in E; try discriminate.
    match type of E with obind ?X _ = _ => destruct X as [j| |]; cbn [obind] in E; try discriminate end.
    destruct (end_word _ _ _) as [[i|]| |]; cbn in E; try discriminate; injection E as <-; auto.
  - unfold MoveTo in E. destruct reverse.
    + destruct (find_left _ _ _) as [[i|]| |]; cbn in E; try discriminate; injection E as <-; auto.
    + destruct (find_right _ _ _ _) as [[i|]| |]; cbn in E; try discriminate; injection E as <-; auto.
Qed.

(** Kill commands followed by yank. *)
Definition is_kill (e : edit) : bool :=
  match e with EKill | EKillFront | EDeleteWord | EErase | EDelete => true | _ => false end.

Lemma kill_shape e s : is_kill e = true -> inside s ->
  run_edit e s = Ok s \/
  exists l k r, rb_buf s = l ++ k ++ r /\ length l <= rb_idx s <= length (l ++ k) /\
    (rb_idx s = length l \/ rb_idx s = length (l ++ k) \/ l = [] /\ r = []) /\
    run_edit e s = Ok (line l r k).
Proof.
  intros K H. pose proof (inside_line s H) as L.
  assert (LL : rb_idx s = length (firstn (rb_idx s) (rb_buf s))) by (unfold inside in H; rewrite firstn_length_le; lia).
  assert (BB : rb_buf s = firstn (rb_idx s) (rb_buf s) ++ skipn (rb_idx s) (rb_buf s)) by now rewrite firstn_skipn.
  set (l := firstn (rb_idx s) (rb_buf s)) in *. set (r := skipn (rb_idx s) (rb_buf s)) in *.
  destruct e; try discriminate; cbn [run_edit].
  - destruct r as [|x r'] eqn:R.
    + left. rewrite L, delete_end. reflexivity.
    + right. exists l, [x], r'. split; [exact BB|]. split; [rewrite app_length; cbn; lia|].
      split; [left; exact LL|]. rewrite L at 1. rewrite delete_line. reflexivity.
  - destruct (Nat.eq_dec (rb_idx s) (length (rb_buf s))) as [E|E].
    + left. unfold DeleteWord. now rewrite E, Nat.eqb_refl.
    + right. unfold inside in H. destruct (deleteword_spec s H ltac:(lia)) as (e & Q & R1 & _).
      exists l, (firstn (e - rb_idx s) r), (skipn e (rb_buf s)). split; [apply cut3; lia|].
      split; [rewrite app_length; lia|]. split; [left; exact LL|]. exact Q.
  - right. exists l, r, []. split; [rewrite app_nil_r; exact BB|]. split; [rewrite app_length; lia|].
    split; [left; exact LL|]. rewrite L at 1. apply kill_line.
  - destruct l as [|x l'] eqn:El.
    + left. rewrite L. reflexivity.
    + right. exists [], l, r. rewrite El. split; [exact BB|]. split; [cbn [app length] in *; lia|].
      split; [right; left; exact LL|]. rewrite L at 1. now apply killfront_line.
  - right. exists [], (rb_buf s), []. split; [now rewrite app_nil_r|]. split; [cbn; unfold inside in H; lia|].
    split; [auto|]. reflexivity.
Qed.

Lemma kill_yank e s s1 s2 : is_kill e = true -> inside s ->
  run_edit e s = Ok s1 -> rb_buf s1 <> rb_buf s -> run_edit EYank s1 = Ok s2 ->
  rb_buf s2 = rb_buf s.
Proof.
  intros K H E1 N E2. destruct (kill_shape e s K H) as [Q|(l & k & r & B & _ & _ & Q)].
  - rewrite E1 in Q. congruence.
  - rewrite E1 in Q. injection Q as ->. cbn [run_edit] in E2. rewrite yank_line in E2.
    injection E2 as <-. cbn. rewrite <- app_assoc. congruence.
Qed.
