From Verif Require Import Base ListAux RunesModel RunesSpec RunesProofs TerminalModel ScreenModel RenderModel RenderSpec.
From Coq Require Import ZifyBool.
Ltac dlia := Z.div_mod_to_equations; lia.
Open Scope Z_scope.

(** ---- splitting by width one ---- *)
Lemma Width_sum1 u l : Forall (fun r => Width u r = 1%nat) l -> WidthAll u l = length l.
Proof. intros F. induction F as [|x l H F IH]; [reflexivity|]. rewrite WidthAll_cons, H, IH. reflexivity. Qed.

Lemma div_small_add c n w : 0 < w -> (c + w + n) / w = 1 + (c + n) / w.
Proof. intros H. replace (c + w + n) with (c + n + 1 * w) by lia. rewrite Z.div_add by lia. lia. Qed.

Lemma split_count u w rs : forall cur c, 0 < w -> 0 <= c < w -> Forall (fun r => Width u r = 1%nat) rs ->
  Z.of_nat (length (split_loop u w rs cur c)) = 1 + (c + Z.of_nat (length rs)) / w.
Proof.
  induction rs as [|r rs IH]; intros cur c W C F; cbn [split_loop].
  - cbn [length]. rewrite Z.add_0_r. rewrite Z.div_small by lia. lia.
  - inversion F as [|? ? H1 F']; subst. rewrite H1. cbn [length].
    destruct (c + Z.of_nat 1 >=? w) eqn:E.
    + cbn [length]. assert (c = w - 1) by lia. rewrite Nat2Z.inj_succ, IH by (auto; lia).
      replace (c + Z.of_nat (S (length rs))) with (0 + Z.of_nat (length rs) + 1 * w) by lia.
      rewrite Z.div_add by lia. lia.
    + rewrite IH by (auto; lia). f_equal. f_equal. lia.
Qed.

Lemma split_nonempty u w rs : forall cur c, split_loop u w rs cur c <> [].
Proof. induction rs as [|r rs IH]; intros cur c; cbn [split_loop]; [discriminate|]. destruct (_ >=? _); [discriminate|apply IH]. Qed.

Lemma split_last u w rs : forall cur c, 0 < w -> 0 <= c < w -> Forall (fun r => Width u r = 1%nat) rs ->
  exists l, hd_error (rev (split_loop u w rs cur c)) = Some l /\
  Z.of_nat (length l) = if c + Z.of_nat (length rs) <? w then Z.of_nat (length cur + length rs) else (c + Z.of_nat (length rs)) mod w.
Proof.
  induction rs as [|r rs IH]; intros cur c W C F; cbn [split_loop].
  - exists cur. split; [reflexivity|]. cbn [length]. destruct (Z.ltb_spec (c + Z.of_nat 0) w); lia.
  - inversion F as [|? ? H1 F']; subst. rewrite H1. destruct (c + Z.of_nat 1 >=? w) eqn:E.
    + assert (Hc : c = w - 1) by lia.
      destruct (IH [] 0 W ltac:(lia) F') as (l & A & B). exists l. split.
      * cbn [rev]. destruct (rev (split_loop u w rs [] 0)) as [|a q] eqn:R; [discriminate|]. cbn [app hd_error] in *. exact A.
      * rewrite B. cbn [length]. destruct (Z.ltb_spec (c + Z.of_nat (S (length rs))) w) as [L|L]; [lia|].
        replace (c + Z.of_nat (S (length rs))) with (Z.of_nat (length rs) + 1 * w) by lia.
        rewrite Z.mod_add by lia. destruct (Z.ltb_spec (0 + Z.of_nat (length rs)) w).
        -- rewrite Z.mod_small by lia. cbn [length]. lia.
        -- f_equal.
    + destruct (IH (cur ++ [r]) (c + Z.of_nat 1) W ltac:(lia) F') as (l & A & B). exists l. split; [exact A|].
      rewrite B. cbn [length]. rewrite app_length. cbn [length].
      replace (c + Z.of_nat 1 + Z.of_nat (length rs)) with (c + Z.of_nat (S (length rs))) by lia.
      destruct (c + Z.of_nat (S (length rs)) <? w); [|reflexivity]. f_equal. lia.
Qed.

Lemma plain_w u l : Forall (plain u) l -> Forall (fun r => Width u r = 1%nat) l.
Proof. apply Forall_impl. intros r (_ & _ & H). exact H. Qed.

(** ---- Itoa ---- *)
Lemma digits_spec fuel : forall n acc, 0 <= n -> n < Z.of_nat fuel -> 
  exists ds, digits_fuel fuel n acc = ds ++ acc /\ ds <> [] /\ Forall (fun r => 48 <= r <= 57) ds /\
    forall a l, atoi_val (ds ++ l) a = atoi_val l (a * 10 ^ Z.of_nat (length ds) + n).
Proof.
  induction fuel as [|f IH]; intros n acc H L; [dlia|]. cbn [digits_fuel]. destruct (Z.ltb_spec n 10) as [S|S].
  - exists [48 + n]. split; [reflexivity|]. split; [discriminate|]. split; [repeat constructor; dlia|].
    intros a l. cbn [app atoi_val length].
    replace ((48 <=? 48 + n) && (48 + n <=? 57)) with true by dlia.
    f_equal. change (10 ^ Z.of_nat 1) with 10. dlia.
  - destruct (IH (n / 10) ((48 + n mod 10) :: acc) ltac:(dlia) ltac:(dlia)) as (ds & A & B & C & D).
    exists (ds ++ [48 + n mod 10]). split; [rewrite A, <- app_assoc; reflexivity|]. split; [destruct ds; discriminate|].
    split; [apply Forall_app; split; [exact C|repeat constructor; dlia]|].
    intros a l. rewrite <- app_assoc, D. cbn [app atoi_val].
    replace ((48 <=? 48 + n mod 10) && (48 + n mod 10 <=? 57)) with true by dlia.
    f_equal. rewrite app_length. cbn [length]. rewrite Nat2Z.inj_add. change (Z.of_nat 1) with 1.
    rewrite Z.pow_add_r by dlia. change (10 ^ 1) with 10. 
    assert (n = 10 * (n / 10) + n mod 10) by (apply Z.div_mod; dlia). nia.
Qed.

Lemma Itoa_spec w : 0 <= w <= 9223372036854775807 -> Forall (fun r => 48 <= r <= 57) (Itoa w) /\ Atoi (Itoa w) = Some w.
Proof.
  intros H. unfold Itoa. destruct (Z.ltb_spec w 0); [dlia|].
  destruct (digits_spec (Z.to_nat w + 1) w [] ltac:(lia) ltac:(lia)) as (ds & A & B & C & D). rewrite A, app_nil_r.
  split; [exact C|]. unfold Atoi. destruct ds as [|x ds]; [congruence|].
  specialize (D 0 []). rewrite app_nil_r in D. rewrite D. cbn [atoi_val].
  rewrite Z.mul_0_l, Z.add_0_l. destruct (Z.leb_spec w 9223372036854775807); [reflexivity|lia].
Qed.
Opaque Itoa.

(** ---- separators ---- *)
Definition sep_done (all p width : Z) : Prop := all <= 0 \/ (0 < width /\ (p = 0 \/ p mod width <> 0)).

(** After the first round the index is never 0 again: the loop counts up by [width] *)
Lemma sep_loop_up fuel : forall all p w i sep, 0 < w -> i mod w <> 0 \/ 0 < i -> all - i <= Z.of_nat fuel * w ->
  exists sep', sep_loop fuel all p w i sep = Some (sep' ++ sep) /\
    forall j, In j sep' <-> exists k, 0 < k /\ j = i + k * w /\ j < all + w.
Proof.
  induction fuel as [|f IH]; intros all p w i sep W I F.
  - cbn [sep_loop]. destruct (Z.leb_spec all i); [|lia]. exists []. split; [reflexivity|].
    intros j. split; [intros []|]. intros (k & A & B & C). nia.
  - cbn [sep_loop]. destruct (Z.leb_spec all i) as [L|L].
    + exists []. split; [reflexivity|]. intros j. split; [intros []|]. intros (k & A & B & C). nia.
    + destruct (Z.eqb_spec i 0) as [E|E]; [subst i; rewrite Z.mod_0_l in I by lia; lia|].
      destruct (IH all p w (i + w) (i + w :: sep) W) as (sep' & A & B).
      * destruct I as [I|I]; [left|right; lia]. replace (i + w) with (i + 1 * w) by lia. now rewrite Z.mod_add by lia.
      * nia.
      * exists (sep' ++ [i + w]). split; [rewrite A, <- app_assoc; reflexivity|].
        intros j. rewrite in_app_iff, B. cbn [In]. split.
        -- intros [(k & K1 & K2 & K3)|[K|[]]].
           ++ exists (k + 1). split; [lia|]. split; [lia|exact K3].
           ++ exists 1. lia.
        -- intros (k & K1 & K2 & K3). destruct (Z.eq_dec k 1) as [->|N]; [right; left; lia|].
           left. exists (k - 1). split; [lia|]. split; [lia|exact K3].
Qed.

Lemma mod_neg p w : 0 < w -> (0 - p + w) mod w = 0 -> p mod w = 0.
Proof.
  intros W E. apply Z.mod_divide in E; [|lia]. destruct E as (k & E). apply Z.mod_divide; [lia|]. exists (1 - k). lia.
Qed.

(** In the terminating cases the fuel suffices and the separators are k*width - promptLen. *)
Lemma sep_loop_fuel all p w : 0 <= all -> 0 <= p -> sep_done all p w ->
  exists sep, sep_loop (sep_fuel all p) all p w 0 [] = Some sep /\
    (0 < all -> forall j, In j sep <-> exists k, 0 < k /\ j = k * w - p /\ j < all + w).
Proof.
  intros A P D. unfold sep_fuel. replace (Z.to_nat (all + p + 2)) with (S (Z.to_nat (all + p + 1))) by lia.
  cbn [sep_loop]. destruct (Z.leb_spec all 0) as [L|L]; [exists []; split; [reflexivity|lia]|].
  destruct D as [D|(W & D)]; [lia|]. rewrite Z.eqb_refl.
  assert (I : (0 - p + w) mod w <> 0 \/ 0 < 0 - p + w).
  { destruct D as [->|D]; [right; lia|left]. intros E. apply D. now apply mod_neg. }
  destruct (sep_loop_up (Z.to_nat (all + p + 1)) all p w (0 - p + w) [0 - p + w] W I) as (sep' & E & B).
  - rewrite Z2Nat.id by lia. nia.
  - exists (sep' ++ [0 - p + w]). split; [exact E|]. intros _ j. rewrite in_app_iff, B. cbn [In]. split.
    + intros [(k & K1 & K2 & K3)|[K|[]]].
      * exists (k + 1). split; [lia|]. split; [lia|exact K3].
      * exists 1. lia.
    + intros (k & K1 & K2 & K3). destruct (Z.eq_dec k 1) as [->|N]; [right; left; lia|].
      left. exists (k - 1). split; [lia|]. split; [lia|exact K3].
Qed.

(** Otherwise it never stops. *)
Lemma sep_loop_zero_width fuel : forall all p i sep, 0 < all -> 0 <= p -> i <= 0 -> 
  sep_loop fuel all p 0 i sep = None.
Proof.
  induction fuel as [|f IH]; intros all p i sep A P I; cbn [sep_loop]; destruct (Z.leb_spec all i); try lia; [reflexivity|].
  apply IH; try lia. destruct (i =? 0); lia.
Qed.
Lemma sep_loop_neg_width fuel : forall all p w i sep, 0 < all -> 0 <= p -> w < 0 -> i <= 0 -> 
  sep_loop fuel all p w i sep = None.
Proof.
  induction fuel as [|f IH]; intros all p w i sep A P W I; cbn [sep_loop]; destruct (Z.leb_spec all i); try lia; [reflexivity|].
  apply IH; try lia. destruct (i =? 0); lia.
Qed.
Lemma sep_loop_multiple fuel : forall all p w i sep, 0 < all -> 0 < w -> 0 < p -> p mod w = 0 -> i <= 0 -> i mod w = 0 ->
  sep_loop fuel all p w i sep = None.
Proof.
  induction fuel as [|f IH]; intros all p w i sep A W P M I Mi; cbn [sep_loop]; destruct (Z.leb_spec all i); try lia; [reflexivity|].
  destruct (Z.eqb_spec i 0) as [E|E].
  - apply IH; auto; subst i.
    + assert (w <= p) by (destruct (Z.lt_ge_cases p w); [rewrite Z.mod_small in M; lia|lia]). lia.
    + apply Z.mod_divide in M; [|lia]. destruct M as (k & M). apply Z.mod_divide; [lia|]. exists (1 - k). lia.
  - apply IH; auto.
    + apply Z.mod_divide in Mi; [|lia]. destruct Mi as (k & Mi).
      assert (k < 0) by nia. assert (k + 1 <= 0) by lia. nia.
    + replace (i + w) with (i + 1 * w) by lia. now rewrite Z.mod_add by lia.
Qed.

Lemma sep_loop_never all p w : 0 <= all -> 0 <= p -> ~ sep_done all p w -> forall fuel, sep_loop fuel all p w 0 [] = None.
Proof.
  intros A P D fuel. unfold sep_done in D.
  destruct (Z.lt_trichotomy w 0) as [W|[W|W]].
  - apply sep_loop_neg_width; lia.
  - subst w. apply sep_loop_zero_width; lia.
  - assert (M : p mod w = 0) by (destruct (Z.eq_dec (p mod w) 0); [assumption|tauto]).
    apply sep_loop_multiple; auto; try lia.
Qed.

(** ---- the screen ---- *)
Section Screen.
Variable u : uenv.
Variable w : Z.
Hypothesis W : 0 < w <= 9223372036854775807.
Hypothesis U : uenv_ok u.

(** After printing [n] columns from the start of row [y0]: deferred wrap at the right edge *)
Definition wrote (y0 n : Z) (s : scr) : Prop :=
  s_par s = PGround /\
  if (n mod w =? 0) && (0 <? n) then s_row s = y0 + n / w - 1 /\ s_col s = w - 1 /\ s_pend s = true
  else s_row s = y0 + n / w /\ s_col s = n mod w /\ s_pend s = false.

Lemma sexecs_app s a b : sexecs u w s (a ++ b) = sexecs u w (sexecs u w s a) b.
Proof. unfold sexecs. now rewrite fold_left_app. Qed.
Lemma sexecs_cons s r l : sexecs u w s (r :: l) = sexecs u w (sexec u w s r) l.
Proof. reflexivity. Qed.

Lemma div_succ_cases n : 0 <= n -> 
  (n mod w = w - 1 /\ (n + 1) mod w = 0 /\ (n + 1) / w = n / w + 1) \/
  (n mod w < w - 1 /\ (n + 1) mod w = n mod w + 1 /\ (n + 1) / w = n / w).
Proof.
  intros N. pose proof (Z.mod_pos_bound n w ltac:(lia)) as B. pose proof (Z.div_mod n w ltac:(lia)) as D.
  destruct (Z.eq_dec (n mod w) (w - 1)) as [E|E]; [left|right].
  - assert (D1 : (n + 1) / w = n / w + 1) by (symmetry; apply Z.div_unique with 0; lia).
    assert (M1 : (n + 1) mod w = 0) by (symmetry; apply Z.mod_unique with (n / w + 1); lia). auto.
  - assert (D1 : (n + 1) / w = n / w) by (symmetry; apply Z.div_unique with (n mod w + 1); lia).
    assert (M1 : (n + 1) mod w = n mod w + 1) by (symmetry; apply Z.mod_unique with (n / w); lia).
    split; [lia|]. auto.
Qed.

Lemma print_plain s y0 n r text : 0 <= n -> wrote y0 n s -> plain u r -> shows_text w y0 text s ->
  Z.of_nat (length text) = n ->
  wrote y0 (n + 1) (sexec u w s r) /\ shows_text w y0 (text ++ [r]) (sexec u w s r) /\ same_above y0 s (sexec u w s r).
Proof.
  intros N (P & Wr) (R1 & R2 & R3) T L. unfold sexec. rewrite P.
  pose proof (Z.mod_pos_bound n w ltac:(lia)) as MB. pose proof (Z.div_mod n w ltac:(lia)) as DM.
  destruct (Z.eqb_spec r 27); [lia|]. destruct (Z.eqb_spec r 8); [lia|]. destruct (Z.eqb_spec r 13); [lia|].
  destruct (Z.eqb_spec r 10); [lia|]. destruct (Z.eqb_spec r 7); [lia|].
  unfold print_rune. rewrite R3. cbn [Z.of_nat Pos.of_succ_nat]. change (1 =? 0) with false. change (1 =? 2) with false. cbv iota.
  assert (Pos : (if s_pend s || (w <? s_col s + 1) then (s_row s + 1, 0) else (s_row s, s_col s)) = (y0 + n / w, n mod w)).
  { destruct ((n mod w =? 0) && (0 <? n)) eqn:E.
    - destruct Wr as (A & B & C). rewrite C. cbn [orb]. f_equal; lia.
    - destruct Wr as (A & B & C). rewrite C, A, B. cbn [orb]. destruct (Z.ltb_spec w (n mod w + 1)); [lia|reflexivity]. }
  rewrite Pos.
  set (cell := put (s_cell s) (y0 + n / w) (n mod w) r).
  assert (CT : forall y x, y0 <= y -> 0 <= x < w -> cell y x = nth (Z.to_nat ((y - y0) * w + x)) (text ++ [r]) blank).
  { intros y x Hy Hx. unfold cell, put. destruct ((y =? y0 + n / w) && (x =? n mod w)) eqn:E.
    - assert (K : (y - y0) * w + x = n).
      { assert (y - y0 = n / w) by lia. assert (x = n mod w) by lia. subst x. rewrite H. 
        pose proof (Z.div_mod n w ltac:(lia)). lia. }
      rewrite K, app_nth2 by lia. replace (Z.to_nat n - length text)%nat with 0%nat by lia. reflexivity.
    - assert (K : (y - y0) * w + x <> n).
      { intros K. assert (y - y0 = n / w) by (apply Z.div_unique with x; lia).
        assert (x = n mod w) by (apply Z.mod_unique with (y - y0); lia). lia. }
      rewrite T by assumption. assert (0 <= (y - y0) * w) by (apply Z.mul_nonneg_nonneg; lia).
      destruct (Z.lt_ge_cases ((y - y0) * w + x) n) as [Q|Q].
      + rewrite app_nth1 by lia. reflexivity.
      + rewrite (nth_overflow text) by lia. rewrite nth_overflow; [reflexivity|]. rewrite app_length. cbn [length]. lia. }
  assert (CA : forall y x, y < y0 -> cell y x = s_cell s y x).
  { intros y x Hy. unfold cell, put. destruct (Z.eqb_spec y (y0 + n / w)) as [E|E]; [|reflexivity].
    assert (0 <= n / w) by (apply Z.div_pos; lia). lia. }
  destruct (div_succ_cases n N) as [(A & B & C)|(A & B & C)].
  - destruct (Z.ltb_spec (n mod w + 1) w); [lia|]. split; [|split; [exact CT|exact CA]].
    split; [reflexivity|]. rewrite B. replace ((0 =? 0) && (0 <? n + 1)) with true by lia. cbn [s_row s_col s_pend]. lia.
  - destruct (Z.ltb_spec (n mod w + 1) w); [|lia]. split; [|split; [exact CT|exact CA]].
    split; [reflexivity|]. assert (0 <= n mod w) by (apply Z.mod_pos_bound; lia).
    rewrite B. replace ((n mod w + 1 =? 0) && (0 <? n + 1)) with false by lia. cbn [s_row s_col s_pend]. rewrite C. auto.
Qed.

Lemma same_above_trans y0 a b c : same_above y0 a b -> same_above y0 b c -> same_above y0 a c.
Proof. intros H K y x L. rewrite K, H by exact L. reflexivity. Qed.
Lemma same_above_refl y0 a : same_above y0 a a.
Proof. intros y x L. reflexivity. Qed.

Lemma print_text l : forall s y0 text, wrote y0 (Z.of_nat (length text)) s -> Forall (plain u) l -> shows_text w y0 text s ->
  let s' := sexecs u w s l in
  wrote y0 (Z.of_nat (length (text ++ l))) s' /\ shows_text w y0 (text ++ l) s' /\ same_above y0 s s'.
Proof.
  induction l as [|r l IH]; intros s y0 text Wr F T; cbn zeta.
  - rewrite app_nil_r. repeat split; auto using same_above_refl; try apply Wr.
  - inversion F as [|? ? Pr F']; subst. rewrite sexecs_cons.
    destruct (print_plain s y0 _ r text (Nat2Z.is_nonneg _) Wr Pr T eq_refl) as (A & B & C).
    specialize (IH (sexec u w s r) y0 (text ++ [r])).
    rewrite app_length in IH. cbn [length] in IH. 
    replace (Z.of_nat (length text + 1)) with (Z.of_nat (length text) + 1) in IH by lia.
    specialize (IH A F' B). cbn zeta in IH. rewrite <- app_assoc in IH. cbn [app] in IH.
    destruct IH as (I1 & I2 & I3). split; [exact I1|]. split; [exact I2|]. eapply same_above_trans; eassumption.
Qed.

(** control sequences *)
Definition upd (s : scr) (p : pstate) : scr :=
  {| s_cell := s_cell s; s_row := s_row s; s_col := s_col s; s_pend := s_pend s; s_par := p |}.
Lemma upd_id s : s_par s = PGround -> upd s PGround = s.
Proof. intros H. destruct s; cbn in *; subst; reflexivity. Qed.

Lemma csi_params ps : forall s acc, Forall (fun r => 48 <= r <= 63) ps -> s_par s = PCsi acc ->
  sexecs u w s ps = upd s (PCsi (acc ++ ps)).
Proof.
  induction ps as [|r ps IH]; intros s acc F P.
  - rewrite app_nil_r. unfold sexecs, upd. cbn. destruct s; cbn in *; subst; reflexivity.
  - inversion F as [|? ? H F']; subst. rewrite sexecs_cons. unfold sexec at 1. rewrite P.
    replace ((48 <=? r) && (r <=? 63)) with true by lia.
    rewrite (IH _ (acc ++ [r]) F'); [|reflexivity]. rewrite <- app_assoc. reflexivity.
Qed.

Lemma csi_seq s ps f : s_par s = PGround -> Forall (fun r => 48 <= r <= 63) ps -> ~ (48 <= f <= 63) ->
  sexecs u w s (27 :: 91 :: ps ++ [f]) = csi_exec w (upd s (PCsi ps)) ps f.
Proof.
  intros P F Nf. rewrite !sexecs_cons. unfold sexec at 2. rewrite P. change (27 =? 27) with true. cbv iota.
  unfold sexec at 1. cbn [s_par]. change (91 =? 91) with true. cbv iota.
  rewrite sexecs_app. rewrite (csi_params ps _ [] F); [|reflexivity]. cbn [app]. rewrite sexecs_cons.
  unfold sexec, upd at 1. cbn [s_par]. replace ((48 <=? f) && (f <=? 63)) with false by lia. reflexivity.
Qed.

Lemma sgr_seq s ps : s_par s = PGround -> Forall (fun r => 48 <= r <= 59) ps ->
  sexecs u w s (27 :: 91 :: ps ++ [109]) = s.
Proof.
  intros P F. rewrite csi_seq; [|exact P| |lia].
  - unfold csi_exec. cbn. unfold with_cell, upd. cbn. destruct s; cbn in *; subst; reflexivity.
  - eapply Forall_impl; [|exact F]. cbn. lia.
Qed.

Lemma print_pieces ps : forall s y0 text, wrote y0 (Z.of_nat (length text)) s -> Forall (plain u) (visible ps) ->
  Forall sgr_digits ps -> shows_text w y0 text s ->
  let s' := sexecs u w s (prompt_runes ps) in
  wrote y0 (Z.of_nat (length (text ++ visible ps))) s' /\ shows_text w y0 (text ++ visible ps) s' /\ same_above y0 s s'.
Proof.
  induction ps as [|p ps IH]; intros s y0 text Wr F G T; cbn zeta.
  - cbn [prompt_runes visible flat_map]. rewrite app_nil_r. repeat split; auto using same_above_refl; try apply Wr.
  - inversion G as [|? ? G1 G']; subst. unfold prompt_runes, visible in *. cbn [flat_map] in *. rewrite sexecs_app.
    destruct p as [r|sg]; cbn [piece_runes] in *.
    + cbn [app] in F. inversion F as [|? ? Pr F']; subst.
      destruct (print_text [r] s y0 text Wr ltac:(repeat constructor; apply Pr) T) as (A & B & C).
      specialize (IH _ y0 _ A F' G' B). cbn zeta in IH. rewrite <- app_assoc in IH. cbn [app] in IH |- *.
      destruct IH as (I1 & I2 & I3). split; [exact I1|]. split; [exact I2|]. eapply same_above_trans; eassumption.
    + rewrite sgr_seq; [|apply Wr|exact G1]. cbn [app] in *. apply IH; auto.
Qed.

(** the cursor *)
Lemma at_wrote y0 n s : cursor_at w y0 n s -> 0 <= n -> (n mod w <> 0 \/ n = 0) -> wrote y0 n s.
Proof.
  intros (A & B & C & D) N H. split; [exact D|]. unfold row_of, col_of in *.
  destruct ((n mod w =? 0) && (0 <? n)) eqn:E; [lia|auto].
Qed.
Lemma wrote_at y0 n s : wrote y0 n s -> (n mod w <> 0 \/ n = 0) -> 0 <= n -> cursor_at w y0 n s.
Proof.
  intros (P & Wr) H N. unfold cursor_at, row_of, col_of. destruct ((n mod w =? 0) && (0 <? n)) eqn:E; [lia|]. tauto.
Qed.

(** " \b" *)
Lemma shows_blank_tail y0 text s : shows_text w y0 (text ++ [32]) s <-> shows_text w y0 text s.
Proof.
  assert (E : forall n, nth n (text ++ [32]) blank = nth n text blank).
  { intros n. destruct (Nat.lt_ge_cases n (length text)) as [L|L].
    - apply app_nth1. exact L.
    - rewrite (nth_overflow text) by exact L. rewrite app_nth2 by lia.
      destruct (n - length text)%nat as [|[|k]]; reflexivity. }
  unfold shows_text. split; intros H y x Hy Hx; specialize (H y x Hy Hx); rewrite ?E in *; exact H.
Qed.

Lemma plain_32 : plain u 32.
Proof. split; [lia|]. split; [lia|apply U]. Qed.

Lemma edge_trick s y0 text : let n := Z.of_nat (length text) in
  wrote y0 n s -> shows_text w y0 text s -> (n mod w = 0 /\ 0 < n) \/ n + 1 < w ->
  let s' := sexecs u w s [32; 8] in
  cursor_at w y0 n s' /\ shows_text w y0 text s' /\ same_above y0 s s'.
Proof.
  cbn zeta. intros Wr T C. set (n := Z.of_nat (length text)) in *.
  destruct (print_plain s y0 n 32 text ltac:(lia) Wr plain_32 T eq_refl) as (A & B & D).
  apply (proj1 (shows_blank_tail _ _ _)) in B. rewrite !sexecs_cons. set (s1 := sexec u w s 32) in *.
  change (sexecs u w (sexec u w s1 8) []) with (sexec u w s1 8).
  destruct A as (P & A). unfold sexec. rewrite P.
  change (8 =? 27) with false. change (8 =? 8) with true. cbv iota.
  split; [|split; [exact B|exact D]]. unfold cursor_at, row_of, col_of, move. cbn [s_row s_col s_pend s_par].
  destruct (div_succ_cases n ltac:(lia)) as [(Q1 & Q2 & Q3)|(Q1 & Q2 & Q3)].
  - destruct C as [(C1 & C2)|C]; [|rewrite Z.mod_small in Q1 by lia; lia].
    assert (w = 1) by lia. rewrite Q2 in A. replace ((0 =? 0) && (0 <? n + 1)) with true in A by lia.
    destruct A as (A1 & A2 & A3). rewrite A1, A2. repeat split; lia.
  - assert (0 <= n mod w) by (apply Z.mod_pos_bound; lia).
    rewrite Q2 in A. replace ((n mod w + 1 =? 0) && (0 <? n + 1)) with false in A by lia.
    destruct A as (A1 & A2 & A3). rewrite A1, A2, Q3. repeat split; lia.
Qed.

(** cleaning *)
Lemma csi_2K s : s_par s = PGround -> sexecs u w s [27; 91; 50; 75] = with_cell s (erase_line (s_cell s) (s_row s)).
Proof. intros P. change [27; 91; 50; 75] with (27 :: 91 :: [50] ++ [75]). rewrite csi_seq; [|exact P|repeat constructor; lia|lia]. reflexivity. Qed.
Lemma csi_J s : s_par s = PGround -> sexecs u w s [27; 91; 74] = with_cell s (erase_below (s_cell s) (s_row s) (s_col s)).
Proof. intros P. change [27; 91; 74] with (27 :: 91 :: [] ++ [74]). rewrite csi_seq; [|exact P|constructor|lia]. reflexivity. Qed.
Lemma csi_A s : s_par s = PGround -> sexecs u w s [27; 91; 65] = move s (s_row s - 1) (s_col s).
Proof. intros P. change [27; 91; 65] with (27 :: 91 :: [] ++ [65]). rewrite csi_seq; [|exact P|constructor|lia]. reflexivity. Qed.

(** moving back over the text right of the cursor *)
Lemma back_one s y0 p i sep : 0 <= p -> 0 < i -> cursor_at w y0 (p + i) s ->
  existsb (Z.eqb i) sep = ((p + i) mod w =? 0) ->
  let o := 8 :: (if existsb (Z.eqb i) sep then [27; 91; 65; 13; 27; 91] ++ Itoa w ++ [67] else []) in
  cursor_at w y0 (p + i - 1) (sexecs u w s o) /\ s_cell (sexecs u w s o) = s_cell s.
Proof.
  intros P I (A & B & C & D) E. cbn zeta. rewrite E. rewrite sexecs_cons.
  assert (S1 : sexec u w s 8 = move s (s_row s) (Z.max 0 (s_col s - 1))) by (unfold sexec; rewrite D; reflexivity).
  rewrite S1. unfold row_of, col_of in *.
  destruct (div_succ_cases (p + i - 1) ltac:(lia)) as [(Q1 & Q2 & Q3)|(Q1 & Q2 & Q3)];
    replace (p + i - 1 + 1) with (p + i) in * by lia.
  - rewrite Q2. change (0 =? 0) with true. cbv iota.
    assert (R : sexecs u w (move s (s_row s) (Z.max 0 (s_col s - 1))) ([27; 91; 65; 13; 27; 91] ++ Itoa w ++ [67]) =
                move s (s_row s - 1) (w - 1)).
    { replace ([27; 91; 65; 13; 27; 91] ++ Itoa w ++ [67]) with ([27; 91; 65] ++ [13] ++ (27 :: 91 :: Itoa w ++ [67])) by reflexivity.
      rewrite sexecs_app, csi_A by reflexivity. rewrite sexecs_app.
      destruct (Itoa_spec w ltac:(lia)) as (Dg & At).
      match goal with |- context [sexecs u w ?x [13]] => set (s2 := sexecs u w x [13]) end.
      assert (S2 : s2 = move s (s_row s - 1) 0) by reflexivity. rewrite S2.
      rewrite csi_seq; [|reflexivity|eapply Forall_impl; [|exact Dg]; cbn; lia|lia].
      unfold csi_exec. change (67 =? 65) with false. change (67 =? 66) with false. change (67 =? 67) with true. cbv iota.
      unfold csi_num. rewrite At. unfold move, upd. cbn [s_row s_col s_pend s_par s_cell].
      assert (Ew : match w with 0 => 1 | _ => w end = w) by (destruct w; [lia|reflexivity|reflexivity]).
      rewrite Ew. f_equal. lia. }
    rewrite R. unfold cursor_at, row_of, col_of, move. cbn [s_row s_col s_pend s_par s_cell].
    rewrite Q1. split; [|reflexivity]. repeat split; lia.
  - assert (0 <= (p + i - 1) mod w) by (apply Z.mod_pos_bound; lia).
    rewrite Q2. replace ((p + i - 1) mod w + 1 =? 0) with false by lia.
    unfold sexecs. cbn [fold_left]. unfold cursor_at, row_of, col_of, move. cbn [s_row s_col s_pend s_par s_cell].
    rewrite A, B, Q2, Q3. split; [|reflexivity]. repeat split; lia.
Qed.

Lemma back_all sep n : forall s y0 p i, 0 <= p -> Z.of_nat n <= i -> cursor_at w y0 (p + i) s ->
  (forall j, 0 < j <= i -> existsb (Z.eqb j) sep = ((p + j) mod w =? 0)) ->
  cursor_at w y0 (p + (i - Z.of_nat n)) (sexecs u w s (back_loop sep w n i)) /\
  s_cell (sexecs u w s (back_loop sep w n i)) = s_cell s.
Proof.
  induction n as [|n IH]; intros s y0 p i P L C E.
  - cbn. rewrite Z.sub_0_r. auto.
  - cbn [back_loop].
    destruct (back_one s y0 p i sep P ltac:(lia) C (E i ltac:(lia))) as (A & B).
    set (o := 8 :: (if existsb (Z.eqb i) sep then [27; 91; 65; 13; 27; 91] ++ Itoa w ++ [67] else [])) in *.
    change (8 :: (if existsb (Z.eqb i) sep then [27; 91; 65; 13; 27; 91] ++ Itoa w ++ [67] else []) ++ back_loop sep w n (i - 1))
      with (o ++ back_loop sep w n (i - 1)).
    rewrite sexecs_app. destruct (IH (sexecs u w s o) y0 p (i - 1) P ltac:(lia)) as (A2 & B2).
    + replace (p + (i - 1)) with (p + i - 1) by lia. exact A.
    + intros j Hj. apply E. lia.
    + split; [|congruence]. replace (p + (i - Z.of_nat (S n))) with (p + (i - 1 - Z.of_nat n)) by lia. exact A2.
Qed.

Definition cleaned (y0 : Z) (s : scr) : Prop :=
  s_row s = y0 /\ s_col s = 0 /\ s_pend s = false /\ s_par s = PGround /\ shows_text w y0 [] s.

Lemma clean_row s : s_par s = PGround ->
  sexecs u w s [27; 91; 50; 75; 13] = {| s_cell := erase_line (s_cell s) (s_row s); s_row := s_row s; s_col := 0; s_pend := false; s_par := PGround |}.
Proof.
  intros P. change [27; 91; 50; 75; 13] with ([27; 91; 50; 75] ++ [13]). rewrite sexecs_app, csi_2K by exact P. reflexivity.
Qed.

Definition blank_below (y : Z) (s : scr) : Prop := forall y' x, y < y' -> 0 <= x < w -> s_cell s y' x = blank.

Lemma nth_nil_blank n : nth n (@nil Z) blank = blank.
Proof. destruct n; reflexivity. Qed.

Lemma clean_rows n : forall s y0, s_par s = PGround -> s_row s = y0 + Z.of_nat n -> blank_below (s_row s) s ->
  let s' := sexecs u w s (flat_map (fun _ => [27; 91; 50; 75; 13; 27; 91; 65]) (repeat tt n) ++ [27; 91; 50; 75; 13]) in
  cleaned y0 s' /\ same_above y0 s s'.
Proof.
  induction n as [|n IH]; intros s y0 P R Bl; cbn zeta.
  - cbn [repeat flat_map app]. rewrite clean_row by exact P. unfold cleaned. cbn [s_row s_col s_pend s_par s_cell].
    assert (E : s_row s = y0) by lia. split.
    + split; [exact E|]. repeat split. intros y x Hy Hx. cbn [s_cell]. rewrite nth_nil_blank. unfold erase_line.
      destruct (Z.eqb_spec y (s_row s)); [reflexivity|]. apply Bl; lia.
    + intros y x Hy. cbn [s_cell]. unfold erase_line. destruct (Z.eqb_spec y (s_row s)); [lia|reflexivity].
  - cbn [repeat flat_map]. rewrite <- app_assoc, sexecs_app.
    assert (E1 : sexecs u w s [27; 91; 50; 75; 13; 27; 91; 65] =
      {| s_cell := erase_line (s_cell s) (s_row s); s_row := s_row s - 1; s_col := 0; s_pend := false; s_par := PGround |}).
    { change [27; 91; 50; 75; 13; 27; 91; 65] with ([27; 91; 50; 75; 13] ++ [27; 91; 65]).
      rewrite sexecs_app, clean_row by exact P. rewrite csi_A by reflexivity. reflexivity. }
    rewrite E1.
    set (s1 := {| s_cell := _; s_row := s_row s - 1; s_col := 0; s_pend := false; s_par := PGround |}).
    destruct (IH s1 y0 eq_refl) as (A & B).
    + unfold s1. cbn [s_row]. lia.
    + intros y x Hy Hx. unfold s1 in *. cbn [s_row s_cell] in *. unfold erase_line.
      destruct (Z.eqb_spec y (s_row s)); [reflexivity|]. apply Bl; lia.
    + split; [exact A|]. eapply same_above_trans; [|exact B]. intros y x Hy. unfold s1. cbn [s_cell]. unfold erase_line.
      destruct (Z.eqb_spec y (s_row s)); [lia|reflexivity].
Qed.

Lemma clean_all s y0 line : s_par s = PGround -> 0 <= line -> s_row s = y0 + line ->
  let o := [27; 91; 74] ++ (if line =? 0 then [27; 91; 50; 75; 13]
        else flat_map (fun _ => [27; 91; 50; 75; 13; 27; 91; 65]) (repeat tt (Z.to_nat line)) ++ [27; 91; 50; 75; 13]) in
  cleaned y0 (sexecs u w s o) /\ same_above y0 s (sexecs u w s o).
Proof.
  intros P L R. cbn zeta.
  assert (E : (if line =? 0 then [27; 91; 50; 75; 13]
        else flat_map (fun _ => [27; 91; 50; 75; 13; 27; 91; 65]) (repeat tt (Z.to_nat line)) ++ [27; 91; 50; 75; 13]) =
        flat_map (fun _ => [27; 91; 50; 75; 13; 27; 91; 65]) (repeat tt (Z.to_nat line)) ++ [27; 91; 50; 75; 13]).
  { destruct (Z.eqb_spec line 0) as [->|N]; reflexivity. }
  rewrite E. clear E. rewrite sexecs_app, csi_J by exact P.
  set (s1 := with_cell s _).
  destruct (clean_rows (Z.to_nat line) s1 y0) as (A & B).
  - reflexivity.
  - unfold s1, with_cell. cbn [s_row]. lia.
  - intros y x Hy Hx. unfold s1, with_cell in *. cbn [s_row s_cell] in *. unfold erase_below.
    destruct (Z.ltb_spec (s_row s) y); [reflexivity|lia].
  - split; [exact A|]. eapply same_above_trans; [|exact B]. intros y x Hy. unfold s1, with_cell. cbn [s_cell]. unfold erase_below.
    destruct (Z.ltb_spec (s_row s) y); [lia|]. destruct (Z.eqb_spec y (s_row s)); [lia|reflexivity].
Qed.

Lemma cleaned_wrote y0 s : cleaned y0 s -> wrote y0 0 s.
Proof.
  intros (A & B & C & D & E). split; [exact D|]. rewrite Z.mod_0_l, Z.div_0_l by lia. cbn [Z.ltb andb].
  replace ((0 =? 0) && (0 <? 0)) with false by reflexivity. repeat split; try assumption. lia.
Qed.

End Screen.
