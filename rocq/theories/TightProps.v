(** Further cases of C04, C06, C71 and C94, found by editing the model. *)
From Verif Require Import Base ListAux RunesModel RunesSpec RunesProofs RuneBufModel RuneBufSpec RuneBufProofs
  HistoryModel HistorySpec HistoryProofs RenderModel OpModel OpSpec OpProofs OpKeys LifeModel LifeSpec LifeProofs LifeProps
  AnsiWinModel AnsiWinSpec AnsiWinProofs AnsiWinProps RenderProps.
From Coq Require Import ZifyBool.
Open Scope Z_scope.

(** ** C04: what follows the coloured part of a prompt *)
Lemma color_filter_app ps t v : forallb piece_ok ps = true -> color_filter t 0 = Ok v ->
  ColorFilter (prompt_runes ps ++ t) = Ok (visible ps ++ v).
Proof.
  intros H T. unfold ColorFilter. induction ps as [|p ps IH]; [exact T|].
  cbn in H. apply andb_true_iff in H as [Hp Hps]. specialize (IH Hps).
  destruct p as [r|params]; cbn [prompt_runes visible flat_map piece_runes app].
  - cbn in Hp. apply negb_true_iff in Hp. cbn [color_filter]. rewrite Hp.
    unfold prompt_runes in IH. rewrite IH. reflexivity.
  - cbn in Hp. cbn [color_filter]. rewrite !Z.eqb_refl.
    change (flat_map piece_runes ps) with (prompt_runes ps).
    rewrite <- !app_assoc. cbn [app]. rewrite (Index_app 109 params _ Hp).
    rewrite Nat.add_comm. cbn [Nat.add color_filter]. rewrite color_filter_skip.
    + change (params ++ 109 :: prompt_runes ps ++ t) with (params ++ [109] ++ prompt_runes ps ++ t).
      replace (S (length params)) with (length (params ++ [109])) by (rewrite app_length; cbn; lia).
      rewrite app_assoc, skipn_app_exact. exact IH.
    + rewrite app_length. cbn [length]. lia.
Qed.

(** An escape character followed by something other than '[' is measured like text, and so is everything behind it. *)
Theorem C04_other_escape : forall ps r t, forallb piece_ok ps = true -> r <> 91 -> ~ In 27 (r :: t) ->
  ColorFilter (prompt_runes ps ++ 27 :: r :: t) = Ok (visible ps ++ 27 :: r :: t).
Proof.
  intros ps r t H N I. apply color_filter_app; [exact H|].
  change (color_filter (27 :: r :: t) 0) with (if r =? 91 then match Index 109 t with None => color_filter (r :: t) 0 | Some idx => color_filter (r :: t) (idx + 2) end
    else (newr <- color_filter (r :: t) 0 ;; Ok (27 :: newr))).
  replace (r =? 91) with false by lia. rewrite color_filter_plain by exact I. reflexivity.
Qed.
Print Assumptions C04_other_escape.
Example C04_other_escape_ex : ColorFilter (prompt_runes [Sgr [49]; Vis 62] ++ [27; 55; 97]) = Ok [62; 27; 55; 97].
Proof. reflexivity. Qed.

(** C04, finding: so a prompt that sets the window title (ESC ] 0 ; x BEL, of which the terminal shows nothing) is measured four columns
    too long even where control characters have no width. *)
Definition u_cc : uenv := {| u_zero := fun r => r <? 32; u_dbl := fun _ => false; u_tab := 4; u_number := fun _ => false |}.
Theorem C04_title_refuted : exists title text n, title = [27; 93; 48; 59; 120; 7] /\ ~ In 27 text /\
  (v <- ColorFilter (title ++ text) ;; Ok (WidthAll u_cc v)) = Ok (4 + n)%nat /\ WidthAll u_cc text = n.
Proof. exists [27; 93; 48; 59; 120; 7], [62; 32], 2%nat. split; [reflexivity|]. split; [cbn; intuition discriminate|]. split; reflexivity. Qed.
Print Assumptions C04_title_refuted.

(** ** C71: a bell ends a sequence, which shows nothing *)
Theorem C71_bell : forall s t, w_seq s = false -> Forall (fun r => ~ ends_seq r) t -> ~ In 27 t ->
  forall text, ~ In CharEsc text -> exists s', wwrite s ([27; 91] ++ t ++ [7] ++ text) = Ok (s', map WText text) /\ w_seq s' = false /\ w_esc s' = false.
Proof.
  intros s t W F N text Nt.
  assert (G : forall t s, Forall (fun r => ~ ends_seq r) t -> w_seq s = true -> w_esc s = false ->
    exists s', wwrite s t = Ok (s', []) /\ w_seq s' = true /\ w_esc s' = false).
  { clear. induction t as [|r t IH]; intros s F W E; [exists s; auto|]. inversion F as [|? ? N F']; subst. cbn [wwrite]. unfold wprocess, ioloopEscSeq. rewrite W, E.
    apply ends_dec in N. destruct N as (-> & -> & -> & -> & ->).
    assert (K : forall arg, exists s', (b <- wwrite {| w_esc := false; w_seq := true; w_arg := arg |} t ;; Ok (fst b, [] ++ snd b)) = Ok (s', []) /\ w_seq s' = true /\ w_esc s' = false).
    { intros arg. destruct (IH {| w_esc := false; w_seq := true; w_arg := arg |} F' eq_refl eq_refl) as (s' & -> & B). exists s'. auto. }
    destruct (r =? 59); [|cbn [obind fst snd]; apply K]. destruct (rev (w_arg s)) as [|[|] ?]; cbn [obind fst snd]; apply K. }
  change ([27; 91] ++ t ++ [7] ++ text) with (([27; 91] ++ semis []) ++ (t ++ [7] ++ text)). rewrite wwrite_app, wwrite_open by auto. cbn [obind fst snd].
  rewrite wwrite_app. destruct (G t {| w_esc := false; w_seq := true; w_arg := [] |} F eq_refl eq_refl) as (s1 & -> & B1 & B2). cbn [obind fst snd].
  exists {| w_esc := false; w_seq := false; w_arg := [] |}. split; [|split; reflexivity].
  cbn [app wwrite]. unfold wprocess at 1. rewrite B1. unfold ioloopEscSeq. change ((65 <=? 7) && (7 <=? 68)) with false. change (7 =? 74) with false.
  change (7 =? 75) with false. change (7 =? 109) with false. change (7 =? 7) with true. cbn [obind fst snd]. rewrite B2, wwrite_text by auto. reflexivity.
Qed.
Print Assumptions C71_bell.
Example C71_bell_ex : exists s, wwrite wctx0 [27; 91; 50; 59; 120; 7; 97; 98] = Ok (s, [WText 97; WText 98]).
Proof. eexists. reflexivity. Qed.

(** ** C06: RuneSlice gives the runes next to the cursor *)
Theorem C06_rune_slice : forall s n, inside s ->
  (n <= length (rb_buf s) - rb_idx s -> exists t, RuneSlice (Z.of_nat n) s = Ok t /\ length t = n /\
     exists rest, rb_buf s = firstn (rb_idx s) (rb_buf s) ++ t ++ rest)%nat /\
  (n <= rb_idx s -> exists t, RuneSlice (- Z.of_nat n) s = Ok t /\ length t = n /\
     exists rest, rb_buf s = rest ++ t ++ skipn (rb_idx s) (rb_buf s))%nat.
Proof.
  intros s n I. unfold inside in I. split; intros L.
  - unfold RuneSlice. destruct (Z.ltb_spec 0 (Z.of_nat n)) as [P|P].
    + rewrite Nat2Z.id. exists (firstn n (skipn (rb_idx s) (rb_buf s))). split.
      * unfold slice. destruct (Nat.leb_spec (rb_idx s) (rb_idx s + n)); [|lia].
        destruct (Nat.leb_spec (rb_idx s + n) (length (rb_buf s))); [|lia]. cbn [andb]. do 2 f_equal. lia.
      * split; [rewrite firstn_length, skipn_length; lia|]. exists (skipn n (skipn (rb_idx s) (rb_buf s))). now rewrite !firstn_skipn.
    + assert (n = 0)%nat as -> by lia. exists []. cbn [Z.of_nat]. rewrite Z.add_0_r. replace (Z.of_nat (rb_idx s) <? 0) with false by lia.
      rewrite Nat2Z.id. unfold slice. rewrite Nat.leb_refl. destruct (Nat.leb_spec (rb_idx s) (length (rb_buf s))); [|lia]. cbn [andb].
      rewrite Nat.sub_diag. split; [reflexivity|]. split; [reflexivity|]. exists (skipn (rb_idx s) (rb_buf s)). cbn [app]. now rewrite firstn_skipn.
  - unfold RuneSlice. replace (0 <? - Z.of_nat n) with false by lia. replace (Z.of_nat (rb_idx s) + - Z.of_nat n <? 0) with false by lia.
    replace (Z.to_nat (Z.of_nat (rb_idx s) + - Z.of_nat n)) with (rb_idx s - n)%nat by lia.
    exists (firstn n (skipn (rb_idx s - n) (rb_buf s))). split.
    + unfold slice. destruct (Nat.leb_spec (rb_idx s - n) (rb_idx s)); [|lia].
      destruct (Nat.leb_spec (rb_idx s) (length (rb_buf s))); [|lia]. cbn [andb]. do 2 f_equal. lia.
    + split; [rewrite firstn_length, skipn_length; lia|]. exists (firstn (rb_idx s - n) (rb_buf s)).
      replace (skipn (rb_idx s) (rb_buf s)) with (skipn n (skipn (rb_idx s - n) (rb_buf s))) by (rewrite ListAux.skipn_skipn; f_equal; lia).
      now rewrite !firstn_skipn.
Qed.
Print Assumptions C06_rune_slice.
Example C06_rune_slice_ex : let s := {| rb_buf := [97; 98; 99; 100]; rb_idx := 1; rb_kill := [] |} in
  RuneSlice 2 s = Ok [98; 99] /\ RuneSlice (-1) s = Ok [97] /\ RuneSlice 4 s = Panic.
Proof. repeat split. Qed.

(** ** C94: after SetVimMode, on or off, and whatever the mode was, the next ordinary rune is put into the line *)
Theorem C94_set_vim : forall e on l r, ordinary r ->
  k_listen (l_cfg l (l_cur l)) = None -> k_filter (l_cfg l (l_cur l)) = None ->
  typing (with_v false None (cur_op l)) -> o_vp (l_op l) = None ->
  exists l', lrun e [LVim on; LKeys [r]] l = Ok (l', []) /\ l_vim l' = on /\ o_vn (l_op l') = false /\
    let b := o_b (l_op l) in
    rb_buf (o_b (l_op l')) = firstn (rb_idx b) (rb_buf b) ++ [r] ++ skipn (rb_idx b) (rb_buf b).
Proof.
  intros e on l r R L F T V. cbn [lrun lstep obind fst snd]. rewrite V.
  set (l1 := set_lop (with_v false None (l_op l)) (set_cfg 0 (with_vim on (l_cfg l 0)) l)).
  assert (E1 : cur_op l1 = with_v false None (cur_op l)).
  { unfold cur_op. assert (H : h_load (l_hid l1) l1 = h_load (l_hid l) l).
    { unfold h_load, h_path, l1, set_lop, set_cfg, upd. cbn [l_hid l_cfg l_hcfg l_his l_files].
      destruct (Nat.eqb_spec (l_hcfg l (l_hid l)) 0) as [->|_]; reflexivity. }
    rewrite H. assert (K : k_srch (l_cfg l1 (l_cur l1)) = k_srch (l_cfg l (l_cur l))).
    { unfold l1, set_lop, set_cfg, upd. cbn [l_cfg l_cur]. destruct (Nat.eqb_spec (l_cur l) 0) as [->|_]; reflexivity. }
    rewrite K. reflexivity. }
  assert (T1 : typing (cur_op l1)) by now rewrite E1.
  unfold keys_in. set (cf := ocfg_of e (l_prompt l1) (l_vim l1) (l_cfg l1 (l_cur l1))).
  assert (P : OpSpec.plain cf).
  { unfold cf, l1. split; cbn; unfold upd; destruct (Nat.eqb_spec (l_cur l) 0) as [E|E]; cbn; try rewrite E in *; assumption. }
  destruct (ordinary_step cf r (cur_op l1) P T1 R) as (o' & S & T' & M & B & I). cbn [op_run]. rewrite S. cbn [obind fst snd app].
  eexists. split; [reflexivity|]. cbn [fst snd]. split; [|split].
  - unfold l_vim, put_op. cbn. unfold upd. destruct (Nat.eqb_spec 0 (l_cur l)) as [E|E]; [|reflexivity]. rewrite <- E. cbn.
    destruct (k_hist (l_cfg l 0)); reflexivity.
  - cbn. apply (ty_vn _ T').
  - cbn zeta. cbn [l_op put_op set_lop fst]. rewrite E1 in B. exact B.
Qed.
Print Assumptions C94_set_vim.
Example C94_set_vim_ex : exists l1 a l', lrun term80 [LVim true; LKeys [97; 27]] plain_app = Ok (l1, a) /\ o_vn (l_op l1) = true /\
  typing (with_v false None (cur_op l1)) /\ lrun term80 [LVim true; LKeys [120]] l1 = Ok (l', []) /\ rb_buf (o_b (l_op l')) = [97; 120].
Proof.
  destruct (lrun term80 [LVim true; LKeys [97; 27]] plain_app) as [[l1 a]| |] eqn:E; [|vm_compute in E; discriminate|vm_compute in E; discriminate].
  exists l1, a. vm_compute in E. injection E as <- <-. eexists. split; [reflexivity|]. split; [reflexivity|]. split.
  - constructor; try reflexivity. + unfold inside. cbn. lia. + constructor; vm_compute; repeat constructor; intuition congruence.
  - split; vm_compute; reflexivity.
Qed.
