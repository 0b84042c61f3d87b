(** Properties C93, C94: the documented shortcuts, and the commands of vim mode. *)
From Verif Require Import Base ListAux RunesModel RuneBufModel RuneBufSpec RuneBufProofs HistoryModel HistorySpec HistoryProofs RenderModel
  TerminalModel OpModel OpSpec OpProofs OpKeys OpTableSpec OpTable OpProps.
From Coq Require Import ZifyBool.
Open Scope Z_scope.

(** ** C93: the shortcuts do what doc/shortcut.md says *)

(** Each key of the table makes its edit on the line and changes nothing else: no line is returned, and the editor
    stays at the prompt.  What the edits do is the subject of C07-C14.  Missing: the rows of the table refuted below. *)
Theorem C93_shortcuts_partial : forall cf k e o b, plain cf -> typing o -> shortcut k e -> run_edit e (o_b o) = Ok b -> becomes cf k o b.
Proof. exact shortcut_becomes. Qed.
Print Assumptions C93_shortcuts_partial.

(** The edits of the table always succeed. *)
Theorem C93_total : forall cf k e o, plain cf -> typing o -> shortcut k e -> exists b, becomes cf k o b.
Proof.
  intros cf k e o P T S. destruct (edit_ok e (o_b o) (ty_in _ T)) as (b & E & _); [destruct S; intros X; exact X|].
  exists b. now apply (shortcut_becomes cf k e).
Qed.
Print Assumptions C93_total.

(** In terms of the text left and right of the cursor [l] and [r], and the text cut last [c]: *)
Section lines.
Variables (cf : ocfg) (o : op) (l r c : list Z).
Hypotheses (P : plain cf) (T : typing o) (L : o_b o = line l r c).
Ltac go e := apply (shortcut_becomes cf _ e); [exact P|exact T|constructor|rewrite L].
Lemma line_a : becomes cf 1 o (line [] (l ++ r) c). Proof. go ELineStart. reflexivity. Qed.
Lemma line_e : becomes cf 5 o (line (l ++ r) [] c).
Proof. go ELineEnd. cbn. unfold line, with_idx. cbn. now rewrite app_nil_r. Qed.
Lemma line_b l' x : l = l' ++ [x] -> becomes cf 2 o (line l' (x :: r) c).
Proof.
  intros ->. go EBackward. cbn [run_edit]. unfold MoveBackward, line, with_idx. cbn [rb_idx rb_buf rb_kill]. rewrite app_length. cbn [length].
  replace (length l' + 1 =? 0)%nat with false by lia. rewrite <- app_assoc. cbn [app]. f_equal. f_equal. lia.
Qed.
Lemma line_f x r' : r = x :: r' -> becomes cf 6 o (line (l ++ [x]) r' c).
Proof.
  intros ->. go EForward. cbn [run_edit]. unfold MoveForward, line, with_idx. cbn [rb_idx rb_buf rb_kill]. rewrite app_length. cbn [length].
  replace (length l =? length l + S (length r'))%nat with false by lia. rewrite <- app_assoc. cbn [app]. f_equal. f_equal. rewrite app_length. cbn. lia.
Qed.
Lemma line_h l' x k : k = 8 \/ k = 127 -> l = l' ++ [x] -> becomes cf k o (line l' r c).
Proof.
  intros K ->. apply (shortcut_becomes cf _ EBackspace); [exact P|exact T|destruct K as [-> | ->]; constructor|rewrite L]. apply backspace_line.
Qed.
Lemma line_k : becomes cf 11 o (line l [] r). Proof. go EKill. apply kill_line. Qed.
Lemma line_u : l <> [] -> becomes cf 21 o (line [] r l). Proof. intros N. go EKillFront. now apply killfront_line. Qed.
Lemma line_y : becomes cf 25 o (line (l ++ c) r c). Proof. go EYank. apply yank_line. Qed.
End lines.

Theorem C93_lines : forall cf o l r c, plain cf -> typing o -> o_b o = line l r c ->
  becomes cf 1 o (line [] (l ++ r) c) /\
  becomes cf 5 o (line (l ++ r) [] c) /\
  (forall l' x, l = l' ++ [x] -> becomes cf 2 o (line l' (x :: r) c)) /\
  (forall x r', r = x :: r' -> becomes cf 6 o (line (l ++ [x]) r' c)) /\
  (forall l' x k, k = 8 \/ k = 127 -> l = l' ++ [x] -> becomes cf k o (line l' r c)) /\
  becomes cf 11 o (line l [] r) /\
  (l <> [] -> becomes cf 21 o (line [] r l)) /\
  becomes cf 25 o (line (l ++ c) r c).
Proof.
  intros cf o l r c P T L. split; [now apply line_a|]. split; [now apply line_e|]. split; [intros; now apply line_b with (l := l)|].
  split; [intros; now apply line_f with (r := r)|]. split; [intros; now apply line_h with (l := l) (x := x)|]. split; [now apply line_k with (c := c)|].
  split; [intros; now apply line_u with (c := c)|now apply line_y].
Qed.
Print Assumptions C93_lines.

(** Ctrl-G, Ctrl-L and Ctrl-Z leave the line as it is. *)
Theorem C93_unchanged : forall cf k o, plain cf -> typing o -> k = 7 \/ k = 12 \/ k = 26 -> becomes cf k o (o_b o).
Proof.
  intros cf k o P T K. unfold becomes. rewrite (step_passes cf k o P T) by lia.
  assert (E : exists a, key_switch cf k o = Ok (o, a, false, false, true) /\ results a = []).
  { destruct K as [-> |[-> | ->]]; unfold key_switch; cbn [Z.eqb Pos.eqb orb CharBell CharTab CharBckSearch CharCtrlU CharFwdSearch CharKill MetaForward CharTranspose
      MetaBackward MetaDelete CharLineStart CharLineEnd CharBackspace CharCtrlH CharCtrlZ CharCtrlL]; [|eexists; split; reflexivity|eexists; split; reflexivity].
    rewrite (ty_s _ T). cbn [obind]. rewrite (ty_c _ T). eexists; split; reflexivity. }
  destruct E as (a & -> & R). cbn [obind]. destruct (after_quiet cf k o a true P (ty_s _ T) (ty_c _ T) (ty_h _ T)) as (h & -> & W).
  do 2 eexists. split; [reflexivity|]. destruct T. cbn. auto 12.
Qed.
Print Assumptions C93_unchanged.

(** "ab", Ctrl-B; then Ctrl-K, Ctrl-A, Ctrl-Y *)
Definition ab_b : op := Eval vm_compute in match op_run (excf ascii 80 None false) [97; 98; 2] fresh with Ok (o, _) => o | _ => fresh end.
Lemma ab_b_typing : typing ab_b /\ o_b ab_b = line [97] [98] [].
Proof.
  split; [|vm_compute; reflexivity]. constructor; try (vm_compute; reflexivity).
  - unfold inside. vm_compute. lia.
  - constructor; cbn; [repeat constructor; cbn; intuition discriminate| | |tauto]; repeat constructor; cbn; lia.
Qed.
Example C93_ex : plain (excf ascii 80 None false) /\ typing ab_b /\ o_b ab_b = line [97] [98] [] /\
  exists o a, op_run (excf ascii 80 None false) [11; 1; 25] ab_b = Ok (o, a) /\ o_b o = line [98] [97] [98].
Proof.
  split; [apply excf_plain|]. destruct ab_b_typing as (T & E). split; [exact T|]. split; [exact E|].
  do 2 eexists. split; vm_compute; reflexivity.
Qed.

(** "Transpose words (TODO)": Meta-T puts a rune on the line which is no character, and the line returned contains it. *)
Theorem C93_meta_t_refuted : exists cf o, plain cf /\ keys_of ascii false [97; 27; 20; 13] = [97; MetaTranspose; 13] /\
  op_run cf [97; MetaTranspose; 13] fresh = Ok (o, [ALine [97; -5]]).
Proof. exists (excf ascii 80 None false). eexists. split; [apply excf_plain|]. split; vm_compute; reflexivity. Qed.
Print Assumptions C93_meta_t_refuted.
(** "Ctrl+D: Delete one character", "Ctrl+C: Send io.EOF": Ctrl-D on an empty line ends the input, and Ctrl-C does not. *)
Theorem C93_ctrl_d_refuted : exists cf o, plain cf /\ op_run cf [4] fresh = Ok (o, [AEof]).
Proof. exists (excf ascii 80 None false). eexists. split; [apply excf_plain|]. vm_compute; reflexivity. Qed.
Print Assumptions C93_ctrl_d_refuted.
Theorem C93_ctrl_c_refuted : exists cf o, plain cf /\ op_run cf [97; 3] fresh = Ok (o, [AIntr [97]]).
Proof. exists (excf ascii 80 None false). eexists. split; [apply excf_plain|]. vm_compute; reflexivity. Qed.
Print Assumptions C93_ctrl_c_refuted.
(** "Tab: Use the word on cursor to complete": in the candidate menu Tab moves to the next candidate; the line is as before. *)
Theorem C93_menu_tab_refuted : exists cf o o' a a', plain cf /\ op_run cf [9; 9] fresh = Ok (o, a) /\ c_sel (o_c o) = true /\ c_choice (o_c o) = 0 /\
  op_step cf 9 o = Ok (o', a') /\ c_sel (o_c o') = true /\ c_choice (o_c o') = 1 /\ rb_buf (o_b o') = [].
Proof.
  exists (excf ascii 80 (Some ab) false). do 4 eexists. split; [apply excf_plain|]. split; [vm_compute; reflexivity|]. split; [vm_compute; reflexivity|].
  split; [vm_compute; reflexivity|]. split; [vm_compute; reflexivity|]. repeat split; vm_compute; reflexivity.
Qed.
Print Assumptions C93_menu_tab_refuted.

(** ** C94: the commands of vim mode *)

(** Esc takes the editor from typing to command mode, and leaves the line as it is. *)
Theorem C94_escape : forall cf o, plain cf -> oc_vim cf = true -> typing o ->
  exists o', op_step cf 27 o = Ok (o', []) /\ commanding o' /\ o_b o' = o_b o /\ o_h o' = o_h o.
Proof.
  intros cf o (L & F) V T. unfold op_step. rewrite (ty_end _ T), (ty_vp _ T), F. unfold handle_key. cbn [Z.eqb andb].
  rewrite (ty_sel _ T). unfold vim_and_switch. rewrite V. unfold HandleVim. rewrite (ty_vn _ T). cbn [Z.eqb Pos.eqb CharEsc obind].
  eexists. split; [reflexivity|]. destruct T. split; [constructor; cbn; auto|]. auto.
Qed.
Print Assumptions C94_escape.

(** The commands of one key; the editor stays in command mode. *)
Theorem C94_one_key : forall cf k e o b, plain cf -> oc_vim cf = true -> commanding o -> vim1 k e -> run_edit e (o_b o) = Ok b -> becomes cf k o b.
Proof. exact vim1_becomes. Qed.
Print Assumptions C94_one_key.

(** x deletes the character under the cursor, and moves to the last character if it was the last one. *)
Theorem C94_x : forall cf o l x r c, plain cf -> oc_vim cf = true -> commanding o -> o_b o = line l (x :: r) c ->
  (r <> [] -> becomes cf 120 o (line l r [x])) /\
  (forall l' y, r = [] -> l = l' ++ [y] -> becomes cf 120 o (line l' [y] [x])).
Proof.
  intros cf o l x r c P V C L. unfold becomes. rewrite (command_passes cf 120 o P V C) by discriminate.
  unfold HandleVimNormal. cbn [Z.eqb Pos.eqb orb CharEnter CharInterrupt]. rewrite L, delete_line. cbn [obind fst]. unfold IsCursorInEnd. cbn [line rb_idx rb_buf].
  rewrite app_length. destruct C. split.
  - intros N. replace (length l =? length l + length r)%nat with false by (destruct r; [easy|cbn; lia]). cbn [obind].
    do 2 eexists. split; [reflexivity|]. cbn. auto 12.
  - intros l' y -> ->. cbn [length]. replace (length (l' ++ [y]) =? length (l' ++ [y]) + 0)%nat with true by lia.
    unfold MoveBackward. cbn [rb_idx line]. rewrite app_length. cbn [length]. replace (length l' + 1 =? 0)%nat with false by lia. cbn [obind].
    do 2 eexists. split; [reflexivity|]. unfold with_idx, line. cbn [rb_buf rb_kill o_b with_b]. rewrite app_nil_r.
    split; [f_equal; lia|]. cbn. auto 12.
Qed.
Print Assumptions C94_x.

(** i, I, a, A, s and S: the editor is typing again. *)
Theorem C94_insert : forall cf k e o b, plain cf -> oc_vim cf = true -> commanding o -> vim_insert k e -> apply_edit e (o_b o) = Ok b ->
  inside b -> exists o', op_step cf k o = Ok (o', []) /\ typing o' /\ o_b o' = b.
Proof.
  intros cf k e o b P V C S E I. eexists. split; [apply (vim_insert_ok cf k e o b); assumption|]. split; [|reflexivity].
  destruct C. constructor; cbn; auto.
Qed.
Print Assumptions C94_insert.

(** The commands of two keys.  Esc cancels f, F, t and T; d and c with a second key they do not know do nothing. *)
Theorem C94_two_keys : forall cf k1 k2 e ins o b, plain cf -> oc_vim cf = true -> commanding o -> vim2 k1 k2 e ins -> apply_edit e (o_b o) = Ok b ->
  inside b -> exists o', op_run cf [k1; k2] o = Ok (o', []) /\ o_b o' = b /\ if ins then typing o' else commanding o'.
Proof.
  intros cf k1 k2 e ins o b P V C S E I. eexists. split; [apply (vim2_ok cf k1 k2 e ins o b); assumption|]. split; [reflexivity|].
  destruct C. destruct ins; constructor; cbn; auto.
Qed.
Print Assumptions C94_two_keys.

(** j and k do what Ctrl-N and Ctrl-P do; Enter and Ctrl-C do what they do when typing, and leave command mode. *)
Lemma switch_v cf r v o : r = 14 \/ r = 16 -> o_vp o = None ->
  key_switch cf r (with_v v None o) = (x <- key_switch cf r o ;; let '(o', a, ks, kc, u) := x in Ok (with_v v None o', a, ks, kc, u)).
Proof.
  intros [-> | ->] _; unfold key_switch; cbn [Z.eqb Pos.eqb orb CharBell CharTab CharBckSearch CharCtrlU CharFwdSearch CharKill MetaForward CharTranspose MetaBackward MetaDelete CharLineStart
    CharLineEnd CharBackspace CharCtrlH CharCtrlZ CharCtrlL MetaBackspace CharCtrlW CharCtrlY CharEnter CharCtrlJ CharBackward CharForward CharPrev CharNext]; cbn [o_h with_v o_b].
  - destruct (Next (o_h o)) as [[[x|] h]| |]; reflexivity.
  - destruct (Prev (o_h o)) as [[[x|] h]| |]; reflexivity.
Qed.
Lemma history_keys_modes cf r o o' a ks kc u : r = 14 \/ r = 16 -> key_switch cf r o = Ok (o', a, ks, kc, u) ->
  ks = false /\ kc = false /\ o_s o' = o_s o /\ o_c o' = o_c o.
Proof.
  intros R E. destruct R as [-> | ->]; unfold key_switch in E; cbn [Z.eqb Pos.eqb orb CharBell CharTab CharBckSearch CharCtrlU CharFwdSearch CharKill MetaForward CharTranspose MetaBackward MetaDelete CharLineStart
    CharLineEnd CharBackspace CharCtrlH CharCtrlZ CharCtrlL MetaBackspace CharCtrlW CharCtrlY CharEnter CharCtrlJ CharBackward CharForward CharPrev CharNext] in E;
  match type of E with (x <- ?g ;; _) = _ => destruct g as [[[x|] h]| |] end; cbn [obind fst snd] in E; try discriminate;
  injection E as <- <- <- <- <-; auto.
Qed.
Theorem C94_history : forall cf k c o, plain cf -> oc_vim cf = true -> commanding o -> (k, c) = (106, 14) \/ (k, c) = (107, 16) ->
  op_step cf k o = (x <- op_step cf c (with_v false None o) ;; Ok (with_v true None (fst x), snd x)).
Proof.
  intros cf k c o P V C K. assert (T : typing (with_v false None o)) by (destruct C; constructor; cbn; auto).
  rewrite (command_passes cf k o P V C) by (destruct K as [K|K]; injection K as -> ->; discriminate).
  rewrite (step_passes cf c _ P T) by (destruct K as [K|K]; injection K as -> ->; discriminate).
  assert (R : c = 14 \/ c = 16) by (destruct K as [K|K]; injection K as -> ->; auto).
  replace (HandleVimNormal k o) with (Ok (o, VKey c, @nil act)) by (destruct K as [K|K]; injection K as -> ->; reflexivity).
  cbn [obind]. replace (c =? 0) with false by lia. rewrite switch_v by (auto; apply C).
  destruct (key_switch cf c o) as [[[[[o1 a] ks] kc] u]| |] eqn:E; cbn [obind]; try reflexivity.
  destruct (history_keys_modes cf c o o1 a ks kc u R E) as (-> & -> & S & Cc).
  assert (Vn : o_vn o1 = true /\ o_vp o1 = None).
  { destruct R as [-> | ->]; unfold key_switch in E; cbn [Z.eqb Pos.eqb orb CharBell CharTab CharBckSearch CharCtrlU CharFwdSearch CharKill MetaForward CharTranspose MetaBackward MetaDelete CharLineStart
    CharLineEnd CharBackspace CharCtrlH CharCtrlZ CharCtrlL MetaBackspace CharCtrlW CharCtrlY CharEnter CharCtrlJ CharBackward CharForward CharPrev CharNext] in E;
    match type of E with (x <- ?g ;; _) = _ => destruct g as [[[x|] h]| |] end; cbn [obind fst snd] in E; try discriminate;
    injection E as <- _ _; cbn; split; apply C. }
  unfold after_switch. destruct P as (L & _). rewrite L. cbn [o_s o_c with_v negb andb]. rewrite S, Cc, (cm_s _ C), (cm_c _ C). cbn [obind o_s with_v].
  rewrite S, (cm_s _ C). cbn [negb]. rewrite andb_true_r. destruct Vn as (V1 & V2). destruct u.
  - cbn [o_b o_h with_v]. destruct (Update (oc_h cf) (rb_buf (o_b o1)) false (o_h o1)) as [h| |]; cbn [obind fst snd]; try reflexivity.
    destruct o1; cbn in V1, V2; subst; reflexivity.
  - cbn [obind fst snd]. destruct o1; cbn in V1, V2; subst; reflexivity.
Qed.
Print Assumptions C94_history.

Theorem C94_enter : forall cf k o, plain cf -> oc_vim cf = true -> commanding o -> k = 13 \/ k = 3 -> op_step cf k o = op_step cf k (with_v false None o).
Proof.
  intros cf k o P V C K. assert (T : typing (with_v false None o)) by (destruct C; constructor; cbn; auto).
  rewrite (command_passes cf k o P V C), (step_passes cf k _ P T) by lia. destruct K as [-> | ->]; reflexivity.
Qed.
Print Assumptions C94_enter.

(** Every other key rings the bell and does nothing. *)
Theorem C94_other : forall cf k o, plain cf -> oc_vim cf = true -> commanding o -> k <> 0 -> ~ In k (13 :: 3 :: vim_keys) -> op_step cf k o = Ok (o, [ABell]).
Proof. exact vim_other. Qed.
Print Assumptions C94_other.

(** "abc", Esc, h, x, 0, r z, f b, a, "!", Enter *)
Definition abc_esc : op := Eval vm_compute in match op_run (excf ascii 80 None true) [97; 98; 99; 27] fresh with Ok (o, _) => o | _ => fresh end.
Example C94_ex : plain (excf ascii 80 None true) /\ commanding abc_esc /\
  exists o a, op_run (excf ascii 80 None true) [104; 120; 48; 114; 122; 102; 98; 97; 33; 13] abc_esc = Ok (o, a) /\ results a = [ALine [122; 98; 33]].
Proof.
  split; [apply excf_plain|]. split.
  - constructor; try (vm_compute; reflexivity).
    constructor; cbn; [repeat constructor; cbn; intuition discriminate| | |tauto]; repeat constructor; cbn; lia.
  - do 2 eexists. split; vm_compute; reflexivity.
Qed.

(** So Ctrl-J is no Enter and Ctrl-D does not end the input in command mode. *)
Theorem C94_ctrl_d_refuted : exists cf o o', plain cf /\ oc_vim cf = true /\ op_run cf [27] fresh = Ok (o, []) /\ rb_buf (o_b o) = [] /\
  op_step cf 4 o = Ok (o', [ABell]) /\ op_step cf 10 o = Ok (o', [ABell]).
Proof.
  exists (excf ascii 80 None true). do 2 eexists. split; [apply excf_plain|]. split; [reflexivity|]. split; [vm_compute; reflexivity|].
  split; [vm_compute; reflexivity|]. split; vm_compute; reflexivity.
Qed.
Print Assumptions C94_ctrl_d_refuted.
(** r with the cursor behind the last character crashes the editor, and the second key is taken as it is: r Enter puts
    a carriage return on the line instead of accepting it. *)
Theorem C94_replace_refuted : exists cf, plain cf /\ oc_vim cf = true /\ op_run cf [97; 27; 114; 98] fresh = Panic /\
  exists o a, op_run cf [97; 27; 104; 114; 13; 13] fresh = Ok (o, a) /\ results a = [ALine [13]].
Proof.
  exists (excf ascii 80 None true). split; [apply excf_plain|]. split; [reflexivity|]. split; [vm_compute; reflexivity|].
  do 2 eexists. split; vm_compute; reflexivity.
Qed.
Print Assumptions C94_replace_refuted.
