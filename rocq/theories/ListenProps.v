(** Property C111: the Listener. *)
From Verif Require Import Base RunesModel RuneBufModel HistoryModel HistoryProofs RuneBufSpec RuneBufProofs OpModel OpSpec OpProofs OpKeys OpModes OpProps OpTableSpec OpTable
  ListenSpec ListenProofs.
Open Scope Z_scope.

(** A listener that only watches changes nothing, whatever keys are pressed and whatever is open. *)
Theorem C111_silent cf f rs o : oc_listen cf = Some f -> (forall l p k, f l p k = None) -> op_run cf rs o = op_run (unlistened cf) rs o.
Proof.
  intros L N. revert o. induction rs as [|r rs IH]; intros o; [reflexivity|]. cbn [op_run]. rewrite (step_silent cf f r o L N).
  destruct (op_step (unlistened cf) r o) as [[o1 a]| |]; cbn [obind fst snd]; try reflexivity. rewrite IH. reflexivity.
Qed.
Print Assumptions C111_silent.

(** At the prompt the listener is told, after every key, the line and cursor as the key has left them, and the key; its answer replaces them, and nothing
    else changes but the history's note of the line.  Missing, and false (below): the keys of the candidate menu and vim's commands.  Tab, Ctrl-R and Ctrl-S
    open something. *)
Theorem C111_told_partial cf f k o : oc_listen cf = Some f -> oc_filter cf = None -> typing o -> k <> 0 -> k <> 27 -> k <> 9 -> k <> 18 -> k <> 19 ->
  match op_step (unlistened cf) k o with
  | Ok (o1, a) => exists h, op_step cf k o = Ok (with_h h (heard f k o1), a) /\ hwf h
  | Panic => op_step cf k o = Panic
  | Hang => op_step cf k o = Hang
  end.
Proof. apply step_heard. Qed.
Print Assumptions C111_told_partial.

(** A line typed before a listener: each rune goes in at the cursor and the listener is told; Enter returns the line the listener gave last, and tells the
    listener of the empty line that follows. *)
Theorem C111_line cf f l k o : oc_listen cf = Some f -> oc_filter cf = None -> sane f -> typing o -> Forall ordinary l -> k = 13 \/ k = 10 ->
  exists o', op_run cf (l ++ [k]) o = Ok (o', [ALine (fst (fold_left (type_heard f) l (rb_buf (o_b o), rb_idx (o_b o))))]) /\ typing o' /\
    (rb_buf (o_b o'), rb_idx (o_b o')) = answer f k ([], 0%nat).
Proof.
  intros L F Sa T O K. destruct (text_heard cf f l L F Sa O o T) as (o1 & E1 & T1 & B1). destruct (enter_heard cf f k o1 L F Sa T1 K) as (o2 & E2 & T2 & B2).
  exists o2. rewrite op_run_app, E1. cbn [obind fst snd op_run app]. rewrite E2. cbn [obind fst snd app]. rewrite <- B1. cbn [fst]. auto.
Qed.
Print Assumptions C111_line.

(** The shortcuts of doc/shortcut.md before a listener: it is told the line the shortcut makes. *)
Theorem C111_shortcuts cf f k e o b : oc_listen cf = Some f -> oc_filter cf = None -> sane f -> typing o -> shortcut k e -> run_edit e (o_b o) = Ok b ->
  exists o' a, op_step cf k o = Ok (o', a) /\ results a = [] /\ (inside b -> typing o') /\ (rb_buf (o_b o'), rb_idx (o_b o')) = answer f k (rb_buf b, rb_idx b).
Proof.
  intros L F Sa T S E. assert (Pl : plain (unlistened cf)) by (split; [reflexivity|exact F]).
  destruct (shortcut_becomes (unlistened cf) k e o b Pl T S E) as (o1 & a & St & B & Ra & Es & Ec & El & Evn & Evp & Een & Wh).
  pose proof (step_heard cf f k o L F T) as H. rewrite St in H. destruct H as (h & H & W); [destruct S; discriminate..|].
  do 2 eexists. split; [exact H|]. split; [exact Ra|]. split; [|rewrite heard_line, B; reflexivity].
  intros I. apply heard_typing; [exact Sa| |exact W]. destruct T. constructor; congruence || assumption || now rewrite B.
Qed.
Print Assumptions C111_shortcuts.

(** Example: a listener that keeps the line in capitals. *)
Definition upper (r : Z) : Z := if (97 <=? r) && (r <=? 122) then r - 32 else r.
Definition capitals : listener := fun l p _ => Some (map upper l, p).
Definition listening (f : listener) (auto : option (list Z -> nat -> list (list Z) * nat)) (vim : bool) : ocfg :=
  {| oc_u := ascii; oc_h := {| hc_limit := 500; hc_fold := false; hc_file := false |}; oc_w := 80; oc_prompt := [62;32];
     oc_auto := auto; oc_vim := vim; oc_unique := false; oc_nosave := false; oc_listen := Some f; oc_filter := None; oc_eofp := [94;68]; oc_intp := [94;67] |}.

(** A listener that makes every line "ab", cursor in front. *)
Definition always_ab : listener := fun _ _ _ => Some ([97;98], 0%nat).

Example C111_ex : sane always_ab /\ typing fresh /\ Forall ordinary [99;100] /\
  (exists o', op_run (listening always_ab None false) [99;13] fresh = Ok (o', [ALine [97;98]])) /\
  (exists o', op_run (listening capitals None false) [99;2;100;13] fresh = Ok (o', [ALine [68;67]])).
Proof.
  split; [intros l p k l' p' E; injection E as <- <-; cbn; lia|]. split; [apply rest_typing, fresh_rest|].
  split; [repeat constructor; unfold ordinary; lia|]. split; eexists; vm_compute; reflexivity.
Qed.

(** The next prompt need not begin with an empty line: the listener is told of the empty line after Enter, and its answer is there when Readline is
    called again, before a key is pressed. *)
Theorem C111_next_refuted : exists cf f o', oc_listen cf = Some f /\ sane f /\ op_run cf [99;13] fresh = Ok (o', [ALine [97;98]]) /\ rb_buf (o_b o') = [97;98].
Proof.
  exists (listening always_ab None false), always_ab. eexists. split; [reflexivity|]. split; [intros l p k l' p' E; injection E as <- <-; cbn; lia|].
  split; [vm_compute; reflexivity|]. vm_compute. reflexivity.
Qed.
Print Assumptions C111_next_refuted.

(** The keys of the candidate menu are not told to the listener: one that makes every line "ab" sees none of this. *)
Theorem C111_menu_refuted : exists cf o', oc_listen cf = Some always_ab /\ op_run cf [9;9;9;13] fresh = Ok (o', [AKick]) /\ rb_buf (o_b o') <> [97;98].
Proof.
  exists (listening always_ab (Some ab) false). eexists. split; [reflexivity|]. split; [vm_compute; reflexivity|]. vm_compute. discriminate.
Qed.
Print Assumptions C111_menu_refuted.

(** Nor are vim's commands: x shortens the line to "b". *)
Theorem C111_vim_refuted : exists cf o', oc_listen cf = Some always_ab /\ op_run cf [99;27;120] fresh = Ok (o', []) /\ rb_buf (o_b o') = [98].
Proof.
  exists (listening always_ab None true). eexists. split; [reflexivity|]. split; [vm_compute; reflexivity|]. vm_compute. reflexivity.
Qed.
Print Assumptions C111_vim_refuted.

(** A cursor beyond the line is taken as it is, and the next rune typed brings the program down. *)
Theorem C111_cursor_refuted : exists cf f o', oc_listen cf = Some f /\ op_run cf [99] fresh = Ok (o', []) /\ op_run cf [99;99] fresh = Panic.
Proof.
  exists (listening (fun l p k => Some ([97], 2%nat)) None false). do 2 eexists. split; [reflexivity|]. split; vm_compute; reflexivity.
Qed.
Print Assumptions C111_cursor_refuted.
