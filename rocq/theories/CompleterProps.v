(** Properties C31-C33: the supplied completers. *)
From Verif Require Import Base ListAux RunesModel RunesSpec RunesProofs CompleterModel CompleterSpec CompleterProofs.
Open Scope nat_scope.

(** C31: the text before the cursor is [g ++ l] with [l] made of complete words [ws] and a last word [w]. *)
Theorem C31_prefix_completer : forall t line pos ws w g l t',
  pos <= length line -> tree_ok line t -> all_space g -> firstn pos line = g ++ l ->
  line_of_words ws w l -> reach line t ws t' ->
  PrefixDo t line pos =
    Ok (completions line t' w, match completions line t' w with [] => 0 | _ => length w end).
Proof.
  exact (fun t line pos ws w g l t' P T G E L R => proj1 (PrefixDo_correct t line pos ws w g P T G l E L) t' R).
Qed.
Print Assumptions C31_prefix_completer.

Theorem C31_unknown_command : forall t line pos ws w g l,
  pos <= length line -> tree_ok line t -> all_space g -> firstn pos line = g ++ l ->
  line_of_words ws w l -> (forall t', ~ reach line t ws t') -> PrefixDo t line pos = Ok ([], 0).
Proof.
  exact (fun t line pos ws w g l P T G E L R => proj2 (PrefixDo_correct t line pos ws w g P T G l E L) R).
Qed.
Print Assumptions C31_unknown_command.

(** every text has such a decomposition *)
Theorem C31_every_line : forall text : list Z,
  exists g ws w l, text = g ++ l /\ all_space g /\ line_of_words ws w l.
Proof. exact line_decomp. Qed.
Print Assumptions C31_every_line.

(** a completion is offered iff it turns the last word into a name *)
Theorem C31_completions : forall line t w s,
  In (s ++ [32%Z]) (completions line t w) <-> exists c, In (w ++ s, c) (entries line t).
Proof.
  intros line t w s. unfold completions. rewrite in_flat_map. split.
  - intros ([n c] & I & M). cbn [fst] in M. destruct (strip w n) as [s'|] eqn:S; [|elim M].
    destruct M as [M|[]]. apply app_inj_tail in M. destruct M as (-> & _).
    apply strip_spec in S. subst n. now exists c.
  - intros (c & I). exists (w ++ s, c). split; [exact I|]. cbn [fst].
    assert (X : strip w (w ++ s) = Some s) by now apply strip_spec. rewrite X. now left.
Qed.
Print Assumptions C31_completions.

(** "mode vi": root with mode{vi, emacs} and say; completing "mode v" *)
Definition ex_tree : ctree :=
  Item [] [Item [109;111]%Z [Item [118;105]%Z []; Item [118;97]%Z []]; Dynamic (fun _ => [[115]%Z]) []].
Definition ex_line : list Z := [32;109;111;32;32;118]%Z.
Example C31_ex :
  tree_ok ex_line ex_tree /\ line_of_words [[109;111]%Z] [118%Z] [109;111;32;32;118]%Z /\
  (exists t', reach ex_line ex_tree [[109;111]%Z] t') /\
  PrefixDo ex_tree ex_line 6 = Ok ([[105;32]%Z; [97;32]%Z], 1).
Proof.
  assert (LF : forall n, tree_ok ex_line (Item n [])).
  { intros n. constructor; cbn; [constructor|constructor|tauto]. }
  assert (LD : forall f, tree_ok ex_line (Dynamic f [])).
  { intros n. constructor; cbn; [constructor|constructor|tauto]. }
  split; [|split; [|split]].
  - constructor.
    + cbn. repeat constructor; cbn; intuition discriminate.
    + cbn. repeat constructor; cbn; discriminate.
    + cbn. intros c [<-|[<-|[]]]; [|apply LD]. constructor.
      * cbn. repeat constructor; cbn; intuition discriminate.
      * cbn. repeat constructor; cbn; discriminate.
      * cbn. intros c [<-|[<-|[]]]; apply LF.
  - apply (low_word [109;111]%Z [32]%Z [] [118]%Z [118]%Z).
    + split; [cbn; intuition discriminate|reflexivity].
    + discriminate.
    + repeat constructor.
    + constructor. split; [cbn; intuition discriminate|reflexivity].
  - eexists. econstructor; [|constructor]. cbn. left. reflexivity.
  - reflexivity.
Qed.

(** C31, finding: when a name contains a blank the completer mixes it up with the words before it:
    below the names "go" and "go run" the text "go r" offers "go " as a continuation of the line. *)
Theorem C31_inner_blank_refuted : exists t line,
  NoDup (map fst (entries line t)) /\ ~ In [103;111;32]%Z (completions line t line) /\
  PrefixDo t line (length line) = Ok ([[103;111;32]%Z; [117;110;32]%Z], length line).
Proof.
  exists (Item [] [Item [103;111]%Z []; Item [103;111;32;114;117;110]%Z []]), [103;111;32;114]%Z.
  split; [|split; [|reflexivity]].
  - repeat constructor; cbn; intuition discriminate.
  - cbn. intuition discriminate.
Qed.
Print Assumptions C31_inner_blank_refuted.

(** C32 *)
Theorem C32_split_segment : forall line pos, pos <= length line ->
  exists segs last, SplitSegment line pos = Ok (segs ++ [last], length last) /\
    join_blank (segs ++ [last]) = firstn pos line /\ Forall (fun s => ~ In 32%Z s) (segs ++ [last]).
Proof. exact SplitSegment_spec. Qed.
Print Assumptions C32_split_segment.
Example C32_ex : SplitSegment [97;32;32;98;99;32;100]%Z 5 = Ok ([[97]; []; [98;99]]%Z, 2).
Proof. reflexivity. Qed.

(** C33 *)
Theorem C33_segment_completion : forall f line pos, pos <= length line ->
  exists segs last, join_blank (segs ++ [last]) = firstn pos line /\
    Forall (fun s => ~ In 32%Z s) (segs ++ [last]) /\
    SegmentDo f line pos =
    Ok (flat_map (fun c => match strip last c with Some s => [s ++ [32%Z]] | None => [] end)
          (f (segs ++ [last]) (length last)), length last).
Proof. exact SegmentDo_spec. Qed.
Print Assumptions C33_segment_completion.

Theorem C33_strip : forall w n s, strip w n = Some s <-> n = w ++ s.
Proof. exact strip_exact. Qed.
Print Assumptions C33_strip.
Example C33_ex : SegmentDo (fun _ _ => [[97;98]; [99]; [97;100]]%Z) [120;32;97]%Z 3
  = Ok ([[98;32]; [100;32]]%Z, 1).
Proof. reflexivity. Qed.

(** The white space that completing skips is Unicode's. *)
Theorem C31_white_space : forall l, exists g t, l = g ++ t /\ TrimSpaceLeft l = t /\ Forall (fun r => In r white_space) g /\
  match t with [] => True | r :: _ => ~ In r white_space end.
Proof. exact TrimSpaceLeft_spec. Qed.
Print Assumptions C31_white_space.
Example C31_white_space_ex : TrimSpaceLeft [32; 8195; 8203; 32]%Z = [8203; 32]%Z /\ TrimSpaceLeft [12288; 9]%Z = [].
Proof. split; reflexivity. Qed.
