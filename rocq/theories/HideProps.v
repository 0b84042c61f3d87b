(** Property C126: what is typed at a password prompt does not show. *)
From Verif Require Import Base ListAux RunesModel RunesSpec RuneBufModel HistoryModel HistoryProofs ScreenModel RenderModel RenderSpec RenderMore RenderProps OpModel OpProps OutModel SeekModel SeekProps HideSpec HideProofs.
Open Scope Z_scope.

(** Two sessions with a mask (any number of prompts, background output in between) that differ in the characters typed
    only, each as wide as the other, write the same bytes, whatever was killed before and whatever is in the histories;
    they also crash together. *)
Theorem C126_hidden : forall cf is1 is2 o1 o2 reading d1 d2, secret_config cf -> Forall2 (same_inp (oc_u cf)) is1 is2 ->
  same_prompt (oc_u cf) o1 o2 -> masked_alike d1 d2 -> shape (oc_u cf) (d_buf d1) = shape (oc_u cf) (d_buf d2) ->
  same_output (ses_run cf (o1, (reading, d1)) is1) (ses_run cf (o2, (reading, d2)) is2).
Proof.
  intros cf is1 is2 o1 o2 reading d1 d2 C F P M B. apply session_rel; try assumption. split; [reflexivity|]. now constructor.
Qed.
Print Assumptions C126_hidden.

(** The configuration of ReadPassword (the hints "\n" stand for none, readline.go:116-125) on a screen of 30 columns, MaskRune '*'. *)
Definition c126_cf : ocfg :=
  {| oc_u := u0; oc_h := {| hc_limit := -1; hc_fold := false; hc_file := false |}; oc_w := 30; oc_prompt := [63;32];
     oc_auto := None; oc_vim := false; oc_unique := false; oc_nosave := false; oc_listen := None; oc_filter := None;
     oc_eofp := []; oc_intp := [] |}.
Definition c126_o : op := op_new (newOpHistory []).
Definition c126_run (ks : list Z) : outcome ((op * (bool * rdr)) * list Z * list act) :=
  ses_run c126_cf (c126_o, (false, d0 [63;32] 30 (Some 42))) (IRead :: map IKey ks).
Definition c126_seen (ks : list Z) : option (list (list Z) * list act) :=
  match c126_run ks with
  | Ok (_, out, acts) => Some (cells (sexecs u0 30 scr0 out) 2 30, acts)
  | _ => None
  end.

(** "sec", Ctrl-A, "x", Ctrl-E, Backspace, Enter, and the same keys with "pwd" and "y". *)
Definition c126_1 : list Z := [115;101;99;1;120;5;127;13].
Definition c126_2 : list Z := [112;119;100;1;121;5;127;13].
Example C126_ex :
  secret_config c126_cf /\ Forall2 (same_inp u0) (IRead :: map IKey c126_1) (IRead :: map IKey c126_2) /\
  same_prompt u0 c126_o c126_o /\ masked_alike (d0 [63;32] 30 (Some 42)) (d0 [63;32] 30 (Some 42)) /\
  c126_seen c126_1 = Some ([row30 [63;32;42;42;42]; row30 []], [ALine [120;115;101]]) /\
  c126_seen c126_2 = Some ([row30 [63;32;42;42;42]; row30 []], [ALine [121;112;119]]).
Proof.
  split; [constructor; reflexivity|]. split.
  { cbn. constructor; [constructor|]. repeat (constructor; [constructor; first [left; split; [reflexivity|cbn; tauto]|right; unfold typed; repeat split; cbn; lia]|]). constructor. }
  split; [constructor; try reflexivity; [constructor; reflexivity|apply hwf_new..]|].
  split; [constructor; try reflexivity; eexists; split; reflexivity|]. split; vm_compute; reflexivity.
Qed.

(** The keys acting on words give the words away: Ctrl-W after "a b" and after "abc". *)
Theorem C126_word_refuted : exists ks1 ks2, length ks1 = length ks2 /\ (forall i, nth i ks1 0 = nth i ks2 0 \/ typed (nth i ks1 0) /\ typed (nth i ks2 0)) /\
  c126_seen ks1 = Some ([row30 [63;32;42;42]; row30 []], []) /\ c126_seen ks2 = Some ([row30 [63;32]; row30 []], []).
Proof.
  exists [97;32;98;23], [97;98;99;23]. split; [reflexivity|]. split; [|split; vm_compute; reflexivity].
  intros i. do 5 (destruct i as [|i]; [cbn; unfold typed; lia|]). cbn. destruct i; auto.
Qed.
Print Assumptions C126_word_refuted.

(** Ctrl-R at a password prompt: what is typed then is shown below the prompt as it is. *)
Definition c126_sought (is : list inp) : option (list (list Z)) :=
  match seek_run c126_cf (c126_o, (false, d0 [63;32] 30 (Some 42))) is with
  | Ok (_, out, _) => Some (cells (sexecs u0 30 scr0 out) 2 30)
  | _ => None
  end.
Theorem C126_search_refuted : exists secret, secret = [115;101;99] /\ c126_sought (IRead :: IKey 18 :: map IKey secret) =
    Some [row30 [63;32]; row30 ([102;97;105;108;105;110;103;32] ++ [98;99;107;45;105;45;115;101;97;114;99;104;58;32] ++ secret)].
Proof. eexists. split; [reflexivity|]. vm_compute. reflexivity. Qed.
Print Assumptions C126_search_refuted.
