(** What a program reading from a pipe should write. *)
From Verif Require Import Base RunesModel RuneBufModel HistoryModel RenderModel OpModel OutModel.
Open Scope Z_scope.

(** Ctrl-R, Ctrl-S, Ctrl-L, Ctrl-Z, and Tab if there is a completer, are not in the input, or the filter removes them. *)
Definition pipe_key (cf : ocfg) (r : Z) : Prop :=
  forall r', (match oc_filter cf with None => Some r | Some f => f r end) = Some r' ->
    ~ In r' [CharBckSearch; CharFwdSearch; CharCtrlL; CharCtrlZ] /\ (r' = CharTab -> oc_auto cf = None).
Definition pipe_inp (cf : ocfg) (i : inp) : Prop := match i with IKey r => pipe_key cf r | _ => True end.

(** Neither searching nor completing. *)
Record idle (o : op) : Prop := {
  id_s : s_in (o_s o) = false; id_c : c_in (o_c o) = false; id_sel : c_sel (o_c o) = false; id_vp : o_vp o = None
}.

(** What is written: the texts printed, and a bell where a key has no effect. *)
Definition bells (acts : list act) : list Z := flat_map (fun a => match a with ABell => [7] | _ => [] end) acts.
Inductive writes (cf : ocfg) : list inp -> op -> list Z -> op -> list act -> Prop :=
| WNil o : writes cf [] o [] o []
| WRead is o out o' acts : writes cf is o out o' acts -> writes cf (IRead :: is) o out o' acts
| WPrint t is o out o' acts : writes cf is o out o' acts -> writes cf (IPrint t :: is) o (t ++ out) o' acts
| WKey r is o o1 a1 out o' acts : op_step cf r o = Ok (o1, a1) -> writes cf is o1 out o' acts ->
    writes cf (IKey r :: is) o (bells a1 ++ out) o' (a1 ++ acts).

(** the configuration on a terminal of another width *)
Definition set_width (w : Z) (cf : ocfg) : ocfg :=
  {| oc_u := oc_u cf; oc_h := oc_h cf; oc_w := w; oc_prompt := oc_prompt cf; oc_auto := oc_auto cf; oc_vim := oc_vim cf;
     oc_unique := oc_unique cf; oc_nosave := oc_nosave cf; oc_listen := oc_listen cf; oc_filter := oc_filter cf;
     oc_eofp := oc_eofp cf; oc_intp := oc_intp cf |}.
Definition keys_of (is : list inp) : list Z := flat_map (fun i => match i with IKey r => [r] | _ => [] end) is.
