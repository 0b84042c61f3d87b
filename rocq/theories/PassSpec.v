(** What a password prompt may be asked to do (operation.go:403-424, password.go:23-34): no completer, no vim mode, a history of any limit. *)
From Verif Require Import Base RunesModel RunesSpec RuneBufModel RuneBufSpec HistoryModel HistoryProofs RenderModel RenderSpec OpModel OpSpec OutModel WideSpec BroadSpec MixModel MixSpec.
Open Scope Z_scope.

(** The configuration of GenPasswordConfig, with any Listener that puts the cursor inside the line it returns. *)
Record asking (cf : ocfg) : Prop := {
  as_vim : oc_vim cf = false; as_auto : oc_auto cf = None; as_filter : oc_filter cf = None;
  as_listen : forall f l i r l' j, oc_listen cf = Some f -> f l i r = Some (l', j) -> (j <= length l')%nat
}.

(** Nothing but a line is being edited; the history is any that a sequence of its own operations can lead to ([hwf], C21). *)
Record calm (o : op) : Prop := {
  cm_idx : (rb_idx (o_b o) <= length (rb_buf (o_b o)))%nat; cm_h : hwf (o_h o);
  cm_s : s_in (o_s o) = false; cm_c : c_in (o_c o) = false; cm_sel : c_sel (o_c o) = false; cm_vp : o_vp o = None
}.

(** The keys that can crash it: searches (Ctrl-R, Ctrl-S), and Ctrl-T on a line of one character. *)
Definition touchy (r : Z) (o : op) : Prop := r = 18 \/ r = 19 \/ (r = 20 /\ length (rb_buf (o_b o)) = 1%nat).
Fixpoint untouchy (cf : ocfg) (rs : list Z) (o : op) : Prop :=
  match rs with
  | [] => True
  | r :: rs' => ~ touchy r o /\ forall o' a, op_step cf r o = Ok (o', a) -> untouchy cf rs' o'
  end.

(** With searches, on a terminal of known width and without a listener.  The keys that can crash it: a search (Ctrl-R, Ctrl-S) as the first key
    of a call, and Ctrl-T on a line of one character. *)
Record asking_wide (cf : ocfg) : Prop := { aw_ask : asking cf; aw_listen : oc_listen cf = None; aw_w : 0 < oc_w cf; aw_prompt : exists v, ColorFilter (oc_prompt cf) = Ok v }.
Definition tripping (first : bool) (r : Z) (o : op) : Prop := ((r = 18 \/ r = 19) /\ first = true) \/ (r = 20 /\ length (rb_buf (o_b o)) = 1%nat).
Fixpoint steady (cf : ocfg) (first : bool) (rs : list Z) (o : op) : Prop :=
  match rs with
  | [] => True
  | r :: rs' => ~ tripping first r o /\ forall o' a, op_step cf r o = Ok (o', a) -> steady cf (match results a with [] => false | _ => true end) rs' o'
  end.
(** A prompt as it is before the first key: [calm], and no match marked. *)
Definition unasked (o : op) : Prop := calm o /\ s_ms (o_s o) = 0%nat /\ s_data (o_s o) = [].

(** Programs as in C134, all calls without completer, each with any history of its own; every call finished before the next. *)
Fixpoint mix_turn (u : uenv) (w : Z) (cs : list mcall) (o : op) : Prop :=
  match cs with
  | [] => True
  | c :: cs' => call_ok u w c /\ oc_auto (mc_cf c) = None /\ hwf (mc_h c) /\ broad_turn (mc_cf c) (visible (mc_ps c)) (mc_in c) (mix_op c o) false /\
      still (mc_cf c) (mc_in c) (mix_op c o) false = false /\ forall t o1 a1, call_leaves c (mix_op c o) t o1 a1 -> mix_turn u w cs' o1
  end.
