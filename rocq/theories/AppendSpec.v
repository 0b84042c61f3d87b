(** The history file during a session: what may happen to it. *)
From Verif Require Import Base RunesModel RuneBufModel HistoryModel OpModel OpSpec.
Open Scope nat_scope.

(** Keys, and the calls that concern the history: SaveHistory (readline.go:265-267), ResetHistory (readline.go:184-186),
    HistoryDisable and HistoryEnable (readline.go:331-338). *)
Inductive fevent := KKey (r : Z) | KSave (s : list Z) | KReset | KOff | KOn.

Fixpoint f_run (cf : ocfg) (es : list fevent) (o : op) : outcome (op * list act) :=
  match es with
  | [] => Ok (o, [])
  | KKey r :: es' => x <- op_step cf r o ;; y <- f_run cf es' (fst x) ;; Ok (fst y, snd x ++ snd y)
  | KSave s :: es' => h <- New (oc_h cf) s (o_h o) ;; f_run cf es' (with_h h o)
  | KReset :: es' => f_run cf es' (with_h (HReset (o_h o)) o)
  | KOff :: es' => f_run cf es' (with_h (Disable (o_h o)) o)
  | KOn :: es' => f_run cf es' (with_h (Enable (o_h o)) o)
  end.

Definition saves (es : list fevent) : nat := length (filter (fun e => match e with KSave _ => true | _ => false end) es).

(** Nothing that writes: recording is off all the time, or it is off for entered lines and SaveHistory is not called. *)
Definition writes_nothing (cf : ocfg) (es : list fevent) (h : hist) : Prop :=
  (h_enable h = false /\ ~ In KOn es) \/ (oc_nosave cf = true /\ saves es = 0).
