(** Model of Instance.ReadlineWithDefault (readline.go:260-263) and Operation.SetBuffer (operation.go:37-39). *)
From Verif Require Import Base RunesModel RuneBufModel HistoryModel RenderModel OpModel.
Open Scope Z_scope.

(** operation.go:37-39 SetBuffer: o.buf.Set([]rune(what)); [d] is []rune(what).  Simplification: the redrawing done by
    RuneBuffer.Set is in RenderModel.v. *)
Definition SetBuffer (d : list Z) (o : op) : op := with_b (Set_ d (o_b o)) o.

(** readline.go:260-263 ReadlineWithDefault, and the keys typed at that prompt (operation.go:381-401 Runes starts reading:
    the keys are those delivered from then on). *)
Definition ReadlineWithDefault (cf : ocfg) (d : list Z) (keys : list Z) (o : op) : outcome (op * list act) :=
  op_run cf keys (SetBuffer d o).
