(** Switching the recording of the history off and on between keys. *)
From Verif Require Import Base RunesModel HistoryModel HistorySpec RenderModel OpModel OpSpec.
Open Scope Z_scope.

(** A key, or a call of HistoryDisable or HistoryEnable (readline.go:330-338) while the editor waits for one. *)
Inductive hev := HKey (r : Z) | HOff | HOn.

(** The whole session: the final editor, everything that was returned, and the lines among it that were
    submitted while recording was on.  [on] is the switch as the caller sees it. *)
Fixpoint hev_run (cf : ocfg) (es : list hev) (on : bool) (o : op) : outcome (op * list act * list (list Z)) :=
  match es with
  | [] => Ok (o, [], [])
  | HOff :: es' => hev_run cf es' false (with_h (Disable (o_h o)) o)
  | HOn :: es' => hev_run cf es' true (with_h (Enable (o_h o)) o)
  | HKey r :: es' =>
      x <- op_step cf r o ;;
      y <- hev_run cf es' on (fst x) ;;
      Ok (fst (fst y), snd x ++ snd (fst y), (if on then lines_of (snd x) else []) ++ snd y)
  end.

(** Any key but the two that search the history. *)
Definition no_search_keys (es : list hev) : Prop := ~ In (HKey 18) es /\ ~ In (HKey 19) es.
