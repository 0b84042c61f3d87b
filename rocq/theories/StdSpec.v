(** A program built on the package-level functions: it asks for lines and adds every line it gets to the history. *)
From Verif Require Import Base RunesModel HistoryModel HistorySpec RenderModel OpModel OpSpec LifeModel StdModel.
Open Scope Z_scope.

Fixpoint add_lines (ls : list (list Z)) (l : life) : outcome life :=
  match ls with
  | [] => Ok l
  | s :: ls' => l1 <- AddHistory s l ;; add_lines ls' l1
  end.

(** What happens: a key is typed, or the program calls Line with a prompt (std.go:62-66).  When a key makes Line return
    a line, the program calls AddHistory with it before it asks for another. *)
Inductive sev := SKey (r : Z) | SLine (prompt : list Z).
Fixpoint program (e : lenv) (es : list sev) (l : life) : outcome (life * list act) :=
  match es with
  | [] => Ok (l, [])
  | SLine p :: es' => program e es' (set_prompt p l)
  | SKey r :: es' =>
      x <- keys_in e [r] l ;;
      l1 <- add_lines (lines_of (snd x)) (fst x) ;;
      y <- program e es' l1 ;;
      Ok (fst y, snd x ++ snd y)
  end.

Definition no_searching (es : list sev) : Prop := ~ In (SKey 18) es /\ ~ In (SKey 19) es.

(** States a program can get to: the instance as made, SetHistoryPath, SetAutoComplete, lines read and added. *)
Inductive std_reach (e : lenv) (fs : list Z -> list Z) : life -> Prop :=
| sr_new : std_reach e fs (std_new e fs)
| sr_path p l : std_reach e fs l -> std_reach e fs (std_path e p l)
| sr_auto f l : std_reach e fs l -> std_reach e fs (std_auto e (Some f) l)
| sr_program es l l' a : std_reach e fs l -> program e es l = Ok (l', a) -> std_reach e fs l'.

(** The lines in the history of the instance, oldest first. *)
Definition std_history (l : life) : list (list Z) := committed (h_load (l_hid l) l).
