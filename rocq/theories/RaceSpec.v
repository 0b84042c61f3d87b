(** What the user should see, whatever the order in which the goroutines run. *)
From Verif Require Import Base RunesModel RunesSpec RuneBufModel HistoryModel TerminalModel ScreenModel RenderModel RenderSpec OpModel OpSpec OutModel OutSpec SessionModel RaceModel.
Open Scope Z_scope.

(** Keys that may be pressed one after the other (OutSpec.may_press), none of which breaks the editor. *)
Fixpoint typed (cf : ocfg) (ks : list Z) (o : op) : Prop :=
  match ks with
  | [] => True
  | k :: ks' => may_press cf o k /\ exists o' acts, op_step cf k o = Ok (o', acts) /\ typed cf ks' o'
  end.

(** The texts above the prompt: results and printed lines, in the order of the calling goroutine. *)
Definition above (cf : ocfg) (v : list Z) (lg : list lev) : list (list Z) :=
  flat_map (fun x => match x with LCall => [] | LRes a => text_of cf v a | LWrite ls | LDirect ls | LBack ls => ls end) lg.
Definition got (lg : list lev) : list act := flat_map (fun x => match x with LRes a => [a] | _ => [] end) lg.
Definition printable_log (u : uenv) (lg : list lev) : Prop :=
  Forall (fun x => match x with LWrite ls | LDirect ls | LBack ls => Forall (Forall (RenderSpec.plain u)) ls | _ => True end) lg.

(** After something is printed through the instance's writer the goroutine prints nothing more before its next call. *)
Fixpoint one_write (lg : list lev) : Prop :=
  match lg with
  | [] => True
  | LWrite _ :: lg' => match lg' with [] | LCall :: _ => True | _ => False end /\ one_write lg'
  | _ :: lg' => one_write lg'
  end.

(** A Readline call waits, the terminal goroutine knows, the editor has nothing to do. *)
Definition calm (c : conc) : Prop :=
  n_p c = PWait /\ n_flag c = true /\ ss_err (n_s c) = None /\ exists o, ss_e (n_s c) = ERecv o.

(** Executions in which other goroutines print at such moments only. *)
Inductive preach (cf : ocfg) (c0 : conc) : conc -> Prop :=
| pr_0 : preach cf c0 c0
| pr_1 c c' : preach cf c0 c -> moves cf c c' -> preach cf c0 c'
| pr_2 c c' : preach cf c0 c -> back cf c c' -> calm c -> preach cf c0 c'.
