(** FuncFilterInputRune: what it lets through, and the editor without it. *)
From Verif Require Import Base OpModel OpSpec.
Open Scope Z_scope.

(** The runes typed, as the filter passes them on. *)
Definition passed (f : Z -> option Z) (rs : list Z) : list Z := flat_map (fun r => match f r with Some r' => [r'] | None => [] end) rs.

Definition unfiltered (cf : ocfg) : ocfg :=
  {| oc_u := oc_u cf; oc_h := oc_h cf; oc_w := oc_w cf; oc_prompt := oc_prompt cf; oc_auto := oc_auto cf; oc_vim := oc_vim cf; oc_unique := oc_unique cf;
     oc_nosave := oc_nosave cf; oc_listen := oc_listen cf; oc_filter := None; oc_eofp := oc_eofp cf; oc_intp := oc_intp cf |}.

(** What a run shows to the program: everything but the kicks of the terminal. *)
Definition shown_acts (a : list act) : list act := filter (fun x => match x with AKick => false | _ => true end) a.
Definition visible_run (x : outcome (op * list act)) : outcome (op * list act) :=
  match x with Ok (o, a) => Ok (o, shown_acts a) | Panic => Panic | Hang => Hang end.

(** No filter, or a filter that keeps apart the keys after which the terminal pauses (Ctrl-C, Enter, Ctrl-J, Ctrl-D) from
    the others, drops none of the others, and lets the end of the input pass. *)
Definition gentle (cf : ocfg) : Prop :=
  match oc_filter cf with
  | None => True
  | Some f => f 0 = Some 0 /\ forall r, r <> 0 -> match f r with Some r' => r' <> 0 /\ (pause_key r' <-> pause_key r) | None => pause_key r end
  end.
