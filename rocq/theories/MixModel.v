(** A program that calls Readline and ReadPassword (or gives the instance other configurations between calls): the drawing state is shared,
    each call has its own prompt, mask, painter and history. *)
From Verif Require Import Base RunesModel RunesSpec RuneBufModel HistoryModel RenderModel RenderSpec OpModel OutModel.
Open Scope Z_scope.

(** One stretch with one configuration: what SetConfig sets (operation.go:458-490; password.go:16-34 for ReadPassword: EnableMask, no hints,
    no listener, no completer, default painter) and what happens until the next SetConfig. *)
Record mcall := { mc_cf : ocfg; mc_ps : list piece; mc_paint : list Z -> nat -> list Z; mc_mask : option Z; mc_h : hist; mc_in : list inp }.

(** operation.go:458-490 SetConfig, what is drawn with: SetPrompt (runebuf.go:585-589), SetMask (82-86), buf.SetConfig (75-80).  Nothing is
    drawn; line, width and the flag of an erased line stay. *)
Definition mix_cfg (c : mcall) (d : rdr) : rdr :=
  {| d_prompt := prompt_runes (mc_ps c); d_buf := d_buf d; d_idx := d_idx d; d_width := d_width d; d_had := d_had d;
     d_inter := d_inter d; d_mask := mc_mask c; d_paint := mc_paint c |}.
(** operation.go:474-483: the history of the configuration in use; which one it is (C44, C46, C119-C121) is left open, [mc_h] is any.
    The search and the completer are new objects, which are at rest like the old ones between calls. *)
Definition mix_op (c : mcall) (o : op) : op := with_h (mc_h c) o.

(** the program: one stretch after the other *)
Fixpoint mix_run (cs : list mcall) (x : op * (bool * rdr)) : outcome ((op * (bool * rdr)) * list Z * list act) :=
  match cs with
  | [] => Ok (x, [], [])
  | c :: cs' =>
      let '(o, (reading, d)) := x in
      a <- ses_run (mc_cf c) (mix_op c o, (reading, mix_cfg c d)) (mc_in c) ;;
      let '(x1, out1, acts1) := a in
      b <- mix_run cs' x1 ;;
      let '(x2, out2, acts2) := b in
      Ok (x2, out1 ++ out2, acts1 ++ acts2)
  end.
