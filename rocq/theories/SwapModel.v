(** Changing the prompt during a session: SetPrompt, Refresh and Clean called by the application between and during
    Readline calls, together with the sessions of OutModel.v. *)
From Verif Require Import Base RunesModel RuneBufModel HistoryModel RenderModel OpModel OutModel.
Open Scope Z_scope.

(** runebuf.go:585-589 SetPrompt (operation.go:92-94, readline.go:188-190): the field only, nothing is drawn *)
Definition with_prompt (p : list Z) (d : rdr) : rdr :=
  {| d_prompt := p; d_buf := d_buf d; d_idx := d_idx d; d_width := d_width d; d_had := d_had d;
     d_inter := d_inter d; d_mask := d_mask d; d_paint := d_paint d |}.

Inductive pinp := PIn (i : inp) | PPrompt (p : list Z) | PRefresh | PClean.

(** One call or key. PRefresh: operation.go:503-507 (only while a Readline call waits, as seen by isReading; readline.go:326-328);
    PClean: runebuf.go:613-617 (operation.go:509-511, readline.go:293-295).  Each holds the lock of the buffer throughout and is one
    step here. *)
Definition pses_step (cf : ocfg) (x : op * (bool * rdr)) (i : pinp) : outcome ((op * (bool * rdr)) * list Z * list act) :=
  let '(o, st) := x in
  match i with
  | PIn i => ses_step cf x i
  | PPrompt p => Ok ((o, (fst st, with_prompt p (snd st))), [], [])
  | PRefresh =>
      if fst st then
        r <- refresh (oc_u cf) (snd st) (d_buf (snd st)) (d_idx (snd st)) [] ;;
        Ok ((o, (fst st, fst r)), snd r, [])
      else Ok (x, [], [])
  | PClean => r <- clean (oc_u cf) (snd st) ;; Ok ((o, (fst st, fst r)), snd r, [])
  end.

Fixpoint pses_run (cf : ocfg) (x : op * (bool * rdr)) (is : list pinp)
    : outcome ((op * (bool * rdr)) * list Z * list act) :=
  match is with
  | [] => Ok (x, [], [])
  | i :: is' =>
      a <- pses_step cf x i ;;
      let '(x1, out1, acts1) := a in
      b <- pses_run cf x1 is' ;;
      let '(x2, out2, acts2) := b in
      Ok (x2, out1 ++ out2, acts1 ++ acts2)
  end.
