(** HistoryLimit -1 ("set it to -1 to disable history", readline.go:36): what it means at the prompt. *)
From Verif Require Import Base RunesModel RuneBufModel HistoryModel RenderModel OpModel OpSpec.
Open Scope Z_scope.

(** A negative limit; any other options. *)
Definition history_off (cf : ocfg) : Prop := hc_limit (oc_h cf) < 0.
(** No line is kept: there is at most the entry for a line to come, without text. *)
Definition blank (h : hist) : Prop := (length (h_items h) <= 1)%nat /\ Forall (fun x => it_src x = []) (h_items h).
Definition nothing_kept (o : op) : Prop := blank (o_h o).
(** Editing the line: no candidate is being chosen, nothing is searched, no vim mode, no listener, no filter. *)
Definition browsing_prompt (cf : ocfg) (o : op) : Prop :=
  o_end o = false /\ c_sel (o_c o) = false /\ c_in (o_c o) = false /\ o_vp o = None /\ s_in (o_s o) = false /\
  oc_vim cf = false /\ oc_listen cf = None /\ oc_filter cf = None.
