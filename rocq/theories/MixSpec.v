(** What the user should see of a program that asks for lines and passwords. *)
From Verif Require Import Base RunesModel RunesSpec RuneBufModel RuneBufSpec HistoryModel ScreenModel RenderModel RenderSpec OpModel OpSpec OutModel OutSpec WideSpec BroadSpec VeilSpec MixModel.
Open Scope Z_scope.

(** The configuration of one call, as in C131 and C133; the same terminal for all. *)
Record call_ok (u : uenv) (w : Z) (c : mcall) : Prop := {
  co_ses : broad_session (mc_cf c); co_u : oc_u (mc_cf c) = u; co_w : oc_w (mc_cf c) = w;
  co_digits : Forall sgr_digits (mc_ps c); co_prompt : Forall (glyph u) (visible (mc_ps c)); co_room : columns u (visible (mc_ps c)) + 1 < w;
  co_paint : broad_colouring u (mc_paint c); co_mask : forall m, mc_mask c = Some m -> mask_ok u m; co_hist : hist_of (glyph u) (mc_h c)
}.

(** Is Readline still waiting after this? *)
Fixpoint still (cf : ocfg) (is : list inp) (o : op) (reading : bool) : bool :=
  match is with
  | [] => reading
  | IRead :: is' => still cf is' o true
  | IPrint _ :: is' => still cf is' o reading
  | IKey r :: is' =>
      match op_step cf r o with
      | Ok (o', acts) => still cf is' o' (match results acts with [] => true | _ => false end)
      | _ => reading
      end
  end.

(** What a call leaves on the screen: C131's texts, or C133's. *)
Definition call_leaves (c : mcall) (o : op) (t : list (list Z)) (o' : op) (acts : list act) : Prop :=
  match mc_mask c with
  | None => broad_leaves (mc_cf c) (visible (mc_ps c)) (mc_in c) o t o' acts
  | Some m => veil_leaves (mc_cf c) (visible (mc_ps c)) m (mc_in c) o t o' acts
  end.

(** The calls one after the other, each finished before the configuration is changed. *)
Inductive mix (u : uenv) (w : Z) : list mcall -> op -> list (list Z) -> op -> list act -> Prop :=
| MxNil o : mix u w [] o [] o []
| MxCall c cs o t o1 a1 t2 o2 a2 : call_ok u w c -> broad_turn (mc_cf c) (visible (mc_ps c)) (mc_in c) (mix_op c o) false ->
    call_leaves c (mix_op c o) t o1 a1 -> still (mc_cf c) (mc_in c) (mix_op c o) false = false ->
    mix u w cs o1 t2 o2 a2 -> mix u w (c :: cs) o (t ++ t2) o2 (a1 ++ a2).

(** The screen during a call: the texts left so far, then prompt and line, masked or not. *)
Definition call_screen (u : uenv) (w : Z) (c : mcall) (y0 : Z) (done : list (list Z)) (b : rbuf) (reading : bool) (s : scr) : Prop :=
  match mc_mask c with
  | None => broad_screen u w (visible (mc_ps c)) y0 {| k_done := done; k_line := rb_buf b; k_idx := rb_idx b; k_reading := reading |} s
  | Some m => veil_screen u w (visible (mc_ps c)) m y0 done (length (rb_buf b)) (rb_idx b) reading s
  end.
