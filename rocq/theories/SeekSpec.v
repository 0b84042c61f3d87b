(** What the user should see during a history search. *)
From Verif Require Import Base RunesModel RunesSpec RuneBufModel RuneBufSpec HistoryModel ScreenModel RenderModel RenderSpec OpModel OpSpec MenuSpec OutModel OutSpec.
Open Scope Z_scope.

(** The status row, if a search is on. *)
Definition status_of (o : op) : option (list Z) :=
  if s_in (o_s o) then Some (status (s_fail (o_s o)) (s_bck (o_s o)) (s_data (o_s o))) else None.

(** The screen of C123, or that with a status: texts left so far, prompt and line with the cursor in it, and in the row
    below the line the status and nothing else. *)
Definition seek_screen (w : Z) (v : list Z) (y0 : Z) (k : look) (st : option (list Z)) (s : scr) : Prop :=
  match st with
  | None => screen_is w v y0 k s
  | Some text =>
      let y1 := y0 + height w (k_done k) in
      stacked w y0 (k_done k) s /\
      line_shown w y1 (v ++ k_line k) (Z.of_nat (length v) + Z.of_nat (k_idx k)) s /\
      shows_text w (y1 + rows w (Z.of_nat (length v) + Z.of_nat (length (k_line k)))) text s
  end.

(** The status can be shown (C96 and its refutations): it fits its row, prompt and line are not both empty, the line
    does not end at the edge with the cursor behind it, a marked match is in the cursor's row. *)
Definition status_fits (cf : ocfg) (v : list Z) (o : op) : Prop :=
  let w := oc_w cf in let P := Z.of_nat (length v) in
  let n := Z.of_nat (length (rb_buf (o_b o))) in let k := P + Z.of_nat (rb_idx (o_b o)) in
  s_in (o_s o) = true ->
  0 < P + n <= 9223372036854775807 /\ ~ (rb_idx (o_b o) = length (rb_buf (o_b o)) /\ (P + n) mod w = 0) /\
  (s_ms (o_s o) = 0%nat \/ ((P + Z.of_nat (s_ms (o_s o))) / w = k / w /\ (P + Z.of_nat (s_me (o_s o))) / w = k / w)) /\
  Z.of_nat (length (status (s_fail (o_s o)) (s_bck (o_s o)) (s_data (o_s o)))) + 1 < w.

(** What may be pressed: the keys of C123, Ctrl-R and Ctrl-S. *)
Definition may_seek (cf : ocfg) (o : op) (r : Z) : Prop :=
  ~ trips cf o r /\ (oc_unique cf = true -> r = CharInterrupt -> s_in (o_s o) = true) /\
  (prompt_key cf r \/ r = CharBckSearch \/ r = CharFwdSearch).

(** Neither vim mode, listener nor filter; hints of width-one characters, ASCII characters of width one (the words of the
    status). *)
Record seek_session (cf : ocfg) (ps : list piece) : Prop := {
  ss_good : good_config cf;
  ss_vim : oc_vim cf = false;
  ss_eofp : Forall (RenderSpec.plain (oc_u cf)) (oc_eofp cf);
  ss_intp : Forall (RenderSpec.plain (oc_u cf)) (oc_intp cf);
  ss_prompt : oc_prompt cf = prompt_runes ps;
  ss_ascii : forall r, 32 <= r < 127 -> Width (oc_u cf) r = 1%nat
}.

(** The order of events, as for C123; while a search is on its status can be shown. *)
Fixpoint seek_turn (cf : ocfg) (v : list Z) (is : list inp) (o : op) (reading : bool) : Prop :=
  match is with
  | [] => True
  | IRead :: is' => reading = false /\ seek_turn cf v is' o true
  | IPrint t :: is' =>
      (exists ls, Forall (Forall (RenderSpec.plain (oc_u cf))) ls /\ t = flat_map (fun l => l ++ [10]) ls) /\
      seek_turn cf v is' o reading
  | IKey r :: is' =>
      reading = true /\
      may_seek cf o r /\
      forall o' acts, op_step cf r o = Ok (o', acts) ->
        status_fits cf v o' /\ seek_turn cf v is' o' (match results acts with [] => true | _ => false end)
  end.
