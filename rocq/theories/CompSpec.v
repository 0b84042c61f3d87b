(** What the user should see while completing. *)
From Verif Require Import Base RunesModel RunesSpec RuneBufModel RuneBufSpec HistoryModel ScreenModel RenderModel RenderSpec OpModel OpSpec MenuSpec OutModel OutSpec SeekModel SeekSpec.
Open Scope Z_scope.

(** Below the line: nothing, the status of a search, or a number of columns of words. *)
Inductive under := UNone | UStatus (text : list Z) | UMenu (cols : Z) (words : list (list Z)).

(** The candidates as shown: what is already typed of them, and the rest. *)
Definition words (c : comp) (b : rbuf) : list (list Z) :=
  let off := Z.to_nat (c_off c) in map (app (firstn off (skipn (rb_idx b - off) (rb_buf b)))) (c_cand c).

Definition under_of (o : op) : under :=
  match status_of o with
  | Some t => UStatus t
  | None => if c_in (o_c o) then UMenu (c_col (o_c o)) (words (o_c o) (o_b o)) else UNone
  end.

(** The screen of C123, of C124, or, below prompt and line with the cursor in it, a table of the words in as many columns
    as the arrow keys count with, every word followed by a blank at least, and nothing else. *)
Definition comp_screen (w : Z) (v : list Z) (y0 : Z) (k : look) (a : under) (s : scr) : Prop :=
  match a with
  | UNone => seek_screen w v y0 k None s
  | UStatus t => seek_screen w v y0 k (Some t) s
  | UMenu cols ws =>
      let y1 := y0 + height w (k_done k) in
      stacked w y0 (k_done k) s /\
      line_shown w y1 (v ++ k_line k) (Z.of_nat (length v) + Z.of_nat (k_idx k)) s /\
      0 < cols /\ ws <> [] /\
      exists cw, cols * cw < w /\ Forall (fun x => Z.of_nat (length x) < cw) ws /\
        grid_shown w (y1 + rows w (Z.of_nat (length v) + Z.of_nat (length (k_line k)))) cols cw ws s
  end.

(** The menu can be shown (C95 and its refutation): the cursor is in the first row. *)
Definition menu_fits (cf : ocfg) (v : list Z) (o : op) : Prop :=
  c_in (o_c o) = true -> Z.of_nat (length v) + Z.of_nat (rb_idx (o_b o)) < oc_w cf.

(** What may be pressed: the keys of C124 and Tab; a search is not started while candidates are shown, candidates are not
    asked for during a search. *)
Definition may_comp (cf : ocfg) (o : op) (r : Z) : Prop :=
  ~ trips cf o r /\ (oc_unique cf = true -> r = CharInterrupt -> s_in (o_s o) = true \/ c_in (o_c o) = true) /\
  (prompt_key cf r \/ (r = CharBckSearch \/ r = CharFwdSearch) /\ c_in (o_c o) = false \/ r = CharTab /\ s_in (o_s o) = false).

(** A session as for C124 with a prompt that is not empty; candidates of width-one characters, not more than a machine
    can count. *)
Record comp_session (cf : ocfg) (ps : list piece) : Prop := {
  cs_seek : seek_session cf ps;
  cs_prompt : visible ps <> [];
  cs_words : forall Do line pos cands off, oc_auto cf = Some Do -> (pos <= length line)%nat -> Do line pos = (cands, off) ->
    cands = [] \/ Forall (Forall (RenderSpec.plain (oc_u cf))) cands /\
      Z.of_nat (length (visible ps)) + Z.of_nat (length line) + Z.of_nat (length cands) <= 9223372036854775807
}.

(** The order of events, as for C123; while a search is on its status can be shown, while completing the menu. *)
Fixpoint comp_turn (cf : ocfg) (v : list Z) (is : list inp) (o : op) (reading : bool) : Prop :=
  match is with
  | [] => True
  | IRead :: is' => reading = false /\ comp_turn cf v is' o true
  | IPrint t :: is' =>
      (exists ls, Forall (Forall (RenderSpec.plain (oc_u cf))) ls /\ t = flat_map (fun l => l ++ [10]) ls) /\
      comp_turn cf v is' o reading
  | IKey r :: is' =>
      reading = true /\
      may_comp cf o r /\
      forall o' acts, op_step cf r o = Ok (o', acts) ->
        status_fits cf v o' /\ menu_fits cf v o' /\ comp_turn cf v is' o' (match results acts with [] => true | _ => false end)
  end.
