(** What the user should see after any keys. *)
From Verif Require Import Base RunesModel RunesSpec RuneBufModel RuneBufSpec HistoryModel ScreenModel RenderModel RenderSpec OpModel OpSpec OutModel.
Open Scope Z_scope.

(** Keys with a meaning at the prompt other than inserting themselves, those C123 is about. *)
Definition command_keys : list Z :=
  [CharLineStart; CharBackward; CharInterrupt; CharDelete; CharLineEnd; CharForward; CharBell; CharCtrlH; CharCtrlJ;
   CharKill; CharEnter; CharNext; CharPrev; CharCtrlU; CharCtrlW; CharCtrlY; CharBackspace;
   MetaBackward; MetaForward; MetaDelete; MetaBackspace].
(** A character of width one, a command key, Ctrl-T, Tab without a completer. *)
Definition prompt_key (cf : ocfg) (r : Z) : Prop :=
  RenderSpec.plain (oc_u cf) r \/ In r command_keys \/ r = CharTranspose \/ (r = CharTab /\ oc_auto cf = None).
(** What may be pressed: keys that do not crash the editor (OpSpec.trips); a prompt key, in vim's insert mode also Esc,
    in its command mode any key, as second key of a vim command any key (for r a character of width one); with
    UniqueEditLine not Ctrl-C (see C49_unique_interrupt_refuted). *)
Definition may_press (cf : ocfg) (o : op) (r : Z) : Prop :=
  match o_vp o with
  | Some VReplace => RenderSpec.plain (oc_u cf) r /\ ~ trips cf o r
  | Some _ => True
  | None =>
      forall r', (match oc_filter cf with None => Some r | Some f => f r end) = Some r' ->
        ~ trips cf o r' /\ (oc_unique cf = true -> r' <> CharInterrupt) /\
        if oc_vim cf && o_vn o then r' <> 0 else prompt_key cf r' \/ (oc_vim cf = true /\ r' = CharEsc)
  end.

(** Keys that can end the line. *)
Definition ending (r : Z) : Prop := In r [CharEnter; CharCtrlJ; CharDelete; CharInterrupt].

(** Situation of the claim: the listener, if any, answers with lines of width-one
    characters and positions inside them, and leaves the line alone at keys that can end it; hints of width-one
    characters. *)
Record plain_session (cf : ocfg) : Prop := {
  pc_eofp : Forall (RenderSpec.plain (oc_u cf)) (oc_eofp cf);
  pc_intp : Forall (RenderSpec.plain (oc_u cf)) (oc_intp cf);
  pc_listen : forall f l i r l' p, oc_listen cf = Some f -> Forall (RenderSpec.plain (oc_u cf)) l -> (i <= length l)%nat ->
    f l i r = Some (l', p) -> ~ ending r /\ Forall (RenderSpec.plain (oc_u cf)) l' /\ (p <= length l')%nat
}.

(** Every text in memory consists of width-one characters. *)
Definition item_of (P : Z -> Prop) (x : item) : Prop := Forall P (it_src x) /\ Forall P (it_tmp x).
Definition hist_of (P : Z -> Prop) (h : hist) : Prop := Forall (item_of P) (h_items h) /\ Forall (item_of P) (h_dead h).

(** At the prompt: neither searching nor completing, cursor inside the line. *)
Record at_prompt (cf : ocfg) (o : op) : Prop := {
  ap_end : o_end o = false; ap_in : c_in (o_c o) = false; ap_sel : c_sel (o_c o) = false;
  ap_s : s_in (o_s o) = false; ap_inside : inside (o_b o);
  ap_buf : Forall (RenderSpec.plain (oc_u cf)) (rb_buf (o_b o));
  ap_kill : Forall (RenderSpec.plain (oc_u cf)) (rb_kill (o_b o));
  ap_hist : hist_of (RenderSpec.plain (oc_u cf)) (o_h o)
}.

(** The order of events: a key is read only while a Readline call waits (the terminal goroutine pauses after a key
    that can end the line, C54 ff.), the next Readline call comes after the previous one has returned, printed texts
    are whole lines of width-one characters. *)
Fixpoint in_turn (cf : ocfg) (is : list inp) (o : op) (reading : bool) : Prop :=
  match is with
  | [] => True
  | IRead :: is' => reading = false /\ in_turn cf is' o true
  | IPrint t :: is' =>
      (exists ls, Forall (Forall (RenderSpec.plain (oc_u cf))) ls /\ t = flat_map (fun l => l ++ [10]) ls) /\
      in_turn cf is' o reading
  | IKey r :: is' =>
      reading = true /\
      may_press cf o r /\
      forall o' acts, op_step cf r o = Ok (o', acts) ->
        in_turn cf is' o' (match results acts with [] => true | _ => false end)
  end.

(** The texts left on the screen above the prompt: a returned line with its prompt, an interrupted one with the hint
    behind it, the hint of Ctrl-D, and what the application printed, in this order; with UniqueEditLine returned lines
    and Ctrl-D leave nothing. *)
Definition text_of (cf : ocfg) (v : list Z) (a : act) : list (list Z) :=
  match a with
  | ALine l => if oc_unique cf then [] else [v ++ l]
  | AIntr l => [v ++ l ++ oc_intp cf]
  | AEof => if oc_unique cf then [] else [v ++ oc_eofp cf]
  | _ => []
  end.
Inductive leaves (cf : ocfg) (v : list Z) : list inp -> op -> list (list Z) -> op -> list act -> Prop :=
| LvNil o : leaves cf v [] o [] o []
| LvRead is o t o' acts : leaves cf v is o t o' acts -> leaves cf v (IRead :: is) o t o' acts
| LvPrint ls is o t o' acts : Forall (Forall (RenderSpec.plain (oc_u cf))) ls -> leaves cf v is o t o' acts ->
    leaves cf v (IPrint (flat_map (fun l => l ++ [10]) ls) :: is) o (ls ++ t) o' acts
| LvKey r is o o1 a1 t o' acts : op_step cf r o = Ok (o1, a1) -> leaves cf v is o1 t o' acts ->
    leaves cf v (IKey r :: is) o (flat_map (text_of cf v) a1 ++ t) o' (a1 ++ acts).

