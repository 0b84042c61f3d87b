(** What the user should see when the application changes the prompt. *)
From Verif Require Import Base RunesModel RunesSpec RuneBufModel RuneBufSpec HistoryModel ScreenModel RenderModel RenderSpec OpModel OpSpec OutModel OutSpec SwapModel.
Open Scope Z_scope.

(** Calls and keys, prompts given as visible characters and colours. *)
Inductive sin := SIn (i : inp) | SPrompt (ps : list piece) | SRefresh | SClean.
Definition calls (i : sin) : pinp :=
  match i with SIn i => PIn i | SPrompt ps => PPrompt (prompt_runes ps) | SRefresh => PRefresh | SClean => PClean end.

(** A prompt of C123: characters of width one and colours, two columns narrower than the screen. *)
Definition good_prompt (cf : ocfg) (ps : list piece) : Prop :=
  Forall sgr_digits ps /\ Forall (RenderSpec.plain (oc_u cf)) (visible ps) /\ Z.of_nat (length (visible ps)) + 1 < oc_w cf.

(** With either prompt the cursor is in the same row. *)
Definition same_row (w : Z) (i : nat) (v v' : list Z) : Prop :=
  Z.of_nat (length v + i) / w = Z.of_nat (length v' + i) / w.

(** What is known about prompt and line on the screen while a line is read: they are up to date; they may still be those with
    an earlier prompt; they have been erased by Clean. *)
Inductive shown := Shown | Stale | Cleaned.
Definition next_shown (i : sin) (reading returns : bool) (h : shown) : shown :=
  match i with
  | SIn (IKey _) => if returns then Shown else match h with Shown => Shown | _ => Stale end
  | SIn _ | SRefresh => Shown
  | SPrompt _ => if reading then match h with Cleaned => Cleaned | _ => Stale end else Shown
  | SClean => if reading then Cleaned else Shown
  end.

(** The order of events as in C123; a prompt set while another one is on the screen leaves the cursor in its row. *)
Fixpoint swap_turn (cf : ocfg) (v : list Z) (is : list sin) (o : op) (reading : bool) (h : shown) : Prop :=
  match is with
  | [] => True
  | i :: is' =>
      match i with
      | SIn IRead => reading = false /\ swap_turn cf v is' o true Shown
      | SIn (IPrint t) =>
          (exists ls, Forall (Forall (RenderSpec.plain (oc_u cf))) ls /\ t = flat_map (fun l => l ++ [10]) ls) /\
          swap_turn cf v is' o reading (next_shown i reading false h)
      | SIn (IKey r) =>
          reading = true /\ may_press cf o r /\
          forall o' acts, op_step cf r o = Ok (o', acts) ->
            let returns := match results acts with [] => false | _ => true end in
            swap_turn cf v is' o' (negb returns) (next_shown i reading returns h)
      | SPrompt ps =>
          good_prompt cf ps /\ (reading = true -> h <> Cleaned -> same_row (oc_w cf) (rb_idx (o_b o)) v (visible ps)) /\
          swap_turn cf (visible ps) is' o reading (next_shown i reading false h)
      | _ => swap_turn cf v is' o reading (next_shown i reading false h)
      end
  end.

(** The texts left on the screen, as in C123, each line with the prompt set when it was entered; the last prompt, and what is
    known about the screen at the end. *)
Inductive swap_leaves (cf : ocfg) : list Z -> list sin -> op -> bool -> shown -> list (list Z) -> op -> list act -> list Z -> shown -> Prop :=
| SlNil v o reading h : swap_leaves cf v [] o reading h [] o [] v h
| SlRead v is o h t o' acts v' h' : swap_leaves cf v is o true Shown t o' acts v' h' ->
    swap_leaves cf v (SIn IRead :: is) o false h t o' acts v' h'
| SlPrint v ls is o reading h t o' acts v' h' : Forall (Forall (RenderSpec.plain (oc_u cf))) ls ->
    swap_leaves cf v is o reading Shown t o' acts v' h' ->
    swap_leaves cf v (SIn (IPrint (flat_map (fun l => l ++ [10]) ls)) :: is) o reading h (ls ++ t) o' acts v' h'
| SlKey v r is o h o1 a1 t o' acts v' h' : op_step cf r o = Ok (o1, a1) ->
    let returns := match results a1 with [] => false | _ => true end in
    swap_leaves cf v is o1 (negb returns) (next_shown (SIn (IKey r)) true returns h) t o' acts v' h' ->
    swap_leaves cf v (SIn (IKey r) :: is) o true h (flat_map (text_of cf v) a1 ++ t) o' (a1 ++ acts) v' h'
| SlPrompt v ps is o reading h t o' acts v' h' :
    swap_leaves cf (visible ps) is o reading (next_shown (SPrompt ps) reading false h) t o' acts v' h' ->
    swap_leaves cf v (SPrompt ps :: is) o reading h t o' acts v' h'
| SlRefresh v is o reading h t o' acts v' h' : swap_leaves cf v is o reading Shown t o' acts v' h' ->
    swap_leaves cf v (SRefresh :: is) o reading h t o' acts v' h'
| SlClean v is o reading h t o' acts v' h' : swap_leaves cf v is o reading (next_shown SClean reading false h) t o' acts v' h' ->
    swap_leaves cf v (SClean :: is) o reading h t o' acts v' h'.
