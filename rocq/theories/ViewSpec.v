(** What the user should see on a terminal of [H] rows. *)
From Verif Require Import Base RunesModel RunesSpec RuneBufModel ScreenModel RenderModel RenderSpec OpModel OpSpec OutModel OutSpec ViewModel.
Open Scope Z_scope.

(** Prompt [v] and line [b], with the cell after them for the cursor, take at most [H] rows. *)
Definition fits (H w : Z) (v b : list Z) : Prop := Z.of_nat (length v + length b) / w < H.

(** Prompt and line, or the row the next prompt will be on, are in view as a whole. *)
Definition in_sight (H w : Z) (v : list Z) (y0 : Z) (k : look) (top : Z) : Prop :=
  let y1 := y0 + height w (k_done k) in
  top <= y1 /\ y1 + (if k_reading k then Z.of_nat (length v + length (k_line k)) / w else 0) <= top + H - 1.

(** The order of events as in OutSpec.in_turn; Ctrl-L may be pressed too; what a key draws fits on the screen. *)
Fixpoint vturn (H : Z) (cf : ocfg) (v : list Z) (is : list inp) (o : op) (reading : bool) : Prop :=
  match is with
  | [] => True
  | IRead :: is' => reading = false /\ vturn H cf v is' o true
  | IPrint t :: is' =>
      (exists ls, Forall (Forall (RenderSpec.plain (oc_u cf))) ls /\ t = flat_map (fun l => l ++ [10]) ls) /\
      vturn H cf v is' o reading
  | IKey r :: is' =>
      reading = true /\
      (may_press cf o r \/ clears cf r o = true) /\
      (forall es b i, vkey_draws cf r o = Ok es -> In (VE (ODraw (VLine b i))) es -> fits H (oc_w cf) v b) /\
      forall o' acts, op_step cf r o = Ok (o', acts) ->
        vturn H cf v is' o' (match results acts with [] => true | _ => false end)
  end.

(** The texts above the prompt, as OutSpec.leaves, but only those since the last Ctrl-L; [c]: there was one. *)
Inductive vleaves (cf : ocfg) (v : list Z) : list inp -> op -> bool -> list (list Z) -> op -> list act -> Prop :=
| VLNil o : vleaves cf v [] o false [] o []
| VLRead is o c t o' acts : vleaves cf v is o c t o' acts -> vleaves cf v (IRead :: is) o c t o' acts
| VLPrint ls is o c t o' acts : Forall (Forall (RenderSpec.plain (oc_u cf))) ls -> vleaves cf v is o c t o' acts ->
    vleaves cf v (IPrint (flat_map (fun l => l ++ [10]) ls) :: is) o c (if c then t else ls ++ t) o' acts
| VLKey r is o o1 a1 c t o' acts : op_step cf r o = Ok (o1, a1) -> ~ In AClear a1 -> vleaves cf v is o1 c t o' acts ->
    vleaves cf v (IKey r :: is) o c (if c then t else flat_map (text_of cf v) a1 ++ t) o' (a1 ++ acts)
| VLClear r is o o1 a1 c t o' acts : op_step cf r o = Ok (o1, a1) -> In AClear a1 -> vleaves cf v is o1 c t o' acts ->
    vleaves cf v (IKey r :: is) o true t o' (a1 ++ acts).

(** The same for configurations without listener, in terms of the lines the user edits: after every key prompt and line fit. *)
Fixpoint lturn (H : Z) (cf : ocfg) (v : list Z) (is : list inp) (o : op) (reading : bool) : Prop :=
  match is with
  | [] => True
  | IRead :: is' => reading = false /\ lturn H cf v is' o true
  | IPrint t :: is' =>
      (exists ls, Forall (Forall (RenderSpec.plain (oc_u cf))) ls /\ t = flat_map (fun l => l ++ [10]) ls) /\
      lturn H cf v is' o reading
  | IKey r :: is' =>
      reading = true /\
      (may_press cf o r \/ clears cf r o = true) /\
      forall o' acts, op_step cf r o = Ok (o', acts) ->
        fits H (oc_w cf) v (rb_buf (o_b o')) /\
        lturn H cf v is' o' (match results acts with [] => true | _ => false end)
  end.
