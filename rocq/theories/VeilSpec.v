(** What the user should see at a prompt with a mask. *)
From Verif Require Import Base RunesModel RunesSpec RuneBufModel RuneBufSpec HistoryModel ScreenModel RenderModel RenderSpec OpModel OpSpec OutModel OutSpec WideSpec BroadSpec.
Open Scope Z_scope.

(** The mask: a character of one column, or NUL (no echo), which a terminal ignores. *)
Definition mask_ok (u : uenv) (m : Z) : Prop := RenderSpec.plain u m \/ (m = 0 /\ Width u 0 = 0%nat).

(** What is shown for [n] characters. *)
Definition veil (m : Z) (n : nat) : list Z := if m =? 0 then [] else repeat m n.

(** What lines leave on the screen: C123's texts with a mask for each character behind the prompt, also for those of the hints. *)
Definition veiled (cf : ocfg) (v : list Z) (m : Z) (a : act) : list (list Z) :=
  match a with
  | ALine l => if oc_unique cf then [] else [v ++ veil m (length l)]
  | AIntr l => [v ++ veil m (length l + length (oc_intp cf))]
  | AEof => if oc_unique cf then [] else [v ++ veil m (length (oc_eofp cf))]
  | _ => []
  end.
Inductive veil_leaves (cf : ocfg) (v : list Z) (m : Z) : list inp -> op -> list (list Z) -> op -> list act -> Prop :=
| VlNil o : veil_leaves cf v m [] o [] o []
| VlRead is o t o' acts : veil_leaves cf v m is o t o' acts -> veil_leaves cf v m (IRead :: is) o t o' acts
| VlPrint ls is o t o' acts : Forall (fun l => Forall (glyph (oc_u cf)) l /\ one_line cf l) ls -> veil_leaves cf v m is o t o' acts ->
    veil_leaves cf v m (IPrint (flat_map (fun l => l ++ [10]) ls) :: is) o (ls ++ t) o' acts
| VlKey r is o o1 a1 t o' acts : op_step cf r o = Ok (o1, a1) -> veil_leaves cf v m is o1 t o' acts ->
    veil_leaves cf v m (IKey r :: is) o (flat_map (veiled cf v m) a1 ++ t) o' (a1 ++ acts).

(** The texts left, one row each, then prompt and masks; the cursor behind the masks, but two columns to the left for each character
    behind the cursor (never left of the row's start). *)
Definition veil_screen (u : uenv) (w : Z) (v : list Z) (m y0 : Z) (done : list (list Z)) (len idx : nat) (reading : bool) (s : scr) : Prop :=
  stacked w y0 (map (cells_all u) done) s /\
  let y1 := y0 + Z.of_nat (length done) in
  if reading then
    shows_text w y1 (cells_all u (v ++ veil m len)) s /\ s_row s = y1 /\ s_pend s = false /\ s_par s = PGround /\
    s_col s = Z.max 0 (columns u (v ++ veil m len) - 2 * Z.of_nat (len - idx))
  else free_from w y1 s.
