(** What the user should see of a search or of candidates on a terminal of [H] rows. *)
From Verif Require Import Base RunesModel RunesSpec RuneBufModel HistoryModel ScreenModel RenderModel RenderSpec OpModel OpSpec MenuSpec OutModel OutSpec SeekModel SeekSpec CompModel CompSpec ViewModel ViewSpec.
Open Scope Z_scope.

(** The last row in use, counted from the first row of the prompt: that of the cell after the line; that of the status,
    right below the line; that of the table, or the row after it if its last row is full. *)
Definition last_row (w : Z) (v : list Z) (k : look) (a : under) : Z :=
  let n := Z.of_nat (length v) + Z.of_nat (length (k_line k)) in
  match a with
  | UNone => if k_reading k then n / w else 0
  | UStatus _ => rows w n
  | UMenu cols ws => rows w n + Z.of_nat (length ws) / cols
  end.

(** Prompt, line and what is below it are in view as a whole. *)
Definition all_in_sight (H w : Z) (v : list Z) (y0 : Z) (k : look) (a : under) (top : Z) : Prop :=
  let y1 := y0 + height w (k_done k) in top <= y1 /\ y1 + last_row w v k a <= top + H - 1.

(** What is drawn is not higher than the screen. *)
Definition draw_fits (H : Z) (cf : ocfg) (v : list Z) (e : cev) : Prop :=
  let lines b := rows (oc_w cf) (Z.of_nat (length v) + Z.of_nat (length (rb_buf b))) in
  match e with
  | CS (SO (ODraw (VLine b _))) => ViewSpec.fits H (oc_w cf) v b
  | CS (SStatus _ _ b) => lines b < H
  | CMenu c b => forall out cols, menu_out cf c b = Ok (out, cols) -> lines b + Z.of_nat (length (c_cand c)) / cols < H
  | _ => True
  end.

(** So is everything drawn by the keys of a session. *)
Fixpoint room (H : Z) (cf : ocfg) (v : list Z) (is : list inp) (o : op) : Prop :=
  match is with
  | [] => True
  | IKey r :: is' =>
      (forall es, comp_draws cf r o = Ok es -> Forall (draw_fits H cf v) es) /\
      forall o' acts, op_step cf r o = Ok (o', acts) -> room H cf v is' o'
  | _ :: is' => room H cf v is' o
  end.
