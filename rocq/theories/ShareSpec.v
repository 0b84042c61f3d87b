(** Specification: what a history file shared by several instances should hold. *)
From Verif Require Import Base RunesModel HistoryModel HistorySpec ShareModel.
Open Scope nat_scope.

(** The lines in the file, and for every instance the line it recorded last (or found last in the file when it opened it). *)
Record book := { bk_lines : list (list Z); bk_last : nat -> option (list Z) }.
Definition noted (b : book) (d : doing) : book :=
  match d with
  | Opens i _ => {| bk_lines := bk_lines b; bk_last := fun j => if j =? i then last_line (bk_lines b) else bk_last b j |}
  | Does i (Submit s) =>
      if list_eq_dec Z.eq_dec s [] then b
      else if match bk_last b i with Some x => if list_eq_dec Z.eq_dec x s then true else false | None => false end then b
      else {| bk_lines := bk_lines b ++ [s]; bk_last := fun j => if j =? i then Some s else bk_last b j |}
  | Does _ (Edit _) => b
  end.
Definition book_of (ls : list (list Z)) (ds : list doing) : book :=
  fold_left noted ds {| bk_lines := ls; bk_last := fun _ => None |}.

(** Instances open the file before they use it; lines survive being written; limits are at least two; no instance finds more lines than its limit. *)
Fixpoint within (ls : list (list Z)) (opened : list nat) (done ds : list doing) : Prop :=
  match ds with
  | [] => True
  | d :: ds' =>
      match d with
      | Opens i c => hc_file c = true /\ (2 <= hc_limit c)%Z /\
          (Z.of_nat (length (bk_lines (book_of ls done))) <= hc_limit c)%Z /\ within ls (i :: opened) (done ++ [d]) ds'
      | Does i e => In i opened /\ match e with Submit s => s = [] \/ clean_line s | Edit _ => True end /\
          within ls opened (done ++ [d]) ds'
      end
  end.
