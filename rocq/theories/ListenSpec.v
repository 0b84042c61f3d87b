(** The Listener: what it is told and what its answer does. *)
From Verif Require Import Base RunesModel RuneBufModel OpModel.
Open Scope Z_scope.

Definition listener : Type := list Z -> nat -> Z -> option (list Z * nat).

Definition unlistened (cf : ocfg) : ocfg :=
  {| oc_u := oc_u cf; oc_h := oc_h cf; oc_w := oc_w cf; oc_prompt := oc_prompt cf; oc_auto := oc_auto cf; oc_vim := oc_vim cf; oc_unique := oc_unique cf;
     oc_nosave := oc_nosave cf; oc_listen := None; oc_filter := oc_filter cf; oc_eofp := oc_eofp cf; oc_intp := oc_intp cf |}.

(** The line and cursor after the listener has been told of them. *)
Definition answer (f : listener) (k : Z) (x : list Z * nat) : list Z * nat := match f (fst x) (snd x) k with Some y => y | None => x end.

(** The editor with that line and cursor; nothing else changes. *)
Definition heard (f : listener) (k : Z) (o : op) : op :=
  let '(l, p) := answer f k (rb_buf (o_b o), rb_idx (o_b o)) in
  {| o_b := {| rb_buf := l; rb_idx := p; rb_kill := rb_kill (o_b o) |}; o_h := o_h o; o_s := o_s o; o_c := o_c o; o_vn := o_vn o; o_vp := o_vp o; o_end := o_end o |}.

(** Typing [r] before a listener: the rune goes in at the cursor, then the listener is told. *)
Definition type_heard (f : listener) (x : list Z * nat) (r : Z) : list Z * nat :=
  answer f r (firstn (snd x) (fst x) ++ [r] ++ skipn (snd x) (fst x), S (snd x)).

(** A listener whose cursor is on the line it gives. *)
Definition sane (f : listener) : Prop := forall l p k l' p', f l p k = Some (l', p') -> (p' <= length l')%nat.
