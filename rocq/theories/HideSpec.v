(** What the screen gives away of a masked line. *)
From Verif Require Import Base RunesModel RunesSpec RuneBufModel HistoryModel HistoryProofs RenderModel OpModel OutModel.
Open Scope Z_scope.

(** A character typed: neither a control character nor a key with a meaning. *)
Definition typed (r : Z) : Prop := 32 <= r /\ r <> 127.
(** Keys whose effect does not depend on the characters of the line. *)
Definition blind_keys : list Z :=
  [CharLineStart; CharBackward; CharInterrupt; CharDelete; CharLineEnd; CharForward; CharBell; CharCtrlH; CharTab; CharCtrlJ;
   CharKill; CharEnter; CharTranspose; CharCtrlU; CharCtrlY; CharBackspace].
(** The same key, or two characters as wide as each other. *)
Definition same_key (u : uenv) (r1 r2 : Z) : Prop :=
  r1 = r2 /\ In r1 blind_keys \/ typed r1 /\ typed r2 /\ Width u r1 = Width u r2.
Inductive same_inp (u : uenv) : inp -> inp -> Prop :=
| SRead : same_inp u IRead IRead
| SPrint t : same_inp u (IPrint t) (IPrint t)
| SKey r1 r2 : same_key u r1 r2 -> same_inp u (IKey r1) (IKey r2).

(** Two lines of the same shape: as long, characters as wide, cursor at the same place; the same for killed text. *)
Definition shape (u : uenv) (l : list Z) : list (nat * bool) := map (fun r => (Width u r, r =? 10)) l.
Record same_shape (u : uenv) (b1 b2 : rbuf) : Prop := {
  sh_buf : shape u (rb_buf b1) = shape u (rb_buf b2);
  sh_idx : rb_idx b1 = rb_idx b2;
  sh_kill : shape u (rb_kill b1) = shape u (rb_kill b2)
}.
(** Two editors at a prompt, with lines of the same shape; their histories, whatever is in them, are well-formed. *)
Record same_prompt (u : uenv) (o1 o2 : op) : Prop := {
  sp_b : same_shape u (o_b o1) (o_b o2);
  sp_c1 : c_in (o_c o1) = false; sp_c2 : c_in (o_c o2) = false;
  sp_e1 : c_sel (o_c o1) = false; sp_e2 : c_sel (o_c o2) = false;
  sp_s1 : s_in (o_s o1) = false; sp_s2 : s_in (o_s o2) = false;
  sp_v1 : o_vp o1 = None; sp_v2 : o_vp o2 = None;
  sp_end1 : o_end o1 = false; sp_end2 : o_end o2 = false;
  sp_h1 : hwf (o_h o1); sp_h2 : hwf (o_h o2)
}.

(** The configuration of a password prompt (password.go:20-33 PasswordConfig). *)
Record secret_config (cf : ocfg) : Prop := {
  sc_vim : oc_vim cf = false; sc_auto : oc_auto cf = None; sc_listen : oc_listen cf = None; sc_filter : oc_filter cf = None
}.

(** Both sessions write the same. *)
Definition same_output {A B} (x y : outcome (A * list Z * B)) : Prop :=
  match x, y with
  | Ok (_, out1, _), Ok (_, out2, _) => out1 = out2
  | Panic, Panic | Hang, Hang => True
  | _, _ => False
  end.
