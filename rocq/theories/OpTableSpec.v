(** The tables of keys: doc/shortcut.md for the normal mode, and the commands of vim mode. *)
From Verif Require Import Base RuneBufModel RuneBufSpec HistoryProofs OpModel OpSpec.
Open Scope Z_scope.

(** doc/shortcut.md: the keys that edit the line, and Ctrl-Y.  What the edits do is the subject of C07-C15. *)
Inductive shortcut : Z -> edit -> Prop :=
| sc_ctrl_a : shortcut 1 ELineStart          (* Beginning of line *)
| sc_ctrl_b : shortcut 2 EBackward           (* Backward one character *)
| sc_meta_b : shortcut MetaBackward EPrevWord (* Backward one word *)
| sc_meta_d : shortcut MetaDelete EDeleteWord (* Delete one word *)
| sc_ctrl_e : shortcut 5 ELineEnd            (* End of line *)
| sc_ctrl_f : shortcut 6 EForward            (* Forward one character *)
| sc_meta_f : shortcut MetaForward ENextWord (* Forward one word *)
| sc_ctrl_h : shortcut 8 EBackspace          (* Delete previous character *)
| sc_ctrl_k : shortcut 11 EKill              (* Cut text to the end of line *)
| sc_ctrl_t : shortcut 20 ETranspose         (* Transpose characters *)
| sc_ctrl_u : shortcut 21 EKillFront         (* Cut text to the beginning of line *)
| sc_ctrl_w : shortcut 23 EBackEscapeWord    (* Cut previous word *)
| sc_ctrl_y : shortcut 25 EYank
| sc_backspace : shortcut 127 EBackspace     (* Delete previous character *)
| sc_meta_bs : shortcut MetaBackspace EBackEscapeWord. (* Cut previous word *)

(** Key [k] makes of the line [b], in the modes the editor is in. *)
Definition becomes (cf : ocfg) (k : Z) (o : op) (b : rbuf) : Prop :=
  exists o' a, op_step cf k o = Ok (o', a) /\ o_b o' = b /\ results a = [] /\
    o_s o' = o_s o /\ c_in (o_c o') = false /\ c_sel (o_c o') = false /\ o_vn o' = o_vn o /\ o_vp o' = o_vp o /\ o_end o' = o_end o /\ hwf (o_h o').

(** In vim mode, waiting for a command. *)
Record commanding (o : op) : Prop := {
  cm_in : inside (o_b o); cm_s : s_in (o_s o) = false; cm_c : c_in (o_c o) = false; cm_sel : c_sel (o_c o) = false;
  cm_vn : o_vn o = true; cm_vp : o_vp o = None; cm_end : o_end o = false; cm_h : hwf (o_h o) }.

(** Commands of one key that stay in command mode. *)
Inductive vim1 : Z -> edit -> Prop :=
| v_h : vim1 104 EBackward | v_l : vim1 108 EForward | v_0 : vim1 48 ELineStart | v_caret : vim1 94 ELineStart | v_dollar : vim1 36 ELineEnd
| v_p : vim1 112 EYank | v_b : vim1 98 EPrevWord | v_B : vim1 66 EPrevWord | v_w : vim1 119 ENextWord | v_W : vim1 87 ENextWord
| v_e : vim1 101 EEndWord | v_E : vim1 69 EEndWord.
(** Commands of one key after which one types text again; [None]: the line is as it was. *)
Inductive vim_insert : Z -> option edit -> Prop :=
| v_i : vim_insert 105 None | v_I : vim_insert 73 (Some ELineStart) | v_a : vim_insert 97 (Some EForward) | v_A : vim_insert 65 (Some ELineEnd)
| v_s : vim_insert 115 (Some EDelete) | v_S : vim_insert 83 (Some EErase).
(** Commands of two keys; the boolean: one types text afterwards. *)
Inductive vim2 : Z -> Z -> option edit -> bool -> Prop :=
| v_r ch : vim2 114 ch (Some (EReplace ch)) false
| v_dd : vim2 100 100 (Some EErase) false | v_dw : vim2 100 119 (Some EDeleteWord) false
| v_dh : vim2 100 104 (Some EBackspace) false | v_dl : vim2 100 108 (Some EDelete) false
| v_d ch : ~ In ch [100; 119; 104; 108] -> vim2 100 ch None false
| v_cc : vim2 99 99 (Some EErase) true | v_cw : vim2 99 119 (Some EDeleteWord) true
| v_ch : vim2 99 104 (Some EBackspace) true | v_cl : vim2 99 108 (Some EDelete) true
| v_c ch : ~ In ch [99; 119; 104; 108] -> vim2 99 ch None true
| v_f ch : ch <> 27 -> vim2 102 ch (Some (EMoveTo ch false false)) false
| v_F ch : ch <> 27 -> vim2 70 ch (Some (EMoveTo ch false true)) false
| v_t ch : ch <> 27 -> vim2 116 ch (Some (EMoveTo ch true false)) false
| v_T ch : ch <> 27 -> vim2 84 ch (Some (EMoveTo ch true true)) false
| v_esc k : In k [102; 70; 116; 84] -> vim2 k 27 None false.
Definition apply_edit (e : option edit) (b : rbuf) : outcome rbuf := match e with Some e => run_edit e b | None => Ok b end.
(** The first keys of commands. *)
Definition vim_keys : list Z := [104; 106; 107; 108; 48; 94; 36; 120; 114; 100; 112; 98; 66; 119; 87; 101; 69; 102; 70; 116; 84; 105; 73; 97; 65; 115; 83; 99].
