(** Specification vocabulary for the editor goroutine, in terms of keys, results and what is on the line. *)
From Verif Require Import Base RunesModel RuneBufModel RuneBufSpec HistoryModel HistoryProofs RenderModel OpModel.
Open Scope Z_scope.

(** Results of Readline, and the requests to go on reading. *)
Definition is_result (a : act) : bool := match a with ALine _ | AIntr _ | AEof => true | _ => false end.
Definition resumes (a : act) : bool := match a with AKick => true | _ => is_result a end.
Definition results (l : list act) : list act := filter is_result l.

(** Runes that stand for themselves: everything except control characters, DEL and the Meta keys (negative). *)
Definition ordinary (r : Z) : Prop := 32 <= r /\ r <> 127.

(** Keys after which the terminal waits (terminal.go:206-207): Ctrl-C, Enter, Ctrl-J, Ctrl-D. *)
Definition pause_key (r : Z) : Prop := r = 3 \/ r = 13 \/ r = 10 \/ r = 4.

(** A configuration whose callbacks do not interfere. *)
Definition plain (cf : ocfg) : Prop := oc_listen cf = None /\ oc_filter cf = None.

(** Waiting for the first key of a line: nothing typed, no mode entered. *)
Record at_rest (o : op) : Prop := {
  ar_buf : rb_buf (o_b o) = [];
  ar_idx : rb_idx (o_b o) = 0%nat;
  ar_s : s_in (o_s o) = false;
  ar_c : c_in (o_c o) = false;
  ar_sel : c_sel (o_c o) = false;
  ar_vn : o_vn o = false;
  ar_vp : o_vp o = None;
  ar_end : o_end o = false;
  ar_h : hwf (o_h o)
}.

(** The text a history entry shows. *)
Definition shows (h : hist) (id : nat) (l : list Z) : Prop :=
  exists x, In x (elems h) /\ it_id x = id /\ l = (if (it_ver x =? h_ver h)%nat then it_tmp x else it_src x).

(** Keys that stay in search mode without starting it again. *)
Definition search_key (r : Z) : Prop := ordinary r \/ r = 127 \/ r = 8.

(** Candidates that fit on the terminal: at least one, the replaced prefix is before the cursor, every
    candidate with its prefix and one space fits on a row, and the prefix is not wider than its length plus one. *)
Record fits (cf : ocfg) (line : list Z) (pos : nat) (cands : list (list Z)) (off : Z) : Prop := {
  f_some : cands <> [];
  f_off : 0 <= off <= Z.of_nat pos;
  f_width : forall c, In c cands -> Z.of_nat (WidthAll (oc_u cf) c) + off + 1 <= oc_w cf - 1;
  f_same : Z.of_nat (WidthAll (oc_u cf) (firstn (Z.to_nat off) (skipn (pos - Z.to_nat off) line))) <= off + 1
}.

(** The completer returns fitting candidates, or none. *)
Definition good_completer (cf : ocfg) : Prop :=
  forall Do line pos cands off, oc_auto cf = Some Do -> (pos <= length line)%nat -> Do line pos = (cands, off) ->
    cands = [] \/ fits cf line pos cands (Z.of_nat off).

Record good_config (cf : ocfg) : Prop := {
  gc_w : 0 < oc_w cf;
  gc_limit : 1 <= hc_limit (oc_h cf);
  gc_prompt : exists v, ColorFilter (oc_prompt cf) = Ok v;
  gc_auto : good_completer cf;
  gc_listen : oc_listen cf = None;
  gc_filter : oc_filter cf = None
}.

(** The key presses that can break the editor (see the refutations in OpProps.v):
    Ctrl-T on a line of one rune, Ctrl-K while selecting a candidate or (leaving stale candidates behind)
    while candidates are shown for a line with text after the cursor, and in vim mode Esc while searching or completing, r at the end of the line, e on a letter at the end of the line. *)
Definition trips (cf : ocfg) (o : op) (r : Z) : Prop :=
  match o_vp o with
  | Some VReplace => rb_idx (o_b o) = length (rb_buf (o_b o))
  | Some _ => False
  | None =>
      if oc_vim cf && o_vn o
      then (r = 101 \/ r = 69) /\ (rb_idx (o_b o) + 1 = length (rb_buf (o_b o)))%nat /\
           alnum_at (rb_buf (o_b o)) (rb_idx (o_b o))
      else r = 20 /\ length (rb_buf (o_b o)) = 1%nat
           \/ r = 11 /\ (c_sel (o_c o) = true \/
                         c_in (o_c o) = true /\ (rb_idx (o_b o) < length (rb_buf (o_b o)))%nat)
           \/ r = 27 /\ oc_vim cf = true /\ (s_in (o_s o) = true \/ c_in (o_c o) = true)
  end.

Fixpoint safe (cf : ocfg) (rs : list Z) (o : op) : Prop :=
  match rs with
  | [] => True
  | r :: rs' => ~ trips cf o r /\ forall o' a, op_step cf r o = Ok (o', a) -> safe cf rs' o'
  end.

(** A started editor: the history has its (possibly empty) current line, nothing typed, no mode entered. *)
Record started (o : op) : Prop := { st_rest : at_rest o; st_items : h_items (o_h o) <> [];
  st_ms : s_ms (o_s o) = 0%nat; st_data : s_data (o_s o) = [] }.

(** Choosing among at least two fitting candidates. *)
Record selecting (cf : ocfg) (o : op) : Prop := {
  sl_in : c_in (o_c o) = true;
  sl_sel : c_sel (o_c o) = true;
  sl_two : (2 <= length (c_cand (o_c o)))%nat;
  sl_fit : fits cf (rb_buf (o_b o)) (rb_idx (o_b o)) (c_cand (o_c o)) (c_off (o_c o));
  sl_choice : 0 <= c_choice (o_c o) < Z.of_nat (length (c_cand (o_c o)));
  sl_col : 0 < c_col (o_c o);
  sl_inside : inside (o_b o);
  sl_vp : o_vp o = None;
  sl_end : o_end o = false
}.

(** The selection keys: Ctrl-A, Ctrl-E, Tab, right, down, left, up. *)
Definition sel_key (r : Z) : Prop := r = 1 \/ r = 5 \/ r = 9 \/ r = 6 \/ r = 14 \/ r = 2 \/ r = 16.

(** Where they go, among [n] candidates laid out in rows of [col]: the next or previous candidate, the ends of
    the row, the same column one row down or up, wrapping around. *)
Definition moves (n col i r j : Z) : Prop :=
  (r = 9 \/ r = 6 -> j = (i + 1) mod n) /\
  (r = 2 -> j = (i - 1) mod n) /\
  (r = 1 -> j = i - i mod col) /\
  (r = 5 -> j = Z.min (n - 1) (i - i mod col + (col - 1))) /\
  (r = 14 -> if i + col <? n then j = i + col else j = i mod col) /\
  (r = 16 -> if col <=? i then j = i - col else 0 <= j < n /\ n <= j + col /\ j mod col = i mod col).

(** The lines returned by Readline. *)
Definition lines_of (l : list act) : list (list Z) := flat_map (fun x => match x with ALine s => [s] | _ => [] end) l.

(** Enter (or the end of the input, which acts like it) does not come while searching. *)
Fixpoint no_search_enter (cf : ocfg) (rs : list Z) (o : op) : Prop :=
  match rs with
  | [] => True
  | r :: rs' => (s_in (o_s o) = true -> r <> 13 /\ r <> 10 /\ r <> 0) /\
                forall o' a, op_step cf r o = Ok (o', a) -> no_search_enter cf rs' o'
  end.
