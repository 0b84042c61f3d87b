(** Model of configurations and password entry: /repo/operation.go:446-491 (SetHistoryPath, SetConfig), /repo/password.go,
    /repo/readline.go:95-154 (Config.Init, Clone), /repo/operation.go:403-424 (PasswordEx, PasswordWithConfig).  Configurations, histories
    and files are objects with an identity; one call runs to its end before the next one begins, except where stated
    ([exit_early]).  A search in progress is not carried over to another configuration's history.  The editor is OpModel.v.  Left out: Stdin, Stdout, Stderr, raw mode functions and Painter of a
    configuration; the width of the line buffer stays that of the first configuration in the code
    (operation.go:70-73), here every part of the editor uses the width of the current configuration. *)
From Verif Require Import Base RunesModel RuneBufModel HistoryModel RenderModel OpModel.
Open Scope Z_scope.

(** readline.go:30-86 Config.  [k_width], [k_tty]: what FuncGetWidth and FuncIsTerminal return, None for nil;
    [k_hist]: opHistory; [k_srch]: opSearch (its state; nil exactly when opHistory is). *)
Record lcfg := {
  k_prompt : list Z; k_file : list Z; k_limit : Z; k_nosave : bool; k_fold : bool;
  k_auto : option (list Z -> nat -> list (list Z) * nat);
  k_listen : option (list Z -> nat -> Z -> option (list Z * nat));
  k_vim : bool; k_intp : list Z; k_eofp : list Z; k_width : option Z; k_tty : option bool; k_force : bool;
  k_enmask : bool; k_mask : Z; k_unique : bool; k_filter : option (Z -> option Z);
  k_inited : bool; k_hist : option nat; k_srch : srch }.

(** The process: Unicode tables, GetScreenWidth and DefaultIsTerminal of the process's own terminal. *)
Record lenv := { e_u : uenv; e_width : Z; e_tty : bool }.

Record life := {
  l_cfg : nat -> lcfg;               (* Config objects *)
  l_his : nat -> hist;               (* opHistory objects; h_disk is not used, see [on_hist] *)
  l_hcfg : nat -> nat;               (* the Config of an opHistory *)
  l_files : list Z -> list Z;        (* contents of the file at a path *)
  l_cur : nat;                       (* Operation.cfg *)
  l_buf : nat;                       (* RuneBuffer.cfg *)
  l_prompt : list Z;                 (* RuneBuffer.prompt *)
  l_inter : bool;                    (* RuneBuffer.interactive *)
  l_hid : nat;                       (* Operation.history *)
  l_op : op;                         (* the rest of the editor: its o_h and o_s are not used *)
  l_new : nat                        (* first unused identity *)
}.

Definition upd {A} (f : nat -> A) (i : nat) (x : A) : nat -> A := fun j => if (j =? i)%nat then x else f j.
Fixpoint eqbl (a b : list Z) : bool :=
  match a, b with
  | [], [] => true
  | x :: a', y :: b' => (x =? y) && eqbl a' b'
  | _, _ => false
  end.
Definition updf (f : list Z -> list Z) (p x : list Z) : list Z -> list Z := fun q => if eqbl q p then x else f q.

Definition set_cfg (i : nat) (k : lcfg) (l : life) : life :=
  {| l_cfg := upd (l_cfg l) i k; l_his := l_his l; l_hcfg := l_hcfg l; l_files := l_files l; l_cur := l_cur l; l_buf := l_buf l;
     l_prompt := l_prompt l; l_inter := l_inter l; l_hid := l_hid l; l_op := l_op l; l_new := l_new l |}.
Definition set_his (i : nat) (h : hist) (fs : list Z -> list Z) (l : life) : life :=
  {| l_cfg := l_cfg l; l_his := upd (l_his l) i h; l_hcfg := l_hcfg l; l_files := fs; l_cur := l_cur l; l_buf := l_buf l;
     l_prompt := l_prompt l; l_inter := l_inter l; l_hid := l_hid l; l_op := l_op l; l_new := l_new l |}.
Definition set_lop (o : op) (l : life) : life :=
  {| l_cfg := l_cfg l; l_his := l_his l; l_hcfg := l_hcfg l; l_files := l_files l; l_cur := l_cur l; l_buf := l_buf l;
     l_prompt := l_prompt l; l_inter := l_inter l; l_hid := l_hid l; l_op := o; l_new := l_new l |}.

Definition with_mask (m : Z) (k : lcfg) : lcfg :=
  {| k_prompt := k_prompt k; k_file := k_file k; k_limit := k_limit k; k_nosave := k_nosave k; k_fold := k_fold k; k_auto := k_auto k;
     k_listen := k_listen k; k_vim := k_vim k; k_intp := k_intp k; k_eofp := k_eofp k; k_width := k_width k; k_tty := k_tty k;
     k_force := k_force k; k_enmask := k_enmask k; k_mask := m; k_unique := k_unique k; k_filter := k_filter k;
     k_inited := k_inited k; k_hist := k_hist k; k_srch := k_srch k |}.
Definition with_hist (h : nat) (s : srch) (k : lcfg) : lcfg :=
  {| k_prompt := k_prompt k; k_file := k_file k; k_limit := k_limit k; k_nosave := k_nosave k; k_fold := k_fold k; k_auto := k_auto k;
     k_listen := k_listen k; k_vim := k_vim k; k_intp := k_intp k; k_eofp := k_eofp k; k_width := k_width k; k_tty := k_tty k;
     k_force := k_force k; k_enmask := k_enmask k; k_mask := k_mask k; k_unique := k_unique k; k_filter := k_filter k;
     k_inited := k_inited k; k_hist := Some h; k_srch := s |}.
Definition with_file (p : list Z) (k : lcfg) : lcfg :=
  {| k_prompt := k_prompt k; k_file := p; k_limit := k_limit k; k_nosave := k_nosave k; k_fold := k_fold k; k_auto := k_auto k;
     k_listen := k_listen k; k_vim := k_vim k; k_intp := k_intp k; k_eofp := k_eofp k; k_width := k_width k; k_tty := k_tty k;
     k_force := k_force k; k_enmask := k_enmask k; k_mask := k_mask k; k_unique := k_unique k; k_filter := k_filter k;
     k_inited := k_inited k; k_hist := k_hist k; k_srch := k_srch k |}.

(** complete.go:21-25 TabCompleter *)
Definition tab_completer : list Z -> nat -> list (list Z) * nat := fun _ _ => ([[9]], 0%nat).

(** readline.go:95-148 Init, the fields above; a prompt of one newline means none *)
Definition c_init (e : lenv) (k : lcfg) : lcfg :=
  if k_inited k then k else
  {| k_prompt := k_prompt k; k_file := k_file k; k_limit := (if k_limit k =? 0 then 500 else k_limit k); k_nosave := k_nosave k; k_fold := k_fold k;
     k_auto := match k_auto k with Some f => Some f | None => Some tab_completer end;
     k_listen := k_listen k; k_vim := k_vim k;
     k_intp := match k_intp k with [] => [94; 67] | [10] => [] | p => p end;
     k_eofp := match k_eofp k with [] => [94; 68] | [10] => [] | p => p end;
     k_width := match k_width k with Some w => Some w | None => Some (e_width e) end;
     k_tty := match k_tty k with Some b => Some b | None => Some (e_tty e) end;
     k_force := k_force k; k_enmask := k_enmask k; k_mask := k_mask k; k_unique := k_unique k; k_filter := k_filter k;
     k_inited := true; k_hist := k_hist k; k_srch := k_srch k |}.

(** readline.go:88-93 useInteractive *)
Definition interactive (k : lcfg) : bool := if k_force k then true else match k_tty k with Some b => b | None => false end.

Definition hcfg_of (k : lcfg) : hcfg :=
  {| hc_limit := k_limit k; hc_fold := k_fold k; hc_file := match k_file k with [] => false | _ => true end |}.
Definition ocfg_of (e : lenv) (prompt : list Z) (vim : bool) (k : lcfg) : ocfg :=
  {| oc_u := e_u e; oc_h := hcfg_of k; oc_w := match k_width k with Some w => w | None => e_width e end; oc_prompt := prompt; oc_auto := k_auto k;
     oc_vim := vim; oc_unique := k_unique k; oc_nosave := k_nosave k; oc_listen := k_listen k; oc_filter := k_filter k;
     oc_eofp := k_eofp k; oc_intp := k_intp k |}.

(** An opHistory with the file it works on: the one named by its configuration (HistoryFile is only changed by
    SetHistoryPath, which closes the history first). *)
Definition h_path (i : nat) (l : life) : list Z := k_file (l_cfg l (l_hcfg l i)).
Definition h_load (i : nat) (l : life) : hist :=
  match h_path i l with [] => l_his l i | p => set_file (h_fd (l_his l i)) (l_files l p) (l_his l i) end.
Definition h_store (i : nat) (h : hist) (l : life) : life :=
  set_his i h (match h_path i l with [] => l_files l | p => updf (l_files l) p (h_disk h) end) l.

(** operation.go:446-452 SetHistoryPath: the new history is not initialised *)
Definition SetHistoryPath (first : bool) (p : list Z) (l : life) : life :=
  let l := if first then l else h_store (l_hid l) (HClose (h_load (l_hid l) l)) l in
  let l := set_cfg (l_cur l) (with_file p (l_cfg l (l_cur l))) l in
  {| l_cfg := l_cfg l; l_his := upd (l_his l) (l_new l) (newOpHistory []); l_hcfg := upd (l_hcfg l) (l_new l) (l_cur l);
     l_files := l_files l; l_cur := l_cur l; l_buf := l_buf l; l_prompt := l_prompt l; l_inter := l_inter l;
     l_hid := l_new l; l_op := l_op l; l_new := S (l_new l) |}.

(** operation.go:458-491 SetConfig, from "old := op.cfg" on; [first]: op.history is nil.  SetMaskRune (96-98)
    stores the mask rune in the configuration of the line buffer, which still is the old one. *)
Definition switch_config (e : lenv) (first : bool) (i : nat) (l : life) : life :=
  let k := l_cfg l i in
  let l := {| l_cfg := upd (l_cfg l) (l_buf l) (with_mask (k_mask k) (l_cfg l (l_buf l))); l_his := l_his l; l_hcfg := l_hcfg l; l_files := l_files l;
              l_cur := i; l_buf := i; l_prompt := k_prompt k; l_inter := interactive k;
              l_hid := l_hid l; l_op := l_op l; l_new := l_new l |} in
  let l := match k_hist (l_cfg l i) with
           | Some _ => l
           | None => let l := SetHistoryPath first (k_file (l_cfg l i)) l in set_cfg i (with_hist (l_hid l) s0 (l_cfg l i)) l
           end in
  let hid := match k_hist (l_cfg l i) with Some h => h | None => l_hid l end in
  let l := {| l_cfg := l_cfg l; l_his := l_his l; l_hcfg := l_hcfg l; l_files := l_files l; l_cur := l_cur l; l_buf := l_buf l;
              l_prompt := l_prompt l; l_inter := l_inter l; l_hid := hid; l_op := l_op l; l_new := l_new l |} in
  let l := h_store hid (HInit (hcfg_of (l_cfg l (l_hcfg l hid))) true (h_load hid l)) l in
  match k_auto (l_cfg l i) with Some _ => set_lop (with_c c0 (l_op l)) l | None => l end.

Definition SetConfig (e : lenv) (i : nat) (l : life) : life :=
  if (l_cur l =? i)%nat then l
  else switch_config e false i (set_cfg i (c_init e (l_cfg l i)) l).

(** operation.go:69-90 NewOperation with configuration [k], number 0, on files [fs] *)
Definition life_new (e : lenv) (fs : list Z -> list Z) (k : lcfg) : life :=
  let k := c_init e k in
  switch_config e true 0
    {| l_cfg := fun _ => k; l_his := fun _ => newOpHistory []; l_hcfg := fun _ => 0%nat; l_files := fs; l_cur := 0; l_buf := 0;
       l_prompt := k_prompt k; l_inter := interactive k; l_hid := 0; l_op := op_new (newOpHistory []); l_new := 1 |}.

(** The editor handles keys: with the current configuration, history and search state. *)
Definition cur_op (l : life) : op := with_s (k_srch (l_cfg l (l_cur l))) (with_h (h_load (l_hid l) l) (l_op l)).
Definition put_op (o : op) (l : life) : life :=
  let l := h_store (l_hid l) (o_h o) l in
  let k := l_cfg l (l_cur l) in
  set_lop o (set_cfg (l_cur l)
    (match k_hist k with Some h => with_hist h (o_s o) k | None => k end) l).
(** vim.go:9-38: opVim keeps the configuration of NewOperation, number 0 *)
Definition l_vim (l : life) : bool := k_vim (l_cfg l 0).
Definition keys_in (e : lenv) (rs : list Z) (l : life) : outcome (life * list act) :=
  x <- op_run (ocfg_of e (l_prompt l) (l_vim l) (l_cfg l (l_cur l))) rs (cur_op l) ;;
  Ok (put_op (fst x) l, snd x).

(** password.go:21-33 PasswordConfig, with the prompt and listener of PasswordEx (operation.go:403-408) *)
Definition PasswordConfig (prompt : list Z) (lst : option (list Z -> nat -> Z -> option (list Z * nat))) : lcfg :=
  {| k_prompt := prompt; k_file := []; k_limit := -1; k_nosave := false; k_fold := false; k_auto := None; k_listen := lst;
     k_vim := false; k_intp := [10]; k_eofp := [10]; k_width := None; k_tty := None; k_force := false; k_enmask := true; k_mask := 0;
     k_unique := false; k_filter := None; k_inited := false; k_hist := None; k_srch := s0 |}.

(** A new Config object. *)
Definition add_cfg (k : lcfg) (l : life) : life :=
  {| l_cfg := upd (l_cfg l) (l_new l) k; l_his := l_his l; l_hcfg := l_hcfg l; l_files := l_files l; l_cur := l_cur l; l_buf := l_buf l;
     l_prompt := l_prompt l; l_inter := l_inter l; l_hid := l_hid l; l_op := l_op l; l_new := S (l_new l) |}.

(** operation.go:403-424: ReadPassword; [rs] the keys up to its return *)
Definition EnterPasswordMode (e : lenv) (prompt : list Z) lst (l : life) : life :=
  SetConfig e (l_new l) (add_cfg (PasswordConfig prompt lst) l).
Definition ReadPassword (e : lenv) (prompt : list Z) lst (rs : list Z) (l : life) : outcome (life * list act) :=
  x <- keys_in e rs (EnterPasswordMode e prompt lst l) ;;
  Ok (SetConfig e (l_cur l) (fst x), snd x).

(** The same when the goroutine calling ReadPassword goes on as soon as it has received the line
    (operation.go:256-259, 360-363): SetConfig and what follows happens before the editor goroutine gets to history.New, which it
    calls on the history it finds then.  [rs]: the keys before Enter, no mode entered. *)
Definition exit_early (e : lenv) (prompt : list Z) lst (rs : list Z) (l : life) : outcome (life * list act) :=
  x <- keys_in e rs (EnterPasswordMode e prompt lst l) ;;
  let l1 := fst x in
  let data := rb_buf (o_b (l_op l1)) in
  let l2 := SetConfig e (l_cur l) (set_lop (with_b (snd (Reset (o_b (l_op l1)))) (l_op l1)) l1) in
  h <- (if k_nosave (l_cfg l2 (l_cur l2)) then Ok (h_load (l_hid l2) l2)
        else let c := hcfg_of (l_cfg l2 (l_hcfg l2 (l_hid l2))) in
             h <- New c data (h_load (l_hid l2) l2) ;; Update c [] false h) ;;
  Ok (h_store (l_hid l2) h l2, snd x ++ [ALine data]).

(** What an application does with an instance: keys are typed at the prompt; ReadPassword; SetHistoryPath;
    SetPrompt (runebuf.go:585-589); SetMaskRune (runebuf.go:82-86); SetVimMode (vim.go:24-30); SetConfig with a new
    configuration or with one used before. *)
Inductive lcall :=
| LKeys (rs : list Z) | LPassword (prompt : list Z) (lst : option (list Z -> nat -> Z -> option (list Z * nat))) (rs : list Z)
| LPath (p : list Z) | LPrompt (s : list Z) | LMask (m : Z) | LVim (on : bool) | LConfig (k : lcfg) | LBack (i : nat).

Definition set_prompt (s : list Z) (l : life) : life :=
  {| l_cfg := l_cfg l; l_his := l_his l; l_hcfg := l_hcfg l; l_files := l_files l; l_cur := l_cur l; l_buf := l_buf l;
     l_prompt := s; l_inter := l_inter l; l_hid := l_hid l; l_op := l_op l; l_new := l_new l |}.
Definition with_vim (on : bool) (k : lcfg) : lcfg :=
  {| k_prompt := k_prompt k; k_file := k_file k; k_limit := k_limit k; k_nosave := k_nosave k; k_fold := k_fold k; k_auto := k_auto k;
     k_listen := k_listen k; k_vim := on; k_intp := k_intp k; k_eofp := k_eofp k; k_width := k_width k; k_tty := k_tty k;
     k_force := k_force k; k_enmask := k_enmask k; k_mask := k_mask k; k_unique := k_unique k; k_filter := k_filter k;
     k_inited := k_inited k; k_hist := k_hist k; k_srch := k_srch k |}.

Definition lstep (e : lenv) (c : lcall) (l : life) : outcome (life * list act) :=
  match c with
  | LKeys rs => keys_in e rs l
  | LPassword p lst rs => ReadPassword e p lst rs l
  | LPath p => Ok (SetHistoryPath false p l, [])
  | LPrompt s => Ok (set_prompt s l, [])
  | LMask m => Ok (set_cfg (l_buf l) (with_mask m (l_cfg l (l_buf l))) l, [])
  | LVim on => Ok (set_lop (with_v false (o_vp (l_op l)) (l_op l)) (set_cfg 0 (with_vim on (l_cfg l 0)) l), [])
  | LConfig k => Ok (SetConfig e (l_new l) (add_cfg k l), [])
  | LBack i => Ok (SetConfig e i l, [])
  end.
Fixpoint lrun (e : lenv) (cs : list lcall) (l : life) : outcome (life * list act) :=
  match cs with
  | [] => Ok (l, [])
  | c :: cs' => x <- lstep e c l ;; y <- lrun e cs' (fst x) ;; Ok (fst y, snd x ++ snd y)
  end.
