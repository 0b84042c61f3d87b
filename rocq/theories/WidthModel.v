(** Model of the width of the terminal as the parts of an instance know it: /repo/utils_unix.go:61-81 (DefaultOnWidthChanged),
    operation.go:69-90 (NewOperation), 461-491 (SetConfig); the width kept by the line (runebuf.go:27, 43-45), by the
    completion menu (complete.go:30, 184-186) and by the search (search.go:32, 45-47).
    Simplifications: FuncGetWidth and FuncOnWidthChanged are the defaults in all configurations and the width is known; the
    signal is handled before anything else happens. *)
From Verif Require Import Base.
Open Scope Z_scope.

(** One instance: the number of its current configuration, the widths of the line and of the menu, and for each configuration
    used so far the width kept by its search state (cfg.opSearch; the first configuration has number 0). *)
Record winst := { wi_cur : nat; wi_buf : Z; wi_comp : Z; wi_search : nat -> option Z }.
(** The process: the terminal's width, the instances (those below [p_count]), and the instance whose function is
    widthChangeCallback. *)
Record wproc := { p_width : Z; p_inst : nat -> winst; p_count : nat; p_cb : option nat }.

Definition updn {A} (f : nat -> A) (i : nat) (x : A) : nat -> A := fun j => if (j =? i)%nat then x else f j.

(** operation.go:69-90 NewOperation, in a terminal of width [w] *)
Definition w_new (w : Z) : winst := {| wi_cur := 0; wi_buf := w; wi_comp := w; wi_search := updn (fun _ => None) 0 (Some w) |}.
(** operation.go:461-491 SetConfig with configuration [i], which has a completer or not ([auto]) *)
Definition w_config (w : Z) (i : nat) (auto : bool) (x : winst) : winst :=
  if (i =? wi_cur x)%nat then x
  else {| wi_cur := i; wi_buf := wi_buf x; wi_comp := if auto then w else wi_comp x;
          wi_search := match wi_search x i with None => updn (wi_search x) i (Some w) | Some _ => wi_search x end |}.
(** operation.go:82-87, the function registered *)
Definition w_changed (w : Z) (x : winst) : winst :=
  {| wi_cur := wi_cur x; wi_buf := w; wi_comp := w; wi_search := updn (wi_search x) (wi_cur x) (Some w) |}.

(** A new instance (utils_unix.go:62: the function is replaced, the signal handler is the one installed first); SetConfig on an
    instance; the terminal gets another width. *)
Inductive wevent := WNew | WConfig (k i : nat) (auto : bool) | WResize (w : Z).
Definition w_step (e : wevent) (p : wproc) : wproc :=
  match e with
  | WNew => {| p_width := p_width p; p_inst := updn (p_inst p) (p_count p) (w_new (p_width p)); p_count := S (p_count p); p_cb := Some (p_count p) |}
  | WConfig k i auto => {| p_width := p_width p; p_inst := updn (p_inst p) k (w_config (p_width p) i auto (p_inst p k)); p_count := p_count p; p_cb := p_cb p |}
  | WResize w => {| p_width := w; p_inst := match p_cb p with None => p_inst p | Some k => updn (p_inst p) k (w_changed w (p_inst p k)) end;
                    p_count := p_count p; p_cb := p_cb p |}
  end.
Definition w_run (es : list wevent) (p : wproc) : wproc := fold_left (fun p e => w_step e p) es p.
Definition w_start (w : Z) : wproc := {| p_width := w; p_inst := fun _ => w_new w; p_count := 0; p_cb := None |}.
