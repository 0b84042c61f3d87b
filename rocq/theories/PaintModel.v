(** The Painter of the configuration in use: which one draws the line. *)
From Verif Require Import Base RunesModel RenderModel.
Open Scope Z_scope.

Definition painter := list Z -> nat -> list Z.

(** operation.go:533-537 defaultPainter *)
Definition defaultPainter : painter := fun line _ => line.

(** The configurations the program has made, by number, with their Painter field (None: nil) and whether they mask
    (readline.go:64-71); which one the line buffer draws with (runebuf.go:72-80 SetConfig), which one the password mode
    has set aside (password.go:3-22). *)
Record paints := { pt_cfg : nat -> option painter; pt_cur : nat; pt_new : nat; pt_backup : option nat }.

Definition upd_p (f : nat -> option painter) (i : nat) (p : option painter) : nat -> option painter :=
  fun j => if (j =? i)%nat then p else f j.

(** readline.go:162-176 NewEx: the only place where a missing Painter is replaced *)
Definition p_newex (p : option painter) : paints :=
  {| pt_cfg := fun _ => Some (match p with None => defaultPainter | Some f => f end); pt_cur := 0; pt_new := 1; pt_backup := None |}.

(** operation.go:458-491 SetConfig with a configuration that exists; Config.Init (readline.go:95-147) does not touch
    Painter *)
Definition p_use (i : nat) (s : paints) : paints :=
  {| pt_cfg := pt_cfg s; pt_cur := i; pt_new := pt_new s; pt_backup := pt_backup s |}.
Definition p_add (p : option painter) (s : paints) : paints :=
  {| pt_cfg := upd_p (pt_cfg s) (pt_new s) p; pt_cur := pt_cur s; pt_new := S (pt_new s); pt_backup := pt_backup s |}.

(** password.go:12-22 EnterPasswordMode, ExitPasswordMode (operation.go:403-424) *)
Definition p_enter (p : option painter) (s : paints) : paints :=
  let s1 := p_use (pt_new s) (p_add p s) in
  {| pt_cfg := pt_cfg s1; pt_cur := pt_cur s1; pt_new := pt_new s1; pt_backup := Some (pt_cur s) |}.
Definition p_exit (s : paints) : paints :=
  match pt_backup s with
  | None => s
  | Some i => {| pt_cfg := pt_cfg s; pt_cur := i; pt_new := pt_new s; pt_backup := None |}
  end.

(** What the program does; a configuration from PasswordConfig (password.go:24-35) has the default painter *)
Inductive pcall :=
| PSet (p : option painter)             (* SetConfig with a new configuration *)
| PReuse (i : nat)                      (* SetConfig with configuration [i] *)
| PPainter (p : painter)                (* Config.SetPainter on the configuration in use (readline.go:158-160) *)
| PPassword                             (* a prompt of ReadPassword or ReadPasswordEx opens *)
| PPasswordWith (p : option painter)    (* a prompt of ReadPasswordWithConfig with a new configuration opens *)
| PPasswordEnd.                         (* it closes *)
Definition p_call (s : paints) (c : pcall) : paints :=
  match c with
  | PSet p => p_use (pt_new s) (p_add p s)
  | PReuse i => if (i <? pt_new s)%nat then p_use i s else s
  | PPainter p => {| pt_cfg := upd_p (pt_cfg s) (pt_cur s) (Some p); pt_cur := pt_cur s; pt_new := pt_new s; pt_backup := pt_backup s |}
  | PPassword => p_enter (Some defaultPainter) s
  | PPasswordWith p => p_enter p s
  | PPasswordEnd => p_exit s
  end.
Definition p_calls (cs : list pcall) (s : paints) : paints := fold_left p_call cs s.

Definition with_paint (f : painter) (d : rdr) : rdr :=
  {| d_prompt := d_prompt d; d_buf := d_buf d; d_idx := d_idx d; d_width := d_width d; d_had := d_had d;
     d_inter := d_inter d; d_mask := d_mask d; d_paint := f |}.

(** runebuf.go:450-510 Refresh, print, output: r.cfg.Painter.Paint is called whenever the line is not masked or is empty; a
    nil Painter panics there *)
Definition p_refresh (u : uenv) (s : paints) (d : rdr) (b : list Z) (i : nat) (own : list Z) : outcome (rdr * list Z) :=
  match pt_cfg s (pt_cur s) with
  | Some f => refresh u (with_paint f d) b i own
  | None =>
      if negb (d_inter d) then refresh u d b i own
      else match d_mask d, b with
           | Some _, _ :: _ => refresh u d b i own
           | _, _ => c <- clean u d ;; Panic
           end
  end.
