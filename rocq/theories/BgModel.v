(** Model of output written through Stdout() and Stderr() of an instance at any moment: /repo/operation.go:40-67 wrapWriter. *)
From Verif Require Import Base RunesModel RuneBufModel RenderModel OpModel.
Open Scope Z_scope.

(** operation.go:46-67 Write; [reading]: Terminal.IsReading; the first part is Refresh (runebuf.go:450-466) with the write in
    between.  The result is the editor afterwards and what reaches the terminal. *)
Definition wrap_write (cf : ocfg) (reading : bool) (bytes : list Z) (o : op) : outcome (op * list Z) :=
  if negb reading then Ok (o, bytes)
  else
    r <- refresh (oc_u cf) (op_rdr cf (o_b o)) (rb_buf (o_b o)) (rb_idx (o_b o)) bytes ;;
    so <- (if s_in (o_s o) then search_out cf (-1) (set_fail (-1) (o_s o)) (o_b o) else Ok []) ;;
    o1 <- (if s_in (o_s o) then SearchRefresh cf (-1) o else Ok o) ;;
    mo <- (if c_in (o_c o1) then x <- menu_out cf (o_c o1) (o_b o1) ;; Ok (fst x) else Ok []) ;;
    o2 <- CompleteRefresh cf o1 ;;
    Ok (o2, snd r ++ so ++ mo).
