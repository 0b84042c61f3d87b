(** The editor goroutine once more (operation.go, search.go), now with the memory shared between the line and the
    history.  opSearch hands the slice of a history entry to the line without copying it (search.go:67-92, 115-125
    with history.go:195-201), so that later edits write into the entry.

    OpModel.v is refined by two components: [a_arr], the contents of the array under the line from the start of the
    line to its end (its length is the capacity), and [a_al], the entry the line shares this array with, if any, and
    whether it is its Source or its Tmp.  An edit writes the new line over the array if it fits, and otherwise moves the
    line to a new array (HeapProps.C60_writes).  Everything that neither edits the line nor reads the history is taken
    from OpModel.v. *)
From Verif Require Import Base RunesModel RuneBufModel HistoryModel RenderModel OpModel.
Open Scope Z_scope.

Record aop := { a_o : op; a_arr : list Z; a_al : option (nat * bool) }.

(** A field of an entry lies at the start of the shared array. *)
Definition over (arr old : list Z) : list Z := firstn (length old) arr.
Definition write_src (arr : list Z) (x : item) : item :=
  {| it_id := it_id x; it_src := over arr (it_src x); it_ver := it_ver x; it_tmp := it_tmp x |}.
Definition write_tmp (arr : list Z) (x : item) : item :=
  {| it_id := it_id x; it_src := it_src x; it_ver := it_ver x; it_tmp := over arr (it_tmp x) |}.
Definition scribble (al : option (nat * bool)) (arr : list Z) (h : hist) : hist :=
  match al with
  | None => h
  | Some (id, true) => modify id (write_src arr) h
  | Some (id, false) => modify id (write_tmp arr) h
  end.

Section alias.
(** What append leaves between length and capacity of a slice with a given text: arbitrary. *)
Variable spare : list Z -> list Z.

(** One operation of RuneBuffer that changes the line to that of [o], other than Yank, Set and SetWithIdx. *)
Definition put (o : op) (a : aop) : aop :=
  let t := rb_buf (o_b o) in
  if (length t <=? length (a_arr a))%nat then
    let arr := t ++ skipn (length t) (a_arr a) in
    {| a_o := with_h (scribble (a_al a) arr (o_h o)) o; a_arr := arr; a_al := a_al a |}
  else {| a_o := o; a_arr := t ++ spare t; a_al := None |}.

(** The line is put into an array of its own: runes.Copy (history.go:212, 225), the slice made by Yank
    (runebuf.go:230-243), or a slice of the application (operation.go:339-343). *)
Definition put_new (o : op) : aop :=
  {| a_o := o; a_arr := rb_buf (o_b o) ++ spare (rb_buf (o_b o)); a_al := None |}.

(** The state changes in something else than the line and the history's texts. *)
Definition put_rest (o : op) (a : aop) : aop := {| a_o := o; a_arr := a_arr a; a_al := a_al a |}.

(** A function of OpModel.v that performs at most one operation on the line, and does not touch the history. *)
Definition lift (f : op -> outcome op) (a : aop) : outcome aop :=
  o <- f (a_o a) ;; Ok (put o a).
Definition lift_sw (f : op -> outcome swres) (a : aop) : outcome (aop * swres) :=
  x <- f (a_o a) ;; Ok (put (fst (fst (fst (fst x)))) a, x).

(** The array of what showItem returns (history.go:195-201): Source has no spare capacity (runes.Copy), Tmp may. *)
Definition shown (h : hist) (x : item) : list Z * (nat * bool) :=
  if (it_ver x =? h_ver h)%nat then (it_tmp x ++ spare (it_tmp x), (it_id x, false)) else (it_src x, (it_id x, true)).
(** A slice without capacity shares nothing. *)
Definition put_shown (o : op) (h : hist) (x : item) : aop :=
  {| a_o := o; a_arr := fst (shown h x);
     a_al := match fst (shown h x) with [] => None | _ => Some (snd (shown h x)) end |}.

(** search.go:67-92 search *)
Definition a_search (cf : ocfg) (isChange : bool) (a : aop) : outcome aop :=
  let o := a_o a in
  let s := o_s o in
  o' <- search cf isChange o ;;
  match s_data s with
  | [] => Ok (put_rest o' a)
  | _ =>
      r <- (if s_bck s then FindBck (oc_h cf) isChange (s_data s) (rb_idx (o_b o)) (o_h o)
            else FindFwd (oc_h cf) isChange (s_data s) (rb_idx (o_b o)) (o_h o)) ;;
      match r with
      | None => Ok (put_rest o' a)
      | Some (_, id) => x <- deref (o_h o) id ;; Ok (put_shown o' (o_h o) x)
      end
  end.

(** search.go:94-97, 53-58, 99-113 *)
Definition a_SearchChar (cf : ocfg) (r : Z) (a : aop) : outcome aop :=
  a_search cf true (put_rest (with_s (set_data (s_data (o_s (a_o a)) ++ [r]) (o_s (a_o a))) (a_o a)) a).
Definition a_SearchBackspace (cf : ocfg) (a : aop) : outcome aop :=
  match s_data (o_s (a_o a)) with
  | [] => Ok a
  | d => a_search cf true (put_rest (with_s (set_data (firstn (length d - 1) d) (o_s (a_o a))) (a_o a)) a)
  end.
Definition a_SearchMode (cf : ocfg) (bck : bool) (a : aop) : outcome (aop * bool) :=
  if oc_w cf =? 0 then Ok (a, false)
  else
    let o := a_o a in
    let s := o_s o in
    let s' := {| s_in := true; s_fail := s_fail s; s_bck := bck; s_src := h_cur (o_h o); s_data := s_data s;
                 s_ms := s_ms s; s_me := s_me s |} in
    a' <- (if s_in s then a_search cf false (put_rest (with_s s' o) a)
           else o' <- SearchRefresh cf (-1) (with_s s' o) ;; Ok (put_rest o' a)) ;;
    Ok (a', true).

(** search.go:115-125 ExitSearchMode *)
Definition a_ExitSearchMode (revert : bool) (a : aop) : outcome aop :=
  o' <- ExitSearchMode revert (a_o a) ;;
  if revert then
    match s_src (o_s (a_o a)) with
    | None => Panic
    | Some id => x <- deref (o_h (a_o a)) id ;; Ok (put_shown o' (o_h (a_o a)) x)
    end
  else Ok (put_rest o' a).

(** history.go:246-294 New: Clean and the assignment of Source end the sharing with that entry *)
Definition unshare (h h' : hist) (al : option (nat * bool)) : option (nat * bool) :=
  match al with
  | None => None
  | Some (id, f) =>
      if h_enable h && opt_eqb (back_id h) (Some id) && (f || (h_fresh h' =? h_fresh h)%nat) then None else al
  end.

(** operation.go:242-262, the Enter key *)
Definition a_enter (cf : ocfg) (a : aop) : outcome (aop * swres) :=
  a1 <- (if s_in (o_s (a_o a)) then a_ExitSearchMode false a else Ok a) ;;
  b <- MoveToLineEnd (o_b (a_o a1)) ;;
  r <- (if negb (oc_unique cf) then
          b <- WriteRunes [10] b ;;
          let a2 := put (with_b b (a_o a1)) a1 in
          let '(data, b') := Reset b in
          d <- slice 0 (length data - 1) data ;; Ok (d, put_rest (with_b b' (a_o a2)) a2)
        else let '(data, b') := Reset b in Ok (data, put_rest (with_b b' (a_o a1)) a1)) ;;
  let '(data, a2) := r in
  let o2 := a_o a2 in
  if negb (oc_nosave cf) then
    h <- New (oc_h cf) data (o_h o2) ;;
    let o3 := with_h h o2 in
    Ok ({| a_o := o3; a_arr := a_arr a2; a_al := unshare (o_h o2) h (a_al a2) |}, (o3, [ALine data], false, false, true))
  else Ok (a2, (o2, [ALine data], false, false, false)).

(** operation.go:281-300, Ctrl-D *)
Definition a_delete (cf : ocfg) (a : aop) : outcome (aop * swres) :=
  let o := a_o a in
  if (0 <? length (rb_buf (o_b o)))%nat || negb (IsNormalMode o) then lift_sw (key_delete cf) a
  else
    a1 <- (if negb (oc_unique cf) then lift (fun o => b <- WriteRunes (oc_eofp cf ++ [10]) (o_b o) ;; Ok (with_b b o)) a else Ok a) ;;
    let o1 := with_h (Revert (o_h (a_o a1))) (with_b (snd (Reset (o_b (a_o a1)))) (a_o a1)) in
    Ok (put_rest o1 a1, (o1, [AEof], false, false, false)).

(** operation.go:301-325, Ctrl-C *)
Definition a_interrupt (cf : ocfg) (a : aop) : outcome (aop * swres) :=
  let o := a_o a in
  if s_in (o_s o) then a1 <- a_ExitSearchMode true a ;; Ok (a1, (a_o a1, [AKick], false, false, true))
  else if c_in (o_c o) then lift_sw (key_interrupt cf) a
  else
    b <- MoveToLineEnd (o_b o) ;;
    let hint := oc_intp cf ++ [10] in
    a1 <- (if negb (oc_unique cf) then b <- WriteRunes hint b ;; Ok (put (with_b b o) a) else Ok (put_rest (with_b b o) a)) ;;
    let '(remain, b') := Reset (o_b (a_o a1)) in
    remain <- (if negb (oc_unique cf) then
                 if (length remain <? length hint)%nat then Panic
                 else slice 0 (length remain - length hint) remain
               else Ok remain) ;;
    let o1 := with_h (Revert (o_h (a_o a1))) (with_b b' (a_o a1)) in
    Ok (put_rest o1 a1, (o1, [AIntr remain], false, false, false)).

(** A second operation on the line in the same key (operation.go:215-219, 334-337): the candidates *)
Definition a_complete (cf : ocfg) (a : aop) : outcome aop :=
  if c_in (o_c (a_o a)) then
    match oc_auto cf with Some Do => lift (OnComplete cf Do) a | None => Panic end
  else Ok a.

(** Yank makes a new slice unless there is nothing to yank (runebuf.go:230-243) *)
Definition a_yank (a : aop) : outcome aop :=
  b <- Yank (o_b (a_o a)) ;;
  let o := with_b b (a_o a) in
  Ok (match rb_kill (o_b (a_o a)) with [] => put_rest o a | _ => put_new o end).

(** operation.go:165-337, the switch: the keys that touch the history or the line more than once; the other keys as
    in OpModel.v *)
Definition a_key_switch (cf : ocfg) (r : Z) (a : aop) : outcome (aop * swres) :=
  let o := a_o a in
  let ret (a : aop) (acts : list act) (ks kc : bool) : outcome (aop * swres) := Ok (a, (a_o a, acts, ks, kc, true)) in
  if r =? CharBell then
    a1 <- (if s_in (o_s o) then a_ExitSearchMode true a else Ok a) ;;
    let o1 := a_o a1 in
    ret (put_rest (if c_in (o_c o1) then with_c (ExitCompleteMode (o_c o1)) o1 else o1) a1) [] false false
  else if (r =? CharBckSearch) || (r =? CharFwdSearch) then
    x <- a_SearchMode cf (r =? CharBckSearch) a ;;
    ret (fst x) (if snd x then [] else [ABell]) (snd x) false
  else if (r =? CharBackspace) || (r =? CharCtrlH) then
    if s_in (o_s o) then a1 <- a_SearchBackspace cf a ;; ret a1 [] true false
    else if (length (rb_buf (o_b o)) =? 0)%nat then ret a [ABell] false false
    else
      a1 <- lift (fun o => b <- BufBackspace (o_b o) ;; Ok (with_b b o)) a ;;
      a2 <- a_complete cf a1 ;;
      ret a2 [] false false
  else if r =? CharCtrlY then a1 <- a_yank a ;; ret a1 [] false false
  else if (r =? CharEnter) || (r =? CharCtrlJ) then a_enter cf a
  else if (r =? CharPrev) || (r =? CharNext) then
    x <- key_switch cf r o ;;
    y <- (if r =? CharPrev then Prev (o_h o) else Next (o_h o)) ;;
    let o1 := fst (fst (fst (fst x))) in
    Ok (match fst y with Some _ => put_new o1 | None => put_rest o1 a end, x)
  else if r =? CharDelete then a_delete cf a
  else if r =? CharInterrupt then a_interrupt cf a
  else if (r =? CharTab) || (r =? CharCtrlU) || (r =? CharKill) || (r =? MetaForward) || (r =? CharTranspose) || (r =? MetaBackward)
     || (r =? MetaDelete) || (r =? CharLineStart) || (r =? CharLineEnd) || (r =? CharCtrlZ) || (r =? CharCtrlL) || (r =? MetaBackspace)
     || (r =? CharCtrlW) || (r =? CharBackward) || (r =? CharForward) then lift_sw (key_switch cf r) a
  else if s_in (o_s o) then a1 <- a_SearchChar cf r a ;; ret a1 [] true false
  else
    a1 <- lift (fun o => b <- WriteRunes [r] (o_b o) ;; Ok (with_b b o)) a ;;
    a2 <- a_complete cf a1 ;;
    ret a2 [] false (c_in (o_c (a_o a1))).

(** operation.go:339-363.  Update copies the line into Tmp (history.go:301-324): if the line shares the array of
    that Tmp it is written over itself. *)
Definition a_after_switch (cf : ocfg) (r : Z) (y : aop * swres) : outcome (aop * list act) :=
  let '(a, (_, acts, keepS, keepC, upd)) := y in
  let o := a_o a in
  let a1 := match oc_listen cf with
            | Some f =>
                match f (rb_buf (o_b o)) (rb_idx (o_b o)) r with
                | Some (l, pos) => put_new (with_b (SetWithIdx pos l (o_b o)) o)
                | None => a
                end
            | None => a
            end in
  let o1 := a_o a1 in
  a2 <- (if negb keepS && s_in (o_s o1) then a_ExitSearchMode false a1
         else if c_in (o_c o1) then
           if negb keepC then Ok (put_rest (with_c (ExitCompleteMode (o_c o1)) o1) a1)
           else o2 <- CompleteRefresh cf o1 ;; Ok (put_rest o2 a1)
         else Ok a1) ;;
  let o2 := a_o a2 in
  a3 <- (if upd && negb (s_in (o_s o2)) then
           h <- Update (oc_h cf) (rb_buf (o_b o2)) false (o_h o2) ;; Ok (put_rest (with_h h o2) a2)
         else Ok a2) ;;
  Ok (a3, acts).

(** vim.go: p is Yank, the other commands perform at most one operation on the line (x: Delete and a motion) *)
Definition a_HandleVim (r : Z) (a : aop) : outcome (aop * vres * list act) :=
  x <- HandleVim r (a_o a) ;;
  let '(o1, v, acts) := x in
  Ok (if o_vn (a_o a) && (r =? 112) && negb (length (rb_kill (o_b (a_o a))) =? 0)%nat then put_new o1 else put o1 a, v, acts).

Definition a_vim_and_switch (cf : ocfg) (r : Z) (a : aop) : outcome (aop * list act) :=
  if oc_vim cf then
    x <- a_HandleVim r a ;;
    let '(a1, v, acts) := x in
    match v with
    | VDone => Ok (a1, acts)
    | VWait p => Ok (put_rest (with_v (o_vn (a_o a1)) (Some p) (a_o a1)) a1, acts)
    | VKey r' =>
        if r' =? 0 then Ok (a1, acts)
        else y <- a_key_switch cf r' a1 ;; a_after_switch cf r' y
    end
  else y <- a_key_switch cf r a ;; a_after_switch cf r y.

(** operation.go:123-165 *)
Definition a_handle_key (cf : ocfg) (r : Z) (a : aop) : outcome (aop * list act) :=
  if (r =? 0) && (length (rb_buf (o_b (a_o a))) =? 0)%nat then Ok (put_rest (with_end (a_o a)) a, [AEof])
  else
    let r := if r =? 0 then CharEnter else r in
    if c_sel (o_c (a_o a)) then
      x <- HandleCompleteSelect cf r (a_o a) ;;
      let '(o1, keep) := x in
      let a1 := put o1 a in
      if keep then Ok (a1, [])
      else if (r =? CharEnter) || (r =? CharCtrlJ) then
        h <- Update (oc_h cf) (rb_buf (o_b (a_o a1))) false (o_h (a_o a1)) ;; Ok (put_rest (with_h h (a_o a1)) a1, [AKick])
      else if r =? CharInterrupt then Ok (a1, [AKick])
      else if r =? CharBell then Ok (a1, [])
      else a_vim_and_switch cf r a1
    else a_vim_and_switch cf r a.

(** operation.go:107-366 ioloop, one rune *)
Definition a_step (cf : ocfg) (r : Z) (a : aop) : outcome (aop * list act) :=
  if o_end (a_o a) then Ok (a, [])
  else
    match o_vp (a_o a) with
    | Some p => a1 <- lift (vim_next p r) a ;; Ok (a1, [])
    | None =>
        match oc_filter cf with
        | None => a_handle_key cf r a
        | Some f => match f r with
                    | None => Ok (a, [AKick])
                    | Some r' => a_handle_key cf r' a
                    end
        end
    end.
End alias.

(** Every key comes with its own outcome of the allocations. *)
Fixpoint a_run (cf : ocfg) (rs : list (Z * (list Z -> list Z))) (a : aop) : outcome (aop * list act) :=
  match rs with
  | [] => Ok (a, [])
  | (r, spare) :: rs' =>
      x <- a_step spare cf r a ;;
      y <- a_run cf rs' (fst x) ;;
      Ok (fst y, snd x ++ snd y)
  end.

(** A new instance: the line is nil. *)
Definition a_new (h : hist) : aop := {| a_o := op_new h; a_arr := []; a_al := None |}.
