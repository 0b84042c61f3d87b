(** Model of /repo/history.go.  container/list elements carry an identity (a natural number);
    an element removed by Compact keeps its value but has neither predecessor nor successor
    (list.Remove sets e.next, e.prev and e.list to nil), such elements are kept in [h_dead].
    The history file is its byte contents; see HistFileModel.v for crashes and write errors. *)
From Verif Require Import Base RunesModel Utf8Model.
Open Scope nat_scope.

(** history.go:12-16 hisItem with the identity of its list element.  Version is an int64 in the code;
    overflow is not modelled. *)
Record item := { it_id : nat; it_src : list Z; it_ver : nat; it_tmp : list Z }.

(** o.fd: nil, open, or closed *)
Inductive fdstate := FdNil | FdOpen | FdClosed.

(** history.go:23-31 opHistory; [h_disk] is the contents of the file named by cfg.HistoryFile. *)
Record hist := {
  h_items : list item;
  h_dead : list item;
  h_cur : option nat;
  h_ver : nat;
  h_fresh : nat;
  h_enable : bool;
  h_fd : fdstate;
  h_disk : list Z
}.

(** The fields of Config that history.go reads. *)
Record hcfg := { hc_limit : Z; hc_fold : bool; hc_file : bool }.

(** history.go:33-40 newOpHistory, with the file contents found on disk *)
Definition newOpHistory (disk : list Z) : hist :=
  {| h_items := []; h_dead := []; h_cur := None; h_ver := 0; h_fresh := 0; h_enable := true;
     h_fd := FdNil; h_disk := disk |}.

Definition set_cur (c : option nat) (h : hist) : hist :=
  {| h_items := h_items h; h_dead := h_dead h; h_cur := c; h_ver := h_ver h; h_fresh := h_fresh h;
     h_enable := h_enable h; h_fd := h_fd h; h_disk := h_disk h |}.
Definition bump_ver (h : hist) : hist :=
  {| h_items := h_items h; h_dead := h_dead h; h_cur := h_cur h; h_ver := S (h_ver h); h_fresh := h_fresh h;
     h_enable := h_enable h; h_fd := h_fd h; h_disk := h_disk h |}.
Definition set_lists (l d : list item) (h : hist) : hist :=
  {| h_items := l; h_dead := d; h_cur := h_cur h; h_ver := h_ver h; h_fresh := h_fresh h;
     h_enable := h_enable h; h_fd := h_fd h; h_disk := h_disk h |}.
Definition set_enable (b : bool) (h : hist) : hist :=
  {| h_items := h_items h; h_dead := h_dead h; h_cur := h_cur h; h_ver := h_ver h; h_fresh := h_fresh h;
     h_enable := b; h_fd := h_fd h; h_disk := h_disk h |}.
Definition set_file (fd : fdstate) (disk : list Z) (h : hist) : hist :=
  {| h_items := h_items h; h_dead := h_dead h; h_cur := h_cur h; h_ver := h_ver h; h_fresh := h_fresh h;
     h_enable := h_enable h; h_fd := fd; h_disk := disk |}.

Fixpoint find_item (id : nat) (l : list item) : option item :=
  match l with
  | [] => None
  | x :: l' => if it_id x =? id then Some x else find_item id l'
  end.

(** The value of an element, removed or not. *)
Definition deref (h : hist) (id : nat) : outcome item :=
  match find_item id (h_items h ++ h_dead h) with
  | Some x => Ok x
  | None => Panic
  end.

Definition map_item (id : nat) (f : item -> item) (l : list item) : list item :=
  map (fun x => if it_id x =? id then f x else x) l.

Definition modify (id : nat) (f : item -> item) (h : hist) : hist :=
  set_lists (map_item id f (h_items h)) (map_item id f (h_dead h)) h.

(** list.Back *)
Definition back (h : hist) : option item :=
  match rev (h_items h) with [] => None | x :: _ => Some x end.
Definition back_id (h : hist) : option nat := option_map it_id (back h).

(** Elements before / after an element of the list (none for a removed element). *)
Fixpoint split_at_id (id : nat) (pre l : list item) : option (list item * item * list item) :=
  match l with
  | [] => None
  | x :: l' => if it_id x =? id then Some (pre, x, l') else split_at_id id (x :: pre) l'
  end.

(** elem.Prev(), elem.Prev().Prev(), ... nearest first *)
Definition older (id : nat) (h : hist) : list item :=
  match split_at_id id [] (h_items h) with Some (pre, _, _) => pre | None => [] end.
(** elem.Next(), elem.Next().Next(), ... *)
Definition newer (id : nat) (h : hist) : list item :=
  match split_at_id id [] (h_items h) with Some (_, _, post) => post | None => [] end.

(** history.go:18-21 Clean *)
Definition clean_item (x : item) : item :=
  {| it_id := it_id x; it_src := []; it_ver := it_ver x; it_tmp := [] |}.

(** history.go:195-201 showItem *)
Definition showItem (h : hist) (x : item) : list Z :=
  if it_ver x =? h_ver h then it_tmp x else it_src x.

(** history.go:326-330 Push *)
Definition Push (s : list Z) (h : hist) : hist :=
  {| h_items := h_items h ++ [{| it_id := h_fresh h; it_src := s; it_ver := 0; it_tmp := [] |}];
     h_dead := h_dead h; h_cur := Some (h_fresh h); h_ver := h_ver h; h_fresh := S (h_fresh h);
     h_enable := h_enable h; h_fd := h_fd h; h_disk := h_disk h |}.

(** history.go:97-101 Compact *)
Fixpoint compact_loop (limit : Z) (l dead : list item) : list item * list item :=
  match l with
  | [] => ([], dead)
  | x :: l' =>
      if (limit <? Z.of_nat (length l))%Z then compact_loop limit l' (dead ++ [x]) else (l, dead)
  end.
Definition Compact (c : hcfg) (h : hist) : hist :=
  let '(l, d) := compact_loop (hc_limit c) (h_items h) (h_dead h) in set_lists l d h.

(** history.go:314-317: write to the file descriptor; an error on a closed one is returned and ignored *)
Definition write_fd (bs : list Z) (h : hist) : hist :=
  match h_fd h with
  | FdOpen => set_file FdOpen (h_disk h ++ bs) h
  | _ => h
  end.

(** One line of the file: string(Source) + "\n" (history.go:122, 316) *)
Definition file_line (s : list Z) : list Z := encode s ++ [10%Z].

(** history.go:301-324 Update *)
Definition Update (c : hcfg) (s : list Z) (commit : bool) (h : hist) : outcome hist :=
  match h_cur h with
  | None => Ok (Compact c (Push s h))
  | Some id =>
      x <- deref h id ;;
      let h1 := modify id (fun x =>
        if commit
        then {| it_id := it_id x; it_src := s; it_ver := h_ver h; it_tmp := it_tmp x |}
        else {| it_id := it_id x; it_src := it_src x; it_ver := h_ver h; it_tmp := s |}) h in
      let h2 := if commit then write_fd (file_line s) h1 else h1 in
      Ok (Compact c h2)
  end.

Definition opt_eqb (a b : option nat) : bool :=
  match a, b with
  | None, None => true
  | Some x, Some y => x =? y
  | _, _ => false
  end.

(** history.go:261-264 and 270-275: make the last item current, clear it and drop pending edits *)
Definition clean_back (id : nat) (h : hist) : hist := bump_ver (modify id clean_item (set_cur (Some id) h)).

(** history.go:278-293, the part of New after the early returns *)
Definition new_commit (c : hcfg) (current : list Z) (h : hist) : outcome hist :=
  r <- (if opt_eqb (h_cur h) (back_id h) then Ok (current, h)
        else match h_cur h with
             | None => Panic (* o.current.Value with o.current == nil *)
             | Some id => x <- deref h id ;; Ok (it_tmp x, set_cur (back_id h) h)
             end) ;;
  let '(current, h) := r in
  h <- Update c current true h ;;
  Ok (Push [] (bump_ver h)).

(** history.go:246-294 New *)
Definition New (c : hcfg) (current : list Z) (h : hist) : outcome hist :=
  if negb (h_enable h) then Ok h
  else
    let dup :=
      match rev (h_items h) with
      | b :: p :: _ => if Equal current (it_src p) then Some (it_id b) else None
      | _ => None
      end in
    match dup with
    | Some id => Ok (clean_back id h)
    | None =>
        if length current =? 0 then
          match back_id h with
          | Some id => Ok (clean_back id h)
          | None => new_commit c current (set_cur None h)
          end
        else new_commit c current h
    end.

(** history.go:203-213 Prev (None for the returned nil) *)
Definition Prev (h : hist) : outcome (option (list Z) * hist) :=
  match h_cur h with
  | None => Ok (None, h)
  | Some id =>
      match older id h with
      | [] => Ok (None, h)
      | x :: _ => Ok (Some (showItem h x), set_cur (Some (it_id x)) h)
      end
  end.

(** history.go:215-226 Next *)
Definition Next (h : hist) : outcome (option (list Z) * hist) :=
  match h_cur h with
  | None => Ok (None, h)
  | Some id =>
      match newer id h with
      | [] => Ok (None, h)
      | x :: _ => Ok (Some (showItem h x), set_cur (Some (it_id x)) h)
      end
  end.

(** history.go:296-299 Revert *)
Definition Revert (h : hist) : hist := set_cur (back_id h) (bump_ver h).

(** history.go:42-45 Reset; elements of the old list are kept as removed ones (their old neighbours are
    reachable in the code only through a search in progress, which is not modelled). *)
Definition HReset (h : hist) : hist := set_cur None (set_lists [] (h_dead h ++ h_items h) h).

(** history.go:228-236 Disable, Enable *)
Definition Disable (h : hist) : hist := set_enable false h.
Definition Enable (h : hist) : hist := set_enable true h.

(** history.go:139-145 Close *)
Definition HClose (h : hist) : hist :=
  match h_fd h with FdNil => h | _ => set_file FdClosed (h_disk h) h end.

(** strings.TrimSpace on the decoded line *)
Definition TrimSpace (l : list Z) : list Z := rev (TrimSpaceLeft (rev (TrimSpaceLeft l))).

(** bufio.Reader.ReadString('\n') until an error: the complete lines (without newline); what follows the
    last newline is returned with io.EOF and dropped (history.go:77-80). *)
Fixpoint read_lines (bs cur : list Z) : list (list Z) :=
  match bs with
  | [] => []
  | b :: bs' => if (b =? 10)%Z then cur :: read_lines bs' [] else read_lines bs' (cur ++ [b])
  end.

(** history.go:76-88: the loading loop over the lines read *)
Fixpoint load_lines (c : hcfg) (ls : list (list Z)) (h : hist) : hist :=
  match ls with
  | [] => h
  | l :: ls' =>
      let s := TrimSpace (decode l) in
      load_lines c ls' (if length s =? 0 then h else Compact c (Push s h))
  end.

(** history.go:109-137 rewriteLocked when all file operations succeed *)
Definition rewriteLocked (c : hcfg) (h : hist) : hist :=
  if hc_file c then set_file FdOpen (flat_map (fun x => file_line (it_src x)) (h_items h)) h else h.

(** history.go:66-95 historyUpdatePath; [openable] tells whether OpenFile succeeds *)
Definition historyUpdatePath (c : hcfg) (openable : bool) (h : hist) : hist :=
  if negb openable then h
  else
    let ls := read_lines (h_disk h) [] in
    let h1 := load_lines c ls (set_file FdOpen (h_disk h) h) in
    let h2 := if (hc_limit c <? Z.of_nat (length ls))%Z then rewriteLocked c h1 else h1 in
    Push [] (bump_ver h2).

(** history.go:53-63 Init, initHistory; IsHistoryClosed (47-51) holds for a nil or closed file *)
Definition HInit (c : hcfg) (openable : bool) (h : hist) : hist :=
  match h_fd h with
  | FdOpen => h
  | _ => if hc_file c then historyUpdatePath c openable h else h
  end.

(** history.go:147-165 FindBck: [walk] is the elements from o.current to older ones.
    The assignments to [start] after the first round are irrelevant because [start] is only used for
    o.current, which is met only once. *)
Fixpoint find_bck_older (fold : bool) (rs : list Z) (h : hist) (walk : list item) : option (Z * nat) :=
  match walk with
  | [] => None
  | x :: walk' =>
      let idx := IndexAllBckEx (showItem h x) rs fold in
      if (idx <? 0)%Z then find_bck_older fold rs h walk' else Some (idx, it_id x)
  end.

Definition FindBck (c : hcfg) (isNewSearch : bool) (rs : list Z) (start : nat) (h : hist)
    : outcome (option (Z * nat)) :=
  match h_cur h with
  | None => Ok None
  | Some id =>
      x <- deref h id ;;
      let start := if isNewSearch then start + length rs else start in
      let it := showItem h x in
      let it := if start <=? length it then firstn start it else it in
      let idx := IndexAllBckEx it rs (hc_fold c) in
      if (idx <? 0)%Z then Ok (find_bck_older (hc_fold c) rs h (older id h))
      else Ok (Some (idx, id))
  end.

(** history.go:167-193 FindFwd *)
Fixpoint find_fwd_newer (fold : bool) (rs : list Z) (h : hist) (walk : list item) : option (Z * nat) :=
  match walk with
  | [] => None
  | x :: walk' =>
      let idx := IndexAllEx (showItem h x) rs fold in
      if (idx <? 0)%Z then find_fwd_newer fold rs h walk' else Some (idx, it_id x)
  end.

Definition FindFwd (c : hcfg) (isNewSearch : bool) (rs : list Z) (start : nat) (h : hist)
    : outcome (option (Z * nat)) :=
  match h_cur h with
  | None => Ok None
  | Some id =>
      x <- deref h id ;;
      let start := if isNewSearch then start - length rs else start in
      let it := showItem h x in
      let rest := Ok (find_fwd_newer (hc_fold c) rs h (newer id h)) in
      if start <? length it then
        let idx := IndexAllEx (skipn start it) rs (hc_fold c) in
        if (idx <? 0)%Z then rest else Ok (Some ((idx + Z.of_nat start)%Z, id))
      else rest
  end.

(** Calls that the rest of the package makes, as data. *)
Inductive hcall :=
| HNew (s : list Z) | HUpdate (s : list Z) (commit : bool) | HPrev | HNext | HRevert | HResetC
| HDisable | HEnable | HCloseC | HInitC (openable : bool)
| HGoto (id : nat) (* search.go:78, 117: o.history.current = elem, an element found before *).

Definition run_hcall (c : hcfg) (k : hcall) (h : hist) : outcome hist :=
  match k with
  | HNew s => New c s h
  | HUpdate s commit => Update c s commit h
  | HPrev => r <- Prev h ;; Ok (snd r)
  | HNext => r <- Next h ;; Ok (snd r)
  | HRevert => Ok (Revert h)
  | HResetC => Ok (HReset h)
  | HDisable => Ok (Disable h)
  | HEnable => Ok (Enable h)
  | HCloseC => Ok (HClose h)
  | HInitC o => Ok (HInit c o h)
  | HGoto id => match find_item id (h_items h) with Some _ => Ok (set_cur (Some id) h) | None => Ok h end
  end.

Fixpoint run_hcalls (c : hcfg) (ks : list hcall) (h : hist) : outcome hist :=
  match ks with
  | [] => Ok h
  | k :: ks' => h' <- run_hcall c k h ;; run_hcalls c ks' h'
  end.
