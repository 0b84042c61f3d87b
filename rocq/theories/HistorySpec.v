(** Specification vocabulary for the history. *)
From Verif Require Import Base RunesModel RunesSpec Utf8Model Utf8Spec HistoryModel.
Open Scope nat_scope.

(** The newest [n] elements. *)
Definition lastn {A} (n : nat) (l : list A) : list A := skipn (length l - n) l.

(** The recorded lines: every entry but the last one, which is the line being edited. *)
Definition committed (h : hist) : list (list Z) := map it_src (removelast (h_items h)).

(** What happens at one prompt: the line is edited (Update without commit after every key) and submitted. *)
Inductive event := Edit (s : list Z) | Submit (s : list Z).

Definition run_event (c : hcfg) (e : event) (h : hist) : outcome hist :=
  match e with Edit s => Update c s false h | Submit s => New c s h end.
Fixpoint run_events (c : hcfg) (es : list event) (h : hist) : outcome hist :=
  match es with
  | [] => Ok h
  | e :: es' => h' <- run_event c e h ;; run_events c es' h'
  end.

(** The lines that should be recorded: no empty line, no immediate repetition. *)
Definition last_line (r : list (list Z)) : option (list Z) :=
  match rev r with [] => None | x :: _ => Some x end.
Definition record (r : list (list Z)) (e : event) : list (list Z) :=
  match e with
  | Edit _ => r
  | Submit s =>
      if list_eq_dec Z.eq_dec s [] then r
      else match last_line r with
           | Some x => if list_eq_dec Z.eq_dec x s then r else r ++ [s]
           | None => r ++ [s]
           end
  end.
Definition recorded (r : list (list Z)) (es : list event) : list (list Z) := fold_left record es r.

(** The first thing that happens to a history without entries is not the submission of an empty line. *)
Definition starts_well (es : list event) : Prop :=
  match es with Submit [] :: _ => False | _ => True end.

(** A history waiting at the prompt with recorded lines [r]: the last entry is the line being edited and is
    the current one. *)
Definition at_prompt (c : hcfg) (h : hist) (r : list (list Z)) : Prop :=
  h_enable h = true /\ committed h = r /\ (Z.of_nat (length r) <= hc_limit c)%Z /\
  exists e, back h = Some e /\ h_cur h = Some (it_id e).

(** Text shown for the element [id], if it is in the list. *)
Definition shown (h : hist) (id : nat) : option (list Z) :=
  option_map (showItem h) (find_item id (h_items h)).

(** A line that survives being written to the history file. *)
Definition clean_line (s : list Z) : Prop :=
  s <> [] /\ Forall scalar s /\ ~ In 10%Z s /\
  (forall x t, s = x :: t -> IsSpace x = false) /\ (forall x t, s = t ++ [x] -> IsSpace x = false).

(** The history list as the user sees it, oldest first: identity, recorded text, shown text. *)
Definition view (h : hist) : list (nat * list Z * list Z) :=
  map (fun x => (it_id x, it_src x, showItem h x)) (h_items h).
Definition sources (h : hist) : list (nat * list Z) := map (fun x => (it_id x, it_src x)) (h_items h).

(** The current entry is number [p] (0 is the oldest). *)
Definition cur_at (h : hist) (p : nat) : Prop :=
  exists x, nth_error (h_items h) p = Some x /\ h_cur h = Some (it_id x).
Definition shown_at (h : hist) (p : nat) : option (list Z) := option_map (showItem h) (nth_error (h_items h) p).

(** Key up and key down as the read loop performs them: the buffer is replaced by the entry shown (left alone
    when there is none) and then stored as the uncommitted text of the current entry
    (operation.go:267-280, 360-363). *)
Definition press (step : hist -> outcome (option (list Z) * hist)) (c : hcfg) (st : hist * list Z)
    : outcome (hist * list Z) :=
  r <- step (fst st) ;;
  let buf := match fst r with Some t => t | None => snd st end in
  h <- Update c buf false (snd r) ;;
  Ok (h, buf).
Fixpoint presses (step : hist -> outcome (option (list Z) * hist)) (c : hcfg) (n : nat) (st : hist * list Z)
    : outcome (hist * list Z) :=
  match n with
  | O => Ok st
  | S n' => st' <- press step c st ;; presses step c n' st'
  end.

(** Calls that only browse and edit. *)
Definition browsing (k : hcall) : bool :=
  match k with HPrev | HNext | HRevert | HGoto _ | HUpdate _ false => true | _ => false end.

(** [Some (k, id)]: going through the candidates in order, [id] is the first whose text contains the
    search text, at [k] selected by [best]; [None]: none contains it. *)
Definition nearest (best : list Z -> nat -> Prop) (occurs : list Z -> nat -> Prop)
    (cands : list (nat * list Z)) (r : option (Z * nat)) : Prop :=
  match r with
  | None => forall id t k, In (id, t) cands -> ~ occurs t k
  | Some (k, id) =>
      exists before t after m, cands = before ++ (id, t) :: after /\ k = Z.of_nat m /\
        occurs t m /\ best t m /\ forall id' t' m', In (id', t') before -> ~ occurs t' m'
  end.
