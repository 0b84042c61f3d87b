(** Independent specification for the text helpers. *)
From Verif Require Import Base.
Open Scope Z_scope.

(** [sub] occurs in [text] at position [i] up to the relation [eq] on runes. *)
Definition occurs_at (eq : Z -> Z -> Prop) (text sub : list Z) (i : nat) : Prop :=
  exists pre mid post,
    text = pre ++ mid ++ post /\ length pre = i /\ Forall2 eq mid sub.

(** ASCII lower casing. *)
Definition lower (c : Z) : Z := if (65 <=? c) && (c <=? 90) then c + 32 else c.

(** The comparison a search uses: exact, or ignoring ASCII case. *)
Definition same_rune (fold : bool) (a b : Z) : Prop :=
  if fold then lower a = lower b else a = b.

(** [p] is a prefix of [l]. *)
Definition is_prefix (p l : list Z) : Prop := exists t, l = p ++ t.

(** [p] is the longest common prefix of all members of [ls]. *)
Definition longest_common_prefix (p : list Z) (ls : list (list Z)) : Prop :=
  (forall l, In l ls -> is_prefix p l) /\
  (forall q, (forall l, In l ls -> is_prefix q l) -> (length q <= length p)%nat).

(** A prompt as the user writes it: visible runes and SGR colour sequences ESC [ params m. *)
Inductive piece := Vis (r : Z) | Sgr (params : list Z).

Definition piece_runes (p : piece) : list Z :=
  match p with
  | Vis r => [r]
  | Sgr ps => 27 :: 91 :: ps ++ [109]
  end.

Definition prompt_runes (ps : list piece) : list Z := flat_map piece_runes ps.

Definition visible (ps : list piece) : list Z :=
  flat_map (fun p => match p with Vis r => [r] | Sgr _ => [] end) ps.

(** Visible runes are not ESC; colour parameters contain no terminating 'm'. *)
Definition piece_ok (p : piece) : bool :=
  match p with
  | Vis r => negb (r =? 27)
  | Sgr ps => forallb (fun x => negb (x =? 109)) ps
  end.

Definition sum (l : list nat) : nat := fold_right Nat.add 0%nat l.

(** Unicode white space. *)
Definition white_space : list Z :=
  [9; 10; 11; 12; 13; 32; 133; 160; 5760; 8192; 8193; 8194; 8195; 8196; 8197; 8198; 8199; 8200; 8201; 8202; 8232; 8233; 8239; 8287; 12288].
