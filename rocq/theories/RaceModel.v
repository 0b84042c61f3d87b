(** The goroutines of an instance together with what they write to the terminal.  SessionModel.v has the goroutines and
    their channels, OutModel.v the drawing; here both run together, with the flag Terminal.isReading, which the terminal
    goroutine sets on its own (terminal.go:134-143) and the writer of Instance.Stdout looks at (operation.go:46-49).
    One drawing event of OutModel.v (one or two calls of RuneBuffer.Refresh and Reset) is one transition; search,
    completion, Ctrl-L, Ctrl-Z and Close are left out, texts printed are whole lines. *)
From Verif Require Import Base RunesModel RuneBufModel HistoryModel TerminalModel RenderModel OpModel OutModel SessionModel.
Open Scope Z_scope.

(** terminal.go:134-143: about to store 0 in isReading; about to store 1; anywhere else *)
Inductive tpc := Store0 | Store1 | Elsewhere.

(** The goroutine that calls Readline: outside any call; in Write of the writer of Instance.Stdout with what IsReading gave
    (operation.go:46-67); in Runes before the prompt is drawn (operation.go:381-390), before KickRead (391), in the
    select (392-400) *)
Inductive cpc := PIdle | PWrite (r : bool) (ls : list (list Z)) | PCalled | PDrawn | PWait.

(** What this goroutine has done so far, and what another one has printed meanwhile: Readline called; a result got; lines
    printed through Instance.Stdout; lines printed to the terminal itself (os.Stdout); lines another goroutine printed
    through Instance.Stdout *)
Inductive lev := LCall | LRes (a : act) | LWrite (ls : list (list Z)) | LDirect (ls : list (list Z)) | LBack (ls : list (list Z)).

Record conc := mkC {
  n_s : sess;                             (* SessionModel.v *)
  n_t : tpc;
  n_flag : bool;                          (* Terminal.isReading *)
  n_es : list oev;                        (* what the key being handled still draws *)
  n_d : rdr;                              (* RuneBuffer, as far as drawing needs it *)
  n_out : list Z;                         (* written to the terminal so far *)
  n_log : list lev;
  n_p : cpc;
  n_b : option (bool * list (list Z))     (* another goroutine in Write, with what IsReading gave *)
}.

(** NewEx (readline.go:164-178) on input [i]; the terminal goroutine is at the start of its loop *)
Definition conc_new (i : list Z) (o : op) (d : rdr) : conc := mkC (sess_new i o) Store0 false [] d [] [] PIdle None.

Definition lines (ls : list (list Z)) : list Z := flat_map (fun l => l ++ [10]) ls.

(** The transitions as in SessionModel.v, with the drawing.  A key draws before its result is sent (operation.go:244-261,
    281-301, 302-330, without UniqueEditLine); KickRead (283) and bells may come before or after. *)
Inductive moves (cf : ocfg) : conc -> conc -> Prop :=
(* terminal.go:134-143 *)
| m_store0 s fl es d out lg p b : ss_t s = TWait ->
    moves cf (mkC s Store0 fl es d out lg p b) (mkC s Elsewhere false es d out lg p b)
| m_kick i ts e er c rs k f fl es d out lg p b :
    moves cf (mkC (mkS i ts TWait true e er c rs k f) Elsewhere fl es d out lg p b)
             (mkC (mkS i ts TRead false e er c rs k f) Store1 fl es d out lg p b)
| m_store1 s fl es d out lg p b : ss_t s = TRead ->
    moves cf (mkC s Store1 fl es d out lg p b) (mkC s Elsewhere true es d out lg p b)
(* terminal.go:144-211 *)
| m_skip r i ts ts' x q e er c rs k f fl es d out lg p b : tstep (oc_u cf) (oc_vim cf) ts r = (ts', x) -> no_key x ->
    moves cf (mkC (mkS (r :: i) ts TRead q e er c rs k f) Elsewhere fl es d out lg p b)
             (mkC (mkS i ts' TRead q e er c rs k f) Elsewhere fl es d out lg p b)
| m_key r i ts ts' y q e er c rs k f fl es d out lg p b : tstep (oc_u cf) (oc_vim cf) ts r = (ts', TKey y) ->
    moves cf (mkC (mkS (r :: i) ts TRead q e er c rs k f) Elsewhere fl es d out lg p b)
             (mkC (mkS i ts' (TSend y) q e er c rs k f) Elsewhere fl es d out lg p b)
(* a rune goes to the editor: terminal.go:199-211, operation.go:108 *)
| m_recv i ts y q o o' a er c rs k f fl es d out lg p b : op_step cf y o = Ok (o', a) -> key_draws cf y o = Ok es ->
    moves cf (mkC (mkS i ts (TSend y) q (ERecv o) er c rs k f) Elsewhere fl [] d out lg p b)
             (mkC (mkS i ts (if pauses y then TWait else TRead) q (EDo o o' a) er c rs k f)
                  (if pauses y then Store0 else Elsewhere) fl es d out lg p b)
| m_crash i ts y q o er c rs k f fl d out lg p b :
    ~ (exists x es, op_step cf y o = Ok x /\ key_draws cf y o = Ok es) ->
    moves cf (mkC (mkS i ts (TSend y) q (ERecv o) er c rs k f) Elsewhere fl [] d out lg p b)
             (mkC (mkS i ts (if pauses y then TWait else TRead) q ECrash er c rs k f)
                  (if pauses y then Store0 else Elsewhere) fl [] d out lg p b)
(* the editor draws *)
| m_draw s t fl e es d d' r x out lg p b : ostep (oc_u cf) (true, d) e = Ok ((r, d'), x) ->
    moves cf (mkC s t fl (e :: es) d out lg p b) (mkC s t fl es d' (out ++ x) lg p b)
| m_break i ts q t e er c rs k f tp fl v es d out lg p b : ~ (exists y, ostep (oc_u cf) (true, d) v = Ok y) ->
    moves cf (mkC (mkS i ts t q e er c rs k f) tp fl (v :: es) d out lg p b)
             (mkC (mkS i ts t q ECrash er c rs k f) tp fl [] d out lg p b)
(* other actions of the editor *)
| m_quiet i ts t q o o' x a er c rs k f tp fl es d out lg p b : is_quiet x = true ->
    moves cf (mkC (mkS i ts t q (EDo o o' (x :: a)) er c rs k f) tp fl es d out lg p b)
             (mkC (mkS i ts t q (EDo o o' a) er c rs k f) tp fl es d out lg p b)
| m_ekick i ts t q o o' a er c rs k f tp fl es d out lg p b :
    moves cf (mkC (mkS i ts t q (EDo o o' (AKick :: a)) er c rs k f) tp fl es d out lg p b)
             (mkC (mkS i ts t true (EDo o o' a) er c rs k f) tp fl es d out lg p b)
| m_line i ts t q o o' l a er rs k f tp fl d out lg b :
    moves cf (mkC (mkS i ts t q (EDo o o' (ALine l :: a)) er CWait rs k f) tp fl [] d out lg PWait b)
             (mkC (mkS i ts t q (EDo o o' a) er CIdle (rs ++ [ALine l]) k f) tp fl [] d out (lg ++ [LRes (ALine l)]) PIdle b)
| m_err i ts t q o o' x a c rs k f tp fl d out lg p b : is_err x = true ->
    moves cf (mkC (mkS i ts t q (EDo o o' (x :: a)) None c rs k f) tp fl [] d out lg p b)
             (mkC (mkS i ts t q (EDo o o' a) (Some x) c rs k f) tp fl [] d out lg p b)
| m_next i ts t q o o' er c rs k f tp fl d out lg p b :
    moves cf (mkC (mkS i ts t q (EDo o o' []) er c rs k f) tp fl [] d out lg p b)
             (mkC (mkS i ts t q (if o_end o' then EDone o' else ERecv o') er c rs k f) tp fl [] d out lg p b)
(* operation.go:381-400: Runes *)
| m_call i ts t q e er rs k f tp fl es d out lg b :
    moves cf (mkC (mkS i ts t q e er CIdle rs k f) tp fl es d out lg PIdle b)
             (mkC (mkS i ts t q e er CCalled rs k f) tp fl es d out (lg ++ [LCall]) PCalled b)
| m_prompt s tp fl es d d' r x out lg b : ostep (oc_u cf) (true, d) (ODraw VRead) = Ok ((r, d'), x) ->
    moves cf (mkC s tp fl es d out lg PCalled b) (mkC s tp fl es d' (out ++ x) lg PDrawn b)
| m_ckick i ts t q e er rs k f tp fl es d out lg b :
    moves cf (mkC (mkS i ts t q e er CCalled rs k f) tp fl es d out lg PDrawn b)
             (mkC (mkS i ts t true e er CWait rs k f) tp fl es d out lg PWait b)
| m_cerr i ts t q e x rs k f tp fl es d out lg b :
    moves cf (mkC (mkS i ts t q e (Some x) CWait rs k f) tp fl es d out lg PWait b)
             (mkC (mkS i ts t q e None CIdle (rs ++ [x]) k f) tp fl es d out (lg ++ [LRes x]) PIdle b)
(* the same goroutine prints: operation.go:46-67, or not through the instance *)
| m_test s tp fl es d out lg b ls : moves cf (mkC s tp fl es d out lg PIdle b) (mkC s tp fl es d out lg (PWrite fl ls) b)
| m_write0 s tp fl es d out lg b ls :
    moves cf (mkC s tp fl es d out lg (PWrite false ls) b) (mkC s tp fl es d (out ++ lines ls) (lg ++ [LWrite ls]) PIdle b)
| m_write1 s tp fl es d d' x out lg b ls : refresh (oc_u cf) d (d_buf d) (d_idx d) (lines ls) = Ok (d', x) ->
    moves cf (mkC s tp fl es d out lg (PWrite true ls) b) (mkC s tp fl es d' (out ++ x) (lg ++ [LWrite ls]) PIdle b)
| m_direct s tp fl es d out lg b ls :
    moves cf (mkC s tp fl es d out lg PIdle b) (mkC s tp fl es d (out ++ lines ls) (lg ++ [LDirect ls]) PIdle b).

(** Another goroutine prints through Instance.Stdout (operation.go:46-67). *)
Inductive back (cf : ocfg) : conc -> conc -> Prop :=
| b_test s tp fl es d out lg p ls : back cf (mkC s tp fl es d out lg p None) (mkC s tp fl es d out lg p (Some (fl, ls)))
| b_write0 s tp fl es d out lg p ls :
    back cf (mkC s tp fl es d out lg p (Some (false, ls))) (mkC s tp fl es d (out ++ lines ls) (lg ++ [LBack ls]) p None)
| b_write1 s tp fl es d d' x out lg p ls : refresh (oc_u cf) d (d_buf d) (d_idx d) (lines ls) = Ok (d', x) ->
    back cf (mkC s tp fl es d out lg p (Some (true, ls))) (mkC s tp fl es d' (out ++ x) (lg ++ [LBack ls]) p None).

Inductive creach (cf : ocfg) (c0 : conc) : conc -> Prop :=
| cr_0 : creach cf c0 c0
| cr_1 c c' : creach cf c0 c -> moves cf c c' \/ back cf c c' -> creach cf c0 c'.
