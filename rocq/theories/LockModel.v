(** Which locks the methods of an instance take, in which order, and which
    shared fields they touch while holding them.

    The code of this file says nothing about values: a method is the set of
    sequences of lock operations and field accesses it may make.  Every test of
    the code becomes a free choice ([POr]) and every loop a free number of
    rounds ([PMany]), so each real execution's sequence is among those of the
    model.  Channels, atomics (IsReading, terminal.go:107-109; sleeping,
    terminal.go:44-47) and the user's own locks are left out: see DESIGN.md. *)
Require Import List Arith Bool.
Import ListNotations.
Open Scope nat_scope.

(** The mutexes: Operation.m (operation.go:22), RuneBuffer's (runebuf.go:35),
    opHistory.fdLock (history.go:29; one for all the histories an instance has
    had, each method uses the lock of its own receiver), Terminal.m
    (terminal.go:13). *)
Inductive lock := LOp | LBuf | LHist | LTerm.

Definition lock_eqb (a b : lock) : bool :=
  match a, b with
  | LOp, LOp | LBuf, LBuf | LHist, LHist | LTerm, LTerm => true
  | _, _ => false
  end.

(** The fields several goroutines use.
    [VPrompt] [VInter] [VClean] [VBufCfg] [VWidth] are RuneBuffer's prompt,
    interactive, hadClean, cfg and width, [VLine] its buf and idx
    (runebuf.go:16-36); [VFd] is opHistory.fd, [VHist] its list, current,
    historyVer and enable, and the pointer Operation.history (history.go:22-31,
    operation.go:30); [VCfg] is the pointer Operation.cfg (operation.go:23),
    [VMask] and [VVim] the fields MaskRune and VimMode of that configuration
    (readline.go:52, 65); [VTermCfg] is Terminal.cfg (terminal.go:14);
    [VMenu] [VSearch] are the fields of opCompleter (complete.go:27-38) and
    opSearch (search.go:19-33). *)
Inductive var :=
  VPrompt | VInter | VClean | VBufCfg | VWidth | VLine | VFd | VHist
| VCfg | VMask | VVim | VTermCfg | VMenu | VSearch.

(** One step of a goroutine. *)
Inductive act := Acq (l : lock) | Rel (l : lock) | Rd (v : var) | Wr (v : var).

(** What a piece of code may do.  [PWith l p] is l.Lock(); p; l.Unlock(), also
    written with defer. *)
Inductive prog :=
| PSkip
| PRd (v : var)
| PWr (v : var)
| PWith (l : lock) (p : prog)
| PSeq (p q : prog)
| POr (p q : prog)
| PMany (p : prog).

(** The sequences of steps of a piece of code. *)
Inductive tr : prog -> list act -> Prop :=
| tr_skip : tr PSkip []
| tr_rd v : tr (PRd v) [Rd v]
| tr_wr v : tr (PWr v) [Wr v]
| tr_with l p t : tr p t -> tr (PWith l p) (Acq l :: t ++ [Rel l])
| tr_seq p q t u : tr p t -> tr q u -> tr (PSeq p q) (t ++ u)
| tr_orl p q t : tr p t -> tr (POr p q) t
| tr_orr p q t : tr q t -> tr (POr p q) t
| tr_none p : tr (PMany p) []
| tr_more p t u : tr p t -> tr (PMany p) u -> tr (PMany p) (t ++ u).

Definition seqs (l : list prog) : prog := fold_right PSeq PSkip l.
Definition opt (p : prog) : prog := POr PSkip p.
Definition alts (l : list prog) : prog := fold_right POr PSkip l.

(** Goroutines, each with what is left of its sequence, and who holds what.
    Lock() waits while the mutex is held, by whomever: Go's mutexes are not
    reentrant. *)
Record sys := { s_th : list (list act); s_own : lock -> option nat }.

Fixpoint set_nth {A} (i : nat) (x : A) (l : list A) : list A :=
  match l, i with
  | [], _ => []
  | _ :: r, O => x :: r
  | y :: r, S j => y :: set_nth j x r
  end.

Definition set_own (l : lock) (o : option nat) (f : lock -> option nat) (k : lock) : option nat :=
  if lock_eqb k l then o else f k.

Inductive step : sys -> sys -> Prop :=
| st_acq ts own i l t :
    nth_error ts i = Some (Acq l :: t) -> own l = None ->
    step {| s_th := ts; s_own := own |}
         {| s_th := set_nth i t ts; s_own := set_own l (Some i) own |}
| st_rel ts own i l t :
    nth_error ts i = Some (Rel l :: t) ->
    step {| s_th := ts; s_own := own |}
         {| s_th := set_nth i t ts; s_own := set_own l None own |}
| st_rd ts own i v t :
    nth_error ts i = Some (Rd v :: t) ->
    step {| s_th := ts; s_own := own |} {| s_th := set_nth i t ts; s_own := own |}
| st_wr ts own i v t :
    nth_error ts i = Some (Wr v :: t) ->
    step {| s_th := ts; s_own := own |} {| s_th := set_nth i t ts; s_own := own |}.

Inductive reach : sys -> sys -> Prop :=
| reach_refl s : reach s s
| reach_step s s' s'' : step s s' -> reach s' s'' -> reach s s''.

Definition start (ts : list (list act)) : sys := {| s_th := ts; s_own := fun _ => None |}.

(** * The code *)

(** What the user supplies and the library calls holding a lock: Config.Painter,
    Config.Stdout, Config.FuncGetWidth. *)
Record given := { g_paint : prog; g_write : prog; g_width : prog }.

Section Code.
Variable g : given.

(** Terminal.Write (terminal.go:64-66): reads t.cfg without a lock, writes to
    the user's Stdout.  Also Print, PrintRune and Bell (terminal.go:86-92,
    216-218). *)
Definition t_write : prog := PSeq (PRd VTermCfg) (g_write g).

(** RuneBuffer.idxLine, isInLineEdge, getSplitByLine, promptLen
    (runebuf.go:101-103, 420-430, 438-444). *)
Definition idx_line : prog := seqs [PRd VWidth; PRd VPrompt; PRd VLine].

(** RuneBuffer.clean, cleanWithIdxLine, cleanOutput (runebuf.go:591-611,
    619-629). *)
Definition clean : prog :=
  seqs [idx_line; PRd VClean; PRd VInter;
        opt (seqs [PWr VClean; PRd VWidth; PRd VLine; PRd VPrompt; t_write])].

(** RuneBuffer.output, getBackspaceSequence (runebuf.go:479-541). *)
Definition output : prog :=
  seqs [PRd VPrompt; PRd VBufCfg; PRd VLine;
        POr (PRd VMask) (PSeq (g_paint g) idx_line);
        opt (seqs [PRd VWidth; PRd VPrompt; PRd VLine])].

(** RuneBuffer.print (runebuf.go:474-477). *)
Definition print : prog := seqs [output; t_write; PWr VClean].

(** RuneBuffer.Refresh (runebuf.go:450-466). *)
Definition refresh (f : prog) : prog :=
  PWith LBuf (PSeq (PRd VInter) (POr f (seqs [clean; f; print]))).

(** The editing methods of RuneBuffer: Refresh around a function that reads and
    perhaps changes the line (runebuf.go:54-61, 143-381, 391-417, 575-583). *)
Definition edit : prog := refresh (PSeq (PRd VLine) (opt (PWr VLine))).

(** CurrentWidth, RuneSlice, Runes, Pos, Len, IsCursorInEnd
    (runebuf.go:88-92, 105-137, 182-186). *)
Definition look : prog := PWith LBuf (PRd VLine).

(** PromptLen (runebuf.go:94-99). *)
Definition prompt_len : prog := PWith LBuf (PRd VPrompt).

(** LineCount, IdxLine, CursorLineCount (runebuf.go:383-389, 432-436, 446-448):
    the width is read, and the line measured, before any lock is taken. *)
Definition cursor_line_count : prog :=
  seqs [PRd VWidth; PRd VLine; prompt_len; PRd VWidth; PWith LBuf idx_line].

(** RuneBuffer.Reset (runebuf.go:543-548): no lock. *)
Definition buf_reset : prog := seqs [PRd VLine; PWr VLine].

(** RuneBuffer.SetStyle, calWidth (runebuf.go:550-573): no lock. *)
Definition set_style : prog :=
  seqs [PRd VLine; t_write; t_write; PRd VLine; t_write; t_write].

(** RuneBuffer.SetPrompt, SetMask, SetConfig, OnWidthChange, Clean
    (runebuf.go:42-46, 75-86, 585-589, 613-617). *)
Definition buf_set_prompt : prog := PWith LBuf (PWr VPrompt).
Definition buf_set_mask : prog := PWith LBuf (PSeq (PRd VBufCfg) (PWr VMask)).
Definition buf_set_config : prog := PWith LBuf (PSeq (PWr VBufCfg) (PWr VInter)).
Definition buf_width : prog := PWith LBuf (PWr VWidth).
Definition buf_clean : prog := PWith LBuf clean.

(** Operation.GetConfig (operation.go:100-105): copies the whole structure. *)
Definition get_config : prog := PWith LOp (seqs [PRd VCfg; PRd VMask; PRd VVim]).

(** Operation.Refresh (operation.go:503-507). *)
Definition op_refresh : prog := opt (refresh PSkip).

(** opHistory.Update, Push, Compact (history.go:97-101, 301-331). *)
Definition hist_update : prog :=
  PWith LHist (seqs [PRd VHist; PWr VHist; opt (PRd VFd)]).

(** opHistory.New (history.go:246-294): tests and moves the current entry
    without the lock. *)
Definition hist_new : prog :=
  seqs [PRd VHist; opt (seqs [PWr VHist; hist_update; PWr VHist])].

(** opHistory.Prev, Next, FindBck, FindFwd, showItem, Revert, Reset, Enable,
    Disable (history.go:42-45, 147-235, 296-299): no lock. *)
Definition hist_read : prog := PSeq (PRd VHist) (opt (PWr VHist)).
Definition hist_write : prog := PWr VHist.

(** opHistory.Close (history.go:139-145). *)
Definition hist_close : prog := PWith LHist (PRd VFd).

(** opHistory.Init: IsHistoryClosed, historyUpdatePath, rewriteLocked
    (history.go:47-95, 109-137). *)
Definition hist_init : prog :=
  PSeq (PWith LHist (PRd VFd))
       (opt (PWith LHist (seqs [PWr VFd; PRd VFd; PRd VHist; PWr VHist;
                                opt (seqs [PRd VHist; PRd VFd; PWr VFd])]))).

(** Operation.SetHistoryPath (operation.go:446-452). *)
Definition set_history_path : prog :=
  seqs [PRd VHist; opt hist_close; PRd VCfg; PWr VHist].

(** Operation.SetConfig (operation.go:458-491): the whole of it under o.m,
    Config.Init (readline.go:101-163) included, which touches only the new
    configuration. *)
Definition op_set_config : prog :=
  PWith LOp
    (seqs [PRd VCfg;
           opt (seqs [PWr VCfg; buf_set_prompt; buf_set_mask; buf_set_config;
                      g_width g;
                      opt (seqs [set_history_path; PWr VSearch]);
                      PWr VHist; hist_init; opt (PWr VMenu); PWr VSearch])]).

(** opSearch.SearchRefresh (search.go:127-163). *)
Definition search_refresh : prog :=
  seqs [PWr VSearch; PRd VLine; look; prompt_len; PRd VSearch;
        opt set_style; cursor_line_count; t_write].

(** opCompleter.CompleteRefresh (complete.go:184-242). *)
Definition complete_refresh : prog :=
  seqs [PRd VMenu;
        opt (seqs [cursor_line_count; PRd VMenu; look; PWr VMenu; t_write;
                   PRd VLine; prompt_len; t_write])].

(** wrapWriter.Write with Operation.Stdout / Stderr (operation.go:47-67,
    368-374), which Instance.Write is. *)
Definition m_write : prog :=
  seqs [get_config;
        POr (g_write g)
            (seqs [refresh (g_write g);
                   PRd VSearch; opt search_refresh;
                   PRd VMenu; opt complete_refresh])].

(** opSearch.search, SearchMode, SearchChar, SearchBackspace, ExitSearchMode
    (search.go:53-125). *)
Definition do_search : prog :=
  seqs [PRd VSearch; PWr VSearch; PRd VLine; hist_read; opt edit; opt search_refresh].
Definition exit_search : prog :=
  seqs [opt (seqs [PRd VSearch; PWr VHist; PRd VHist; edit]); PWr VSearch].

(** opCompleter.OnComplete, doSelect, HandleCompleteSelect and the mode changes
    (complete.go:48-183, 261-291); [c] is AutoCompleter.Do. *)
Definition do_complete (c : prog) : prog :=
  seqs [PRd VMenu; look; PWr VMenu; PRd VCfg; PRd VLine; c;
        opt edit; PWr VMenu; opt complete_refresh].
Definition do_select : prog := seqs [PRd VMenu; opt edit; PWr VMenu; opt complete_refresh].

(** The Enter key (operation.go:242-262). *)
Definition key_enter : prog :=
  seqs [opt exit_search; edit; get_config;
        POr (PSeq edit buf_reset) (PSeq buf_clean buf_reset);
        get_config; opt hist_new].

(** One turn of Operation.ioloop (operation.go:107-366) in any mode; [f], [c]
    and [l] are FuncFilterInputRune, AutoCompleter.Do and Listener.OnChange. *)
Definition m_key (f c l : prog) : prog :=
  seqs
    [get_config; opt (PSeq get_config f);
     alts
       [refresh PSkip;                                             (* dropped by the filter *)
        PSeq look buf_clean;                                       (* end of the input *)
        seqs
          [PRd VMenu; opt (seqs [do_select; refresh PSkip; opt (PSeq look hist_update)]);
           PRd VVim; PMany edit;                                   (* vim.go *)
           PRd VSearch; PRd VMenu;
           alts
             [PSeq exit_search (refresh PSkip);                    (* Ctrl-G *)
              seqs [get_config; do_complete c; opt t_write];       (* Tab *)
              PSeq do_search (opt t_write);                        (* Ctrl-R, Ctrl-S, letters *)
              seqs [opt look; edit; opt (do_complete c)];          (* editing keys *)
              seqs [buf_clean; PRd VTermCfg; op_refresh];          (* Ctrl-Z *)
              PSeq t_write op_refresh;                             (* Ctrl-L *)
              key_enter;                                           (* Enter *)
              seqs [hist_read; opt edit; opt t_write];             (* Ctrl-P, Ctrl-N *)
              seqs [look; get_config; opt edit; buf_reset; hist_write; opt buf_clean];
                                                                   (* Ctrl-D *)
              seqs [opt exit_search; edit; refresh PSkip; get_config; opt edit;
                    buf_reset; hist_write]];                       (* Ctrl-C *)
           get_config; opt (seqs [look; look; l; opt edit]);
           PWith LOp
             (seqs [PRd VSearch; PRd VMenu;
                    opt (PSeq exit_search (refresh PSkip));
                    opt (seqs [PWr VMenu; op_refresh]);
                    opt (PSeq (refresh PSkip) complete_refresh);
                    opt (PSeq look hist_update)])]]].

(** The handler of width changes (operation.go:82-87), run by the goroutine of
    utils_unix.go:71-79. *)
Definition m_width : prog := seqs [g_width g; PWr VMenu; PWr VSearch; buf_width].

(** Operation.Runes (operation.go:381-401): raw mode, the listener with an
    empty line, the prompt. *)
Definition m_runes (l : prog) : prog :=
  seqs [PRd VTermCfg; get_config; opt l; refresh PSkip; PRd VTermCfg].

(** Operation.PasswordWithConfig (operation.go:414-420, password.go:12-34). *)
Definition m_password (l : prog) : prog :=
  seqs [PRd VCfg; op_set_config; m_runes l; op_set_config].

(** Instance.Close (readline.go:277-284): opHistory.Close, Terminal.Close
    (terminal.go:220-230). *)
Definition m_close : prog := PSeq hist_close (PRd VTermCfg).

(** Terminal.GetConfig and getStdin, Terminal.SetConfig (terminal.go:232-254). *)
Definition t_get : prog := PWith LTerm (PRd VTermCfg).
Definition t_set : prog := PWith LTerm (PWr VTermCfg).

(** Instance.SetConfig (readline.go:315-324). *)
Definition m_set_config : prog := PSeq op_set_config t_set.

(** One turn of Terminal.ioloop (terminal.go:118-214). *)
Definition t_loop : prog := PSeq t_get (opt (PRd VTermCfg)).

(** Methods that take neither o.m nor the buffer's lock: SaveHistory,
    ResetHistory, HistoryEnable / Disable (operation.go:493-501,
    readline.go:331-338), SetVimMode (vim.go:24-38), WriteStdin
    (terminal.go:70-72), Terminal's own. *)
Inductive quiet : prog -> Prop :=
| q_skip : quiet PSkip
| q_save : quiet hist_new
| q_reset : quiet hist_write
| q_vim : quiet (PSeq (PRd VVim) (PWr VVim))
| q_isvim : quiet (PRd VVim)
| q_stdin : quiet (PRd VTermCfg)
| q_tget : quiet t_get
| q_tset : quiet t_set
| q_seq p q : quiet p -> quiet q -> quiet (PSeq p q)
| q_or p q : quiet p -> quiet q -> quiet (POr p q)
| q_many p : quiet p -> quiet (PMany p).

(** Those and the ones that take the buffer's lock but not o.m: SetPrompt,
    SetMaskRune, Clean, Refresh, SetBuffer (operation.go:37-39, 92-98,
    503-511). *)
Inductive drawing : prog -> Prop :=
| d_quiet p : quiet p -> drawing p
| d_prompt : drawing buf_set_prompt
| d_mask : drawing buf_set_mask
| d_clean : drawing buf_clean
| d_refresh : drawing op_refresh
| d_setbuffer : drawing edit
| d_seq p q : drawing p -> drawing q -> drawing (PSeq p q)
| d_or p q : drawing p -> drawing q -> drawing (POr p q)
| d_many p : drawing p -> drawing (PMany p).

(** Everything a goroutine of the program, or of the library, may do, callbacks
    that are called without a lock included. *)
Inductive calls : prog -> Prop :=
| c_drawing p : drawing p -> calls p
| c_config : calls get_config
| c_write : calls m_write
| c_setconfig : calls m_set_config
| c_genpassword : calls (PRd VCfg)
| c_path : calls set_history_path
| c_close : calls m_close
| c_width : calls m_width
| c_runes l : calls l -> calls (m_runes l)
| c_password l : calls l -> calls (m_password l)
| c_key f c l : calls f -> calls c -> calls l -> calls (m_key f c l)
| c_term : calls t_loop
| c_seq p q : calls p -> calls q -> calls (PSeq p q)
| c_or p q : calls p -> calls q -> calls (POr p q)
| c_many p : calls p -> calls (PMany p).

End Code.
