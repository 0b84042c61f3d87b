(** A cleared screen. *)
From Verif Require Import Base RunesModel RunesSpec ScreenModel RenderModel RenderSpec ClearModel.
Open Scope Z_scope.

(** In view, that is from row [top] on, are prompt and line in the first rows, with the cursor in place, and nothing else. *)
Definition cleared (ps : list piece) (d : rdr) (top : Z) (s : scr) : Prop := displayed ps d top s.
