(** Property C134: programs that ask for lines and passwords. *)
From Verif Require Import Base ListAux RunesModel RunesSpec RuneBufModel RuneBufSpec HistoryModel HistoryProofs ScreenModel RenderModel RenderSpec RenderProofs RenderSession RenderProps OpModel OpSpec OpProofs OpStep OpProps OutModel OutSpec OutProofs OutProps PipeSpec WideSpec WideProps BroadSpec BroadProofs BroadProps VeilSpec VeilProofs VeilProps MixModel MixSpec MixProofs.
Open Scope Z_scope.

(** Between calls: the screen shows what the calls so far left, each with its own prompt and mask, one row each; below it is free. *)
Theorem C134_between : forall u w cs o d y0 s t o' acts, uenv_ok u -> (1 <= u_tab u)%nat -> 0 < w <= 9223372036854775807 ->
  at_rest o -> Forall (glyph u) (rb_kill (o_b o)) -> d_width d = w -> d_inter d = true -> d_buf d = [] -> d_idx d = 0%nat ->
  mix u w cs o t o' acts -> free_from w y0 s ->
  exists st out, mix_run cs (o, (false, d)) = Ok ((o', st), out, acts) /\ fst st = false /\
    let s' := sexecs u w s out in
    stacked w y0 (map (cells_all u) t) s' /\ free_from w (y0 + Z.of_nat (length t)) s' /\ same_above y0 s s'.
Proof.
  intros u w cs o d y0 s t o' acts U T W A K D1 D2 D3 D4 X F.
  destruct (mix_runs u w cs U T W o t o' acts y0 [] (false, d) s s X) as (st & out & E & _ & B1 & _ & _ & _ & _ & _ & B2 & B3 & B4).
  - destruct A. unfold ready. auto 10.
  - unfold between. cbn [fst snd map length]. split; [reflexivity|]. split; [exact D1|]. split; [exact D2|]. split; [exact D3|]. split; [exact D4|].
    split; [constructor|]. split; [exact I|]. rewrite Z.add_0_r. split; [exact F|apply same_above_refl].
  - exists st, out. auto.
Qed.
Print Assumptions C134_between.

(** During the call after them: the same, then this call's prompt and the line, in clear or masked as this call's configuration says;
    mask, prompt and painter of the calls before have no effect. *)
Theorem C134_screen : forall u w cs c o d y0 s t1 o1 a1 t2 o2 a2, uenv_ok u -> (1 <= u_tab u)%nat -> 0 < w <= 9223372036854775807 ->
  at_rest o -> Forall (glyph u) (rb_kill (o_b o)) -> d_width d = w -> d_inter d = true -> d_buf d = [] -> d_idx d = 0%nat ->
  mix u w cs o t1 o1 a1 -> call_ok u w c -> broad_turn (mc_cf c) (visible (mc_ps c)) (mc_in c) (mix_op c o1) false ->
  call_leaves c (mix_op c o1) t2 o2 a2 -> free_from w y0 s ->
  exists st out, mix_run (cs ++ [c]) (o, (false, d)) = Ok ((o2, st), out, a1 ++ a2) /\
    fst st = still (mc_cf c) (mc_in c) (mix_op c o1) false /\
    let s' := sexecs u w s out in
    call_screen u w c y0 (t1 ++ t2) (o_b o2) (fst st) s' /\ same_above y0 s s' /\
    d_buf (snd st) = rb_buf (o_b o2) /\ d_idx (snd st) = rb_idx (o_b o2).
Proof.
  intros u w cs c o d y0 s t1 o1 a1 t2 o2 a2 U T W A K D1 D2 D3 D4 X C Tn L F.
  destruct (mix_runs u w cs U T W o t1 o1 a1 y0 [] (false, d) s s X) as (st & out & E & R & B).
  - destruct A. unfold ready. auto 10.
  - unfold between. cbn [fst snd map length]. split; [reflexivity|]. split; [exact D1|]. split; [exact D2|]. split; [exact D3|]. split; [exact D4|].
    split; [constructor|]. split; [exact I|]. rewrite Z.add_0_r. split; [exact F|apply same_above_refl].
  - destruct (call_runs u w c o1 t2 o2 a2 y0 t1 st s (sexecs u w s out) U T W C R Tn L B) as (st' & out' & E' & Q & S1 & S2 & S3 & S4 & _).
    exists st', (out ++ out'). split; [exact (mix_run_app cs c _ _ _ _ _ _ _ _ _ _ E E')|]. split; [exact Q|]. rewrite sexecs_app. auto.
Qed.
Print Assumptions C134_screen.

(** A name is asked for ("> "), then a password ("# ", shown as asterisks), then a line is being typed. *)
Definition c134_call (p : Z) (mask : option Z) (is : list inp) : mcall :=
  {| mc_cf := c131_cf; mc_ps := [Vis p; Vis 32]; mc_paint := fun b _ => b; mc_mask := mask; mc_h := o_h fresh; mc_in := is |}.
Definition c134_seen (cs : list mcall) (n : nat) : option (list (list Z) * Z * Z * list Z * nat) :=
  match mix_run cs (fresh, (false, new_rdr c131_cf [] (fun b _ => b))) with
  | Ok ((o, _), out, _) => let s := sexecs u0 10 scr0 out in Some (cells s n 10, s_row s, s_col s, rb_buf (o_b o), rb_idx (o_b o))
  | _ => None
  end.
Definition c134_name : mcall := c134_call 62 None [IRead; IKey 19990; IKey 97; IKey 13].
Definition c134_pass : mcall := c134_call 35 (Some 42) [IRead; IKey 98; IKey 99; IKey 97; IKey 13; IPrint [22909; 10]].
Definition c134_line : mcall := c134_call 62 None [IRead; IKey 97; IKey 98].
Lemma c134_ok p mask is : glyph u0 p -> mask = None \/ mask = Some 42 -> call_ok u0 10 (c134_call p mask is).
Proof.
  intros G Mk.
  assert (G2 : forall r, In r [94; 67; 68; 32] -> glyph u0 r).
  { intros r I. cbn [In] in I. repeat destruct I as [<-|I]; try tauto; (split; [lia|]); (split; [lia|]); vm_compute; auto. }
  constructor; cbn; try reflexivity.
  - constructor; try reflexivity; repeat constructor; apply G2; cbn; tauto.
  - repeat constructor.
  - constructor; [exact G|constructor; [apply G2; cbn; tauto|constructor]].
  - unfold columns, cells_all. cbn [flat_map]. rewrite !app_length, (cells_len u0 (proj1 u0_ok) ltac:(cbn; lia)) by (right; exact G).
    rewrite (cells_len u0 (proj1 u0_ok) ltac:(cbn; lia)) by (right; apply G2; cbn; tauto).
    destruct G as (_ & _ & [E|E]); rewrite E; cbn; lia.
  - intros b i F. split.
    + exists (map Vis b). split; [symmetry; apply runes_map|]. split; [apply vis_map|apply digits_map].
    + exists (map Vis b). split; [now rewrite runes_map|]. split; [apply vis_map|apply digits_map].
  - intros m E. left. destruct Mk as [->| ->]; [discriminate E|]. injection E as <-. split; [lia|]. split; [lia|reflexivity].
  - split; repeat constructor.
Qed.
Example C134_ex : at_rest fresh /\ (exists t o a, mix u0 10 [c134_name; c134_pass] fresh t o a /\
    call_ok u0 10 c134_line /\ broad_turn c131_cf [62; 32] (mc_in c134_line) (mix_op c134_line o) false /\
    exists t2 o2 a2, call_leaves c134_line (mix_op c134_line o) t2 o2 a2) /\
  c134_seen [c134_name; c134_pass; c134_line] 4 = Some
    ([[62; 32; 19990; -1; 97; 32; 32; 32; 32; 32]; [35; 32; 42; 42; 42; 32; 32; 32; 32; 32];
      [22909; -1; 32; 32; 32; 32; 32; 32; 32; 32]; [62; 32; 97; 98; 32; 32; 32; 32; 32; 32]], 3, 4, [97; 98], 2%nat).
Proof.
  assert (G : forall r, In r [35; 62; 19990; 22909; 97; 98; 99; 32] -> glyph u0 r).
  { intros r I. cbn [In] in I. repeat destruct I as [<-|I]; try tauto; (split; [lia|]); (split; [lia|]); vm_compute; auto. }
  split; [exact fresh_rest|split].
  2: vm_compute; reflexivity.
  do 3 eexists. split.
  - eapply MxCall; [apply c134_ok; [apply G; cbn; tauto|now left]| | |vm_compute; reflexivity|].
    2: { unfold call_leaves, c134_name, c134_call. cbn [mc_mask mc_in mc_cf mc_ps]. repeat first [apply BlNil | apply BlRead | eapply BlKey; [vm_compute; reflexivity|]]. }
    2: eapply MxCall; [apply c134_ok; [apply G; cbn; tauto|now right]| | |vm_compute; reflexivity|].
    3: { unfold call_leaves, c134_pass, c134_call. cbn [mc_mask mc_in mc_cf mc_ps].
         repeat first [apply VlNil | apply VlRead | apply (VlPrint _ _ _ [[22909]]); [constructor; [split; [constructor; [apply G; cbn; tauto|constructor]|vm_compute; reflexivity]|constructor]|] | eapply VlKey; [vm_compute; reflexivity|]]. }
    3: apply MxNil.
    all: cbn [mc_in mc_cf mc_ps c134_name c134_pass c134_call];
    repeat lazymatch goal with
    | |- broad_turn _ _ [] _ _ => exact I
    | |- broad_turn _ _ (IRead :: _) _ _ => split; [reflexivity|]
    | |- broad_turn _ _ (IPrint [?a; 10] :: _) _ _ => split; [exists [[a]]; split; [constructor; [split; [constructor; [apply G; cbn; tauto|constructor]|vm_compute; reflexivity]|constructor]|reflexivity]|]
    | |- broad_turn _ _ (IKey ?r :: _) _ _ =>
        split; [reflexivity|split; [first [left; apply G; cbn; tauto|right; left; vm_compute; tauto]|
          split; [vm_compute; intuition discriminate|split; [discriminate|
          let o' := fresh "o" in let a := fresh "a" in let E := fresh "E" in
          intros o' a E; vm_compute in E; injection E as <- <-; cbn [results filter is_result];
          split; [vm_compute; reflexivity|split; [repeat constructor; vm_compute; reflexivity|]]]]]]
    end.
  - split; [apply c134_ok; [apply G; cbn; tauto|now left]|]. split.
    + cbn [mc_in c134_line c134_call].
      repeat lazymatch goal with
      | |- broad_turn _ _ [] _ _ => exact I
      | |- broad_turn _ _ (IRead :: _) _ _ => split; [reflexivity|]
      | |- broad_turn _ _ (IKey ?r :: _) _ _ =>
          split; [reflexivity|split; [first [left; apply G; cbn; tauto|right; left; vm_compute; tauto]|
            split; [vm_compute; intuition discriminate|split; [discriminate|
            let o' := fresh "o" in let a := fresh "a" in let E := fresh "E" in
            intros o' a E; vm_compute in E; injection E as <- <-; cbn [results filter is_result];
            split; [vm_compute; reflexivity|split; [repeat constructor; vm_compute; reflexivity|]]]]]]
      end.
    + do 3 eexists. unfold call_leaves. cbn [mc_mask c134_line c134_call]. unfold c134_line, c134_call. cbn [mc_in mc_cf mc_ps].
      repeat first [apply BlNil | apply BlRead | eapply BlKey; [vm_compute; reflexivity|]].
Qed.

(** What was typed at the password prompt can still come to light: erased there with Ctrl-U, it is shown in clear when Ctrl-Y is
    pressed at the next prompt. *)
Theorem C134_secret_refuted : exists cs, c134_seen cs 3 = Some
  ([[62; 32; 32; 32; 32; 32; 32; 32; 32; 32]; [35; 32; 32; 32; 32; 32; 32; 32; 32; 32]; [62; 32; 98; 99; 32; 32; 32; 32; 32; 32]], 2, 4, [98; 99], 2%nat).
Proof.
  exists [c134_call 62 None [IRead; IKey 13]; c134_call 35 (Some 42) [IRead; IKey 98; IKey 99; IKey 21; IKey 13]; c134_call 62 None [IRead; IKey 25]].
  vm_compute. reflexivity.
Qed.
