(** Property C112: the same model and settings give the same G-code. *)
From Verif Require Import GoBase GoFloat GoStr M_Micrometer M_Geom2D M_Model M_Slicer M_Clip M_Builder M_Option M_Layer M_Render M_Modifier M_Process
  S_Geom S_Model S_Slicer S_Calls S_Render S_Process S_Fill L_Render L_LineLib P_Process P_Render P_Pipeline P_Complete P_Local.
Local Open Scope string_scope.
Local Open Scope list_scope.
Local Open Scope Z_scope.

Lemma grid_more : forall f f' x m d xs, M_Clip.grid f x m d = Ok xs -> (f <= f')%nat -> M_Clip.grid f' x m d = Ok xs.
Proof.
  induction f as [|f IH]; intros f' x m d xs; destruct f' as [|f']; cbn [M_Clip.grid]; destruct (x <=? m); try discriminate; try auto; try lia.
  intros E L. apply bind_Ok in E. destruct E as (r & Er & E). rewrite (IH f' _ _ _ _ Er ltac:(lia)). exact E.
Qed.
Lemma fill_more lib f f' p nr q ls : Fill lib f p nr q = Ok ls -> (f <= f')%nat -> Fill lib f' p nr q = Ok ls.
Proof.
  unfold Fill. intros E L. destruct (PathBounds _) as [mn mx]. apply bind_Ok in E. destruct E as (i & Ei & E). unfold getInfill in *. apply bind_Ok in Ei. destruct Ei as (xs & Ex & Ei).
  rewrite (grid_more _ _ _ _ _ _ Ex L). cbn [bind]. rewrite Ei. exact E.
Qed.
Lemma fills_more lib f f' p nr : forall qs ls, map_res (Fill lib f p nr) qs = Ok ls -> (f <= f')%nat -> map_res (Fill lib f' p nr) qs = Ok ls.
Proof.
  induction qs as [|q qs IH]; intros ls E L; [exact E|]. cbn [map_res] in *. apply bind_Ok in E. destruct E as (a & Ea & E). apply bind_Ok in E. destruct E as (r & Er & E).
  rewrite (fill_more _ _ _ _ _ _ _ Ea L). cbn [bind]. rewrite (IH _ Er L). exact E.
Qed.
Lemma infill_more lib f f' p a c nr l z r : infill_plan lib f p a c nr l z = Ok r -> (f <= f')%nat -> infill_plan lib f' p a c nr l z = Ok r.
Proof.
  unfold infill_plan. intros E L. destruct p as [p|]; [|exact E]. apply bind_Ok in E. destruct E as (ps & Ep & E). rewrite Ep. cbn [bind]. apply bind_Ok in E. destruct E as (ls & El & E).
  rewrite (fills_more _ _ _ _ _ _ _ El L). exact E.
Qed.
Lemma plan_more lib o f f' mn mx i nr l z p : plan_layer lib o f mn mx i nr l z = Ok p -> (f <= f')%nat -> plan_layer lib o f' mn mx i nr l z = Ok p.
Proof.
  unfold plan_layer, fill_plan. intros E L. apply bind_Ok in E. destruct E as (s & Es & E). rewrite Es. cbn [bind]. apply bind_Ok in E. destruct E as (b & Eb & E). rewrite Eb. cbn [bind].
  apply bind_Ok in E. destruct E as (w & Ew & E). rewrite Ew. cbn [bind]. apply bind_Ok in E. destruct E as (k & Ek & E).
  apply bind_Ok in Ek. destruct Ek as (k1 & E1 & Ek). apply bind_Ok in Ek. destruct Ek as (k2 & E2 & Ek). apply bind_Ok in Ek. destruct Ek as (k3 & E3 & Ek).
  apply bind_Ok in Ek. destruct Ek as (k4 & E4 & Ek). apply bind_Ok in Ek. destruct Ek as (k5 & E5 & Ek).
  rewrite (infill_more _ _ _ _ _ _ _ _ _ _ E1 L). cbn [bind]. rewrite (infill_more _ _ _ _ _ _ _ _ _ _ E2 L). cbn [bind]. rewrite (infill_more _ _ _ _ _ _ _ _ _ _ E3 L). cbn [bind].
  rewrite (infill_more _ _ _ _ _ _ _ _ _ _ E4 L). cbn [bind]. rewrite (infill_more _ _ _ _ _ _ _ _ _ _ E5 L). cbn [bind]. injection Ek as <-. exact E.
Qed.
Lemma generate_more lib f f' o mn mx layers rs text : goslice_renderers lib f o mn mx = Ok rs -> snd (Generate o rs layers tt) = Ok text -> (f <= f')%nat ->
  exists rs', goslice_renderers lib f' o mn mx = Ok rs' /\ snd (Generate o rs' layers tt) = Ok text.
Proof.
  intros R G L. apply (goslice_generate lib f o mn mx layers rs text R) in G. destruct G as (inf & ps & b & I & (Ln & Pl) & E & ->).
  assert (R' : exists rs', goslice_renderers lib f' o mn mx = Ok rs') by (unfold goslice_renderers; rewrite I; eexists; reflexivity). destruct R' as (rs' & R'). exists rs'. split; [exact R'|].
  apply (goslice_generate lib f' o mn mx layers rs' _ R'). exists inf, ps, b. split; [exact I|]. split; [|auto]. split; [exact Ln|]. intros nr l p El Ep. exact (plan_more _ _ _ _ _ _ _ _ _ _ _ (Pl nr l p El Ep) L).
Qed.

(** *** C112 *)
(** A run that ends after some number of steps ends with the same G-code if it is given more of them; so the bound on the number
    of steps in the model says nothing about the result. *)
Theorem more_time : forall lib tangent fuel fuel' env env' o input input' text, (fuel <= fuel')%nat -> Read env' input' = Read env input ->
  inhabited (finished lib tangent fuel env o input text) -> inhabited (finished lib tangent fuel' env' o input' text).
Proof.
  intros lib tangent fuel fuel' env env' o input input' text L Rd [r]. destruct r as [fs om open l0 l1 l2 l3 l4 l5 l6 mn mx rs E1 E4 E5 M1 M2 M3 M4 M5 M6 B E7 E8].
  destruct (generate_more _ _ _ _ _ _ _ _ _ E7 E8 L) as (rs' & E7' & E8'). constructor.
  exact (Finished _ _ _ _ _ _ _ fs om open l0 l1 l2 l3 l4 l5 l6 mn mx rs' (eq_trans Rd E1) E4 E5 M1 M2 M3 M4 M5 M6 B E7' E8').
Qed.
Print Assumptions more_time.

(** The G-code depends on the triangles in the file and on the settings only. *)
Theorem same_gcode : forall lib tangent fuel fuel' env env' o input input' text text', Read env' input' = Read env input ->
  inhabited (finished lib tangent fuel env o input text) -> inhabited (finished lib tangent fuel' env' o input' text') -> text = text'.
Proof.
  intros lib tangent fuel fuel' env env' o input input' text text' Rd H H'.
  destruct (more_time _ _ fuel (Nat.max fuel fuel') env env o input input _ (Nat.le_max_l _ _) eq_refl H) as [r]. destruct (more_time _ _ fuel' (Nat.max fuel fuel') env' env o input' input _ (Nat.le_max_r _ _) (eq_sym Rd) H') as [r']. clear H H' Rd.
  destruct r as [fs om open l0 l1 l2 l3 l4 l5 l6 mn mx rs E1 E4 E5 M1 M2 M3 M4 M5 M6 [Bn Bx] E7 E8]. destruct r' as [fs' om' open' l0' l1' l2' l3' l4' l5' l6' mn' mx' rs' E1' E4' E5' M1' M2' M3' M4' M5' M6' [Bn' Bx'] E7' E8'].
  assert (fs' = fs) by congruence. subst fs'. assert (om' = om) by congruence. subst om'. assert (l0' = l0) by congruence. subst l0'. assert (l1' = l1) by congruence. subst l1'.
  assert (l2' = l2) by congruence. subst l2'. assert (l3' = l3) by congruence. subst l3'. assert (l4' = l4) by congruence. subst l4'. assert (l5' = l5) by congruence. subst l5'. assert (l6' = l6) by congruence. subst l6'.
  assert (mn' = mn) by congruence. subst mn'. assert (mx' = mx) by congruence. subst mx'. assert (rs' = rs) by congruence. subst rs'. congruence.
Qed.
Print Assumptions same_gcode.

(** Slicing the same triangles with the same settings again - on another day, from a copy of the file, to another file, with any
    operating system and whatever is on the disk, for example the piece of G-code that an interrupted run has left there -
    ends with the same content of the output file, whenever both runs end without an error. *)
Theorem runs_repeatable : forall lib tangent fuel fuel' env env' sys sys' d d' o input input' output output' steps steps', Read env' input' = Read env input ->
  Process (NewGoSlice lib tangent fuel env sys d o) input output = (steps, Ok tt) -> Process (NewGoSlice lib tangent fuel' env' sys' d' o) input' output' = (steps', Ok tt) ->
  forall file file', file = (if String.eqb output "" then (input ++ ".gcode")%string else output) -> file' = (if String.eqb output' "" then (input' ++ ".gcode")%string else output') ->
  exists text, inhabited (finished lib tangent fuel env o input text) /\ inhabited (finished lib tangent fuel' env' o input' text) /\
    last (fst (Write sys d text file)) d file = Some text /\ last (fst (Write sys' d' text file')) d' file' = Some text.
Proof.
  intros lib tangent fuel fuel' env env' sys sys' d d' o input input' output output' steps steps' Rd H H' file file' Ef Ef'.
  destruct (proj1 (built_in_run _ _ _ _ _ _ _ _ _) (ex_intro _ _ H)) as (text & F & Wr). destruct (proj1 (built_in_run _ _ _ _ _ _ _ _ _) (ex_intro _ _ H')) as (text' & F' & Wr').
  pose proof (same_gcode _ _ _ _ _ _ _ _ _ _ _ Rd F F') as <-. exists text. split; [exact F|]. split; [exact F'|]. rewrite <- Ef in Wr. rewrite <- Ef' in Wr'.
  destruct (Write sys d text file) as [st r] eqn:Ew. destruct (Write sys' d' text file') as [st' r'] eqn:Ew'. cbn [fst snd] in *. subst r r'.
  split; [exact (proj1 (write_success _ _ _ _ _ _ Ew) eq_refl)|exact (proj1 (write_success _ _ _ _ _ _ Ew') eq_refl)].
Qed.
Print Assumptions runs_repeatable.

(** A run that may be interrupted: whatever state of the disk a first run of this kind passes through, a second one that
    starts from it and ends without an error leaves the file the first one would have written. *)
Theorem run_after_crash : forall lib tangent fuel env sys sys' d o input output text st steps' file, file = (if String.eqb output "" then (input ++ ".gcode")%string else output) ->
  inhabited (finished lib tangent fuel env o input text) -> In st (fst (Write sys d text file)) ->
  Process (NewGoSlice lib tangent fuel env sys' st o) input output = (steps', Ok tt) ->
  last (fst (Write sys' st text file)) st file = Some text /\ forall other, other <> file -> last (fst (Write sys' st text file)) st other = d other.
Proof.
  intros lib tangent fuel env sys sys' d o input output text st steps' file Ef F I H'.
  destruct (proj1 (built_in_run _ _ _ _ _ _ _ _ _) (ex_intro _ _ H')) as (text' & F' & Wr'). pose proof (same_gcode _ _ _ _ _ _ _ _ _ _ _ eq_refl F F') as <-. rewrite <- Ef in Wr'.
  destruct (Write sys' st text file) as [st' r'] eqn:Ew'. cbn [fst snd] in *. subst r'. split; [exact (proj1 (write_success _ _ _ _ _ _ Ew') eq_refl)|].
  destruct (Write sys d text file) as [ss r] eqn:Ew. cbn [fst] in I. intros other No. rewrite <- (proj1 (write_crash_points _ _ _ _ _ _ _ Ew I) other No).
  assert (Il : last st' st = st \/ In (last st' st) st'). { clear. destruct st' as [|s l]; [left; reflexivity|right]. revert s. induction l as [|s' l IH]; intros s; [left; reflexivity|]. right. exact (IH s'). }
  destruct Il as [->|Il]; [reflexivity|]. exact (proj1 (write_crash_points _ _ _ _ _ _ _ Ew' Il) other No).
Qed.
Print Assumptions run_after_crash.

(** The tower of C96: the power fails after the first run has created the file, and the run is repeated; and a copy of the
    model is sliced to another file, with more time. *)
Local Notation tower_process fuel d input output := (Process (NewGoSlice line_lib (fun _ => f64_of_Z 1) fuel (tower_file 2 0) tower_os d DefaultOptions) input output).
Lemma tower_again fuel fuel' text d input output : inhabited (finished line_lib (fun _ => f64_of_Z 1) fuel (tower_file 2 0) DefaultOptions "part.stl" text) -> (fuel <= fuel')%nat ->
  exists steps, tower_process fuel' d input output = (steps, Ok tt).
Proof.
  intros r L. apply built_in_run. exists text. split; [apply (more_time _ _ _ fuel' (tower_file 2 0) (tower_file 2 0) _ "part.stl" input _ L); [reflexivity|exact r]|]. apply write_works; [reflexivity|]. intros k. split; [reflexivity|discriminate].
Qed.
Lemma tower_crash fuel text : inhabited (finished line_lib (fun _ => f64_of_Z 1) fuel (tower_file 2 0) DefaultOptions "part.stl" text) ->
  exists st steps, In st (fst (Write tower_os (fun _ => None) text "part.stl.gcode")) /\ st "part.stl.gcode" = Some "" /\
  tower_process fuel st "part.stl" "" = (steps, Ok tt) /\ last (fst (Write tower_os st text "part.stl.gcode")) st "part.stl.gcode" = Some text.
Proof.
  intros r. set (st := store (fun _ => None) "part.stl.gcode" ""). destruct (tower_again fuel fuel text st "part.stl" "" r (le_n _)) as (steps & H). exists st, steps.
  assert (I : In st (fst (Write tower_os (fun _ => None) text "part.stl.gcode"))). { unfold Write. change (create_error tower_os) with (@None string). cbn match. destruct (write_loop _ _ _ _ _ _ _) as [more r']. right. left. reflexivity. }
  split; [exact I|]. split; [reflexivity|]. split; [exact H|]. clearbody st. exact (proj1 (run_after_crash line_lib (fun _ => f64_of_Z 1) fuel (tower_file 2 0) tower_os tower_os (fun _ => None) DefaultOptions "part.stl" "" text st steps "part.stl.gcode" eq_refl r I H)).
Qed.
Example run_after_crash_ex : exists fuel text, inhabited (finished line_lib (fun _ => f64_of_Z 1) fuel (tower_file 2 0) DefaultOptions "part.stl" text) /\
  exists st steps, In st (fst (Write tower_os (fun _ => None) text "part.stl.gcode")) /\ st "part.stl.gcode" = Some "" /\
  tower_process fuel st "part.stl" "" = (steps, Ok tt) /\ last (fst (Write tower_os st text "part.stl.gcode")) st "part.stl.gcode" = Some text.
Proof. destruct tower_straight as (text & r). exists (Z.to_nat (2 ^ 24 + 1)), text. split; [exact r|]. exact (tower_crash _ _ r). Qed.
Lemma tower_copy fuel text : inhabited (finished line_lib (fun _ => f64_of_Z 1) fuel (tower_file 2 0) DefaultOptions "part.stl" text) ->
  exists steps steps', tower_process fuel (fun _ => None) "part.stl" "" = (steps, Ok tt) /\
  tower_process (fuel + 7) (fun _ => Some "old") "copy.stl" "new.gcode" = (steps', Ok tt) /\
  exists text, last (fst (Write tower_os (fun _ => None) text "part.stl.gcode")) (fun _ => None) "part.stl.gcode" = Some text /\
  last (fst (Write tower_os (fun _ => Some "old") text "new.gcode")) (fun _ => Some "old") "new.gcode" = Some text.
Proof.
  intros r. destruct (tower_again fuel fuel text (fun _ => None) "part.stl" "" r (le_n _)) as (steps & H).
  destruct (tower_again fuel (fuel + 7) text (fun _ => Some "old") "copy.stl" "new.gcode" r (Nat.le_add_r _ _)) as (steps' & H').
  exists steps, steps'. split; [exact H|]. split; [exact H'|].
  destruct (runs_repeatable line_lib (fun _ => f64_of_Z 1) fuel (fuel + 7) (tower_file 2 0) (tower_file 2 0) tower_os tower_os _ _ DefaultOptions "part.stl" "copy.stl" "" "new.gcode" _ _ eq_refl H H' "part.stl.gcode" "new.gcode" eq_refl eq_refl) as (text' & _ & _ & W & W').
  exists text'. auto.
Qed.
Example runs_repeatable_ex : exists fuel steps steps', tower_process fuel (fun _ => None) "part.stl" "" = (steps, Ok tt) /\
  tower_process (fuel + 7) (fun _ => Some "old") "copy.stl" "new.gcode" = (steps', Ok tt) /\
  exists text, last (fst (Write tower_os (fun _ => None) text "part.stl.gcode")) (fun _ => None) "part.stl.gcode" = Some text /\
  last (fst (Write tower_os (fun _ => Some "old") text "new.gcode")) (fun _ => Some "old") "new.gcode" = Some text.
Proof. destruct tower_straight as (text & r). exists (Z.to_nat (2 ^ 24 + 1)). exact (tower_copy _ _ r). Qed.
