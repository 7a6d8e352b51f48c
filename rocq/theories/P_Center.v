(** Property C113: the center option moves the print and changes neither its shape nor its walls, brim, skirt and areas to fill. *)
From Verif Require Import GoBase GoFloat GoStr M_Micrometer M_Geom2D M_Model M_Slicer M_Clip M_Builder M_Option M_Layer M_Render M_Modifier M_Process
  S_Geom S_Model S_Slicer S_Calls S_Render S_Process S_Center L_Model L_Render L_Center P_Process P_Render P_Pipeline P_Local.
Local Open Scope string_scope.
Local Open Scope list_scope.
Local Open Scope Z_scope.

(** the options with the center moved by [d] *)
Definition recentered (d : pt) (o : options) : options :=
  let p := Printer o in
  Options (Slicing o) (PrinterOptions (ExtrusionWidth p) (V3 (wrap (vx (Center p) + px d)) (wrap (vy (Center p) + py d)) (vz (Center p)))
    (ForceSafeStartStopGCode p) (HasHeatedBed p) (StartGCode p) (EndGCode p)) (Filament o) (Print o) (GoSlice o).
(** a call of the builder with the polygon, and the parts that are looked at for retractions, moved *)
Definition shift_call (d : pt) (c : call) : call :=
  match c with CPolygon l p z op => CPolygon (option_map (map (shift_part d)) l) (shift_path d p) z op | _ => c end.

(** *** C113 *)
(** Which vertices of a polygon are dropped does not depend on where it lies. *)
Theorem simplify_anywhere : forall d p sls aed, Simplify (shift_path d p) sls aed = shift_path d (Simplify p sls aed).
Proof. exact simplify_shift. Qed.
Print Assumptions simplify_anywhere.
Example simplify_anywhere_ex : let p := [Pt 0 0; Pt 5000 1; Pt 10000 0; Pt 10000 10000; Pt 0 10000] in
  Simplify p (-1) (-1) = [Pt 0 0; Pt 10000 0; Pt 10000 10000; Pt 0 10000] /\ Simplify (shift_path (Pt 100000 (-7)) p) (-1) (-1) = shift_path (Pt 100000 (-7)) [Pt 0 0; Pt 10000 0; Pt 10000 10000; Pt 0 10000].
Proof. split; vm_compute; reflexivity. Qed.

(** The outlines of all layers with a moved center are the moved outlines, and slicing fails in the same cases. *)
Theorem outlines_follow_center : forall meld center d fs om open, Optimize meld center fs = Ok (om, open) ->
  exists om', Optimize meld (V3 (wrap (vx center + px d)) (wrap (vy center + py d)) (vz center)) fs = Ok (om', open) /\
    forall init thick join finish, SlicePolygons init thick meld join finish om' =
      match SlicePolygons init thick meld join finish om with Ok ls => Ok (map (map (shift_path d)) ls) | Err e => Err e | Panic m => Panic m | Diverge => Diverge end.
Proof.
  intros meld center d fs om open E. exists (shm d om). split; [exact (optimize_shift d _ _ _ _ _ E)|]. intros init thick join finish. rewrite slice_polygons_shift. destruct (SlicePolygons _ _ _ _ _ om); reflexivity.
Qed.
Print Assumptions outlines_follow_center.

Section Two.
Variables (lib : clib) (d : pt).
Hypothesis Any : clips_anywhere lib d.
Hypothesis Off : offsets_anywhere lib d.
Lemma rmap_ok {A B} (f : A -> B) r x y : r = Ok x -> rmap f r = Ok y -> y = f x.
Proof. intros -> [= <-]. reflexivity. Qed.
Lemma walls_of_shift o l z : perimeter_plan o (shift_layer d l) z = rmap (map (shift_call d)) (perimeter_plan o l z).
Proof.
  unfold perimeter_plan. rewrite perimeters_attribute_shift. destruct (Perimeters l) as [ps| | |]; try reflexivity. cbn [rmap bind]. f_equal.
  assert (C : forall p, closed_walls (shift_layer d l) z (shift_part d p) = map (shift_call d) (closed_walls l z p)).
  { intros p. unfold closed_walls. rewrite lparts_shift, map_app, !map_map. cbn [shift_part outline holes]. rewrite map_map. reflexivity. }
  assert (I : forall q, inner_wall o (shift_layer d l) z (shift_part d q) = map (shift_call d) (inner_wall o l z q)) by (intros q; unfold inner_wall; rewrite C; reflexivity).
  assert (U : forall q, outer_wall o (shift_layer d l) z (shift_part d q) = map (shift_call d) (outer_wall o l z q)) by (intros q; unfold outer_wall; rewrite C; reflexivity).
  assert (F : forall (f g : part -> list call), (forall q, f (shift_part d q) = map (shift_call d) (g q)) -> forall qs, flat_map f (map (shift_part d) qs) = map (shift_call d) (flat_map g qs)).
  { intros f g H. induction qs as [|q qs IH]; [reflexivity|]. cbn [map flat_map]. rewrite map_app, H, IH. reflexivity. }
  induction ps as [|p ps IH]; [reflexivity|]. cbn [map flat_map]. rewrite map_app, IH. f_equal. unfold part_plan. destruct p as [|w ws]; [reflexivity|]. cbn [map]. rewrite map_app, <- concat_map, (F _ _ I), (F _ _ U). reflexivity.
Qed.
Lemma brim_of_shift l z : brim_plan (shift_layer d l) z = rmap (map (shift_call d)) (brim_plan l z).
Proof.
  unfold brim_plan, Brim. rewrite attribute_shift. destruct (attribute l "brim") as [[r| | |]|]; try reflexivity. cbn [option_map shift_attr bind]. destruct r as [|x r]; [reflexivity|].
  change (map (map (map (shift_part d))) (x :: r)) with (map (map (shift_part d)) x :: map (map (map (shift_part d))) r) at 1. cbn match. change (map (map (shift_part d)) x :: map (map (map (shift_part d))) r) with (map (map (map (shift_part d))) (x :: r)).
  rewrite one_dimension_shift, map_map. cbn [rmap bind map shift_call]. rewrite map_map. reflexivity.
Qed.
Lemma skirt_of_shift (H : hulls_anywhere lib d) o nr l z : skirt_plan lib o nr (shift_layer d l) z = rmap (map (shift_call d)) (skirt_plan lib o nr l z).
Proof.
  unfold skirt_plan. cbv zeta. destruct (_ || _); [reflexivity|]. rewrite perimeters_attribute_shift. destruct (Perimeters l) as [ps| | |]; try reflexivity. cbn [rmap bind].
  assert (FS : FullSupport (shift_layer d l) = rmap (map (shift_part d)) (FullSupport l)) by (unfold FullSupport; rewrite attribute_shift; destruct (attribute l _) as [[]|]; reflexivity).
  rewrite FS. destruct (FullSupport l) as [s| | |]; try reflexivity. cbn [rmap bind]. rewrite one_dimension_shift, <- map_app.
  assert (G : forall all, (let* lines := Inset lib (Part (Hull lib (map (shift_part d) all)) []) (wrap (- ExtrusionWidth (Printer o))) (s_SkirtCount (BrimSkirt (Print o)))
      (wrap (ToMicrometer (s_SkirtDistance (BrimSkirt (Print o))) + ExtrusionWidth (Printer o) * s_BrimCount (BrimSkirt (Print o)) + ExtrusionWidth (Printer o))) in
      Ok (CComment "TYPE:SKIRT" :: map (fun p => CPolygon None (outline p) z false) (concat lines))) =
    rmap (map (shift_call d)) (let* lines := Inset lib (Part (Hull lib all) []) (wrap (- ExtrusionWidth (Printer o))) (s_SkirtCount (BrimSkirt (Print o)))
      (wrap (ToMicrometer (s_SkirtDistance (BrimSkirt (Print o))) + ExtrusionWidth (Printer o) * s_BrimCount (BrimSkirt (Print o)) + ExtrusionWidth (Printer o))) in
      Ok (CComment "TYPE:SKIRT" :: map (fun p => CPolygon None (outline p) z false) (concat lines)))).
  { intros all. unfold Hull. replace (concat (map outline (map (shift_part d) all))) with (shift_path d (concat (map outline all))) by (unfold shift_path; rewrite concat_map, !map_map; reflexivity).
    rewrite H. change (Part (shift_path d (hull lib (concat (map outline all)))) []) with (shift_part d (Part (hull lib (concat (map outline all))) [])). unfold Inset. rewrite (inset_loop_shift d lib Off). destruct (inset_loop _ _ _ _ _); try reflexivity. cbn [rmap bind map shift_call]. do 2 f_equal. rewrite <- concat_map, !map_map. reflexivity. }
  destruct s as [|x s]; [destruct ps as [|y ps]; [reflexivity|]|]; apply G.
Qed.

Lemma run_shifted tangent fuel env env' o input input' text text' (r : finished lib tangent fuel env o input text) (r' : finished lib tangent fuel env' (recentered d o) input' text') :
  Read env' input' = Read env input -> f_sliced _ _ _ _ _ _ _ r' = map (shift_layer d) (f_sliced _ _ _ _ _ _ _ r) /\ f_layers _ _ _ _ _ _ _ r' = map (shift_layer d) (f_layers _ _ _ _ _ _ _ r).
Proof.
  intros Rd. destruct r as [fs om open l0 l1 l2 l3 l4 l5 l6 mn mx rs E1 E4 E5 M1 M2 M3 M4 M5 M6 B E7 E8]. destruct r' as [fs' om' open' l0' l1' l2' l3' l4' l5' l6' mn' mx' rs' E1' E4' E5' M1' M2' M3' M4' M5' M6' B' E7' E8']. cbn [f_sliced f_layers].
  assert (fs' = fs) by congruence. subst fs'. apply (optimize_shift d) in E4. change (Optimize (MeldDistance (Slicing o)) (Center (Printer (recentered d o))) fs = Ok (shm d om, open)) in E4. change (Slicing (recentered d o)) with (Slicing o) in E4'. rewrite E4' in E4. injection E4 as -> ->.
  change (Slice lib o (shm d om) = Ok l0') in E5'. rewrite (slice_shift d lib Any) in E5'. apply (rmap_ok _ _ _ _ E5) in E5'. subst l0'. split; [reflexivity|].
  change (PerimeterModify lib o (map (shift_layer d) l0) = Ok l1') in M1'. rewrite (perimeter_shift d lib Off) in M1'. apply (rmap_ok _ _ _ _ M1) in M1'. subst l1'.
  change (InfillModify lib o (map (shift_layer d) l1) = Ok l2') in M2'. rewrite (infill_shift d lib Any Off) in M2'. apply (rmap_ok _ _ _ _ M2) in M2'. subst l2'.
  change (InternalInfillModify lib o (map (shift_layer d) l2) = Ok l3') in M3'. rewrite (internal_shift d lib Any) in M3'. apply (rmap_ok _ _ _ _ M3) in M3'. subst l3'.
  change (BrimModify lib o (map (shift_layer d) l3) = Ok l4') in M4'. rewrite (brim_shift d lib Any Off) in M4'. apply (rmap_ok _ _ _ _ M4) in M4'. subst l4'.
  change (SupportDetectorModify lib o tangent (map (shift_layer d) l4) = Ok l5') in M5'. rewrite (detector_shift d lib Any Off) in M5'. apply (rmap_ok _ _ _ _ M5) in M5'. subst l5'.
  change (SupportGeneratorModify lib o (map (shift_layer d) l5) = Ok l6') in M6'. rewrite (generator_shift d lib Any Off) in M6'. apply (rmap_ok _ _ _ _ M6) in M6'. subst l6'. reflexivity.
Qed.
End Two.

(** Two runs on the same triangles, with settings that differ in the center only: the parts of all layers, and the walls, the areas
    to fill, the brim and the support areas stored with them, are the same, moved by the difference of the centers. *)
Theorem layers_follow_center : forall lib d tangent fuel env env' o input input' text text'
    (r : finished lib tangent fuel env o input text) (r' : finished lib tangent fuel env' (recentered d o) input' text'),
  clips_anywhere lib d -> offsets_anywhere lib d -> Read env' input' = Read env input ->
  f_sliced _ _ _ _ _ _ _ r' = map (shift_layer d) (f_sliced _ _ _ _ _ _ _ r) /\ f_layers _ _ _ _ _ _ _ r' = map (shift_layer d) (f_layers _ _ _ _ _ _ _ r).
Proof. intros lib d tangent fuel env env' o input input' text text' r r' A F Rd. exact (run_shifted lib d A F _ _ _ _ _ _ _ _ _ r r' Rd). Qed.
Print Assumptions layers_follow_center.

(** The G-code of both runs is what the builder makes of the calls for its layers, and in each layer the skirt, the brim and the walls of
    one are those of the other, moved. *)
Theorem print_follows_center : forall lib d tangent fuel env env' o input input' text text'
    (r : finished lib tangent fuel env o input text) (r' : finished lib tangent fuel env' (recentered d o) input' text'),
  clips_anywhere lib d -> offsets_anywhere lib d -> hulls_anywhere lib d -> Read env' input' = Read env input ->
  exists ps ps' b b', List.length ps' = List.length ps /\
    run_calls lib (concat (all_calls o ps)) (NewGCodeBuilder (FilamentDiameter (Filament o)) (ExtrusionMultiplier (Filament o))) = Ok b /\ text = BuilderString b /\
    run_calls lib (concat (all_calls o ps')) (NewGCodeBuilder (FilamentDiameter (Filament o)) (ExtrusionMultiplier (Filament o))) = Ok b' /\ text' = BuilderString b' /\
    forall nr p p', nth_error ps nr = Some p -> nth_error ps' nr = Some p' ->
      p_skirt p' = map (shift_call d) (p_skirt p) /\ p_brim p' = map (shift_call d) (p_brim p) /\ p_walls p' = map (shift_call d) (p_walls p).
Proof.
  intros lib d tangent fuel env env' o input input' text text' r r' A F Hu Rd. destruct (run_shifted lib d A F _ _ _ _ _ _ _ _ _ r r' Rd) as (_ & L).
  pose proof (f_generate _ _ _ _ _ _ _ r) as G. pose proof (f_generate _ _ _ _ _ _ _ r') as G'.
  apply (print_is_planned _ _ _ _ _ _ _ _ (f_setup _ _ _ _ _ _ _ r)) in G. apply (print_is_planned _ _ _ _ _ _ _ _ (f_setup _ _ _ _ _ _ _ r')) in G'.
  destruct G as (inf & ps & b & _ & Pl & E & Et). destruct G' as (inf' & ps' & b' & _ & Pl' & E' & Et'). rewrite L in Pl'. clear L. generalize dependent (f_layers _ _ _ _ _ _ _ r). intros ls Pl Pl'.
  exists ps, ps', b, b'. destruct Pl as [Ln Pl]. destruct Pl' as [Ln' Pl']. rewrite map_length in Ln'. split; [congruence|]. split; [exact E|]. split; [exact Et|]. split; [exact E'|]. split; [exact Et'|].
  intros nr p p' Ep Ep'. assert (El : exists l, nth_error ls nr = Some l). { destruct (nth_error ls nr) as [l|] eqn:El; [eauto|]. apply nth_error_None in El. assert (nth_error ps nr <> None) as X by congruence. apply nth_error_Some in X. lia. }
  destruct El as (l & El). specialize (Pl nr l p El Ep). specialize (Pl' nr (shift_layer d l) p'). rewrite nth_error_map, El in Pl'. specialize (Pl' eq_refl Ep'). change (S_Render.height (recentered d o) nr) with (S_Render.height o nr) in Pl'.
  unfold plan_layer in Pl, Pl'. apply bind_Ok in Pl. destruct Pl as (s & Es & Pl). apply bind_Ok in Pl. destruct Pl as (br & Eb & Pl). apply bind_Ok in Pl. destruct Pl as (w & Ew & Pl). apply bind_Ok in Pl. destruct Pl as (fi & _ & Pl). injection Pl as <-.
  apply bind_Ok in Pl'. destruct Pl' as (s' & Es' & Pl'). apply bind_Ok in Pl'. destruct Pl' as (br' & Eb' & Pl'). apply bind_Ok in Pl'. destruct Pl' as (w' & Ew' & Pl'). apply bind_Ok in Pl'. destruct Pl' as (fi' & _ & Pl'). injection Pl' as <-. cbn [p_skirt p_brim p_walls].
  change (skirt_plan lib o (Z.of_nat nr) (shift_layer d l) (S_Render.height o nr) = Ok s') in Es'. rewrite (skirt_of_shift lib d F Hu) in Es'. rewrite brim_of_shift in Eb'. change (perimeter_plan o (shift_layer d l) (S_Render.height o nr) = Ok w') in Ew'. rewrite walls_of_shift in Ew'.
  split; [exact (rmap_ok _ _ _ _ Es Es')|]. split; [exact (rmap_ok _ _ _ _ Eb Eb')|exact (rmap_ok _ _ _ _ Ew Ew')].
Qed.
Print Assumptions print_follows_center.

(** a library that gives back the paths of the subject, wherever they lie *)
Definition plain_lib : clib :=
  CLib (fun _ _ l => Some (flat_map (fun a : added => match fst (fst a) with PtSubject => [Node (snd a) []] | PtClip => [] end) l, 0))
    (fun _ ps => map (fun p => Node p []) ps) (fun p => p) (fun _ => f64_of_Z 0) (fun _ => f64_of_Z 1).
Lemma plain_anywhere d : clips_anywhere plain_lib d /\ offsets_anywhere plain_lib d /\ hulls_anywhere plain_lib d.
Proof.
  split; [|split].
  - intros rv t l. cbn [plain_lib execute]. do 2 f_equal. induction l as [|[[[] c] p] l IH]; [reflexivity| |]; cbn [map flat_map fst snd app]; rewrite IH; reflexivity.
  - intros delta ps. cbn [plain_lib offset]. rewrite !map_map. reflexivity.
  - intros p. reflexivity.
Qed.
(** the tower of C96 with thick layers, printed around two centers *)
Definition coarse : options :=
  let p := Print DefaultOptions in
  Options (Slicing DefaultOptions) (Printer DefaultOptions) (Filament DefaultOptions)
    (PrintOptions (IntialLayerSpeed p) (LayerSpeed p) (OuterPerimeterSpeed p) (MoveSpeed p) 200 1500 2 50 400 20 45 false 1 1
      (Support p) (BrimSkirtOptions 1 (c32 5 1) 1)) (GoSlice DefaultOptions).
Definition ends lib tangent fuel env sys disk o : bool := match snd (Process (NewGoSlice lib tangent fuel env sys disk o) "part.stl" "") with Ok tt => true | _ => false end.
Lemma ends_well lib tangent fuel env sys disk o : ends lib tangent fuel env sys disk o = true -> exists text, inhabited (finished lib tangent fuel env o "part.stl" text).
Proof.
  unfold ends. intros H. assert (X : exists steps, Process (NewGoSlice lib tangent fuel env sys disk o) "part.stl" "" = (steps, Ok tt)).
  { destruct (Process _ _ _) as [steps [[]| | |]]; try discriminate. eauto. }
  apply built_in_run in X. destruct X as (text & r & _). exists text. exact r.
Qed.
Local Notation coarse_run o text := (finished plain_lib (fun _ => f64_of_Z 1) (Z.to_nat 1000) (tower_file 2 0) o "part.stl" text).
Definition aside : pt := Pt 5000 (-7000).
Lemma coarse_done : (exists text, inhabited (coarse_run coarse text)) /\ exists text, inhabited (coarse_run (recentered aside coarse) text).
Proof. split; apply (ends_well _ _ _ _ tower_os (fun _ => None)); vm_compute; reflexivity. Qed.
Lemma sliced_is lib tangent fuel env o text fs om open ls (r : finished lib tangent fuel env o "part.stl" text) : Read env "part.stl" = Ok fs ->
  Optimize (MeldDistance (Slicing o)) (Center (Printer o)) fs = Ok (om, open) -> Slice lib o om = Ok ls -> f_sliced _ _ _ _ _ _ _ r = ls.
Proof.
  intros H1 H2 H3. destruct r as [fs0 om0 open0 l0 l1 l2 l3 l4 l5 l6 mn0 mx0 rs E1 E4 E5 M1 M2 M3 M4 M5 M6 B E7 E8]. cbn [f_sliced]. congruence.
Qed.
Definition coarse_om : omodel := match Optimize 30 (Center (Printer coarse)) straight_fs with Ok (om, _) => om | _ => OModel [] [] (V3 0 0 0) end.
Definition coarse_slices : list layer := match Slice plain_lib coarse coarse_om return list layer with Ok ls => ls | _ => [] end.
Example print_follows_center_ex : exists text text' (r : coarse_run coarse text) (r' : coarse_run (recentered aside coarse) text'),
  clips_anywhere plain_lib aside /\ offsets_anywhere plain_lib aside /\ hulls_anywhere plain_lib aside /\
  List.length coarse_slices = 3%nat /\ map (shift_layer aside) coarse_slices <> coarse_slices /\
  f_sliced _ _ _ _ _ _ _ r = coarse_slices /\ f_sliced _ _ _ _ _ _ _ r' = map (shift_layer aside) coarse_slices.
Proof.
  destruct coarse_done as ((text & [r]) & (text' & [r'])). exists text, text', r, r'.
  destruct (plain_anywhere aside) as (A & F & Hu). split; [exact A|]. split; [exact F|]. split; [exact Hu|]. split; [vm_compute; reflexivity|]. split; [vm_compute; discriminate|].
  pose proof (sliced_is _ _ _ _ _ _ straight_fs coarse_om 0 coarse_slices r ltac:(vm_compute; reflexivity) ltac:(vm_compute; reflexivity) ltac:(vm_compute; reflexivity)) as S0.
  split; [exact S0|]. pose proof (proj1 (layers_follow_center plain_lib aside _ _ _ _ coarse _ _ _ _ r r' A F eq_refl)) as L. rewrite S0 in L. exact L.
Qed.
Example outlines_follow_center_ex : exists om, Optimize 30 (V3 100000 100000 0) straight_fs = Ok (om, 0) /\
  exists a b ls, SlicePolygons 200 1500 30 1000 100 om = Ok ((a :: b) :: ls).
Proof. eexists. split; [vm_compute; reflexivity|]. do 3 eexists. vm_compute. reflexivity. Qed.
