(** C92, C93: options that change nothing, and options that do not change the path of the nozzle. *)
From Verif Require Import GoBase GoFloat GoStr M_Micrometer M_Geom2D M_Model M_Slicer M_Clip M_Builder M_Option M_Layer M_Render M_Modifier M_Process
  S_Text L_Str S_Printer S_Builder S_Calls S_Modifier S_Render L_Modifier L_Infill L_Builder L_Calls L_Render L_Events L_Settings L_Whole P_Modifier P_Support P_Render P_Pipeline L_LineLib P_Complete P_EndToEnd S_Same L_Same.
Local Open Scope string_scope.
Local Open Scope list_scope.
Local Open Scope Z_scope.

(** *** C93 *)
Lemma path_stages o o' : same_path_options o o' -> forall lib tangent, 
  (forall om, Slice lib o' om = Slice lib o om) /\ (forall ls, PerimeterModify lib o' ls = PerimeterModify lib o ls) /\
  (forall ls, InfillModify lib o' ls = InfillModify lib o ls) /\ (forall ls, InternalInfillModify lib o' ls = InternalInfillModify lib o ls) /\
  (forall ls, BrimModify lib o' ls = BrimModify lib o ls) /\ (forall ls, SupportDetectorModify lib o' tangent ls = SupportDetectorModify lib o tangent ls) /\
  (forall ls, SupportGeneratorModify lib o' ls = SupportGeneratorModify lib o ls).
Proof.
  intros [] lib tangent. destruct o as [sl pr fi pn gs], o' as [sl' pr' fi' pn' gs']. cbn in *.
  destruct pr, pr', pn, pn', fi, fi'. cbn in *. subst. repeat split; reflexivity.
Qed.
(** Whatever is printed: speeds, temperatures, the fan, the filament and how it is retracted do not change where the nozzle
    goes.  If one print is generated so is the other, and a printer that executes it gets to the same places one after the other. *)
Theorem nozzle_path : forall lib tangent fuel env o o' input text, same_path_options o o' -> starts_alike o o' ->
  plain (StartGCode (Printer o)) -> plain (EndGCode (Printer o)) ->
  inhabited (finished lib tangent fuel env o input text) ->
  exists text', inhabited (finished lib tangent fuel env o' input text') /\ forall r, places r text' = places r text.
Proof.
  intros lib tangent fuel env o o' input text P A Ps Pe [[fs om open l0 l1 l2 l3 l4 l5 l6 mn mx rs E1 E4 E5 M1 M2 M3 M4 M5 M6 [Emn Emx] E7 E8]].
  destruct (generate_matched o o' P A Ps Pe lib fuel _ _ l6 rs text E7 E8) as (rs' & text' & E7' & E8' & H). exists text'. split; [|exact H].
  destruct (path_stages o o' P lib tangent) as (S0 & S1 & S2 & S3 & S4 & S5 & S6). constructor.
  refine (Finished lib tangent fuel env o' input text' fs om open l0 l1 l2 l3 l4 l5 l6 mn mx rs' E1 _ _ _ _ _ _ _ _ (conj Emn Emx) E7' E8').
  - rewrite (sp_slicing _ _ P), (sp_center _ _ P). exact E4.
  - rewrite S0. exact E5.
  - rewrite S1. exact M1.
  - rewrite S2. exact M2.
  - rewrite S3. exact M3.
  - rewrite S4. exact M4.
  - rewrite S5. exact M5.
  - rewrite S6. exact M6.
Qed.
Print Assumptions nozzle_path.
(** The condition is symmetric, so the options give a print both or none. *)
Theorem nozzle_path_both : forall lib tangent fuel env o o' input, same_path_options o o' -> starts_alike o o' -> plain (StartGCode (Printer o)) -> plain (EndGCode (Printer o)) ->
  ((exists text, inhabited (finished lib tangent fuel env o input text)) <-> (exists text, inhabited (finished lib tangent fuel env o' input text))).
Proof.
  intros lib tangent fuel env o o' input P A Ps Pe. split; intros (text & R).
  - destruct (nozzle_path lib tangent fuel env o o' input text P A Ps Pe R) as (text' & R' & _). eauto.
  - destruct (nozzle_path lib tangent fuel env o' o input text) as (text' & R' & _); try assumption; [destruct P; constructor; congruence| |rewrite (sp_start _ _ P); exact Ps|rewrite (sp_end _ _ P); exact Pe|eauto].
    intros line I. rewrite (sp_start _ _ P) in I. destruct (A line I) as [E|[S S']]; [left; congruence|right; auto].
Qed.
Print Assumptions nozzle_path_both.

(** *** C92 *)
Lemma over_ext f g : (forall nr ls, f nr ls = g nr ls) -> forall n nr ls, over_layers f n nr ls = over_layers g n nr ls.
Proof. intros H n. induction n as [|n IH]; intros nr ls; [reflexivity|]. cbn [over_layers]. rewrite H. destruct (g nr ls) as [[x|]| | |]; cbn [bind]; auto. Qed.
Lemma bind_ext {A B} (x : res A) (f g : A -> res B) : (forall a, f a = g a) -> bind x f = bind x g.
Proof. intros H. destruct x; cbn [bind]; auto. Qed.
(** no solid layers *)
Section NotSolid.
Variables (lib : clib) (o : options).
Hypothesis Nb : NumberBottomLayers (Print o) <= 0.
Hypothesis Nt : NumberTopLayers (Print o) <= 0.
Lemma part_not_solid ls nr ov n p s : infill_part lib o ls nr ov n p s = Ok s.
Proof.
  destruct s as [b t]. unfold infill_part. replace (Z.to_nat (NumberBottomLayers (Print o))) with 0%nat by lia. replace (Z.to_nat (NumberTopLayers (Print o))) with 0%nat by lia. reflexivity.
Qed.
Lemma parts_not_solid ls nr ov n ps : forall s, infill_parts lib o ls nr ov n ps s = Ok s.
Proof. induction ps as [|p ps IH]; intros s; [reflexivity|]. cbn [infill_parts]. rewrite part_not_solid. cbn [bind]. apply IH. Qed.
Lemma entries_not_solid ls nr ov pe : forall n s, infill_entries lib o ls nr ov n pe s =
  fold_right (fun part r => let* _ := idx part (Z.of_nat (List.length part) - 1) in r) (Ok s) pe.
Proof.
  induction pe as [|p pe IH]; intros n s; [reflexivity|]. cbn [infill_entries fold_right]. destruct (idx p _); cbn [bind]; try reflexivity.
  rewrite parts_not_solid. cbn [bind]. apply IH.
Qed.
Lemma infill_not_solid ls ls' : InfillModify lib o ls = Ok ls' -> keeps [] ls ls'.
Proof.
  unfold InfillModify. assert (K : forall n nr l l', over_layers (infill_step lib o) n nr l = Ok l' -> keeps [] ls l -> keeps [] ls l'); [|intros E; apply (K _ _ _ _ E), keeps_refl].
  induction n as [|n IH]; intros nr l l' E H; [injection E as <-; exact H|]. cbn [over_layers] in E. apply bind_Ok in E. destruct E as ([x|] & E1 & E2); [|injection E2 as <-; exact H].
  apply (IH _ _ _ E2). clear IH E2. unfold infill_step in E1. apply bind_Ok in E1. destruct E1 as (a & Ea & E1). apply bind_Ok in E1. destruct E1 as (ov & _ & E1).
  destruct ov as [|o0 ov]; [discriminate|]. apply bind_Ok in E1. destruct E1 as (pe & _ & E1). destruct pe as [|p0 pe]; [discriminate|]. rewrite entries_not_solid in E1.
  apply bind_Ok in E1. destruct E1 as ([b t] & Es & E1). assert (T : b = [] /\ t = []).
  { clear -Es. revert Es. induction (p0 :: pe) as [|p ps IH]; cbn [fold_right]; [intros [= <- <-]; auto|]. intros E. apply bind_Ok in E. destruct E as (? & _ & E). apply IH, E. }
  destruct T as [-> ->]. cbn [bind] in E1. apply bind_Ok in E1. destruct E1 as (ls2 & Ep & E1). injection E1 as <-. cbn [set_parts] in Ep.
  apply put_Ok in Ep. destruct Ep as (R & ->). apply idx_Ok in Ea. destruct Ea as (_ & Ea). apply (keeps_set [] ls l _ a _ H Ea); [reflexivity|]. intros name _. apply lookup_new.
Qed.
End NotSolid.
(** no retraction *)
Definition idle (g : builder) : Prop := negb (retractionSpeed g =? 0) && negb (is_zero (retractionAmount g)) = false.
Definition twins (g g' : builder) : Prop := idle g /\ idle g' /\ exists v a h,
  g' = Builder (buf g) (extrusionAmount g) (extrusionPerMM g) (currentPosition g) (notFirstMoveX g) (notFirstMoveY g) (notFirstMoveZ g)
    (moveSpeed g) (extrudeSpeed g) (currentSpeed g) (extrudeSpeedOverride g) v a h (filamentDiameter g) (extrusionMultiplier g).
Inductive twin_calls : list call -> list call -> Prop :=
| T_nil : twin_calls [] []
| T_same c cs cs' : match c with CSetRetractionSpeed _ | CSetRetractionAmount _ | CSetHop _ => False | _ => True end -> twin_calls cs cs' -> twin_calls (c :: cs) (c :: cs')
| T_retraction v a h v' a' h' cs cs' : retracting v a = false -> retracting v' a' = false -> twin_calls cs cs' ->
    twin_calls (CSetRetractionSpeed v :: CSetRetractionAmount a :: CSetHop h :: cs) (CSetRetractionSpeed v' :: CSetRetractionAmount a' :: CSetHop h' :: cs').
Lemma twins_move p e s g g' : twins g g' -> twins (AddMoveSpeed p e s g) (AddMoveSpeed p e s g').
Proof.
  intros (I & I' & v & a & h & ->). rewrite !move_text. unfold dropped. cbn [notFirstMoveX notFirstMoveY notFirstMoveZ currentPosition].
  match goal with |- context [if ?b then _ else _] => destruct b end; (split; [exact I|]; split; [exact I'|]); exists v, a, h; reflexivity.
Qed.
Lemma twins_ops os : forall g g', twins g g' -> twins (do_ops os g) (do_ops os g').
Proof. induction os as [|[[p e] s] os IH]; intros g g' T; [exact T|]. cbn [do_ops]. apply IH, twins_move, T. Qed.
Lemma lines_idle st st' z : s_move st' = s_move st -> s_print st' = s_print st -> s_permm st' = s_permm st -> forall l a, lines_ops st z a l = lines_ops st' z a l.
Proof. intros V E P. induction l as [|b l IH]; intros a; [reflexivity|]. cbn [lines_ops]. rewrite IH. f_equal. unfold line_op. rewrite V, E, P. reflexivity. Qed.
Lemma twins_polygon lib l p z o g g' g1 : twins g g' -> AddPolygon lib l p z o g = Ok g1 -> exists g1', AddPolygon lib l p z o g' = Ok g1' /\ twins g1 g1'.
Proof.
  intros T. destruct p as [|q qs]; [intros [= <-]; exists g'; split; [reflexivity|exact T]|].
  destruct (DP_nonempty (q :: qs)) as (p0 & ps & D); [discriminate|].
  rewrite !(polygon_spec lib l (q :: qs) z o _ p0 ps ltac:(discriminate) D).
  assert (C : forall x, idle x -> crossing lib l x p0 = Some false) by (intros x H; unfold idle in H; unfold crossing; rewrite H; destruct l; reflexivity).
  pose proof T as (I & I' & v & a & h & E). rewrite (C g I), (C g' I'). intros E1.
  match type of E1 with Ok ?x = Ok _ => assert (E2 : g1 = x) by congruence end. rewrite E2. eexists. split; [reflexivity|].
  replace (polygon_ops (settings_of g') false (currentPosition g') p0 ps z o) with (polygon_ops (settings_of g) false (currentPosition g) p0 ps z o).
  - apply twins_ops, T.
  - unfold polygon_ops, approach_ops. f_equal; [rewrite E; reflexivity|]. apply lines_idle; rewrite E; reflexivity.
Qed.
Lemma twins_call lib c g g' g1 : match c with CSetRetractionSpeed _ | CSetRetractionAmount _ | CSetHop _ => False | _ => True end ->
  twins g g' -> run_call lib c g = Ok g1 -> exists g1', run_call lib c g' = Ok g1' /\ twins g1 g1'.
Proof.
  intros H T E. destruct c; try contradiction; cbn [run_call] in *; try (exact (twins_polygon _ _ _ _ _ _ _ _ T E));
    injection E as <-; (eexists; split; [reflexivity|]); try (apply twins_move, T);
    try (destruct T as (I & I' & v' & a' & h' & ->); split; [exact I|]; split; [exact I'|]; exists v', a', h'; reflexivity).
  unfold AddMove. destruct T as (I & I' & v' & a' & h' & E). rewrite E.
  assert (T : twins g (Builder (buf g) (extrusionAmount g) (extrusionPerMM g) (currentPosition g) (notFirstMoveX g) (notFirstMoveY g) (notFirstMoveZ g)
    (moveSpeed g) (extrudeSpeed g) (currentSpeed g) (extrudeSpeedOverride g) v' a' h' (filamentDiameter g) (extrusionMultiplier g))).
  { split; [exact I|]. split; [rewrite <- E; exact I'|]. exists v', a', h'. reflexivity. }
  cbn [moveSpeed extrudeSpeed extrudeSpeedOverride]. apply twins_move, T.
Qed.
Lemma twins_run lib cs cs' : twin_calls cs cs' -> forall g g' g1, twins g g' -> run_calls lib cs g = Ok g1 -> exists g1', run_calls lib cs' g' = Ok g1' /\ twins g1 g1'.
Proof.
  induction 1 as [|c cs cs' Hc M IH|v a h v' a' h' cs cs' R R' M IH]; intros g g' g1 T E.
  - injection E as <-. exists g'. split; [reflexivity|exact T].
  - cbn [run_calls] in *. apply bind_Ok in E. destruct E as (g2 & E1 & E2). destruct (twins_call lib c g g' g2 Hc T E1) as (g2' & E1' & T'). rewrite E1'. cbn [bind]. exact (IH _ _ _ T' E2).
  - cbn [run_calls run_call bind] in *.
    apply (IH (SetRetractionZHop h (SetRetractionAmount a (SetRetractionSpeed v g))) (SetRetractionZHop h' (SetRetractionAmount a' (SetRetractionSpeed v' g'))) g1); [|exact E].
    destruct T as (_ & _ & v0 & a0 & h0 & ->). split; [exact R|]. split; [exact R'|]. exists (int_of_f32 v'), a', h'. reflexivity.
Qed.
Definition steady (c : call) : Prop := match c with CSetRetractionSpeed _ | CSetRetractionAmount _ | CSetHop _ => False | _ => True end.
Lemma twin_refl cs : Forall steady cs -> twin_calls cs cs.
Proof. induction 1; [apply T_nil|apply T_same; assumption]. Qed.
Lemma twin_app a a' b b' : twin_calls a a' -> twin_calls b b' -> twin_calls (a ++ b) (a' ++ b').
Proof. induction 1; intros T; cbn [app]; [exact T|apply T_same; auto|apply T_retraction; auto]. Qed.
Lemma steady_map ls : Forall steady (map CCommand ls).
Proof. induction ls; constructor; [exact I|assumption]. Qed.
Lemma steady_printing z cs : Forall (printing z) cs -> Forall steady cs.
Proof. apply Forall_impl. intros []; cbn; tauto. Qed.
Section Features.
Variables o o' : options.
Hypothesis F : same_features o o'.
Lemma feature_stages lib : 
  (forall om, Slice lib o' om = Slice lib o om) /\ (forall ls, PerimeterModify lib o' ls = PerimeterModify lib o ls) /\
  (forall ls, InternalInfillModify lib o' ls = InternalInfillModify lib o ls) /\ (forall ls, BrimModify lib o' ls = BrimModify lib o ls) /\
  (forall l z, perimeter_plan o' l z = perimeter_plan o l z) /\ (forall nr, pre_rest o' nr = pre_rest o nr) /\ (forall n, height o' n = height o n) /\
  (forall line, fill_template o' line = fill_template o line).
Proof.
  destruct F. destruct o as [sl pr fi pn gs], o' as [sl' pr' fi' pn' gs']. cbn in *.
  destruct pr, pr', pn, pn', fi, fi'. cbn in *. destruct BrimSkirt, BrimSkirt0. cbn in *. subst. repeat split; reflexivity.
Qed.
Definition solid : Prop := 0 < NumberBottomLayers (Print o) \/ 0 < NumberTopLayers (Print o).
Lemma infill_same lib ls : InfillModify lib o' ls = InfillModify lib o ls.
Proof.
  destruct (Z_le_gt_dec (NumberBottomLayers (Print o)) 0) as [B|B]; [destruct (Z_le_gt_dec (NumberTopLayers (Print o)) 0) as [T|T]|].
  - assert (B' : NumberBottomLayers (Print o') <= 0) by (rewrite (sf_bottom _ _ F); exact B). assert (T' : NumberTopLayers (Print o') <= 0) by (rewrite (sf_top _ _ F); exact T).
    unfold InfillModify. apply over_ext. intros nr l. unfold infill_step. apply bind_ext. intros a. apply bind_ext. intros [|ov0 ov]; [reflexivity|]. apply bind_ext. intros [|p pe]; [reflexivity|].
    rewrite (entries_not_solid lib o B T), (entries_not_solid lib o' B' T'). reflexivity.
  - assert (A := sf_additional _ _ F (or_intror (Z.gt_lt _ _ T))). destruct F. destruct o as [sl pr fi pn gs], o' as [sl' pr' fi' pn' gs']. cbn in *.
    destruct pr, pr', pn, pn'. cbn in *. subst. reflexivity.
  - assert (A := sf_additional _ _ F (or_introl (Z.gt_lt _ _ B))). destruct F. destruct o as [sl pr fi pn gs], o' as [sl' pr' fi' pn' gs']. cbn in *.
    destruct pr, pr', pn, pn'. cbn in *. subst. reflexivity.
Qed.
Lemma support_same lib tangent ls : SupportDetectorModify lib o' tangent ls = SupportDetectorModify lib o tangent ls /\ SupportGeneratorModify lib o' ls = SupportGeneratorModify lib o ls.
Proof.
  destruct (s_Enabled (Support (Print o))) eqn:En.
  - assert (S := sf_support _ _ F En). destruct F. destruct o as [sl pr fi pn gs], o' as [sl' pr' fi' pn' gs']. cbn in *.
    destruct pr, pr', pn, pn'. cbn in *. subst. split; reflexivity.
  - assert (En' : s_Enabled (Support (Print o')) = false) by (rewrite (sf_enabled _ _ F); exact En).
    destruct (support_disabled lib o tangent ls En) as (-> & ->). destruct (support_disabled lib o' tangent ls En') as (-> & ->). auto.
Qed.
Definition triple (x : options) : list call :=
  [CSetRetractionSpeed (RetractionSpeed (Filament x)); CSetRetractionAmount (RetractionLength (Filament x)); CSetHop (RetractionZHop (Filament x))].
Lemma start_features ss : exists a b, Forall steady a /\ Forall steady b /\ start_calls o ss = a ++ triple o ++ b /\ start_calls o' ss = a ++ triple o' ++ b.
Proof.
  set (heat x := ((if ForceSafeStartStopGCode (Printer x) && HasHeatedBed (Printer x)
         && negb (DoesInstructionContainCodes (StartGCode (Printer x)) ["M140"; "M190"])
      then [CComment "SET BED TEMP"; CCommandInt "M190 S%d ; heat and wait for bed" (InitialBedTemperature (Filament x))] else [])
  ++ (if ForceSafeStartStopGCode (Printer x) && negb (DoesInstructionContainCodes (StartGCode (Printer x)) ["M104"; "M109"])
      then [CComment "SET HOTEND TEMP"; CCommandInt "M109 S%d ; wait for hot end temperature" (InitialHotEndTemperature (Filament x))] else []))).
  set (head x := [CComment "Generated with GoSlice"; CComment "______________________"] ++ heat x ++ [CComment "START GCODE"] ++ map CCommand ss ++
    [CCommand "G92 E0 ; reset extrusion distance"; CSetExtrusion (InitialLayerThickness (Print x)) (ExtrusionWidth (Printer x));
      CSetExtrudeSpeed (LayerSpeed (Print x)); CSetMoveSpeed (MoveSpeed (Print x))]).
  assert (S : forall x, start_calls x ss = head x ++ triple x ++ [CSetOverride (IntialLayerSpeed (Print x))]).
  { intros x. unfold start_calls, head, heat, triple. rewrite <- !app_assoc. reflexivity. }
  assert (E : head o' = head o).
  { unfold head, heat. rewrite (sf_start _ _ F), (sf_force _ _ F), (sf_bed0 _ _ F), (sf_hot0 _ _ F), (sf_initial _ _ F), (sf_width _ _ F), (sf_speed1 _ _ F), (sf_speed3 _ _ F).
    destruct (ForceSafeStartStopGCode (Printer o)) eqn:Fo; [rewrite (sf_bed _ _ F Fo)|]; reflexivity. }
  exists (head o), [CSetOverride (IntialLayerSpeed (Print o))]. rewrite !S, E, (sf_speed0 _ _ F). split; [|split; [repeat constructor|split; reflexivity]].
  unfold head, heat. rewrite !Forall_app. repeat split; try (repeat constructor; fail); try apply steady_map;
    match goal with |- context [if ?b then _ else _] => destruct b end; repeat constructor.
Qed.
Lemma end_same : end_calls o' = end_calls o.
Proof.
  unfold end_calls. rewrite (sf_end _ _ F), (sf_force _ _ F), (sf_thickness _ _ F), (sf_width _ _ F).
  destruct (ForceSafeStartStopGCode (Printer o)) eqn:Fo; [rewrite (sf_bed _ _ F Fo)|]; reflexivity.
Qed.
Lemma end_steady : Forall steady (end_calls o).
Proof.
  unfold end_calls. rewrite !Forall_app. split; [repeat constructor|]. split; [match goal with |- context [if ?b then _ else _] => destruct b end; repeat constructor|].
  split; [match goal with |- context [if ?b then _ else _] => destruct b end; repeat constructor|apply steady_map].
Qed.
Lemma rest_steady nr : Forall steady (pre_rest o nr).
Proof.
  unfold pre_rest. rewrite !Forall_app. split; [repeat constructor|]. split; [destruct (0 <? nr); repeat constructor|]. split; [destruct (lut_get _ nr) as [[]|]; repeat constructor|].
  destruct (nr =? _); repeat constructor.
Qed.
Lemma pre_twin nr : retracts o = false -> twin_calls (pre_plan o nr) (pre_plan o' nr).
Proof.
  intros R. assert (R' : retracts o' = false) by (rewrite (sf_retracts _ _ F); exact R). destruct (feature_stages P_Clip.toy) as (_ & _ & _ & _ & _ & Pr & _ & Ft).
  change (pre_plan o nr) with ((if nr =? 0 then start_calls o (map (fill_template o) (StartGCode (Printer o)))
   else if nr =? 1 then [CSetExtrusion (LayerThickness (Print o)) (ExtrusionWidth (Printer o))] else []) ++ pre_rest o nr).
  change (pre_plan o' nr) with ((if nr =? 0 then start_calls o' (map (fill_template o') (StartGCode (Printer o')))
   else if nr =? 1 then [CSetExtrusion (LayerThickness (Print o')) (ExtrusionWidth (Printer o'))] else []) ++ pre_rest o' nr).
  apply twin_app; [|rewrite Pr; apply twin_refl, rest_steady]. rewrite (map_ext _ _ Ft), (sf_start _ _ F), (sf_thickness _ _ F), (sf_width _ _ F).
  destruct (nr =? 0); [|destruct (nr =? 1); apply twin_refl; repeat constructor].
  destruct (start_features (map (fill_template o) (StartGCode (Printer o)))) as (a & b & Sa & Sb & -> & ->).
  apply twin_app; [apply twin_refl, Sa|]. apply T_retraction; [exact R|exact R'|apply twin_refl, Sb].
Qed.
Lemma pre_same nr : retracts o = true -> pre_plan o' nr = pre_plan o nr.
Proof.
  intros R. destruct (sf_retraction _ _ F R) as (R1 & R2 & R3). destruct (feature_stages P_Clip.toy) as (_ & _ & _ & _ & _ & Pr & _ & Ft).
  change (pre_plan o nr) with ((if nr =? 0 then start_calls o (map (fill_template o) (StartGCode (Printer o)))
   else if nr =? 1 then [CSetExtrusion (LayerThickness (Print o)) (ExtrusionWidth (Printer o))] else []) ++ pre_rest o nr).
  change (pre_plan o' nr) with ((if nr =? 0 then start_calls o' (map (fill_template o') (StartGCode (Printer o')))
   else if nr =? 1 then [CSetExtrusion (LayerThickness (Print o')) (ExtrusionWidth (Printer o'))] else []) ++ pre_rest o' nr).
  rewrite Pr, (map_ext _ _ Ft), (sf_start _ _ F), (sf_thickness _ _ F), (sf_width _ _ F).
  destruct (start_features (map (fill_template o) (StartGCode (Printer o)))) as (a & b & _ & _ & -> & ->). unfold triple. rewrite R1, R2, R3. reflexivity.
Qed.
(** the layers that are printed have no parts of features that are switched off *)
Definition without (l : layer) : Prop :=
  (s_Enabled (Support (Print o)) = false -> attribute l "support" = None /\ attribute l "supportInterface" = None) /\
  (~ solid -> attribute l "bottom" = None /\ attribute l "top" = None).
Lemma empty_fill lib fuel p p' name comments nr l z : attribute l name = None ->
  infill_plan lib fuel (Some p) name comments nr l z = infill_plan lib fuel (Some p') name comments nr l z.
Proof. intros N. unfold infill_plan, PartsAttribute. rewrite N. reflexivity. Qed.
Lemma layer_same lib fuel mn mx inf nr l z : without l -> plan_layer lib o' fuel mn mx inf nr l z = plan_layer lib o fuel mn mx inf nr l z.
Proof.
  intros (Ws & Wb). destruct (feature_stages lib) as (_ & _ & _ & _ & Pp & _).
  assert (S : skirt_plan lib o' nr l z = skirt_plan lib o nr l z).
  { unfold skirt_plan. rewrite (sf_skirts _ _ F), (sf_brims _ _ F), (sf_width _ _ F). destruct (s_SkirtCount (BrimSkirt (Print o)) =? 0) eqn:Z0; [reflexivity|].
    rewrite (sf_skirt _ _ F) by (intros E; rewrite E in Z0; discriminate). reflexivity. }
  assert (S1 : infill_plan lib fuel (Some (supportPattern o' mn mx)) "support" ["TYPE:SUPPORT"] nr l z = infill_plan lib fuel (Some (supportPattern o mn mx)) "support" ["TYPE:SUPPORT"] nr l z /\
    infill_plan lib fuel (Some (interfacePattern o' mn mx)) "supportInterface" ["TYPE:SUPPORT"] nr l z = infill_plan lib fuel (Some (interfacePattern o mn mx)) "supportInterface" ["TYPE:SUPPORT"] nr l z).
  { destruct (s_Enabled (Support (Print o))) eqn:En.
    - unfold supportPattern, interfacePattern. rewrite (sf_support _ _ F En), (sf_width _ _ F). split; reflexivity.
    - destruct (Ws eq_refl). split; apply empty_fill; assumption. }
  assert (S2 : forall name comments, name = "bottom" \/ name = "top" ->
    infill_plan lib fuel (Some (topBottomPattern o' mn mx)) name comments nr l z = infill_plan lib fuel (Some (topBottomPattern o mn mx)) name comments nr l z).
  { intros name comments N. destruct (Z_le_gt_dec (NumberBottomLayers (Print o)) 0) as [B|B]; [destruct (Z_le_gt_dec (NumberTopLayers (Print o)) 0) as [T|T]|].
    - destruct Wb as [W1 W2]; [unfold solid; lia|]. apply empty_fill. destruct N as [->| ->]; assumption.
    - unfold topBottomPattern. rewrite (sf_width _ _ F), (sf_rotation _ _ F) by (right; lia). reflexivity.
    - unfold topBottomPattern. rewrite (sf_width _ _ F), (sf_rotation _ _ F) by (right; lia). reflexivity. }
  unfold plan_layer, fill_plan. rewrite S, Pp, (proj1 S1), (proj2 S1), !S2 by auto. reflexivity.
Qed.
Lemma pattern_same mn mx : infillPattern o' mn mx = infillPattern o mn mx.
Proof.
  unfold infillPattern. rewrite (sf_percent _ _ F), (sf_width _ _ F). destruct (InfillPercent (Print o) =? 0) eqn:Z0; [reflexivity|]. apply Z.eqb_neq in Z0.
  rewrite (sf_rotation _ _ F (or_introl Z0)), (sf_zigzag _ _ F Z0). reflexivity.
Qed.
Lemma calls_twin m : retracts o = false -> forall ps n, Forall prints ps -> twin_calls (concat (calls_from o n m ps)) (concat (calls_from o' n m ps)).
Proof.
  intros R. induction ps as [|p ps IH]; intros n H; [apply T_nil|]. inversion H as [|? ? (z & H1) H2]; subst. cbn [calls_from List.length seq combine map concat].
  apply twin_app; [|apply IH, H2]. unfold layer_calls. apply twin_app; [apply pre_twin, R|]. rewrite end_same. apply twin_refl.
  apply steady_printing in H1. rewrite !Forall_app in *. destruct H1 as (A & B & C & D). repeat split; try assumption. destruct (_ =? m); [apply end_steady|constructor].
Qed.
Lemma calls_same m : retracts o = true -> forall ps n, concat (calls_from o' n m ps) = concat (calls_from o n m ps).
Proof.
  intros R. induction ps as [|p ps IH]; intros n; [reflexivity|]. cbn [calls_from List.length seq combine map concat]. f_equal; [|apply IH].
  unfold layer_calls. rewrite pre_same, end_same by exact R. reflexivity.
Qed.
Lemma generate_same lib fuel mn mx layers rs text : Forall without layers -> goslice_renderers lib fuel o mn mx = Ok rs -> snd (Generate o rs layers tt) = Ok text ->
  exists rs', goslice_renderers lib fuel o' mn mx = Ok rs' /\ snd (Generate o' rs' layers tt) = Ok text.
Proof.
  intros W R G. apply (goslice_generate lib fuel o mn mx layers rs text R) in G. destruct G as (inf & ps & b & I & (L & Pl) & E & ->).
  assert (I' : infillPattern o' mn mx = Ok inf) by (rewrite pattern_same; exact I).
  assert (R' : exists rs', goslice_renderers lib fuel o' mn mx = Ok rs') by (unfold goslice_renderers; rewrite I'; eexists; reflexivity). destruct R' as (rs' & R').
  exists rs'. split; [exact R'|]. apply (goslice_generate lib fuel o' mn mx layers rs' _ R').
  assert (Pl' : planned lib o' fuel mn mx inf layers ps).
  { split; [exact L|]. intros nr l p El Ep. destruct (feature_stages lib) as (_ & _ & _ & _ & _ & _ & H & _). rewrite H, layer_same; [exact (Pl nr l p El Ep)|].
    rewrite Forall_forall in W. apply W. eapply nth_error_In, El. }
  assert (Pr : Forall prints ps).
  { apply Forall_forall. intros p Ip. apply In_nth_error in Ip. destruct Ip as (i & Ei). assert (exists l, nth_error layers i = Some l) as (l & El).
    { destruct (nth_error layers i) eqn:N; [eauto|]. apply nth_error_None in N. assert (i < List.length ps)%nat by (apply nth_error_Some; congruence). lia. }
    exists (height o i). eapply layer_printing. exact (Pl i l p El Ei). }
  assert (T : exists b', run_calls lib (concat (all_calls o' ps)) (NewGCodeBuilder (FilamentDiameter (Filament o')) (ExtrusionMultiplier (Filament o'))) = Ok b' /\ buf b' = buf b).
  { rewrite (sf_diameter _ _ F), (sf_multiplier _ _ F). destruct (retracts o) eqn:Re.
    - exists b. split; [|reflexivity]. unfold all_calls in *. pose proof (calls_same (Z.of_nat (List.length ps) - 1) Re ps 0%nat) as C. unfold calls_from in C. rewrite C. exact E.
    - destruct (twins_run lib _ _ (calls_twin (Z.of_nat (List.length ps) - 1) Re ps 0%nat Pr) (NewGCodeBuilder (FilamentDiameter (Filament o)) (ExtrusionMultiplier (Filament o))) (NewGCodeBuilder (FilamentDiameter (Filament o)) (ExtrusionMultiplier (Filament o))) b) as (b' & E' & T).
      + split; [reflexivity|]. split; [reflexivity|]. do 3 eexists. reflexivity.
      + exact E.
      + exists b'. split; [exact E'|]. destruct T as (_ & _ & v & a & h & ->). reflexivity. }
  destruct T as (b' & E' & B). exists inf, ps, b'. split; [exact I'|]. split; [exact Pl'|]. split; [exact E'|]. unfold BuilderString. symmetry. exact B.
Qed.
End Features.

Lemma printed_without lib tangent fuel env o input text (R : finished lib tangent fuel env o input text) : Forall (without o) (f_layers _ _ _ _ _ _ _ R).
Proof.
  destruct R as [fs om open l0 l1 l2 l3 l4 l5 l6 mn mx rs E1 E4 E5 M1 M2 M3 M4 M5 M6 B E7 E8]. cbn [f_layers].
  destruct (slice_spec lib o om l0 E5) as (lps & _ & Fs).
  assert (N0 : forall i l name, nth_error l0 i = Some l -> attribute l name = None).
  { intros i l name El. destruct (f2_nth_r _ _ _ _ _ Fs El) as (ps & _ & parts & _ & ->). reflexivity. }
  pose proof (proj1 (modifiers_keep_layers lib o tangent l0 l1) M1) as K1.
  pose proof (proj1 (proj2 (modifiers_keep_layers lib o tangent l1 l2)) M2) as K2.
  pose proof (proj1 (proj2 (proj2 (modifiers_keep_layers lib o tangent l2 l3))) M3) as K3.
  pose proof (proj1 (proj2 (proj2 (proj2 (modifiers_keep_layers lib o tangent l3 l4)))) M4) as K4.
  pose proof (proj1 (proj2 (proj2 (proj2 (proj2 (modifiers_keep_layers lib o tangent l4 l5))))) M5) as K5.
  pose proof (proj2 (proj2 (proj2 (proj2 (proj2 (modifiers_keep_layers lib o tangent l5 l6))))) M6) as K6.
  apply Forall_forall. intros l Il. apply In_nth_error in Il. destruct Il as (i & E6). split.
  - intros En. destruct (support_disabled lib o tangent l4 En) as (D & _). rewrite M5 in D. injection D as ->.
    destruct (support_disabled lib o tangent l4 En) as (_ & D). rewrite M6 in D. injection D as ->.
    destruct (keeps_nth _ _ _ _ _ K4 E6) as (x3 & X3 & _ & A4). destruct (keeps_nth _ _ _ _ _ K3 X3) as (x2 & X2 & _ & A3).
    destruct (keeps_nth _ _ _ _ _ K2 X2) as (x1 & X1 & _ & A2). destruct (keeps_nth _ _ _ _ _ K1 X1) as (x0 & X0 & _ & A1).
    split; (rewrite A4, A3, A2, A1; [apply (N0 i x0 _ X0)|cbn; intuition discriminate..]).
  - intros Ns. unfold solid in Ns. assert (K2' := infill_not_solid lib o ltac:(lia) ltac:(lia) l1 l2 M2).
    destruct (keeps_nth _ _ _ _ _ K6 E6) as (x5 & X5 & _ & A6). destruct (keeps_nth _ _ _ _ _ K5 X5) as (x4 & X4 & _ & A5).
    destruct (keeps_nth _ _ _ _ _ K4 X4) as (x3 & X3 & _ & A4). destruct (keeps_nth _ _ _ _ _ K3 X3) as (x2 & X2 & _ & A3).
    destruct (keeps_nth _ _ _ _ _ K2' X2) as (x1 & X1 & _ & A2). destruct (keeps_nth _ _ _ _ _ K1 X1) as (x0 & X0 & _ & A1).
    split; (rewrite A6, A5, A4, A3, A2, A1; [apply (N0 i x0 _ X0)|cbn; intuition discriminate..]).
Qed.
(** What is switched off has no influence: options that differ only there give the same text, or none of them gives one. *)
Theorem switched_off : forall lib tangent fuel env o o' input text, same_features o o' ->
  inhabited (finished lib tangent fuel env o input text) -> inhabited (finished lib tangent fuel env o' input text).
Proof.
  intros lib tangent fuel env o o' input text F [R]. pose proof (printed_without lib tangent fuel env o input text R) as W.
  destruct R as [fs om open l0 l1 l2 l3 l4 l5 l6 mn mx rs E1 E4 E5 M1 M2 M3 M4 M5 M6 [Emn Emx] E7 E8]. cbn [f_layers] in W.
  destruct (generate_same o o' F lib fuel _ _ l6 rs text W E7 E8) as (rs' & E7' & E8').
  destruct (feature_stages o o' F lib) as (S0 & S1 & S3 & S4 & _). constructor.
  refine (Finished lib tangent fuel env o' input text fs om open l0 l1 l2 l3 l4 l5 l6 mn mx rs' E1 _ _ _ _ _ _ _ _ (conj Emn Emx) E7' E8').
  - rewrite (sf_slicing _ _ F), (sf_center _ _ F). exact E4.
  - rewrite S0. exact E5.
  - rewrite S1. exact M1.
  - rewrite (infill_same o o' F). exact M2.
  - rewrite S3. exact M3.
  - rewrite S4. exact M4.
  - rewrite (proj1 (support_same o o' F lib tangent l4)). exact M5.
  - rewrite (proj2 (support_same o o' F lib tangent l5)). exact M6.
Qed.
Print Assumptions switched_off.
Lemma same_features_sym o o' : same_features o o' -> same_features o' o.
Proof.
  intros F. constructor; try (symmetry; apply F; fail).
  - intros H. symmetry. apply F. rewrite <- (sf_force _ _ F). exact H.
  - intros H. rewrite (sf_retracts _ _ F) in H. destruct (sf_retraction _ _ F H) as (A & B & C). auto.
  - intros H. symmetry. apply F. rewrite <- (sf_bottom _ _ F), <- (sf_top _ _ F). exact H.
  - intros H. symmetry. apply F. rewrite <- (sf_bottom _ _ F), <- (sf_top _ _ F), <- (sf_percent _ _ F). exact H.
  - intros H. symmetry. apply F. rewrite <- (sf_percent _ _ F). exact H.
  - intros H. symmetry. apply F. rewrite <- (sf_enabled _ _ F). exact H.
  - intros H. symmetry. apply F. rewrite <- (sf_skirts _ _ F). exact H.
Qed.
(** So a run of the program ends well with both options or with none, and then it writes the same text to the same file. *)
Theorem switched_off_run : forall lib tangent fuel env sys d o o' input output, same_features o o' ->
  ((exists steps, Process (NewGoSlice lib tangent fuel env sys d o) input output = (steps, Ok tt)) <->
   (exists steps, Process (NewGoSlice lib tangent fuel env sys d o') input output = (steps, Ok tt))) /\
  forall text, inhabited (finished lib tangent fuel env o input text) <-> inhabited (finished lib tangent fuel env o' input text).
Proof.
  intros lib tangent fuel env sys d o o' input output F.
  assert (K : forall text, inhabited (finished lib tangent fuel env o input text) <-> inhabited (finished lib tangent fuel env o' input text)).
  { intros text. split; apply switched_off; [exact F|apply same_features_sym, F]. }
  split; [|exact K]. rewrite !built_in_run. split; intros (text & R & W); exists text; (split; [apply K, R|exact W]).
Qed.
Print Assumptions switched_off_run.

(** *** examples *)
(** the default options with other speeds, temperatures, fan, filament and retraction *)
Definition fast : options :=
  Options (Slicing DefaultOptions)
    (PrinterOptions 400 (Center (Printer DefaultOptions)) false false (StartGCode (Printer DefaultOptions)) (EndGCode (Printer DefaultOptions)))
    (FilamentOptions 2850 80 240 75 235 1 (c32 45 1) (c32 4 1) (c32 0 1) (FanSpeed (Filament DefaultOptions)) 90)
    (PrintOptions (c32 60 1) (c32 90 1) (c32 80 1) (c32 200 1) 200 200 2 50 400 20 45 false 3 4
      (Support (Print DefaultOptions)) (BrimSkirt (Print DefaultOptions)))
    (GoSliceOptions "a" "b").
Example fast_path : same_path_options DefaultOptions fast /\ starts_alike DefaultOptions fast /\ plain (StartGCode (Printer DefaultOptions)) /\ plain (EndGCode (Printer DefaultOptions)).
Proof.
  split; [constructor; vm_compute; reflexivity|]. split; [|split; repeat constructor].
  intros line I. cbn [StartGCode Printer DefaultOptions] in I. 
  repeat (destruct I as [<-|I]; [first [left; vm_compute; reflexivity|
    right; split; apply silent_line; [vm_compute; reflexivity|vm_compute; intros w ws E; injection E as <- _; split; [reflexivity|discriminate]|
      vm_compute; reflexivity|vm_compute; intros w ws E; injection E as <- _; split; [reflexivity|discriminate]]]|]). destruct I.
Qed.
Example fast_ex : exists text text', inhabited (corner_run text) /\ inhabited (finished line_lib (fun _ => f64_of_Z 1) (Z.to_nat (2 ^ 24 + 1)) corner_file fast "part.stl" text') /\
  forall r, places r text' = places r text.
Proof.
  destruct corner_finished as (text & R). destruct fast_path as (A & B & C & D). destruct (nozzle_path _ _ _ _ _ _ _ _ A B C D R) as (text' & R' & H). eauto.
Qed.
(** the default options, which have no support, with other options of the support *)
Definition unsupported : options :=
  Options (Slicing DefaultOptions) (Printer DefaultOptions) (Filament DefaultOptions)
    (PrintOptions (c32 30 1) (c32 60 1) (c32 40 1) (c32 150 1) 200 200 2 50 400 20 45 false 3 4
      (SupportOptions false 30 7 5 (c32 1 1) (c32 2 1)) (BrimSkirt (Print DefaultOptions)))
    (GoSliceOptions "a" "b").
Example unsupported_ex : same_features DefaultOptions unsupported /\ exists text, inhabited (corner_run text) /\
  inhabited (finished line_lib (fun _ => f64_of_Z 1) (Z.to_nat (2 ^ 24 + 1)) corner_file unsupported "part.stl" text).
Proof.
  assert (F : same_features DefaultOptions unsupported) by (constructor; try (intros; vm_compute; repeat split; reflexivity); try (vm_compute; reflexivity); vm_compute; discriminate).
  split; [exact F|]. destruct corner_finished as (text & R). exists text. split; [exact R|]. exact (switched_off _ _ _ _ _ _ _ _ F R).
Qed.
(** everything switched off *)
Definition bare (additional rotation : Z) (zigzag : bool) (distance hop : f32) (bed : bool) : options :=
  Options (Slicing DefaultOptions)
    (PrinterOptions 400 (Center (Printer DefaultOptions)) false bed (StartGCode (Printer DefaultOptions)) (EndGCode (Printer DefaultOptions)))
    (FilamentOptions 1750 60 205 55 200 3 (c32 30 1) (c32 0 1) hop DefaultFanSpeed 100)
    (PrintOptions (c32 30 1) (c32 60 1) (c32 40 1) (c32 150 1) 200 200 2 50 additional 0 rotation zigzag 0 0
      (Support (Print DefaultOptions)) (BrimSkirtOptions 0 distance 0))
    (GoSliceOptions "" "").
Example bare_ex : same_features (bare 400 45 false (c32 5 1) (c32 0 1) true) (bare 100 30 true (c32 2 1) (c32 1 1) false).
Proof.
  constructor; try (vm_compute; reflexivity); try (intros H; vm_compute in H; discriminate).
  - intros [H|H]; vm_compute in H; discriminate.
  - intros [H|[H|H]]; vm_compute in H; congruence.
  - intros H. vm_compute in H. congruence.
  - intros H. vm_compute in H. congruence.
Qed.
