(** Property C114: the options of the skirt change the skirt only, the options of the filling pattern change the lines of the fillings only. *)
From Verif Require Import GoBase GoFloat GoStr M_Micrometer M_Geom2D M_Model M_Slicer M_Clip M_Builder M_Option M_Layer M_Render M_Modifier M_Process
  S_Calls S_Render L_Render P_Process P_Render P_Pipeline P_Local S_Center P_Center.
Local Open Scope string_scope.
Local Open Scope list_scope.
Local Open Scope Z_scope.

(** the options with another number of skirt loops at another distance *)
Definition reskirted (count : Z) (distance : f32) (o : options) : options :=
  let p := Print o in
  Options (Slicing o) (Printer o) (Filament o)
    (PrintOptions (IntialLayerSpeed p) (LayerSpeed p) (OuterPerimeterSpeed p) (MoveSpeed p) (InitialLayerThickness p) (LayerThickness p) (InsetCount p)
      (InfillOverlapPercent p) (AdditionalInternalInfillOverlapPercent p) (InfillPercent p) (InfillRotationDegree p) (InfillZigZag p) (NumberBottomLayers p) (NumberTopLayers p)
      (Support p) (BrimSkirtOptions count distance (s_BrimCount (BrimSkirt p)))) (GoSlice o).
(** the options with another density, direction and kind of the filling *)
Definition refilled (percent degree : Z) (zigzag : bool) (o : options) : options :=
  let p := Print o in
  Options (Slicing o) (Printer o) (Filament o)
    (PrintOptions (IntialLayerSpeed p) (LayerSpeed p) (OuterPerimeterSpeed p) (MoveSpeed p) (InitialLayerThickness p) (LayerThickness p) (InsetCount p)
      (InfillOverlapPercent p) (AdditionalInternalInfillOverlapPercent p) percent degree zigzag (NumberBottomLayers p) (NumberTopLayers p) (Support p) (BrimSkirt p)) (GoSlice o).
(** a text is what the builder makes of the calls planned for the layers *)
Definition printed_as (lib : clib) (o : options) (ps : list layer_plan) (text : string) : Prop :=
  exists b, run_calls lib (concat (all_calls o ps)) (NewGCodeBuilder (FilamentDiameter (Filament o)) (ExtrusionMultiplier (Filament o))) = Ok b /\ text = BuilderString b.

Lemma run_plan lib tangent fuel env o input text (r : finished lib tangent fuel env o input text) : exists infill ps,
  infillPattern o (PointXY (f_min _ _ _ _ _ _ _ r)) (PointXY (f_max _ _ _ _ _ _ _ r)) = Ok infill /\
  planned lib o fuel (PointXY (f_min _ _ _ _ _ _ _ r)) (PointXY (f_max _ _ _ _ _ _ _ r)) infill (f_layers _ _ _ _ _ _ _ r) ps /\ printed_as lib o ps text.
Proof.
  pose proof (f_generate _ _ _ _ _ _ _ r) as G. apply (print_is_planned _ _ _ _ _ _ _ _ (f_setup _ _ _ _ _ _ _ r)) in G.
  destruct G as (inf & ps & b & Ei & Pl & E & Et). exists inf, ps. split; [exact Ei|]. split; [exact Pl|]. exists b. auto.
Qed.
(** the stages before the G-code look at neither *)
Definition alike (o o' : options) : Prop := exists c d pc dg zz, (pc =? 0) = (InfillPercent (Print o) =? 0) /\ o' = reskirted c d (refilled pc dg zz o).
Lemma internal_alike lib c d pc dg zz o : (pc =? 0) = (InfillPercent (Print o) =? 0) -> forall ls, InternalInfillModify lib (reskirted c d (refilled pc dg zz o)) ls = InternalInfillModify lib o ls.
Proof.
  intros Z0 ls. assert (P : forall ov cl, internal_parts lib (reskirted c d (refilled pc dg zz o)) ov cl = internal_parts lib o ov cl).
  { induction ov as [|x ov IH]; intros cl; [reflexivity|]. cbn [internal_parts reskirted refilled Print InfillPercent]. rewrite Z0, IH. reflexivity. }
  unfold InternalInfillModify. generalize 0, (List.length ls). intros nr n. revert nr ls. induction n as [|n IH]; intros nr ls; [reflexivity|]. cbn [over_layers].
  assert (S : internal_step lib (reskirted c d (refilled pc dg zz o)) nr ls = internal_step lib o nr ls).
  { unfold internal_step. destruct (idx ls nr) as [l| | |]; cbn [bind]; [|reflexivity..]. destruct (OverlapPerimeters l) as [[|x ov]| | |]; cbn [bind]; [reflexivity| |reflexivity..].
    destruct (PartsAttribute l "bottom"); cbn [bind]; [|reflexivity..]. destruct (PartsAttribute l "top"); cbn [bind]; [|reflexivity..]. rewrite P. reflexivity. }
  rewrite S. destruct (internal_step lib o nr ls) as [[y|]| | |]; cbn [bind]; [apply IH|reflexivity..].
Qed.
Lemma same_layers lib tangent fuel env env' o o' input input' text text' (r : finished lib tangent fuel env o input text) (r' : finished lib tangent fuel env' o' input' text') :
  alike o o' -> Read env' input' = Read env input ->
  f_layers _ _ _ _ _ _ _ r' = f_layers _ _ _ _ _ _ _ r /\ f_min _ _ _ _ _ _ _ r' = f_min _ _ _ _ _ _ _ r /\ f_max _ _ _ _ _ _ _ r' = f_max _ _ _ _ _ _ _ r.
Proof.
  intros (c & d & pc & dg & zz & Z0 & ->) Rd. destruct r as [fs om open l0 l1 l2 l3 l4 l5 l6 mn mx rs E1 E4 E5 M1 M2 M3 M4 M5 M6 [B1 B2] E7 E8].
  destruct r' as [fs' om' open' l0' l1' l2' l3' l4' l5' l6' mn' mx' rs' E1' E4' E5' M1' M2' M3' M4' M5' M6' [B1' B2'] E7' E8']. cbn [f_layers f_min f_max]. clear E7 E8 E7' E8'.
  assert (fs' = fs) by congruence. subst fs'. change (Optimize (MeldDistance (Slicing o)) (Center (Printer o)) fs = Ok (om', open')) in E4'. assert (om' = om) by congruence. subst om'.
  change (Slice lib o om = Ok l0') in E5'. assert (l0' = l0) by congruence. subst l0'. change (PerimeterModify lib o l0 = Ok l1') in M1'. assert (l1' = l1) by congruence. subst l1'.
  change (InfillModify lib o l1 = Ok l2') in M2'. assert (l2' = l2) by congruence. subst l2'. rewrite (internal_alike _ _ _ _ _ _ _ Z0) in M3'. assert (l3' = l3) by congruence. subst l3'.
  change (BrimModify lib o l3 = Ok l4') in M4'. assert (l4' = l4) by congruence. subst l4'. change (SupportDetectorModify lib o tangent l4 = Ok l5') in M5'. assert (l5' = l5) by congruence. subst l5'.
  change (SupportGeneratorModify lib o l5 = Ok l6') in M6'. assert (l6' = l6) by congruence. subst l6'. repeat split; congruence.
Qed.
Lemma refilled_self o : refilled (InfillPercent (Print o)) (InfillRotationDegree (Print o)) (InfillZigZag (Print o)) o = o.
Proof. destruct o as [? ? ? [] ?]. reflexivity. Qed.
Lemma reskirted_self o : reskirted (s_SkirtCount (BrimSkirt (Print o))) (s_SkirtDistance (BrimSkirt (Print o))) o = o.
Proof. destruct o as [? ? ? [? ? ? ? ? ? ? ? ? ? ? ? ? ? ? []] ?]. reflexivity. Qed.
Lemma layer_of {A B} (ls : list A) (ps : list B) nr p : List.length ps = List.length ls -> nth_error ps nr = Some p -> exists l, nth_error ls nr = Some l.
Proof. intros L E. destruct (nth_error ls nr) as [l|] eqn:El; [eauto|]. apply nth_error_None in El. assert (nth_error ps nr <> None) as X by congruence. apply nth_error_Some in X. lia. Qed.
Lemma plan_parts lib o fuel mn mx infill nr l z p : plan_layer lib o fuel mn mx infill nr l z = Ok p ->
  skirt_plan lib o nr l z = Ok (p_skirt p) /\ brim_plan l z = Ok (p_brim p) /\ perimeter_plan o l z = Ok (p_walls p) /\ fill_plan lib o fuel mn mx infill nr l z = Ok (p_fill p).
Proof.
  unfold plan_layer. intros E. apply bind_Ok in E. destruct E as (s & Es & E). apply bind_Ok in E. destruct E as (b & Eb & E). apply bind_Ok in E. destruct E as (w & Ew & E).
  apply bind_Ok in E. destruct E as (f & Ef & E). injection E as <-. auto.
Qed.

(** Two runs that differ in the number of skirt loops and their distance only have the same layers, and in each layer the same brim, walls and
    fillings are printed.  Above the first layer all is the same. *)
Theorem skirt_options_local : forall lib tangent fuel env env' o count distance input input' text text'
    (r : finished lib tangent fuel env o input text) (r' : finished lib tangent fuel env' (reskirted count distance o) input' text'), Read env' input' = Read env input ->
  f_layers _ _ _ _ _ _ _ r' = f_layers _ _ _ _ _ _ _ r /\
  exists ps ps', List.length ps = List.length (f_layers _ _ _ _ _ _ _ r) /\ List.length ps' = List.length ps /\ printed_as lib o ps text /\ printed_as lib (reskirted count distance o) ps' text' /\
    forall nr p p', nth_error ps nr = Some p -> nth_error ps' nr = Some p' ->
      p_brim p' = p_brim p /\ p_walls p' = p_walls p /\ p_fill p' = p_fill p /\ (nr <> 0%nat -> p_skirt p = [] /\ p_skirt p' = []).
Proof.
  intros lib tangent fuel env env' o count distance input input' text text' r r' Rd.
  destruct (same_layers _ _ _ _ _ _ _ _ _ _ _ r r') as (L & Mn & Mx); [|exact Rd|].
  { exists count, distance, (InfillPercent (Print o)), (InfillRotationDegree (Print o)), (InfillZigZag (Print o)). rewrite refilled_self. split; reflexivity. }
  split; [exact L|]. destruct (run_plan _ _ _ _ _ _ _ r) as (inf & ps & Ei & [Ln Pl] & T). destruct (run_plan _ _ _ _ _ _ _ r') as (inf' & ps' & Ei' & [Ln' Pl'] & T').
  rewrite Mn, Mx in Ei', Pl'. rewrite L in Ln', Pl'. clear L Mn Mx. exists ps, ps'. split; [exact Ln|]. split; [congruence|]. split; [exact T|]. split; [exact T'|].
  revert Ei Pl Ei' Pl' Ln Ln'. generalize (PointXY (f_min _ _ _ _ _ _ _ r)), (PointXY (f_max _ _ _ _ _ _ _ r)), (f_layers _ _ _ _ _ _ _ r). intros mn mx ls Ei Pl Ei' Pl' Ln Ln'.
  change (infillPattern o mn mx = Ok inf') in Ei'. assert (inf' = inf) by congruence. subst inf'. intros nr p p' Ep Ep'. destruct (layer_of ls ps nr p Ln Ep) as (l & El).
  destruct (plan_parts _ _ _ _ _ _ _ _ _ _ (Pl nr l p El Ep)) as (S1 & B1 & W1 & F1). destruct (plan_parts _ _ _ _ _ _ _ _ _ _ (Pl' nr l p' El Ep')) as (S2 & B2 & W2 & F2).
  change (S_Render.height (reskirted count distance o) nr) with (S_Render.height o nr) in *. change (perimeter_plan o l (S_Render.height o nr) = Ok (p_walls p')) in W2.
  change (fill_plan lib o fuel mn mx inf (Z.of_nat nr) l (S_Render.height o nr) = Ok (p_fill p')) in F2.
  split; [congruence|]. split; [congruence|]. split; [congruence|]. intros N. unfold skirt_plan in S1, S2.
  assert (Nz : negb (Z.of_nat nr =? 0) = true) by (destruct (Z.eqb_spec (Z.of_nat nr) 0); [lia|reflexivity]). rewrite Nz, orb_true_r in S1, S2. split; congruence.
Qed.
Print Assumptions skirt_options_local.

(** A skirt with more loops at the same distance starts with the loops of the one with fewer. *)
Theorem more_skirt : forall lib o count l z few many, s_SkirtCount (BrimSkirt (Print o)) <> 0 -> s_SkirtCount (BrimSkirt (Print o)) <= count -> count <> 0 ->
  skirt_plan lib o 0 l z = Ok few -> skirt_plan lib (reskirted count (s_SkirtDistance (BrimSkirt (Print o))) o) 0 l z = Ok many -> exists outer, many = few ++ outer.
Proof.
  intros lib o count l z few many N C N' E E'. unfold skirt_plan in E, E'. cbn [reskirted Print Printer BrimSkirt s_SkirtCount s_SkirtDistance s_BrimCount ExtrusionWidth] in E'.
  replace (s_SkirtCount (BrimSkirt (Print o)) =? 0) with false in E by (symmetry; apply Z.eqb_neq; exact N). replace (count =? 0) with false in E' by (symmetry; apply Z.eqb_neq; exact N').
  cbn [orb negb Z.eqb] in E, E'. apply bind_Ok in E. destruct E as (ps & Ep & E). rewrite Ep in E'. cbn [bind] in E'. apply bind_Ok in E. destruct E as (support & Es & E). rewrite Es in E'. cbn [bind] in E'.
  revert E E'. set (all := support ++ ToOneDimension ps). clearbody all. set (dist := wrap (_ + _ + _)). clearbody dist. intros E E'.
  assert (K : forall few many, (let* lines := Inset lib (Part (Hull lib all) []) (wrap (- ExtrusionWidth (Printer o))) (s_SkirtCount (BrimSkirt (Print o))) dist in
        Ok (CComment "TYPE:SKIRT" :: map (fun p => CPolygon None (outline p) z false) (concat lines))) = Ok few ->
      (let* lines := Inset lib (Part (Hull lib all) []) (wrap (- ExtrusionWidth (Printer o))) count dist in
        Ok (CComment "TYPE:SKIRT" :: map (fun p => CPolygon None (outline p) z false) (concat lines))) = Ok many -> exists outer, many = few ++ outer).
  { clear E E' few many. intros few many E E'. apply bind_Ok in E. destruct E as (a & Ea & E). injection E as <-. apply bind_Ok in E'. destruct E' as (b & Eb & E'). injection E' as <-.
    unfold Inset in Ea, Eb. assert (Nm : (Z.to_nat (s_SkirtCount (BrimSkirt (Print o))) <= Z.to_nat count)%nat) by lia. pose proof (inset_loop_prefix lib _ _ _ _ _ a b Nm Ea Eb) as P.
    exists (map (fun p => CPolygon None (outline p) z false) (concat (skipn (Z.to_nat (s_SkirtCount (BrimSkirt (Print o)))) b))). cbn [app]. f_equal.
    rewrite P. rewrite <- map_app, <- concat_app, firstn_skipn. reflexivity. }
  destruct all, support, ps; try (apply (K few many E E')); injection E as <-; injection E' as <-; exists []; reflexivity.
Qed.
Print Assumptions more_skirt.

(** Two runs that differ in the density, the direction and the kind of the filling only have the same layers, and in each layer the same skirt,
    brim and walls are printed. *)
Theorem fill_options_local : forall lib tangent fuel env env' o percent degree zigzag input input' text text'
    (r : finished lib tangent fuel env o input text) (r' : finished lib tangent fuel env' (refilled percent degree zigzag o) input' text'), Read env' input' = Read env input -> InfillPercent (Print o) <> 0 -> percent <> 0 ->
  f_layers _ _ _ _ _ _ _ r' = f_layers _ _ _ _ _ _ _ r /\
  exists ps ps', List.length ps = List.length (f_layers _ _ _ _ _ _ _ r) /\ List.length ps' = List.length ps /\ printed_as lib o ps text /\ printed_as lib (refilled percent degree zigzag o) ps' text' /\
    forall nr p p', nth_error ps nr = Some p -> nth_error ps' nr = Some p' -> p_skirt p' = p_skirt p /\ p_brim p' = p_brim p /\ p_walls p' = p_walls p.
Proof.
  intros lib tangent fuel env env' o percent degree zigzag input input' text text' r r' Rd No Np.
  destruct (same_layers _ _ _ _ _ _ _ _ _ _ _ r r') as (L & Mn & Mx); [|exact Rd|].
  { exists (s_SkirtCount (BrimSkirt (Print o))), (s_SkirtDistance (BrimSkirt (Print o))), percent, degree, zigzag. split; [apply Z.eqb_neq in Np, No; congruence|]. symmetry. exact (reskirted_self (refilled percent degree zigzag o)). }
  split; [exact L|]. destruct (run_plan _ _ _ _ _ _ _ r) as (inf & ps & _ & [Ln Pl] & T). destruct (run_plan _ _ _ _ _ _ _ r') as (inf' & ps' & _ & [Ln' Pl'] & T').
  rewrite Mn, Mx in Pl'. rewrite L in Ln', Pl'. clear L Mn Mx. exists ps, ps'. split; [exact Ln|]. split; [congruence|]. split; [exact T|]. split; [exact T'|].
  revert Pl Pl' Ln Ln'. generalize (PointXY (f_min _ _ _ _ _ _ _ r)), (PointXY (f_max _ _ _ _ _ _ _ r)), (f_layers _ _ _ _ _ _ _ r). intros mn mx ls Pl Pl' Ln Ln'.
  intros nr p p' Ep Ep'. destruct (layer_of ls ps nr p Ln Ep) as (l & El).
  destruct (plan_parts _ _ _ _ _ _ _ _ _ _ (Pl nr l p El Ep)) as (S1 & B1 & W1 & _). destruct (plan_parts _ _ _ _ _ _ _ _ _ _ (Pl' nr l p' El Ep')) as (S2 & B2 & W2 & _).
  change (S_Render.height (refilled percent degree zigzag o) nr) with (S_Render.height o nr) in *. change (perimeter_plan o l (S_Render.height o nr) = Ok (p_walls p')) in W2.
  change (skirt_plan lib o (Z.of_nat nr) l (S_Render.height o nr) = Ok (p_skirt p')) in S2. split; [congruence|]. split; congruence.
Qed.
Print Assumptions fill_options_local.

(** the tower with other skirts and fillings *)
Local Notation coarse_run o text := (finished plain_lib (fun _ => f64_of_Z 1) (Z.to_nat 1000) (tower_file 2 0) o "part.stl" text).
Example feature_options_ex : (exists text, inhabited (coarse_run coarse text)) /\ (exists text, inhabited (coarse_run (reskirted 3 (c32 4 1) coarse) text)) /\
  (exists text, inhabited (coarse_run (refilled 40 10 true coarse) text)).
Proof. repeat split; apply (ends_well _ _ _ _ tower_os (fun _ => None)); vm_compute; reflexivity. Qed.
Example more_skirt_ex : exists l few many, nth_error coarse_slices 0 = Some l /\
  let l' := set_attribute "perimeters" (AOffset [[LayerParts l]]) l in
  skirt_plan plain_lib coarse 0 l' 200 = Ok few /\ skirt_plan plain_lib (reskirted 3 (s_SkirtDistance (BrimSkirt (Print coarse))) coarse) 0 l' 200 = Ok many /\
  List.length few = 2%nat /\ List.length many = 4%nat.
Proof. eexists. do 2 eexists. split; [vm_compute; reflexivity|]. split; [vm_compute; reflexivity|]. split; [vm_compute; reflexivity|]. split; reflexivity. Qed.
