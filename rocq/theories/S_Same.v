(** Options that change nothing, and options that do not change the path of the nozzle. *)
From Verif Require Import GoBase GoFloat GoStr M_Micrometer M_Geom2D M_Option M_Clip M_Builder M_Layer M_Render S_Text S_Printer S_Builder.
Local Open Scope string_scope.
Local Open Scope list_scope.
Local Open Scope Z_scope.

(** *** C93 *)
(** where a printer is *)
Definition place := (option Z * option Z * option Z)%type.
Definition place_of (r : regs) : place := (rX r, rY r, rZ r).
Definition coordinate_eqb (a b : option Z) : bool :=
  match a, b with Some x, Some y => x =? y | None, None => true | _, _ => false end.
Definition place_eqb (a b : place) : bool :=
  coordinate_eqb (fst (fst a)) (fst (fst b)) && coordinate_eqb (snd (fst a)) (snd (fst b)) && coordinate_eqb (snd a) (snd b).
(** the places it gets to by executing lines, each time it is somewhere else than before *)
Fixpoint visits (r : regs) (ls : list string) : list place :=
  match ls with
  | [] => []
  | l :: ls' => let r' := exec r l in
      if place_eqb (place_of r') (place_of r) then visits r' ls' else place_of r' :: visits r' ls'
  end.
Definition places (r : regs) (text : string) : list place := visits r (text_lines text).

(** does the printer retract filament at all? *)
Definition retracts (o : options) : bool :=
  negb (int_of_f32 (RetractionSpeed (Filament o)) =? 0) && negb (is_zero (RetractionLength (Filament o))).
(** Options that agree in everything that may concern the path of the nozzle.  Free are all speeds, all temperatures and
    when they change, the fan, the diameter of the filament, the extrusion multiplier, whether the bed is heated, the safe
    start and stop, how much and how fast filament is retracted, and the paths of the files. *)
Record same_path_options (o o' : options) : Prop := SamePath {
  sp_slicing : Slicing o' = Slicing o;
  sp_width : ExtrusionWidth (Printer o') = ExtrusionWidth (Printer o);
  sp_center : Center (Printer o') = Center (Printer o);
  sp_start : StartGCode (Printer o') = StartGCode (Printer o);
  sp_end : EndGCode (Printer o') = EndGCode (Printer o);
  sp_retracts : retracts o' = retracts o;
  sp_hop : RetractionZHop (Filament o') = RetractionZHop (Filament o);
  sp_initial : InitialLayerThickness (Print o') = InitialLayerThickness (Print o);
  sp_thickness : LayerThickness (Print o') = LayerThickness (Print o);
  sp_insets : InsetCount (Print o') = InsetCount (Print o);
  sp_overlap : InfillOverlapPercent (Print o') = InfillOverlapPercent (Print o);
  sp_additional : AdditionalInternalInfillOverlapPercent (Print o') = AdditionalInternalInfillOverlapPercent (Print o);
  sp_percent : InfillPercent (Print o') = InfillPercent (Print o);
  sp_rotation : InfillRotationDegree (Print o') = InfillRotationDegree (Print o);
  sp_zigzag : InfillZigZag (Print o') = InfillZigZag (Print o);
  sp_bottom : NumberBottomLayers (Print o') = NumberBottomLayers (Print o);
  sp_top : NumberTopLayers (Print o') = NumberTopLayers (Print o);
  sp_support : Support (Print o') = Support (Print o);
  sp_brim : BrimSkirt (Print o') = BrimSkirt (Print o) }.
(** The temperatures filled into the start code do not move the printer: each line is the same with both options, or the
    printer does not move for it. *)
Definition starts_alike (o o' : options) : Prop := forall line, In line (StartGCode (Printer o)) ->
  fill_template o' line = fill_template o line \/ (silent (fill_template o line) /\ silent (fill_template o' line)).

(** *** C92 *)
(** Options that differ at most where a feature is switched off: support, the skirt, the infill, retraction, the safe
    start and stop, the solid layers; and in the paths of the files, which are given to Process separately. *)
Record same_features (o o' : options) : Prop := SameFeatures {
  sf_slicing : Slicing o' = Slicing o;
  sf_width : ExtrusionWidth (Printer o') = ExtrusionWidth (Printer o);
  sf_center : Center (Printer o') = Center (Printer o);
  sf_start : StartGCode (Printer o') = StartGCode (Printer o);
  sf_end : EndGCode (Printer o') = EndGCode (Printer o);
  sf_force : ForceSafeStartStopGCode (Printer o') = ForceSafeStartStopGCode (Printer o);
  sf_bed : ForceSafeStartStopGCode (Printer o) = true -> HasHeatedBed (Printer o') = HasHeatedBed (Printer o);
  sf_diameter : FilamentDiameter (Filament o') = FilamentDiameter (Filament o);
  sf_bed0 : InitialBedTemperature (Filament o') = InitialBedTemperature (Filament o);
  sf_hot0 : InitialHotEndTemperature (Filament o') = InitialHotEndTemperature (Filament o);
  sf_bed1 : BedTemperature (Filament o') = BedTemperature (Filament o);
  sf_hot1 : HotEndTemperature (Filament o') = HotEndTemperature (Filament o);
  sf_count : InitialTemperatureLayerCount (Filament o') = InitialTemperatureLayerCount (Filament o);
  sf_fan : FanSpeed (Filament o') = FanSpeed (Filament o);
  sf_multiplier : ExtrusionMultiplier (Filament o') = ExtrusionMultiplier (Filament o);
  sf_retracts : retracts o' = retracts o;
  sf_retraction : retracts o = true -> RetractionSpeed (Filament o') = RetractionSpeed (Filament o) /\
    RetractionLength (Filament o') = RetractionLength (Filament o) /\ RetractionZHop (Filament o') = RetractionZHop (Filament o);
  sf_speed0 : IntialLayerSpeed (Print o') = IntialLayerSpeed (Print o);
  sf_speed1 : LayerSpeed (Print o') = LayerSpeed (Print o);
  sf_speed2 : OuterPerimeterSpeed (Print o') = OuterPerimeterSpeed (Print o);
  sf_speed3 : MoveSpeed (Print o') = MoveSpeed (Print o);
  sf_initial : InitialLayerThickness (Print o') = InitialLayerThickness (Print o);
  sf_thickness : LayerThickness (Print o') = LayerThickness (Print o);
  sf_insets : InsetCount (Print o') = InsetCount (Print o);
  sf_overlap : InfillOverlapPercent (Print o') = InfillOverlapPercent (Print o);
  sf_bottom : NumberBottomLayers (Print o') = NumberBottomLayers (Print o);
  sf_top : NumberTopLayers (Print o') = NumberTopLayers (Print o);
  sf_additional : 0 < NumberBottomLayers (Print o) \/ 0 < NumberTopLayers (Print o) ->
    AdditionalInternalInfillOverlapPercent (Print o') = AdditionalInternalInfillOverlapPercent (Print o);
  sf_percent : InfillPercent (Print o') = InfillPercent (Print o);
  sf_rotation : InfillPercent (Print o) <> 0 \/ 0 < NumberBottomLayers (Print o) \/ 0 < NumberTopLayers (Print o) ->
    InfillRotationDegree (Print o') = InfillRotationDegree (Print o);
  sf_zigzag : InfillPercent (Print o) <> 0 -> InfillZigZag (Print o') = InfillZigZag (Print o);
  sf_enabled : s_Enabled (Support (Print o')) = s_Enabled (Support (Print o));
  sf_support : s_Enabled (Support (Print o)) = true -> Support (Print o') = Support (Print o);
  sf_brims : s_BrimCount (BrimSkirt (Print o')) = s_BrimCount (BrimSkirt (Print o));
  sf_skirts : s_SkirtCount (BrimSkirt (Print o')) = s_SkirtCount (BrimSkirt (Print o));
  sf_skirt : s_SkirtCount (BrimSkirt (Print o)) <> 0 -> s_SkirtDistance (BrimSkirt (Print o')) = s_SkirtDistance (BrimSkirt (Print o)) }.
