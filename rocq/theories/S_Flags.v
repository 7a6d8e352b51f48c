(** What a command line means, independent of how it is parsed. *)
From Verif Require Import GoBase GoFloat GoStr M_Micrometer M_Option M_Layer M_Flags.
Local Open Scope list_scope.
Local Open Scope string_scope.
Local Open Scope Z_scope.

(** the value of an option *)
Inductive value := VInt (n : Z) | VFloat (x : f32) | VBool (b : bool) | VText (s : string) | VTable (t : lut) | VLines (l : list string) | VVec (v : vec3).
(** The documented flags and what they set: a field of the options, or whether the version is printed. *)
Definition documented : list (string * (options * bool -> value)) :=
 [ ("version", fun r => VBool (snd r));
   ("output", fun r => VText (OutputFilePath (GoSlice (fst r))));
   ("meld-distance", fun r => VInt (MeldDistance (Slicing (fst r))));
   ("join-polygon-snap-distance", fun r => VInt (JoinPolygonSnapDistance (Slicing (fst r))));
   ("finish-polygon-snap-distance", fun r => VInt (FinishPolygonSnapDistance (Slicing (fst r))));
   ("initial-layer-speed", fun r => VFloat (IntialLayerSpeed (Print (fst r))));
   ("layer-speed", fun r => VFloat (LayerSpeed (Print (fst r))));
   ("outer-perimeter-speed", fun r => VFloat (OuterPerimeterSpeed (Print (fst r))));
   ("move-speed", fun r => VFloat (MoveSpeed (Print (fst r))));
   ("initial-layer-thickness", fun r => VInt (InitialLayerThickness (Print (fst r))));
   ("layer-thickness", fun r => VInt (LayerThickness (Print (fst r))));
   ("inset-count", fun r => VInt (InsetCount (Print (fst r))));
   ("infill-overlap-percent", fun r => VInt (InfillOverlapPercent (Print (fst r))));
   ("additional-internal-infill-overlap-percent", fun r => VInt (AdditionalInternalInfillOverlapPercent (Print (fst r))));
   ("infill-percent", fun r => VInt (InfillPercent (Print (fst r))));
   ("infill-rotation-degree", fun r => VInt (InfillRotationDegree (Print (fst r))));
   ("infill-zig-zag", fun r => VBool (InfillZigZag (Print (fst r))));
   ("number-bottom-layers", fun r => VInt (NumberBottomLayers (Print (fst r))));
   ("number-top-layers", fun r => VInt (NumberTopLayers (Print (fst r))));
   ("support-enabled", fun r => VBool (s_Enabled (Support (Print (fst r)))));
   ("support-threshold-angle", fun r => VInt (s_ThresholdAngle (Support (Print (fst r)))));
   ("support-top-gap-layers", fun r => VInt (s_TopGapLayers (Support (Print (fst r)))));
   ("support-interface-layers", fun r => VInt (s_InterfaceLayers (Support (Print (fst r)))));
   ("support-pattern-spacing", fun r => VFloat (s_PatternSpacing (Support (Print (fst r)))));
   ("support-gap", fun r => VFloat (s_Gap (Support (Print (fst r)))));
   ("skirt-count", fun r => VInt (s_SkirtCount (BrimSkirt (Print (fst r)))));
   ("skirt-distance", fun r => VFloat (s_SkirtDistance (BrimSkirt (Print (fst r)))));
   ("brim-count", fun r => VInt (s_BrimCount (BrimSkirt (Print (fst r)))));
   ("filament-diameter", fun r => VInt (FilamentDiameter (Filament (fst r))));
   ("initial-bed-temperature", fun r => VInt (InitialBedTemperature (Filament (fst r))));
   ("initial-hot-end-temperature", fun r => VInt (InitialHotEndTemperature (Filament (fst r))));
   ("bed-temperature", fun r => VInt (BedTemperature (Filament (fst r))));
   ("hot-end-temperature", fun r => VInt (HotEndTemperature (Filament (fst r))));
   ("initial-temperature-layer-count", fun r => VInt (InitialTemperatureLayerCount (Filament (fst r))));
   ("retraction-speed", fun r => VFloat (RetractionSpeed (Filament (fst r))));
   ("retraction-length", fun r => VFloat (RetractionLength (Filament (fst r))));
   ("retraction-z-hop", fun r => VFloat (RetractionZHop (Filament (fst r))));
   ("fan-speed", fun r => VTable (FanSpeed (Filament (fst r))));
   ("extrusion-multiplier", fun r => VInt (ExtrusionMultiplier (Filament (fst r))));
   ("extrusion-width", fun r => VInt (ExtrusionWidth (Printer (fst r))));
   ("force-safe-gcode", fun r => VBool (ForceSafeStartStopGCode (Printer (fst r))));
   ("has-heated-bed", fun r => VBool (HasHeatedBed (Printer (fst r))));
   ("start-gcode", fun r => VLines (StartGCode (Printer (fst r))));
   ("end-gcode", fun r => VLines (EndGCode (Printer (fst r))));
   ("center", fun r => VVec (Center (Printer (fst r)))) ].
(** what one gets without any flags *)
Definition defaults : options * bool := (DefaultOptions, false).
(** flags that are either set or not, they take no argument *)
Definition switch (name : string) : Prop := exists get b, In (name, get) documented /\ get defaults = VBool b.
Definition flag_name (name : string) : Prop := exists get, In (name, get) documented.
(** one letter names *)
Definition letters : list (ascii * string) := [("v"%char, "version"); ("o"%char, "output")].

(** the new value of an option if it is given as [s]; None: [s] is not accepted *)
Definition accepted {A E} (r : A * option E) : option A := match r with (x, None) => Some x | _ => None end.
Definition reading (old : value) (s : string) : option value :=
  match old with
  | VInt _ => option_map VInt (accepted (MicrometerSet s))
  | VFloat _ => option_map VFloat (accepted (MillimeterSet s))
  | VBool _ => if existsb (String.eqb s) ["1"; "t"; "T"; "true"; "True"; "TRUE"] then Some (VBool true)
               else if existsb (String.eqb s) ["0"; "f"; "F"; "false"; "False"; "FALSE"] then Some (VBool false) else None
  | VText _ => Some (VText s)
  | VTable t => option_map VTable (accepted (FanSpeedSet t s))
  | VLines l => option_map VLines (accepted (HunkSet l s))
  | VVec v => option_map VVec (accepted (MicroVec3Set v s))
  end.

(** A command line gives some flags values, and has other words (operands). *)
Inductive item := Given (name text : string) | Operand (text : string).
(** the value of the flag [name] in the end, if it was [v] in the beginning: every time it is given, its text is read *)
Fixpoint final (name : string) (v : value) (items : list item) : option value :=
  match items with
  | [] => Some v
  | Operand _ :: r => final name v r
  | Given n s :: r => if String.eqb n name then match reading v s with Some v' => final name v' r | None => None end
                      else final name v r
  end.
Definition operands (items : list item) : list string := flat_map (fun i => match i with Operand s => [s] | Given _ _ => [] end) items.

(** [bundle t args items rest]: the word "-" ++ t, followed by the words args, is a bundle of one letter flags that gives
    items; rest are the words behind it *)
Definition equals_form (t : string) : Prop := exists a b, t = "=" ++ String a b.
Inductive bundle : string -> list string -> list item -> list string -> Prop :=
| bu_end args : bundle "" args [] args
| bu_test s args : bundle ("test." ++ s) args [] args
| bu_equal c n a b args : In (c, n) letters -> bundle (String c ("=" ++ String a b)) args [Given n (String a b)] args
| bu_switch c n t args items rest : In (c, n) letters -> switch n -> ~ equals_form t -> bundle t args items rest ->
    bundle (String c t) args (Given n "true" :: items) rest
| bu_attached c n t args : In (c, n) letters -> ~ switch n -> ~ equals_form t -> t <> "" -> bundle (String c t) args [Given n t] args
| bu_next c n t args : In (c, n) letters -> ~ switch n -> bundle (String c "") (t :: args) [Given n t] args.
(** the words of a command line and what they give *)
Inductive spells : list string -> list item -> Prop :=
| sp_nil : spells [] []
| sp_end args : spells ("--" :: args) (map Operand args)
| sp_equal n s args items : flag_name n -> spells args items -> spells (("--" ++ n ++ "=" ++ s) :: args) (Given n s :: items)
| sp_switch n args items : switch n -> spells args items -> spells (("--" ++ n) :: args) (Given n "true" :: items)
| sp_next n s args items : flag_name n -> ~ switch n -> spells args items -> spells (("--" ++ n) :: s :: args) (Given n s :: items)
| sp_bundle t args some rest items : t <> "" -> (forall u, t <> "-" ++ u) -> bundle t args some rest -> spells rest items ->
    spells (("-" ++ t) :: args) (some ++ items)%list
| sp_operand s args items : s = "-" \/ (forall u, s <> "-" ++ u) -> spells args items -> spells (s :: args) (Operand s :: items).
