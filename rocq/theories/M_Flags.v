(** Model of the command line: the option texts in millimeters, ParseFlags and main (data/option.go:32-44, 473-557,
    cmd/goslice/main.go:16-37).  strconv.ParseFloat and spf13/pflag v1.0.5 are modelled as far as GoSlice uses them. *)
From Verif Require Import GoBase GoFloat GoStr M_Micrometer M_Geom2D M_Option M_Clip M_Builder M_Layer.
From Verif Require Import M_Model M_Slicer M_Render M_Modifier M_Process.
Local Open Scope string_scope.
Local Open Scope list_scope.
Local Open Scope Z_scope.

(** *** strconv.ParseFloat(s, 32) *)
(** strconv.readFloat, the digits: value of all digits, number of digits behind the dot, dot seen, digits seen, underscores
    seen, rest.  strconv keeps 19 digits and whether others follow; it rounds correctly with them, so here all are kept. *)
Fixpoint read_digits (hex : bool) (s : string) (m frac : Z) (sawdot sawdigits und : bool) : Z * Z * bool * bool * string :=
  let done := (m, frac, sawdigits, und, s) in
  match s with
  | EmptyString => done
  | String c t =>
      if Ascii.eqb c "_" then read_digits hex t m frac sawdot sawdigits true
      else if Ascii.eqb c "." then (if sawdot then done else read_digits hex t m frac true sawdigits und)
      else if is_digit c || (hex && hex_digit c) then
        let d := if is_digit c then code c - 48 else lowerc c - 97 + 10 in
        read_digits hex t (m * (if hex then 16 else 10) + d) (if sawdot then frac + 1 else frac) sawdot true und
      else done
  end.
(** the digits of the exponent *)
Fixpoint read_exp (s : string) (e : Z) (und : bool) : Z * bool * string :=
  match s with
  | String c t =>
      if Ascii.eqb c "_" then read_exp t e true
      else if is_digit c then read_exp t (if e <? 10000 then e * 10 + (code c - 48) else e) und
      else (e, und, s)
  | EmptyString => (e, und, s)
  end.
(** the optional sign: whether the number is negative, rest *)
Definition split_sign (s : string) : bool * string :=
  match s with
  | String c t => if Ascii.eqb c "+" then (false, t) else if Ascii.eqb c "-" then (true, t) else (false, s)
  | EmptyString => (false, s)
  end.
(** the optional 0x of a longer text, rest *)
Definition split_base (s : string) : bool * string :=
  match s with
  | String z (String x (String c t)) => if Ascii.eqb z "0" && (lowerc x =? 120) then (true, String c t) else (false, s)
  | _ => (false, s)
  end.
(** the exponent behind e or p: its value, underscores seen, rest; None: malformed *)
Definition read_exponent (t : string) (und : bool) : option (Z * bool * string) :=
  let '(neg, u) := split_sign t in
  match u with
  | String c _ => if is_digit c then let '(e, und', r) := read_exp u 0 und in Some ((if neg : bool then - e else e), und', r) else None
  | EmptyString => None
  end.
(** the float32 nearest to m * 10^e, ties to even *)
Definition decimal32 (neg : bool) (m e : Z) : f32 :=
  match m with
  | Zpos p => if 0 <=? e then SpecFloat.binary_normalize 24 128 (cond_opp neg (m * 10 ^ e)) 0 neg
              else div32 (S754_finite neg p 0) (S754_finite false (Z.to_pos (10 ^ (- e))) 0)
  | _ => S754_zero neg
  end.
Definition hexadecimal32 (neg : bool) (m e : Z) : f32 :=
  match m with Zpos _ => SpecFloat.binary_normalize 24 128 (cond_opp neg m) e neg | _ => S754_zero neg end.
Definition finish32 (x : f32) : f32 * option perr :=
  match x with S754_infinity _ => (x, Some RangeErr) | _ => (x, None) end.
(** strconv.special: infinities and NaN, regardless of the case *)
Fixpoint lower (s : string) : string :=
  match s with
  | EmptyString => ""
  | String c t => String (if (65 <=? code c) && (code c <=? 90) then chr (code c + 32) else c) (lower t)
  end.
Definition special (s : string) : option f32 :=
  let l := lower s in
  if String.eqb l "nan" then Some S754_nan
  else if String.eqb l "inf" || String.eqb l "infinity" || String.eqb l "+inf" || String.eqb l "+infinity" then Some (S754_infinity false)
  else if String.eqb l "-inf" || String.eqb l "-infinity" then Some (S754_infinity true)
  else None.
Definition zero32 : f32 := S754_zero false.
Definition parse_float32 (s : string) : f32 * option perr :=
  match special s with
  | Some x => (x, None)
  | None =>
      let '(neg, body) := split_sign s in
      let '(hex, digits) := split_base body in
      let '(m, frac, sawdigits, und, rest) := read_digits hex digits 0 0 false false false in
      if negb sawdigits then (zero32, Some SyntaxErr)
      else
        let expo := match rest with
                    | String c t => if lowerc c =? (if hex : bool then 112 else 101) then read_exponent t und
                                    else if hex then None else Some (0, und, rest)
                    | EmptyString => if hex then None else Some (0, und, rest)
                    end in
        match expo with
        | None => (zero32, Some SyntaxErr)
        | Some (e, und', rest') =>
            if negb (String.eqb rest' "") || (und' && negb (underscoreOK body)) then (zero32, Some SyntaxErr)
            else finish32 (if hex then hexadecimal32 neg m (e - 4 * frac) else decimal32 neg m (e - frac))
        end
  end.
(** data/option.go:36-40: new value of the option, and the error *)
Definition MillimeterSet (s : string) : f32 * option perr := parse_float32 s.
(** data/option.go:32-34 *)
Definition MillimeterString (m : f32) : string := fmt_fixed 3 m.
(** strconv.ParseBool *)
Definition parse_bool (s : string) : option bool :=
  if existsb (String.eqb s) ["1"; "t"; "T"; "TRUE"; "true"; "True"] then Some true
  else if existsb (String.eqb s) ["0"; "f"; "F"; "FALSE"; "false"; "False"] then Some false
  else None.

(** *** the flags *)
(** The variables the flags are bound to: the options, PrintVersion and the local variable center. *)
Record variables := Variables { v_options : options; v_version : bool; v_center : vec3 }.
(** a pflag.Flag: its names, its NoOptDefVal and the Set of its Value (None: an error) *)
Record flag := Flag { long : string; short : option ascii; no_opt : option string; set : variables -> string -> option variables }.
Definition on_options (f : options -> options) (v : variables) : variables := Variables (f (v_options v)) (v_version v) (v_center v).
Definition upd_slicing (f : slicing_options -> slicing_options) (o : options) : options := Options (f (Slicing o)) (Printer o) (Filament o) (Print o) (GoSlice o).
Definition upd_printer (f : printer_options -> printer_options) (o : options) : options := Options (Slicing o) (f (Printer o)) (Filament o) (Print o) (GoSlice o).
Definition upd_filament (f : filament_options -> filament_options) (o : options) : options := Options (Slicing o) (Printer o) (f (Filament o)) (Print o) (GoSlice o).
Definition upd_print (f : print_options -> print_options) (o : options) : options := Options (Slicing o) (Printer o) (Filament o) (f (Print o)) (GoSlice o).
Definition upd_goslice (f : goslice_options -> goslice_options) (o : options) : options := Options (Slicing o) (Printer o) (Filament o) (Print o) (f (GoSlice o)).
Definition upd_support (f : support_options -> support_options) : options -> options :=
  upd_print (fun r => PrintOptions (IntialLayerSpeed r) (LayerSpeed r) (OuterPerimeterSpeed r) (MoveSpeed r) (InitialLayerThickness r) (LayerThickness r) (InsetCount r)
    (InfillOverlapPercent r) (AdditionalInternalInfillOverlapPercent r) (InfillPercent r) (InfillRotationDegree r) (InfillZigZag r) (NumberBottomLayers r) (NumberTopLayers r)
    (f (Support r)) (BrimSkirt r)).
Definition upd_brim (f : brim_skirt_options -> brim_skirt_options) : options -> options :=
  upd_print (fun r => PrintOptions (IntialLayerSpeed r) (LayerSpeed r) (OuterPerimeterSpeed r) (MoveSpeed r) (InitialLayerThickness r) (LayerThickness r) (InsetCount r)
    (InfillOverlapPercent r) (AdditionalInternalInfillOverlapPercent r) (InfillPercent r) (InfillRotationDegree r) (InfillZigZag r) (NumberBottomLayers r) (NumberTopLayers r)
    (Support r) (f (BrimSkirt r))).
(** flag.Var for a Micrometer (data/option.go:22-26), flag.IntVar (strconv.ParseInt(s, 0, 64)) *)
Definition MicroFlag (name : string) (upd : Z -> options -> options) : flag :=
  Flag name None None (fun v s => match MicrometerSet s with (x, None) => Some (on_options (upd x) v) | _ => None end).
Definition IntFlag (name : string) (upd : Z -> options -> options) : flag :=
  Flag name None None (fun v s => match parse_int true s with (x, None) => Some (on_options (upd x) v) | _ => None end).
(** flag.Var for a Millimeter *)
Definition MilliFlag (name : string) (upd : f32 -> options -> options) : flag :=
  Flag name None None (fun v s => match MillimeterSet s with (x, None) => Some (on_options (upd x) v) | _ => None end).
(** flag.BoolVar: without a value it is "true" *)
Definition BoolFlag (name : string) (upd : bool -> options -> options) : flag :=
  Flag name None (Some "true") (fun v s => match parse_bool s with Some x => Some (on_options (upd x) v) | None => None end).
(** flag.Var for FanSpeedOptions and GCodeHunk *)
Definition FanFlag (name : string) (get : options -> lut) (upd : lut -> options -> options) : flag :=
  Flag name None None (fun v s => match FanSpeedSet (get (v_options v)) s with (x, None) => Some (on_options (upd x) v) | _ => None end).
Definition HunkFlag (name : string) (get : options -> list string) (upd : list string -> options -> options) : flag :=
  Flag name None None (fun v s => match HunkSet (get (v_options v)) s with (x, None) => Some (on_options (upd x) v) | _ => None end).
(** flag.BoolVarP for --version, -v; flag.StringVarP for --output, -o; flag.Var for --center *)
Definition VersionFlag : flag :=
  Flag "version" (Some "v"%char) (Some "true") (fun v s => match parse_bool s with Some x => Some (Variables (v_options v) x (v_center v)) | None => None end).
Definition OutputFlag : flag :=
  Flag "output" (Some "o"%char) None (fun v s => Some (on_options (upd_goslice (fun r => GoSliceOptions (InputFilePath r) s)) v)).
Definition CenterFlag : flag :=
  Flag "center" None None (fun v s => match MicroVec3Set (v_center v) s with (x, None) => Some (Variables (v_options v) (v_version v) x) | _ => None end).

(** data/option.go:483-545 *)
Definition flags : list flag :=
  [ VersionFlag; OutputFlag;
    MicroFlag "meld-distance" (fun v => upd_slicing (fun r => SlicingOptions v (JoinPolygonSnapDistance r) (FinishPolygonSnapDistance r)));
    MicroFlag "join-polygon-snap-distance" (fun v => upd_slicing (fun r => SlicingOptions (MeldDistance r) v (FinishPolygonSnapDistance r)));
    MicroFlag "finish-polygon-snap-distance" (fun v => upd_slicing (fun r => SlicingOptions (MeldDistance r) (JoinPolygonSnapDistance r) v));
    MilliFlag "initial-layer-speed" (fun v => upd_print (fun r => PrintOptions v (LayerSpeed r) (OuterPerimeterSpeed r) (MoveSpeed r) (InitialLayerThickness r) (LayerThickness r) (InsetCount r) (InfillOverlapPercent r) (AdditionalInternalInfillOverlapPercent r) (InfillPercent r) (InfillRotationDegree r) (InfillZigZag r) (NumberBottomLayers r) (NumberTopLayers r) (Support r) (BrimSkirt r)));
    MilliFlag "layer-speed" (fun v => upd_print (fun r => PrintOptions (IntialLayerSpeed r) v (OuterPerimeterSpeed r) (MoveSpeed r) (InitialLayerThickness r) (LayerThickness r) (InsetCount r) (InfillOverlapPercent r) (AdditionalInternalInfillOverlapPercent r) (InfillPercent r) (InfillRotationDegree r) (InfillZigZag r) (NumberBottomLayers r) (NumberTopLayers r) (Support r) (BrimSkirt r)));
    MilliFlag "outer-perimeter-speed" (fun v => upd_print (fun r => PrintOptions (IntialLayerSpeed r) (LayerSpeed r) v (MoveSpeed r) (InitialLayerThickness r) (LayerThickness r) (InsetCount r) (InfillOverlapPercent r) (AdditionalInternalInfillOverlapPercent r) (InfillPercent r) (InfillRotationDegree r) (InfillZigZag r) (NumberBottomLayers r) (NumberTopLayers r) (Support r) (BrimSkirt r)));
    MilliFlag "move-speed" (fun v => upd_print (fun r => PrintOptions (IntialLayerSpeed r) (LayerSpeed r) (OuterPerimeterSpeed r) v (InitialLayerThickness r) (LayerThickness r) (InsetCount r) (InfillOverlapPercent r) (AdditionalInternalInfillOverlapPercent r) (InfillPercent r) (InfillRotationDegree r) (InfillZigZag r) (NumberBottomLayers r) (NumberTopLayers r) (Support r) (BrimSkirt r)));
    MicroFlag "initial-layer-thickness" (fun v => upd_print (fun r => PrintOptions (IntialLayerSpeed r) (LayerSpeed r) (OuterPerimeterSpeed r) (MoveSpeed r) v (LayerThickness r) (InsetCount r) (InfillOverlapPercent r) (AdditionalInternalInfillOverlapPercent r) (InfillPercent r) (InfillRotationDegree r) (InfillZigZag r) (NumberBottomLayers r) (NumberTopLayers r) (Support r) (BrimSkirt r)));
    MicroFlag "layer-thickness" (fun v => upd_print (fun r => PrintOptions (IntialLayerSpeed r) (LayerSpeed r) (OuterPerimeterSpeed r) (MoveSpeed r) (InitialLayerThickness r) v (InsetCount r) (InfillOverlapPercent r) (AdditionalInternalInfillOverlapPercent r) (InfillPercent r) (InfillRotationDegree r) (InfillZigZag r) (NumberBottomLayers r) (NumberTopLayers r) (Support r) (BrimSkirt r)));
    IntFlag "inset-count" (fun v => upd_print (fun r => PrintOptions (IntialLayerSpeed r) (LayerSpeed r) (OuterPerimeterSpeed r) (MoveSpeed r) (InitialLayerThickness r) (LayerThickness r) v (InfillOverlapPercent r) (AdditionalInternalInfillOverlapPercent r) (InfillPercent r) (InfillRotationDegree r) (InfillZigZag r) (NumberBottomLayers r) (NumberTopLayers r) (Support r) (BrimSkirt r)));
    IntFlag "infill-overlap-percent" (fun v => upd_print (fun r => PrintOptions (IntialLayerSpeed r) (LayerSpeed r) (OuterPerimeterSpeed r) (MoveSpeed r) (InitialLayerThickness r) (LayerThickness r) (InsetCount r) v (AdditionalInternalInfillOverlapPercent r) (InfillPercent r) (InfillRotationDegree r) (InfillZigZag r) (NumberBottomLayers r) (NumberTopLayers r) (Support r) (BrimSkirt r)));
    IntFlag "additional-internal-infill-overlap-percent" (fun v => upd_print (fun r => PrintOptions (IntialLayerSpeed r) (LayerSpeed r) (OuterPerimeterSpeed r) (MoveSpeed r) (InitialLayerThickness r) (LayerThickness r) (InsetCount r) (InfillOverlapPercent r) v (InfillPercent r) (InfillRotationDegree r) (InfillZigZag r) (NumberBottomLayers r) (NumberTopLayers r) (Support r) (BrimSkirt r)));
    IntFlag "infill-percent" (fun v => upd_print (fun r => PrintOptions (IntialLayerSpeed r) (LayerSpeed r) (OuterPerimeterSpeed r) (MoveSpeed r) (InitialLayerThickness r) (LayerThickness r) (InsetCount r) (InfillOverlapPercent r) (AdditionalInternalInfillOverlapPercent r) v (InfillRotationDegree r) (InfillZigZag r) (NumberBottomLayers r) (NumberTopLayers r) (Support r) (BrimSkirt r)));
    IntFlag "infill-rotation-degree" (fun v => upd_print (fun r => PrintOptions (IntialLayerSpeed r) (LayerSpeed r) (OuterPerimeterSpeed r) (MoveSpeed r) (InitialLayerThickness r) (LayerThickness r) (InsetCount r) (InfillOverlapPercent r) (AdditionalInternalInfillOverlapPercent r) (InfillPercent r) v (InfillZigZag r) (NumberBottomLayers r) (NumberTopLayers r) (Support r) (BrimSkirt r)));
    BoolFlag "infill-zig-zag" (fun v => upd_print (fun r => PrintOptions (IntialLayerSpeed r) (LayerSpeed r) (OuterPerimeterSpeed r) (MoveSpeed r) (InitialLayerThickness r) (LayerThickness r) (InsetCount r) (InfillOverlapPercent r) (AdditionalInternalInfillOverlapPercent r) (InfillPercent r) (InfillRotationDegree r) v (NumberBottomLayers r) (NumberTopLayers r) (Support r) (BrimSkirt r)));
    IntFlag "number-bottom-layers" (fun v => upd_print (fun r => PrintOptions (IntialLayerSpeed r) (LayerSpeed r) (OuterPerimeterSpeed r) (MoveSpeed r) (InitialLayerThickness r) (LayerThickness r) (InsetCount r) (InfillOverlapPercent r) (AdditionalInternalInfillOverlapPercent r) (InfillPercent r) (InfillRotationDegree r) (InfillZigZag r) v (NumberTopLayers r) (Support r) (BrimSkirt r)));
    IntFlag "number-top-layers" (fun v => upd_print (fun r => PrintOptions (IntialLayerSpeed r) (LayerSpeed r) (OuterPerimeterSpeed r) (MoveSpeed r) (InitialLayerThickness r) (LayerThickness r) (InsetCount r) (InfillOverlapPercent r) (AdditionalInternalInfillOverlapPercent r) (InfillPercent r) (InfillRotationDegree r) (InfillZigZag r) (NumberBottomLayers r) v (Support r) (BrimSkirt r)));
    BoolFlag "support-enabled" (fun v => upd_support (fun r => SupportOptions v (s_ThresholdAngle r) (s_TopGapLayers r) (s_InterfaceLayers r) (s_PatternSpacing r) (s_Gap r)));
    IntFlag "support-threshold-angle" (fun v => upd_support (fun r => SupportOptions (s_Enabled r) v (s_TopGapLayers r) (s_InterfaceLayers r) (s_PatternSpacing r) (s_Gap r)));
    IntFlag "support-top-gap-layers" (fun v => upd_support (fun r => SupportOptions (s_Enabled r) (s_ThresholdAngle r) v (s_InterfaceLayers r) (s_PatternSpacing r) (s_Gap r)));
    IntFlag "support-interface-layers" (fun v => upd_support (fun r => SupportOptions (s_Enabled r) (s_ThresholdAngle r) (s_TopGapLayers r) v (s_PatternSpacing r) (s_Gap r)));
    MilliFlag "support-pattern-spacing" (fun v => upd_support (fun r => SupportOptions (s_Enabled r) (s_ThresholdAngle r) (s_TopGapLayers r) (s_InterfaceLayers r) v (s_Gap r)));
    MilliFlag "support-gap" (fun v => upd_support (fun r => SupportOptions (s_Enabled r) (s_ThresholdAngle r) (s_TopGapLayers r) (s_InterfaceLayers r) (s_PatternSpacing r) v));
    IntFlag "skirt-count" (fun v => upd_brim (fun r => BrimSkirtOptions v (s_SkirtDistance r) (s_BrimCount r)));
    MilliFlag "skirt-distance" (fun v => upd_brim (fun r => BrimSkirtOptions (s_SkirtCount r) v (s_BrimCount r)));
    IntFlag "brim-count" (fun v => upd_brim (fun r => BrimSkirtOptions (s_SkirtCount r) (s_SkirtDistance r) v));
    MicroFlag "filament-diameter" (fun v => upd_filament (fun r => FilamentOptions v (InitialBedTemperature r) (InitialHotEndTemperature r) (BedTemperature r) (HotEndTemperature r) (InitialTemperatureLayerCount r) (RetractionSpeed r) (RetractionLength r) (RetractionZHop r) (FanSpeed r) (ExtrusionMultiplier r)));
    IntFlag "initial-bed-temperature" (fun v => upd_filament (fun r => FilamentOptions (FilamentDiameter r) v (InitialHotEndTemperature r) (BedTemperature r) (HotEndTemperature r) (InitialTemperatureLayerCount r) (RetractionSpeed r) (RetractionLength r) (RetractionZHop r) (FanSpeed r) (ExtrusionMultiplier r)));
    IntFlag "initial-hot-end-temperature" (fun v => upd_filament (fun r => FilamentOptions (FilamentDiameter r) (InitialBedTemperature r) v (BedTemperature r) (HotEndTemperature r) (InitialTemperatureLayerCount r) (RetractionSpeed r) (RetractionLength r) (RetractionZHop r) (FanSpeed r) (ExtrusionMultiplier r)));
    IntFlag "bed-temperature" (fun v => upd_filament (fun r => FilamentOptions (FilamentDiameter r) (InitialBedTemperature r) (InitialHotEndTemperature r) v (HotEndTemperature r) (InitialTemperatureLayerCount r) (RetractionSpeed r) (RetractionLength r) (RetractionZHop r) (FanSpeed r) (ExtrusionMultiplier r)));
    IntFlag "hot-end-temperature" (fun v => upd_filament (fun r => FilamentOptions (FilamentDiameter r) (InitialBedTemperature r) (InitialHotEndTemperature r) (BedTemperature r) v (InitialTemperatureLayerCount r) (RetractionSpeed r) (RetractionLength r) (RetractionZHop r) (FanSpeed r) (ExtrusionMultiplier r)));
    IntFlag "initial-temperature-layer-count" (fun v => upd_filament (fun r => FilamentOptions (FilamentDiameter r) (InitialBedTemperature r) (InitialHotEndTemperature r) (BedTemperature r) (HotEndTemperature r) v (RetractionSpeed r) (RetractionLength r) (RetractionZHop r) (FanSpeed r) (ExtrusionMultiplier r)));
    MilliFlag "retraction-speed" (fun v => upd_filament (fun r => FilamentOptions (FilamentDiameter r) (InitialBedTemperature r) (InitialHotEndTemperature r) (BedTemperature r) (HotEndTemperature r) (InitialTemperatureLayerCount r) v (RetractionLength r) (RetractionZHop r) (FanSpeed r) (ExtrusionMultiplier r)));
    MilliFlag "retraction-length" (fun v => upd_filament (fun r => FilamentOptions (FilamentDiameter r) (InitialBedTemperature r) (InitialHotEndTemperature r) (BedTemperature r) (HotEndTemperature r) (InitialTemperatureLayerCount r) (RetractionSpeed r) v (RetractionZHop r) (FanSpeed r) (ExtrusionMultiplier r)));
    MilliFlag "retraction-z-hop" (fun v => upd_filament (fun r => FilamentOptions (FilamentDiameter r) (InitialBedTemperature r) (InitialHotEndTemperature r) (BedTemperature r) (HotEndTemperature r) (InitialTemperatureLayerCount r) (RetractionSpeed r) (RetractionLength r) v (FanSpeed r) (ExtrusionMultiplier r)));
    FanFlag "fan-speed" (fun o => FanSpeed (Filament o)) (fun v => upd_filament (fun r => FilamentOptions (FilamentDiameter r) (InitialBedTemperature r) (InitialHotEndTemperature r) (BedTemperature r) (HotEndTemperature r) (InitialTemperatureLayerCount r) (RetractionSpeed r) (RetractionLength r) (RetractionZHop r) v (ExtrusionMultiplier r)));
    IntFlag "extrusion-multiplier" (fun v => upd_filament (fun r => FilamentOptions (FilamentDiameter r) (InitialBedTemperature r) (InitialHotEndTemperature r) (BedTemperature r) (HotEndTemperature r) (InitialTemperatureLayerCount r) (RetractionSpeed r) (RetractionLength r) (RetractionZHop r) (FanSpeed r) v));
    MicroFlag "extrusion-width" (fun v => upd_printer (fun r => PrinterOptions v (Center r) (ForceSafeStartStopGCode r) (HasHeatedBed r) (StartGCode r) (EndGCode r)));
    BoolFlag "force-safe-gcode" (fun v => upd_printer (fun r => PrinterOptions (ExtrusionWidth r) (Center r) v (HasHeatedBed r) (StartGCode r) (EndGCode r)));
    BoolFlag "has-heated-bed" (fun v => upd_printer (fun r => PrinterOptions (ExtrusionWidth r) (Center r) (ForceSafeStartStopGCode r) v (StartGCode r) (EndGCode r)));
    HunkFlag "start-gcode" (fun o => StartGCode (Printer o)) (fun v => upd_printer (fun r => PrinterOptions (ExtrusionWidth r) (Center r) (ForceSafeStartStopGCode r) (HasHeatedBed r) v (EndGCode r)));
    HunkFlag "end-gcode" (fun o => EndGCode (Printer o)) (fun v => upd_printer (fun r => PrinterOptions (ExtrusionWidth r) (Center r) (ForceSafeStartStopGCode r) (HasHeatedBed r) (StartGCode r) v));
    CenterFlag ].

(** *** pflag *)
Definition find_long (name : string) : option flag := find (fun f => String.eqb (long f) name) flags.
Definition find_short (c : ascii) : option flag := find (fun f => match short f with Some c' => Ascii.eqb c' c | None => false end) flags.
(** strings.SplitN(name, "=", 2) *)
Fixpoint split_equal (s : string) : string * option string :=
  match s with
  | EmptyString => ("", None)
  | String c t => if Ascii.eqb c "=" then ("", Some t) else let '(a, b) := split_equal t in (String c a, b)
  end.
(** parseLongArg for the argument "--" ++ s: the variables and the remaining arguments; None: an error (or --help), after
    which pflag exits with 2 *)
Definition parse_long (s : string) (args : list string) (v : variables) : option (variables * list string) :=
  match s with
  | EmptyString => None
  | String c _ =>
      if Ascii.eqb c "-" || Ascii.eqb c "=" then None
      else
        let '(name, value) := split_equal s in
        match find_long name with
        | None => None
        | Some f =>
            match value with
            | Some x => match set f v x with Some v' => Some (v', args) | None => None end
            | None =>
                match no_opt f with
                | Some x => match set f v x with Some v' => Some (v', args) | None => None end
                | None =>
                    match args with
                    | x :: args' => match set f v x with Some v' => Some (v', args') | None => None end
                    | [] => None
                    end
                end
            end
        end
  end.
(** the text behind "=", if there is any *)
Definition after_equal (t : string) : option string :=
  match t with String e (String a b) => if Ascii.eqb e "=" then Some (String a b) else None | _ => None end.
(** parseShortArg for the argument "-" ++ s; texts beginning with "test." are skipped by pflag *)
Fixpoint parse_short (s : string) (args : list string) (v : variables) : option (variables * list string) :=
  match s with
  | EmptyString => Some (v, args)
  | String c t =>
      match strip_prefix "test." s with
      | Some _ => Some (v, args)
      | None =>
          match find_short c with
          | None => None
          | Some f =>
              match after_equal t with
              | Some x => match set f v x with Some v' => Some (v', args) | None => None end
              | None =>
                  match no_opt f with
                  | Some x => match set f v x with Some v' => parse_short t args v' | None => None end
                  | None =>
                      match t with
                      | String _ _ => match set f v t with Some v' => Some (v', args) | None => None end
                      | EmptyString =>
                          match args with
                          | x :: args' => match set f v x with Some v' => Some (v', args') | None => None end
                          | [] => None
                          end
                      end
                  end
              end
          end
      end
  end.
(** parseArgs: the variables and the positional arguments.  Every round takes an argument, so the fuel suffices. *)
Fixpoint parse_args (fuel : nat) (args : list string) (v : variables) : option (variables * list string) :=
  match args with
  | [] => Some (v, [])
  | s :: args' =>
      match fuel with
      | O => None
      | S fuel' =>
          let positional := match parse_args fuel' args' v with Some (v', pos) => Some (v', s :: pos) | None => None end in
          match s with
          | String d (String c t) =>
              if Ascii.eqb d "-" then
                if Ascii.eqb c "-" then
                  if String.eqb t "" then Some (v, args')
                  else match parse_long t args' v with Some (v', rest) => parse_args fuel' rest v' | None => None end
                else match parse_short (String c t) args' v with Some (v', rest) => parse_args fuel' rest v' | None => None end
              else positional
          | _ => positional
          end
      end
  end.
(** data/option.go:475-557: the options and PrintVersion; None: the program has exited with 2 *)
Definition ParseFlags (args : list string) : option (options * bool) :=
  match parse_args (List.length args) args (Variables DefaultOptions false (Center (Printer DefaultOptions))) with
  | None => None
  | Some (v, pos) =>
      let o := upd_printer (fun r => PrinterOptions (ExtrusionWidth r) (v_center v) (ForceSafeStartStopGCode r) (HasHeatedBed r) (StartGCode r) (EndGCode r)) (v_options v) in
      let o := match pos with p :: _ => upd_goslice (fun r => GoSliceOptions p (OutputFilePath r)) o | [] => o end in
      Some (o, v_version v)
  end.

(** cmd/goslice/main.go:16-38: the exit code of the program with the arguments [args]; pflag exits with 2 after an error, a
    panic makes Go exit with 2, None: it never ends *)
Definition program (lib : clib) (tangent : f64 -> f64) (fuel : nat) (env : files) (sys : os) (d : disk) (args : list string) : option Z :=
  match ParseFlags args with
  | None => Some 2
  | Some (o, printVersion) =>
      main printVersion (InputFilePath (GoSlice o))
        (snd (Process (NewGoSlice lib tangent fuel env sys d o) (InputFilePath (GoSlice o)) (OutputFilePath (GoSlice o))))
  end.
