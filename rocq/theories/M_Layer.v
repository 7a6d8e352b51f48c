(** Model of the options, the layers and their attributes (data/option.go, data/layer.go, modifier/modifier.go). *)
From Verif Require Import GoBase GoFloat GoStr M_Micrometer M_Geom2D M_Option M_Clip.
Local Open Scope string_scope.
Local Open Scope Z_scope.

(** *** options *)
(** data/option.go:285-304 *)
Record support_options := SupportOptions {
  s_Enabled : bool; s_ThresholdAngle : Z; s_TopGapLayers : Z; s_InterfaceLayers : Z; s_PatternSpacing : f32; s_Gap : f32 }.
(** data/option.go:306-316 *)
Record brim_skirt_options := BrimSkirtOptions { s_SkirtCount : Z; s_SkirtDistance : f32; s_BrimCount : Z }.
(** data/option.go:198-246 *)
Record print_options := PrintOptions {
  IntialLayerSpeed : f32; LayerSpeed : f32; OuterPerimeterSpeed : f32; MoveSpeed : f32;
  InitialLayerThickness : Z; LayerThickness : Z; InsetCount : Z;
  InfillOverlapPercent : Z; AdditionalInternalInfillOverlapPercent : Z; InfillPercent : Z; InfillRotationDegree : Z; InfillZigZag : bool;
  NumberBottomLayers : Z; NumberTopLayers : Z; Support : support_options; BrimSkirt : brim_skirt_options }.
(** data/option.go:248-283; FanSpeed is its LayerToSpeedLUT *)
Record filament_options := FilamentOptions {
  FilamentDiameter : Z; InitialBedTemperature : Z; InitialHotEndTemperature : Z; BedTemperature : Z; HotEndTemperature : Z;
  InitialTemperatureLayerCount : Z; RetractionSpeed : f32; RetractionLength : f32; RetractionZHop : f32;
  FanSpeed : lut; ExtrusionMultiplier : Z }.
(** data/option.go:323-342; the hunks are their lines *)
Record printer_options := PrinterOptions {
  ExtrusionWidth : Z; Center : vec3; ForceSafeStartStopGCode : bool; HasHeatedBed : bool;
  StartGCode : list string; EndGCode : list string }.
(** data/option.go:361-374 *)
Record slicing_options := SlicingOptions { MeldDistance : Z; JoinPolygonSnapDistance : Z; FinishPolygonSnapDistance : Z }.
(** data/option.go:344-358 without the logger and PrintVersion *)
Record goslice_options := GoSliceOptions { InputFilePath : string; OutputFilePath : string }.
(** data/option.go:376-383 *)
Record options := Options {
  Slicing : slicing_options; Printer : printer_options; Filament : filament_options; Print : print_options; GoSlice : goslice_options }.

(** a float32 constant num/den *)
Definition c32 (num den : Z) : f32 := div32 (f32_of_Z num) (f32_of_Z den).
(** data/option.go:390-471 *)
Definition DefaultOptions : options :=
  Options
    (SlicingOptions 30 160 1000)
    (PrinterOptions 400 (V3 (ToMicrometer (c32 100 1)) (ToMicrometer (c32 100 1)) 0) true true
      [";SET BED TEMP"; "M190 S{print_bed_temperature} ; heat and wait for bed"; ";SET HOTEND TEMP";
       "M109 S{print_temperature} ; wait for hot end temperature"; "M107 ; disable fan"; "G1 Z5 F5000 ; lift nozzle"]
      ["M107 ; disable fan"; "G28 X0  ; home X axis to get head out of the way"; "M84 ;steppers off"])
    (FilamentOptions (ToMicrometer (c32 175 100)) 60 205 55 200 3 (c32 30 1) (c32 2 1) (c32 0 1) DefaultFanSpeed 100)
    (PrintOptions (c32 30 1) (c32 60 1) (c32 40 1) (c32 150 1) 200 200 2 50 400 20 45 false 3 4
      (SupportOptions false 60 3 2 (c32 25 10) (c32 6 10)) (BrimSkirtOptions 2 (c32 5 1) 0))
    (GoSliceOptions "" "").

(** *** layers *)
(** the dynamic types stored in attributes: clip.OffsetResult, [][]data.LayerPart, []data.LayerPart, anything else.
    A slice that is nil here is always an empty one and the code only asks for len or nil of slices that are nil exactly
    if they are empty, so lists suffice. *)
Inductive attr := AOffset (o : offset_result) | ANested (l : list (list part)) | AParts (l : list part) | AOther.
(** data/layer.go:273-296, 322-339 and modifier/modifier.go:9-13: the parts (None is a nil slice) and the attributes
    (None is a nil map).  The attribute maps are not shared between layers, so they are values here. *)
Record layer := Layer { lparts : option (list part); lattrs : option (list (string * attr)) }.
(** layer.LayerParts() *)
Definition LayerParts (l : layer) : list part := match lparts l with Some ps => ps | None => [] end.
(** layer.Attributes()[name] *)
Fixpoint lookup (name : string) (m : list (string * attr)) : option attr :=
  match m with
  | [] => None
  | (k, a) :: m' => if String.eqb k name then Some a else lookup name m'
  end.
Definition attribute (l : layer) (name : string) : option attr := match lattrs l with Some m => lookup name m | None => None end.
(** modifier/modifier.go:19-35 *)
Definition newExtendedLayer (l : layer) : layer := Layer (lparts l) (Some (match lattrs l with Some m => m | None => [] end)).
(** newLayer.attributes[name] = a *)
Definition set_attribute (name : string) (a : attr) (l : layer) : layer :=
  Layer (lparts l) (Some ((name, a) :: match lattrs l with Some m => m | None => [] end)).

(** modifier/modifier.go:46-57; nil is [] *)
Definition PartsAttribute (l : layer) (typ : string) : res (list part) :=
  match attribute l typ with
  | None => Ok []
  | Some (AParts ps) => Ok ps
  | Some _ => Err ("the attribute " ++ typ ++ " has the wrong datatype")
  end.
(** modifier/perimeter.go:31-42 *)
Definition OverlapPerimeters (l : layer) : res (list (list part)) :=
  match attribute l "overlapPerimeters" with
  | None => Ok []
  | Some (ANested x) => Ok x
  | Some _ => Err "the attribute overlapPerimeters has the wrong datatype"
  end.
(** modifier/perimeter.go:48-59 *)
Definition Perimeters (l : layer) : res offset_result :=
  match attribute l "perimeters" with
  | None => Ok []
  | Some (AOffset x) => Ok x
  | Some _ => Err "the attribute perimeters has the wrong datatype"
  end.
(** modifier/brim.go:40-51 *)
Definition Brim (l : layer) : res offset_result :=
  match attribute l "brim" with
  | None => Ok []
  | Some (AOffset x) => Ok x
  | Some _ => Err "the attribute 'brim' has the wrong datatype"
  end.
(** modifier/brim.go:60-71 *)
Definition BrimOuterDimension (l : layer) : res (list part) :=
  match attribute l "outerBrim" with
  | None => Ok []
  | Some (AParts x) => Ok x
  | Some _ => Err "the attribute 'outerbrim' has the wrong datatype"
  end.
(** modifier/support.go:20-31 *)
Definition FullSupport (l : layer) : res (list part) :=
  match attribute l "fullSupport" with
  | None => Ok []
  | Some (AParts x) => Ok x
  | Some _ => Err "the attribute fullSupport has the wrong datatype"
  end.
