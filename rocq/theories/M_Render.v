(** Model of the G-code generator and its renderers (gcode/generator.go, gcode/renderer, goslice.go:53-119). *)
From Verif Require Import GoBase GoFloat GoStr M_Micrometer M_Geom2D M_Option M_Clip M_Builder M_Layer.
Local Open Scope string_scope.
Local Open Scope Z_scope.

(** *** gcode/generator.go *)
(** gcode/generator.go:17: what Render does to the builder; [S] is whatever else a renderer may change.
    Arguments: layerNr, maxLayer, layer, z. *)
Definition Renderer (S : Type) := S -> Z -> Z -> layer -> Z -> builder -> S * res builder.

Section Generator.
Context {S : Type}.
(** gcode/generator.go:69-75 *)
Fixpoint render_layer (rs : list (Renderer S)) (s : S) (layerNr maxLayer : Z) (l : layer) (z : Z) (b : builder) : S * res builder :=
  match rs with
  | [] => (s, Ok b)
  | r :: rs' =>
      match r s layerNr maxLayer l z b with
      | (s', Ok b') => render_layer rs' s' layerNr maxLayer l z b'
      | (s', err) => (s', err)
      end
  end.
(** gcode/generator.go:67-76 (z is the same for all renderers of a layer) *)
Fixpoint render_layers (o : options) (rs : list (Renderer S)) (s : S) (layerNr maxLayer : Z) (layers : list layer) (b : builder) : S * res builder :=
  match layers with
  | [] => (s, Ok b)
  | l :: layers' =>
      let z := add64 (InitialLayerThickness (Print o)) (mul64 layerNr (LayerThickness (Print o))) in
      match render_layer rs s layerNr maxLayer l z b with
      | (s', Ok b') => render_layers o rs s' (layerNr + 1) maxLayer layers' b'
      | (s', err) => (s', err)
      end
  end.
(** gcode/generator.go:56-79: the G-code; an error is returned together with "" *)
Definition Generate (o : options) (rs : list (Renderer S)) (layers : list layer) (s : S) : S * res string :=
  let b := NewGCodeBuilder (FilamentDiameter (Filament o)) (ExtrusionMultiplier (Filament o)) in
  match render_layers o rs s 0 (Z.of_nat (List.length layers) - 1) layers b with
  | (s', x) => (s', let* b' := x in Ok (BuilderString b'))
  end.
End Generator.

(** a for loop that stops at the first error *)
Fixpoint each {A} (f : A -> builder -> res builder) (l : list A) (b : builder) : res builder :=
  match l with
  | [] => Ok b
  | x :: l' => let* b' := f x b in each f l' b'
  end.
Definition add_commands (lines : list string) (b : builder) : builder := fold_left (fun b l => AddCommand l b) lines b.

(** *** gcode/renderer/layer.go *)
(** gcode/renderer/layer.go:14-17 *)
Definition HotendTempCodes : list string := ["M104"; "M109"].
Definition BedTempCodes : list string := ["M140"; "M190"].
Definition BedTempTemplate : string := "{print_bed_temperature}".
Definition HotendTempTemplate : string := "{print_temperature}".
(** gcode/renderer/layer.go:45-50 *)
Definition fill_template (o : options) (instruction : string) : string :=
  let i1 := if contains instruction BedTempTemplate
            then replaceAll instruction BedTempTemplate (itoa (InitialBedTemperature (Filament o))) else instruction in
  if contains i1 HotendTempTemplate
  then replaceAll i1 HotendTempTemplate (itoa (InitialHotEndTemperature (Filament o))) else i1.
(** gcode/renderer/layer.go:27-68 *)
Definition start_print (o : options) (b : builder) : builder :=
  let b := AddComment "Generated with GoSlice" b in
  let b := AddComment "______________________" b in
  let b :=
    if ForceSafeStartStopGCode (Printer o) then
      let b := if HasHeatedBed (Printer o) && negb (DoesInstructionContainCodes (StartGCode (Printer o)) BedTempCodes)
               then AddCommandInt "M190 S%d ; heat and wait for bed" (InitialBedTemperature (Filament o)) (AddComment "SET BED TEMP" b)
               else b in
      if negb (DoesInstructionContainCodes (StartGCode (Printer o)) HotendTempCodes)
      then AddCommandInt "M109 S%d ; wait for hot end temperature" (InitialHotEndTemperature (Filament o)) (AddComment "SET HOTEND TEMP" b)
      else b
    else b in
  let b := AddComment "START GCODE" b in
  let b := add_commands (map (fill_template o) (StartGCode (Printer o))) b in
  let b := AddCommand "G92 E0 ; reset extrusion distance" b in
  let b := SetExtrusion (InitialLayerThickness (Print o)) (ExtrusionWidth (Printer o)) b in
  let b := SetExtrudeSpeed (LayerSpeed (Print o)) b in
  let b := SetMoveSpeed (MoveSpeed (Print o)) b in
  let b := SetRetractionSpeed (RetractionSpeed (Filament o)) b in
  let b := SetRetractionAmount (RetractionLength (Filament o)) b in
  let b := SetRetractionZHop (RetractionZHop (Filament o)) b in
  SetExtrudeSpeedOverride (IntialLayerSpeed (Print o)) b.
(** gcode/renderer/layer.go:25-97 *)
Definition PreLayer (o : options) (layerNr maxLayer : Z) (l : layer) (z : Z) (b : builder) : res builder :=
  let b := if layerNr =? 0 then start_print o b
           else if layerNr =? 1 then SetExtrusion (LayerThickness (Print o)) (ExtrusionWidth (Printer o)) b
           else b in
  let b := AddCommentInt "LAYER:%v" layerNr b in
  let b := if 0 <? layerNr then SetExtrudeSpeed (LayerSpeed (Print o)) (DisableExtrudeSpeedOverride b) else b in
  let b := match lut_get (FanSpeed (Filament o)) layerNr with
           | Some fanSpeed => if fanSpeed =? 0 then AddCommand "M107 ; disable fan" b
                              else AddCommandInt "M106 S%d; change fan speed" fanSpeed b
           | None => b
           end in
  let b := if layerNr =? InitialTemperatureLayerCount (Filament o)
           then AddCommandInt "M104 S%d" (HotEndTemperature (Filament o))
                  (AddCommandInt "M140 S%d" (BedTemperature (Filament o)) (AddComment "SET_TEMP" b))
           else b in
  Ok b.
(** gcode/renderer/layer.go:104-127 *)
Definition PostLayer (o : options) (layerNr maxLayer : Z) (l : layer) (z : Z) (b : builder) : res builder :=
  if layerNr =? maxLayer then
    let b := AddComment "END_GCODE" b in
    let b := SetExtrusion (LayerThickness (Print o)) (ExtrusionWidth (Printer o)) b in
    let b :=
      if ForceSafeStartStopGCode (Printer o) then
        let b := if negb (DoesInstructionContainCodes (EndGCode (Printer o)) HotendTempCodes)
                 then AddCommand "M104 S0 ; Set Hot-end to 0C (off)" b else b in
        if HasHeatedBed (Printer o) && negb (DoesInstructionContainCodes (EndGCode (Printer o)) BedTempCodes)
        then AddCommand "M140 S0 ; Set bed to 0C (off)" b else b
      else b in
    Ok (add_commands (EndGCode (Printer o)) b)
  else Ok b.

Section Lib.
Variable lib : clib.
(** *** gcode/renderer/perimeter.go:43-53: one part of an inset *)
Definition print_walls (l : layer) (z : Z) (p : part) (b : builder) : res builder :=
  let* b := each (fun hole => AddPolygon lib (Some (LayerParts l)) hole z false) (holes p) b in
  AddPolygon lib (Some (LayerParts l)) (outline p) z false b.
(** gcode/renderer/perimeter.go:34-54; [insetNr] is already the number of the inset to print *)
Definition print_inset (o : options) (l : layer) (z : Z) (insetNr : Z) (ps : list part) (b : builder) : res builder :=
  each (fun p b =>
    let b := if insetNr =? 0 then SetExtrudeSpeed (OuterPerimeterSpeed (Print o)) (AddComment "TYPE:WALL-OUTER" b)
             else SetExtrudeSpeed (LayerSpeed (Print o)) (AddComment "TYPE:WALL-INNER" b) in
    print_walls l z p b) ps b.
(** gcode/renderer/perimeter.go:26-55 *)
Definition print_part (o : options) (l : layer) (z : Z) (insets : list (list part)) (b : builder) : res builder :=
  each (fun i b =>
    let insetNr := if Z.of_nat (List.length insets) - 1 <=? i then 0 else i + 1 in
    let* ps := idx insets insetNr in
    print_inset o l z insetNr ps b) (map Z.of_nat (seq 0 (List.length insets))) b.
(** gcode/renderer/perimeter.go:16-59 *)
Definition Perimeter (o : options) (layerNr maxLayer : Z) (l : layer) (z : Z) (b : builder) : res builder :=
  let* perimeters := Perimeters l in
  each (print_part o l z) perimeters b.

(** *** gcode/renderer/infill.go *)
(** gcode/renderer/infill.go:32-63; [pattern] None is nil; [fuel] for the loop of Fill *)
Definition Infill (fuel : nat) (pattern : option linear) (attrName : string) (comments : list string)
    (layerNr maxLayer : Z) (l : layer) (z : Z) (b : builder) : res builder :=
  match pattern with
  | None => Ok b
  | Some p =>
      let* infillParts := PartsAttribute l attrName in
      each (fun pt_ b =>
        let b := fold_left (fun b c => AddComment c b) comments b in
        let* infill := Fill lib fuel p layerNr pt_ in
        each (fun path => AddPolygon lib (Some (LayerParts l)) path z true) infill b) infillParts b
  end.

(** *** gcode/renderer/skirt.go:24-73 *)
Definition Skirt (o : options) (layerNr maxLayer : Z) (l : layer) (z : Z) (b : builder) : res builder :=
  if s_SkirtCount (BrimSkirt (Print o)) =? 0 then Ok b
  else if layerNr =? 0 then
    let* perimeters := Perimeters l in
    let* support := FullSupport l in
    match support, perimeters with
    | [], [] => Ok b
    | _, _ =>
        let w := ExtrusionWidth (Printer o) in
        let distance := add64 (add64 (ToMicrometer (s_SkirtDistance (BrimSkirt (Print o)))) (mul64 w (s_BrimCount (BrimSkirt (Print o))))) w in
        let hull := Hull lib (support ++ ToOneDimension perimeters) in
        let* skirt := Inset lib (Part hull []) (neg64 w) (s_SkirtCount (BrimSkirt (Print o))) distance in
        let b := AddComment "TYPE:SKIRT" b in
        each (each (fun loopPart => AddPolygon lib None (outline loopPart) z false)) skirt b
    end
  else Ok b.

(** *** gcode/renderer/brim.go:15-35; after an error the callback asks ForEach to stop *)
Definition BrimRenderer (layerNr maxLayer : Z) (l : layer) (z : Z) (b : builder) : res builder :=
  let* brim := Brim l in
  match brim with
  | [] => Ok b
  | _ =>
      let b := AddComment "TYPE:SKIRT" b in
      ForEach (fun s p _ _ _ =>
        match s with
        | Ok b => let s' := AddPolygon lib None (outline p) z false b in (s', negb (isOk s'))
        | err => (err, true)
        end) brim (Ok b)
  end.

(** *** goslice.go:53-119: the renderers of NewGoSlice after Init with the bounds of the model *)
(** goslice.go:37-39 *)
Definition topBottomPattern (o : options) (mn mx : pt) : linear :=
  Linear (ExtrusionWidth (Printer o)) (ExtrusionWidth (Printer o)) (InfillRotationDegree (Print o)) mn mx true false.
(** goslice.go:66-69, 79-82 *)
Definition enlarge (by_ : Z) (mn mx : pt) : pt * pt :=
  (Pt (sub64 (px mn) by_) (sub64 (py mn) by_), Pt (add64 (px mx) by_) (add64 (py mx) by_)).
(** goslice.go:64-71 *)
Definition supportPattern (o : options) (mn mx : pt) : linear :=
  let spacing := ToMicrometer (s_PatternSpacing (Support (Print o))) in
  let '(mn', mx') := enlarge spacing mn mx in Linear spacing (ExtrusionWidth (Printer o)) 90 mn' mx' false true.
(** goslice.go:77-84 *)
Definition interfacePattern (o : options) (mn mx : pt) : linear :=
  let '(mn', mx') := enlarge (ToMicrometer (s_PatternSpacing (Support (Print o)))) mn mx in
  Linear (ExtrusionWidth (Printer o)) (ExtrusionWidth (Printer o)) 0 mn' mx' false true.
(** goslice.go:104-108 *)
Definition infillDistance (width percent : Z) : res Z :=
  let mm10 := ToMicrometer (f32_of_Z 10) in
  if width =? 0 then Panic "integer divide by zero"
  else
    let linesPer10mmFor100Percent := quot64 mm10 width in
    let linesPer10mmForInfillPercent := div64f (mul64f (f64_of_Z linesPer10mmFor100Percent) (f64_of_Z percent)) (f64_of_Z 100) in
    Ok (int64_of_f64 (div64f (f64_of_Z mm10) linesPer10mmForInfillPercent)).
(** goslice.go:100-114 *)
Definition infillPattern (o : options) (mn mx : pt) : res (option linear) :=
  if negb (InfillPercent (Print o) =? 0) then
    let* dist := infillDistance (ExtrusionWidth (Printer o)) (InfillPercent (Print o)) in
    Ok (Some (Linear dist (ExtrusionWidth (Printer o)) (InfillRotationDegree (Print o)) mn mx true (InfillZigZag (Print o))))
  else Ok None.
(** none of the built in renderers has a state *)
Definition stateless (r : Z -> Z -> layer -> Z -> builder -> res builder) : Renderer unit :=
  fun s layerNr maxLayer l z b => (s, r layerNr maxLayer l z b).
(** goslice.go:55-119 *)
Definition goslice_renderers (fuel : nat) (o : options) (mn mx : pt) : res (list (Renderer unit)) :=
  let* infill := infillPattern o mn mx in
  Ok [ stateless (PreLayer o);
       stateless (Skirt o);
       stateless BrimRenderer;
       stateless (Perimeter o);
       stateless (Infill fuel (Some (supportPattern o mn mx)) "support" ["TYPE:SUPPORT"]);
       stateless (Infill fuel (Some (interfacePattern o mn mx)) "supportInterface" ["TYPE:SUPPORT"]);
       stateless (Infill fuel (Some (topBottomPattern o mn mx)) "bottom" ["TYPE:FILL"; "BOTTOM-FILL"]);
       stateless (Infill fuel (Some (topBottomPattern o mn mx)) "top" ["TYPE:FILL"; "TOP-FILL"]);
       stateless (Infill fuel infill "infill" ["TYPE:FILL"; "INTERNAL-FILL"]);
       stateless (PostLayer o) ].
End Lib.
