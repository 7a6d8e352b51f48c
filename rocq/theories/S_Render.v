(** Specification of the renderers: what a layer is printed as, in terms of calls of the builder API. *)
From Verif Require Import GoBase GoFloat GoStr M_Micrometer M_Geom2D M_Option M_Clip M_Builder M_Layer M_Render
  S_Text S_Option S_Printer S_Builder S_Calls S_Machine.
Local Open Scope string_scope.
Local Open Scope list_scope.
Local Open Scope Z_scope.

(** *** C44: the generator *)
(** one call of a renderer: the renderer, layerNr, the layer and z *)
Definition step (S : Type) := (Renderer S * Z * layer * Z)%type.
(** all calls in order: the layers ascending, for each one the renderers in the order of their registration *)
Definition schedule {S} (initial thickness : Z) (rs : list (Renderer S)) (layers : list layer) : list (step S) :=
  flat_map (fun '(nr, l) => map (fun r => (r, Z.of_nat nr, l, initial + Z.of_nat nr * thickness)) rs)
           (combine (seq 0 (List.length layers)) layers).
(** doing calls one after the other; the first one that does not end well ends it all *)
Fixpoint perform {S} (maxLayer : Z) (steps : list (step S)) (s : S) (b : builder) : S * res builder :=
  match steps with
  | [] => (s, Ok b)
  | (r, nr, l, z) :: steps' =>
      match r s nr maxLayer l z b with
      | (s', Ok b') => perform maxLayer steps' s' b'
      | (s', e) => (s', e)
      end
  end.

(** *** what the renderers print.  [res]: a result of the geometry library is needed. *)
Section Plans.
Variable lib : clib.
Variable o : options.

(** C45: perimeters *)
Definition closed_walls (l : layer) (z : Z) (p : part) : list call :=
  map (fun h => CPolygon (Some (LayerParts l)) h z false) (holes p) ++ [CPolygon (Some (LayerParts l)) (outline p) z false].
Definition inner_wall (l : layer) (z : Z) (p : part) : list call :=
  [CComment "TYPE:WALL-INNER"; CSetExtrudeSpeed (LayerSpeed (Print o))] ++ closed_walls l z p.
Definition outer_wall (l : layer) (z : Z) (p : part) : list call :=
  [CComment "TYPE:WALL-OUTER"; CSetExtrudeSpeed (OuterPerimeterSpeed (Print o))] ++ closed_walls l z p.
(** the inner insets from the outside to the inside, then the outer perimeter *)
Definition part_plan (l : layer) (z : Z) (insets : list (list part)) : list call :=
  match insets with
  | [] => []
  | outer :: inner => flat_map (inner_wall l z) (concat inner) ++ flat_map (outer_wall l z) outer
  end.
Definition perimeter_plan (l : layer) (z : Z) : res (list call) :=
  let* ps := Perimeters l in Ok (flat_map (part_plan l z) ps).

(** fillings: for each part its comments and the open lines of the pattern *)
Definition infill_plan (fuel : nat) (pattern : option linear) (attrName : string) (comments : list string)
    (nr : Z) (l : layer) (z : Z) : res (list call) :=
  match pattern with
  | None => Ok []
  | Some p =>
      let* parts := PartsAttribute l attrName in
      let* filled := map_res (Fill lib fuel p nr) parts in
      Ok (flat_map (fun lines => map CComment comments ++ map (fun line => CPolygon (Some (LayerParts l)) line z true) lines) filled)
  end.

(** C51: the skirt, on the first layer only: lines around the hull of perimeters and support *)
Definition skirt_plan (nr : Z) (l : layer) (z : Z) : res (list call) :=
  let count := s_SkirtCount (BrimSkirt (Print o)) in
  if (count =? 0) || negb (nr =? 0) then Ok []
  else
    let* ps := Perimeters l in
    let* support := FullSupport l in
    match support ++ ToOneDimension ps, support, ps with
    | _, [], [] => Ok []
    | all, _, _ =>
        let w := ExtrusionWidth (Printer o) in
        let distance := wrap (ToMicrometer (s_SkirtDistance (BrimSkirt (Print o))) + w * s_BrimCount (BrimSkirt (Print o)) + w) in
        let* lines := Inset lib (Part (Hull lib all) []) (wrap (- w)) count distance in
        Ok (CComment "TYPE:SKIRT" :: map (fun p => CPolygon None (outline p) z false) (concat lines))
    end.
Definition brim_plan (l : layer) (z : Z) : res (list call) :=
  let* brim := Brim l in
  match brim with
  | [] => Ok []
  | _ => Ok (CComment "TYPE:SKIRT" :: map (fun p => CPolygon None (outline p) z false) (ToOneDimension brim))
  end.

(** C48-C50: texts around the layers *)
(** [old] replaced by [new] everywhere, from left to right *)
Inductive replaced (old new : string) : string -> string -> Prop :=
| Rep_end s : (forall a b, s <> a ++ old ++ b)%string -> replaced old new s s
| Rep_one a s s' : (forall x y, a ++ old = x ++ old ++ y -> y = "")%string ->
    replaced old new s s' -> replaced old new (a ++ old ++ s)%string (a ++ new ++ s')%string.
Definition start_line (line line' : string) : Prop :=
  exists x, replaced "{print_bed_temperature}" (itoa (InitialBedTemperature (Filament o))) line x /\
            replaced "{print_temperature}" (itoa (InitialHotEndTemperature (Filament o))) x line'.

Definition start_calls (start : list string) : list call :=
  [CComment "Generated with GoSlice"; CComment "______________________"]
  ++ (if ForceSafeStartStopGCode (Printer o) && HasHeatedBed (Printer o)
         && negb (DoesInstructionContainCodes (StartGCode (Printer o)) ["M140"; "M190"])
      then [CComment "SET BED TEMP"; CCommandInt "M190 S%d ; heat and wait for bed" (InitialBedTemperature (Filament o))] else [])
  ++ (if ForceSafeStartStopGCode (Printer o) && negb (DoesInstructionContainCodes (StartGCode (Printer o)) ["M104"; "M109"])
      then [CComment "SET HOTEND TEMP"; CCommandInt "M109 S%d ; wait for hot end temperature" (InitialHotEndTemperature (Filament o))] else [])
  ++ [CComment "START GCODE"] ++ map CCommand start
  ++ [CCommand "G92 E0 ; reset extrusion distance";
      CSetExtrusion (InitialLayerThickness (Print o)) (ExtrusionWidth (Printer o));
      CSetExtrudeSpeed (LayerSpeed (Print o)); CSetMoveSpeed (MoveSpeed (Print o));
      CSetRetractionSpeed (RetractionSpeed (Filament o)); CSetRetractionAmount (RetractionLength (Filament o));
      CSetHop (RetractionZHop (Filament o)); CSetOverride (IntialLayerSpeed (Print o))].
Definition pre_plan (nr : Z) : list call :=
  (if nr =? 0 then start_calls (map (fill_template o) (StartGCode (Printer o)))
   else if nr =? 1 then [CSetExtrusion (LayerThickness (Print o)) (ExtrusionWidth (Printer o))] else [])
  ++ [CCommentInt "LAYER:%v" nr]
  ++ (if 0 <? nr then [CDisableOverride; CSetExtrudeSpeed (LayerSpeed (Print o))] else [])
  ++ match lut_get (FanSpeed (Filament o)) nr with
     | Some 0 => [CCommand "M107 ; disable fan"]
     | Some v => [CCommandInt "M106 S%d; change fan speed" v]
     | None => []
     end
  ++ (if nr =? InitialTemperatureLayerCount (Filament o)
      then [CComment "SET_TEMP"; CCommandInt "M140 S%d" (BedTemperature (Filament o)); CCommandInt "M104 S%d" (HotEndTemperature (Filament o))]
      else []).
Definition end_calls : list call :=
  [CComment "END_GCODE"; CSetExtrusion (LayerThickness (Print o)) (ExtrusionWidth (Printer o))]
  ++ (if ForceSafeStartStopGCode (Printer o) && negb (DoesInstructionContainCodes (EndGCode (Printer o)) ["M104"; "M109"])
      then [CCommand "M104 S0 ; Set Hot-end to 0C (off)"] else [])
  ++ (if ForceSafeStartStopGCode (Printer o) && HasHeatedBed (Printer o)
         && negb (DoesInstructionContainCodes (EndGCode (Printer o)) ["M140"; "M190"])
      then [CCommand "M140 S0 ; Set bed to 0C (off)"] else [])
  ++ map CCommand (EndGCode (Printer o)).

(** a whole layer, and the whole print *)
Definition fill_plan (fuel : nat) (mn mx : pt) (infill : option linear) (nr : Z) (l : layer) (z : Z) : res (list call) :=
  let* a := infill_plan fuel (Some (supportPattern o mn mx)) "support" ["TYPE:SUPPORT"] nr l z in
  let* b := infill_plan fuel (Some (interfacePattern o mn mx)) "supportInterface" ["TYPE:SUPPORT"] nr l z in
  let* c := infill_plan fuel (Some (topBottomPattern o mn mx)) "bottom" ["TYPE:FILL"; "BOTTOM-FILL"] nr l z in
  let* d := infill_plan fuel (Some (topBottomPattern o mn mx)) "top" ["TYPE:FILL"; "TOP-FILL"] nr l z in
  let* e := infill_plan fuel infill "infill" ["TYPE:FILL"; "INTERNAL-FILL"] nr l z in
  Ok (a ++ b ++ c ++ d ++ e).
Record layer_plan := LayerPlan { p_skirt : list call; p_brim : list call; p_walls : list call; p_fill : list call }.
Definition plan_layer (fuel : nat) (mn mx : pt) (infill : option linear) (nr : Z) (l : layer) (z : Z) : res layer_plan :=
  let* s := skirt_plan nr l z in
  let* b := brim_plan l z in
  let* w := perimeter_plan l z in
  let* f := fill_plan fuel mn mx infill nr l z in
  Ok (LayerPlan s b w f).
Definition layer_calls (maxLayer nr : Z) (p : layer_plan) : list call :=
  pre_plan nr ++ p_skirt p ++ p_brim p ++ p_walls p ++ p_fill p ++ (if nr =? maxLayer then end_calls else []).
Definition height (nr : nat) : Z := wrap (InitialLayerThickness (Print o) + Z.of_nat nr * LayerThickness (Print o)).
Definition planned (fuel : nat) (mn mx : pt) (infill : option linear) (layers : list layer) (ps : list layer_plan) : Prop :=
  List.length ps = List.length layers /\
  forall nr l p, nth_error layers nr = Some l -> nth_error ps nr = Some p ->
    plan_layer fuel mn mx infill (Z.of_nat nr) l (height nr) = Ok p.
Definition all_calls (ps : list layer_plan) : list (list call) :=
  map (fun '(nr, p) => layer_calls (Z.of_nat (List.length ps) - 1) (Z.of_nat nr) p) (combine (seq 0 (List.length ps)) ps).
End Plans.

(** *** C48, C49: heaters, fan and layer marks.  Temperatures and speeds count 1/10000. *)
Section Events.
Variable o : options.
Definition degrees (t : Z) : Z := t * 10000.
(** the heating commands of a forced safe start *)
Definition safe_start : list event :=
  (if ForceSafeStartStopGCode (Printer o) && HasHeatedBed (Printer o)
      && negb (DoesInstructionContainCodes (StartGCode (Printer o)) ["M140"; "M190"])
   then [EAux (Bed true (degrees (InitialBedTemperature (Filament o))))] else [])
  ++ (if ForceSafeStartStopGCode (Printer o) && negb (DoesInstructionContainCodes (StartGCode (Printer o)) ["M104"; "M109"])
      then [EAux (HotEnd true (degrees (InitialHotEndTemperature (Filament o))))] else []).
Definition safe_stop : list event :=
  (if ForceSafeStartStopGCode (Printer o) && negb (DoesInstructionContainCodes (EndGCode (Printer o)) ["M104"; "M109"])
   then [EAux (HotEnd false 0)] else [])
  ++ (if ForceSafeStartStopGCode (Printer o) && HasHeatedBed (Printer o)
         && negb (DoesInstructionContainCodes (EndGCode (Printer o)) ["M140"; "M190"])
      then [EAux (Bed false 0)] else []).
(** the commands of custom lines *)
Definition custom (lines : list string) : list event := flat_map events lines.
(** one layer: its mark, the fan command of the table, the temperature change, and some moves *)
Definition fan_event (nr : Z) : list event :=
  match lut_get (FanSpeed (Filament o)) nr with Some v => [EAux (Fan (degrees v))] | None => [] end.
Definition temperature_event (nr : Z) : list event :=
  if nr =? InitialTemperatureLayerCount (Filament o)
  then [EAux (Bed false (degrees (BedTemperature (Filament o)))); EAux (HotEnd false (degrees (HotEndTemperature (Filament o))))] else [].
Definition layer_events (nr : Z) (moves : nat) : list event :=
  [ELayer (itoa nr)] ++ fan_event nr ++ temperature_event nr ++ repeat EMove moves.
(** the layers from number n on, with the numbers of their moves *)
Definition marked (n : nat) (moves : list nat) : list event :=
  flat_map (fun '(nr, k) => layer_events (Z.of_nat nr) k) (combine (seq n (List.length moves)) moves).
End Events.
(** a line of the code starts with a word that contains one of the given codes *)
Definition mentions (lines codes : list string) : Prop :=
  exists line w c a b, In line lines /\ first_word line w /\ In c codes /\ w = (a ++ c ++ b)%string.

(** *** C46, C47: the settings in force *)
(** each polygon of a sequence of calls together with the settings it is printed with *)
Fixpoint in_force (d m : Z) (k : config) (cs : list call) : list (settings * path) :=
  match cs with
  | [] => []
  | CPolygon _ p _ _ :: cs' => (settings_for k, p) :: in_force d m k cs'
  | c :: cs' => in_force d m (configure d m k c) cs'
  end.
(** the polygons of a part *)
Definition polygons_of (p : part) : list path := holes p ++ [outline p].
(** all polygons of a sequence of calls *)
Definition polys (cs : list call) : list path := flat_map (fun c => match c with CPolygon _ p _ _ => [p] | _ => [] end) cs.
Section Speeds.
Variable o : options.
(** what is in force on layer nr if the speed asked for is v: the initial layer has its own thickness, and its speed wins *)
Definition with_speed (nr : Z) (v : f32) : settings :=
  Settings (int_of_f32 (MoveSpeed (Print o)))
    (if (nr =? 0) && (0 <? int_of_f32 (IntialLayerSpeed (Print o))) then int_of_f32 (IntialLayerSpeed (Print o)) else int_of_f32 v)
    (extrusion_per_mm (FilamentDiameter (Filament o)) (ExtrusionMultiplier (Filament o))
       (if nr =? 0 then InitialLayerThickness (Print o) else LayerThickness (Print o)) (ExtrusionWidth (Printer o)))
    (int_of_f32 (RetractionSpeed (Filament o))) (RetractionLength (Filament o)) (RetractionZHop (Filament o)).
(** the walls of a part in print order with their speeds *)
Definition walls_of (insets : list (list part)) : list (f32 * path) :=
  match insets with
  | [] => []
  | outer :: inner => map (pair (LayerSpeed (Print o))) (flat_map polygons_of (concat inner))
                      ++ map (pair (OuterPerimeterSpeed (Print o))) (flat_map polygons_of outer)
  end.
Definition layer_walls (l : layer) : list (f32 * path) :=
  match Perimeters l with Ok ps => flat_map walls_of ps | _ => [] end.
(** infill uses whatever speed the last wall of the layer used *)
Definition speed_after (walls : list (f32 * path)) : f32 := last (map fst walls) (LayerSpeed (Print o)).
Definition layer_in_force (nr : Z) (l : layer) (p : layer_plan) : list (settings * path) :=
  map (pair (with_speed nr (LayerSpeed (Print o)))) (polys (p_skirt p) ++ polys (p_brim p))
  ++ map (fun '(v, q) => (with_speed nr v, q)) (layer_walls l)
  ++ map (pair (with_speed nr (speed_after (layer_walls l)))) (polys (p_fill p)).
End Speeds.
