(** Model of the layer modifiers (modifier/perimeter.go, infill.go, internal_infill.go, brim.go, support.go).
    Modify works in place on a slice of layers; here it returns the changed list.  If it fails, the partly changed
    layers are not modelled: GoSlice.Process drops them (goslice.go:156-162). *)
From Verif Require Import GoBase GoFloat GoStr M_Micrometer M_Geom2D M_Option M_Clip M_Builder M_Layer.
Local Open Scope string_scope.
Local Open Scope Z_scope.

(** layers[i] = l *)
Definition put {A} (i : Z) (x : A) (l : list A) : res (list A) :=
  if (i <? 0) || (Z.of_nat (List.length l) <=? i) then Panic "index out of range" else Ok (set_nth (Z.to_nat i) x l).
(** for layerNr := range layers; a step without result ends the loop with return nil *)
Fixpoint over_layers (step : Z -> list layer -> res (option (list layer))) (n : nat) (layerNr : Z) (layers : list layer) : res (list layer) :=
  match n with
  | O => Ok layers
  | S n' =>
      let* r := step layerNr layers in
      match r with
      | None => Ok layers
      | Some layers' => over_layers step n' (layerNr + 1) layers'
      end
  end.

Section Modifiers.
Variable lib : clib.
Variable o : options.
(** if !ok { return errors.New(msg) } *)
Definition ok_or {A} (msg : string) (r : res (option A)) : res A :=
  let* x := r in match x with Some a => Ok a | None => Err msg end.
Let width := ExtrusionWidth (Printer o).

(** *** perimeter.go *)
(** modifier/perimeter.go:100-111 *)
Definition calculateOverlapPerimeter (p : part) (overlapPercent extrusionWidth : Z) : res (list part) :=
  let perimeterOverlap := int_of_f32 (div32 (mul32 (f32_of_Z extrusionWidth) (sub32 (f32_of_Z 100) (f32_of_Z overlapPercent))) (f32_of_Z 100)) in
  if negb (perimeterOverlap =? 0) then
    let* ins := Inset lib p perimeterOverlap 1 (quot64 (neg64 perimeterOverlap) 2) in idx ins 0
  else Ok [p].
(** modifier/perimeter.go:80-87: append the results for all parts *)
Fixpoint overlap_all (percent : Z) (ps : list part) : res (list part) :=
  match ps with
  | [] => Ok []
  | p :: ps' =>
      let* x := calculateOverlapPerimeter p percent width in
      let* r := overlap_all percent ps' in
      Ok (x ++ r)%list
  end.
(** modifier/perimeter.go:74-88; the condition in line 75 always holds, so each part gets its entry *)
Fixpoint overlap_entries (insetParts : offset_result) : res (list (list part)) :=
  match insetParts with
  | [] => Ok []
  | part :: rest =>
      let* inner := idx part (Z.of_nat (List.length part) - 1) in
      let* x := overlap_all (InfillOverlapPercent (Print o)) inner in
      let* r := overlap_entries rest in
      Ok (x :: r)
  end.
(** modifier/perimeter.go:64-94 for one layer *)
Definition perimeter_layer (l : layer) : res layer :=
  let* insetParts := InsetLayer lib (LayerParts l) width (InsetCount (Print o)) (quot64 (neg64 width) 2) in
  let* overlapPerimeter := overlap_entries insetParts in
  Ok (set_attribute "overlapPerimeters" (ANested overlapPerimeter) (set_attribute "perimeters" (AOffset insetParts) (newExtendedLayer l))).
(** modifier/perimeter.go:63-97 *)
Definition PerimeterModify (layers : list layer) : res (list layer) :=
  over_layers (fun layerNr layers =>
    let* l := idx layers layerNr in
    let* l' := perimeter_layer l in
    let* layers' := put layerNr l' layers in
    Ok (Some layers')) (List.length layers) 0 layers.

(** *** infill.go *)
(** modifier/internal_infill.go:80-95 *)
Definition partDifference (p : part) (layerToRemove : layer) : res (list part) :=
  ok_or "error while calculating difference of a part and a layer" (Difference lib [p] (LayerParts layerToRemove)).
(** modifier/infill.go:86-95, 115-124 *)
Definition union_up (msg : string) (acc parts : list part) : res (list part) :=
  match acc with
  | [] => Ok parts
  | _ => ok_or msg (Union lib acc parts)
  end.
(** modifier/infill.go:70-96; [n] rounds are left, [acc] is bottomInfillParts *)
Fixpoint bottom_loop (layers : list layer) (layerNr : Z) (insetPart : part) (n : nat) (i : Z) (acc : list part) : res (list part) :=
  match n with
  | O => Ok acc
  | S n' =>
      if layerNr - i =? 0 then
        let* acc' := union_up "could not union bottom parts" acc [insetPart] in bottom_loop layers layerNr insetPart n' (i + 1) acc'
      else if layerNr <? i then Ok acc
      else
        let* below := idx layers (layerNr - 1 - i) in
        let* parts := partDifference insetPart below in
        let* acc' := union_up "could not union bottom parts" acc parts in bottom_loop layers layerNr insetPart n' (i + 1) acc'
  end.
(** modifier/infill.go:99-125 *)
Fixpoint top_loop (layers : list layer) (layerNr : Z) (insetPart : part) (n : nat) (i : Z) (acc : list part) : res (list part) :=
  let len := Z.of_nat (List.length layers) in
  match n with
  | O => Ok acc
  | S n' =>
      if layerNr + i =? len - 1 then
        let* acc' := union_up "could not union top parts" acc [insetPart] in top_loop layers layerNr insetPart n' (i + 1) acc'
      else if len <=? layerNr + 1 + i then Ok acc
      else
        let* above := idx layers (layerNr + 1 + i) in
        let* parts := partDifference insetPart above in
        let* acc' := union_up "could not union top parts" acc parts in top_loop layers layerNr insetPart n' (i + 1) acc'
  end.
(** modifier/infill.go:149-160, 162-172 *)
Definition clip_into (border : list part) (internal acc : list part) : res (list part) :=
  match internal with
  | [] => Ok acc
  | _ =>
      let* clippedParts := ok_or "error while intersecting infill areas by the overlapping border" (Intersection lib internal border) in
      ok_or "error while calculating the union of new infill with already existing one" (Union lib acc clippedParts)
  end.
(** modifier/infill.go:64-173: one part of the most inner inset; the state is (bottomInfill, topInfill) *)
Definition infill_part (layers : list layer) (layerNr : Z) (overlappingPerimeters : list (list part)) (partNr : Z) (insetPart : part)
    (s : list part * list part) : res (list part * list part) :=
  let '(bottomInfill, topInfill) := s in
  let* bottomInfillParts := bottom_loop layers layerNr insetPart (Z.to_nat (NumberBottomLayers (Print o))) 0 [] in
  let* topInfillParts := top_loop layers layerNr insetPart (Z.to_nat (NumberTopLayers (Print o))) 0 [] in
  let fullOverlapPercentage := add64 (InfillOverlapPercent (Print o)) (AdditionalInternalInfillOverlapPercent (Print o)) in
  let* internalBottom := overlap_all fullOverlapPercentage bottomInfillParts in
  let* internalTop := overlap_all fullOverlapPercentage topInfillParts in
  let border := idx overlappingPerimeters partNr in
  let* bottomInfill' := match internalBottom with [] => Ok bottomInfill | _ => let* bd := border in clip_into bd internalBottom bottomInfill end in
  let* topInfill' := match internalTop with [] => Ok topInfill | _ => let* bd := border in clip_into bd internalTop topInfill end in
  Ok (bottomInfill', topInfill').
(** modifier/infill.go:64: for _, insetPart *)
Fixpoint infill_parts (layers : list layer) (layerNr : Z) (ov : list (list part)) (partNr : Z) (ps : list part) (s : list part * list part) : res (list part * list part) :=
  match ps with
  | [] => Ok s
  | p :: ps' => let* s' := infill_part layers layerNr ov partNr p s in infill_parts layers layerNr ov partNr ps' s'
  end.
(** modifier/infill.go:62: for partNr, part *)
Fixpoint infill_entries (layers : list layer) (layerNr : Z) (ov : list (list part)) (partNr : Z) (perimeters : offset_result) (s : list part * list part) : res (list part * list part) :=
  match perimeters with
  | [] => Ok s
  | part :: rest =>
      let* inner := idx part (Z.of_nat (List.length part) - 1) in
      let* s' := infill_parts layers layerNr ov partNr inner s in
      infill_entries layers layerNr ov (partNr + 1) rest s'
  end.
(** modifier/infill.go:184-190: set the attribute if there are any parts *)
Definition set_parts (name : string) (ps : list part) (l : layer) : layer :=
  match ps with [] => l | _ => set_attribute name (AParts ps) l end.
(** modifier/infill.go:44-192 *)
Definition infill_step (layerNr : Z) (layers : list layer) : res (option (list layer)) :=
  let* l := idx layers layerNr in
  let* overlappingPerimeters := OverlapPerimeters l in
  match overlappingPerimeters with
  | [] => Ok None
  | _ =>
      let* perimeters := Perimeters l in
      match perimeters with
      | [] => Ok None
      | _ =>
          let* (bottomInfill, topInfill) := infill_entries layers layerNr overlappingPerimeters 0 perimeters ([], []) in
          let* topInfill :=
            match topInfill, bottomInfill with
            | _ :: _, _ :: _ => ok_or "error while calculating the difference of new top infill with the bottom infill to avoid duplicates"
                                  (Difference lib topInfill bottomInfill)
            | _, _ => Ok topInfill
            end in
          let* layers' := put layerNr (set_parts "top" topInfill (set_parts "bottom" bottomInfill (newExtendedLayer l))) layers in
          Ok (Some layers')
      end
  end.
(** modifier/infill.go:43-197 *)
Definition InfillModify (layers : list layer) : res (list layer) := over_layers infill_step (List.length layers) 0 layers.

(** *** internal_infill.go *)
(** modifier/internal_infill.go:49-69; [clipped] is append(bottomInfill, topInfill...) *)
Fixpoint internal_parts (overlappingPerimeters : list (list part)) (clipped : list part) : res (list part) :=
  match overlappingPerimeters with
  | [] => Ok []
  | overlappingPart :: rest =>
      if InfillPercent (Print o) =? 0 then internal_parts rest clipped
      else
        match overlappingPart, clipped with
        | [], [] => internal_parts rest clipped
        | _, _ =>
            let* parts := ok_or "error while calculating the difference between the max overlap border and the bottom infill"
                            (Difference lib overlappingPart clipped) in
            let* r := internal_parts rest clipped in
            Ok (parts ++ r)%list
        end
  end.
(** modifier/internal_infill.go:28-75.  The new layer is not put into the slice (line 71), but it shares its map with
    the old one, which has a map because it has the attribute overlapPerimeters. *)
Definition internal_step (layerNr : Z) (layers : list layer) : res (option (list layer)) :=
  let* l := idx layers layerNr in
  let* overlappingPerimeters := OverlapPerimeters l in
  match overlappingPerimeters with
  | [] => Ok None
  | _ =>
      let* bottomInfill := PartsAttribute l "bottom" in
      let* topInfill := PartsAttribute l "top" in
      let* internalInfill := internal_parts overlappingPerimeters (bottomInfill ++ topInfill)%list in
      let* layers' := put layerNr (set_parts "infill" internalInfill l) layers in
      Ok (Some layers')
  end.
(** modifier/internal_infill.go:27-78 *)
Definition InternalInfillModify (layers : list layer) : res (list layer) := over_layers internal_step (List.length layers) 0 layers.

(** *** brim.go *)
(** modifier/brim.go:90-99 *)
Definition outer_perimeters (perimeters : offset_result) : list part :=
  flat_map (fun part => flat_map (fun wall => match wall with [] => [] | w :: _ => [w] end) part) perimeters.
(** modifier/brim.go:122-129 *)
Definition outer_lines (brim : offset_result) : list part := flat_map (fun part => last part []) brim.
(** modifier/brim.go:73-146 *)
Definition BrimModify (layers : list layer) : res (list layer) :=
  let count := s_BrimCount (BrimSkirt (Print o)) in
  if count =? 0 then Ok layers
  else
    let* l := idx layers 0 in
    let* perimeters := Perimeters l in
    match perimeters with
    | [] => Ok layers
    | _ =>
        let topLevel := match TopLevelPolygons lib (outer_perimeters perimeters) with Some t => t | None => [] end in
        match map (fun p => Part p []) topLevel with
        | [] => Ok layers
        | allOuter =>
            let* brim := InsetLayer lib allOuter (neg64 width) count width in
            let* outer := InsetLayer lib (outer_lines brim) (neg64 width) 1 (quot64 width 2) in
            let outerBrim := ToOneDimension outer in
            let l1 := match brim with [] => newExtendedLayer l | _ => set_attribute "brim" (AOffset brim) (newExtendedLayer l) end in
            put 0 (set_parts "outerBrim" outerBrim l1) layers
        end
    end.

(** *** support.go *)
(** clip.Difference for a first slice that may be empty without being nil *)
Definition difference_of (parts : option (list part)) (toRemove : list part) : res (option (list part)) :=
  match parts, toRemove with
  | None, [] => Ok (Some [])
  | None, _ => clip_parts lib CtDifference [] toRemove
  | Some ps, _ => clip_parts lib CtDifference ps toRemove
  end.
(** math.Tan of the radian of an angle in degrees *)
Variable tangent : f64 -> f64.
Let sup := Support (Print o).
(** modifier/support.go:88-92: the parts of a layer enlarged by half the distance *)
Definition support_distance : Z :=
  int64_of_neg_round (mul64f (f64_of_Z (LayerThickness (Print o))) (tangent (f64_of_Z (s_ThresholdAngle sup)))).
Definition enlarged (l : layer) (off initialOffset : Z) : res (list part) :=
  let* x := InsetLayer lib (LayerParts l) off 1 initialOffset in Ok (ToOneDimension x).
(** modifier/support.go:87-101: the area of [above] that [l] does not hold *)
Definition overhang (l above : layer) : res (list part) :=
  let* offsetLayer := enlarged l support_distance (quot64 (neg64 support_distance) 2) in
  let* support := ok_or "could not calculate the support parts" (difference_of (lparts above) offsetLayer) in
  let spacing := ToMicrometer (s_PatternSpacing sup) in
  let* x := InsetLayer lib support (mul64 (neg64 spacing) 3) 1 (quot64 (mul64 spacing 3) 2) in
  Ok (ToOneDimension x).
(** modifier/support.go:75-109 *)
Definition detector_step (layerNr : Z) (layers : list layer) : res (option (list layer)) :=
  if negb (s_Enabled sup) then Ok None
  else if (layerNr =? Z.of_nat (List.length layers) - 1) || (layerNr <? s_TopGapLayers sup) then Ok (Some layers)
  else
    let* l := idx layers layerNr in
    let* above := idx layers (layerNr + 1) in
    let* support := overhang l above in
    let* target := idx layers (layerNr - s_TopGapLayers sup) in
    let* layers' := put (layerNr - s_TopGapLayers sup) (set_parts "support" support (newExtendedLayer target)) layers in
    Ok (Some layers').
(** modifier/support.go:74-112 *)
Definition SupportDetectorModify (layers : list layer) : res (list layer) := over_layers detector_step (List.length layers) 0 layers.

(** modifier/support.go:180-218: interface and normal support of the layer [target] below layerNr *)
Definition split_support (layers : list layer) (layerNr : Z) (target : layer) (actualSupport : list part) : res (list part * list part) :=
  match actualSupport with
  | [] => Ok ([], [])
  | _ =>
      let len := Z.of_nat (List.length layers) in
      let above := let n := layerNr + s_InterfaceLayers sup - 1 in if len <=? n then len - 1 else n in
      let* la := idx layers above in
      let* supportAboveInterface := PartsAttribute la "fullSupport" in
      let* interfaceParts := ok_or "error while calculating interface parts" (Difference lib actualSupport supportAboveInterface) in
      let* without := ok_or "error while calculating the actual support without the interface parts" (Difference lib actualSupport interfaceParts) in
      let* brimArea := BrimOuterDimension target in
      match brimArea with
      | [] => Ok (interfaceParts, without)
      | _ =>
          (* !ok is ignored: the result is nil then *)
          let* i := Difference lib interfaceParts brimArea in
          let* w := Difference lib without brimArea in
          Ok (match i with Some x => x | None => [] end, match w with Some x => x | None => [] end)
      end
  end.
(** modifier/support.go:138-241: rounds for layerNr = n, n - 1, ..., 1; [lastSupport] [] is nil *)
Fixpoint generator_loop (n : nat) (lastSupport : list part) (layers : list layer) : res (list layer) :=
  match n with
  | O => Ok layers
  | S n' =>
      let layerNr := Z.of_nat n in
      let* l := idx layers layerNr in
      let* currentSupport := match lastSupport with [] => PartsAttribute l "support" | _ => Ok lastSupport end in
      let* target := idx layers (layerNr - 1) in
      let* belowSupport := PartsAttribute target "support" in
      match currentSupport, belowSupport with
      | [], [] => generator_loop n' lastSupport layers
      | _, _ =>
          let* result := ok_or ("could not union the supports for layer " ++ itoa layerNr ++ " to generate support") (Union lib currentSupport belowSupport) in
          let gap := ToMicrometer (s_Gap sup) in
          let* biggerLayer := enlarged target (neg64 gap) (quot64 gap 2) in
          let* actualSupport := ok_or ("could not subtract the model from the supports for layer " ++ itoa layerNr) (Difference lib result biggerLayer) in
          let* (interfaceParts, without) := split_support layers layerNr target actualSupport in
          let l' := set_attribute "support" (AParts without)
                      (set_parts "supportInterface" interfaceParts (set_parts "fullSupport" actualSupport (newExtendedLayer target))) in
          let* layers' := put (layerNr - 1) l' layers in
          generator_loop n' actualSupport layers'
      end
  end.
(** modifier/support.go:134-242 *)
Definition SupportGeneratorModify (layers : list layer) : res (list layer) :=
  if negb (s_Enabled sup) then Ok layers else generator_loop (List.length layers - 2) [] layers.
End Modifiers.
