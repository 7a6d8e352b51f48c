(** Model of data/2d.go (pure part; the slice aliasing of douglasPeucker is in M_DPHeap.v)
    and of the path functions of data/layer.go. *)
From Verif Require Import GoBase GoFloat M_Micrometer.
Local Open Scope Z_scope.

(** data/layer.go:9, 202 *)
Definition path := list pt.
Definition paths := list path.

(** data/2d.go:8-10 *)
Definition DotProduct (a b : pt) : Z := add64 (mul64 (px a) (px b)) (mul64 (py a) (py b)).

(** data/2d.go:13-29 *)
Definition PerpendicularDistance2 (a b point : pt) : Z :=
  let vecAB := ptSub b a in
  let vecAP := ptSub point a in
  if ptSize2 vecAB =? 0 then ptSize2 vecAP
  else
    let dotProduct := DotProduct vecAB vecAP in
    let axSize2 := quot64 (mul64 dotProduct dotProduct) (ptSize2 vecAB) in
    Max 0 (sub64 (ptSize2 vecAP) axSize2).

(** data/2d.go:53-66; [i] is the index of the head of [points] *)
Fixpoint seek_from (p1 p2 : pt) (i : nat) (points : path) (best : nat) (maxDist : Z) : nat * Z :=
  match points with
  | [] => (best, maxDist)
  | p :: rest =>
      let d := PerpendicularDistance2 p1 p2 p in
      if mul64 maxDist maxDist <? d then seek_from p1 p2 (S i) rest i d
      else seek_from p1 p2 (S i) rest best maxDist
  end.
Definition seekMostDistantPoint (p1 p2 : pt) (points : path) : nat * Z := seek_from p1 p2 0 points 0 0.

(** data/2d.go:33-51.  [fuel] is 200 - depth, so [O] is the "depth >= 200" exit.
    points[0] and points[len-1] exist because the length is at least 3 there. *)
Fixpoint douglasPeucker (fuel : nat) (points : path) (ep : Z) : path :=
  match fuel with
  | O => points
  | S fuel' =>
      match points with
      | [] | [_] | [_; _] => points
      | p0 :: _ =>
          let pl := last points p0 in
          let '(i, maxDist) := seekMostDistantPoint p0 pl points in
          if ep <=? maxDist then
            let left := douglasPeucker fuel' (firstn (S i) points) ep in
            let right := douglasPeucker fuel' (skipn i points) ep in
            firstn (List.length left - 1) left ++ right
          else [p0; pl]
      end
  end.

(** data/2d.go:70-76 *)
Definition DouglasPeucker (points : path) (epsilon : Z) : path :=
  douglasPeucker 200 points (if epsilon =? -1 then 70 else epsilon).

(** data/layer.go:14-16; panics on an empty path *)
Definition IsAlmostFinished (p : path) (distance : Z) : res bool :=
  match p with
  | [] => Panic "index out of range"
  | p0 :: _ => Ok (ptShorterThanOrEqual (ptSub p0 (last p p0)) distance)
  end.

(** One iteration of the loop data/layer.go:75-137: [next] is chosen by the caller (81-91).
    Returns whether the vertex is kept, and the new areaRemoved. *)
Definition simplify_step (sls aed : Z) (previous current next : pt) (areaRemoved : Z) : bool * Z :=
  (* 94 *)
  let areaRemoveNext := sub64 (mul64 (px current) (py next)) (mul64 (py current) (px next)) in
  (* 97 *)
  let negativeAreaClosing := sub64 (mul64 (px next) (py previous)) (mul64 (py next) (px previous)) in
  (* 99 *)
  let areaRemoved := add64 areaRemoved areaRemoveNext in
  (* 101-102 *)
  let length2 := ptSize2 (ptSub current previous) in
  let nextLength2 := ptSize2 (ptSub current next) in
  (* 105-107 *)
  let areaRemovedSoFar := add64 areaRemoved negativeAreaClosing in
  let baseLength2 := ptSize2 (ptSub next previous) in
  if baseLength2 =? 0 then (false, areaRemoved) (* 110-112 *)
  else
    let height2 := quot64 (mul64 areaRemovedSoFar areaRemovedSoFar) baseLength2 in (* 121 *)
    if ((height2 <=? 25) && (PerpendicularDistance2 current previous next <=? 25))
       || ((length2 <? sls) && (nextLength2 <? sls) && (height2 <=? aed)) (* 122-126 *)
    then (false, areaRemoved)
    else (true, areaRemoveNext). (* 134-136 *)

(** data/layer.go:75-138.  [p0] is p[0], [rest] the vertices from index i on, [newPath] the output so far. *)
Fixpoint simplify_loop (sls aed : Z) (p0 : pt) (rest : path) (previous : pt) (areaRemoved : Z)
    (newPath : path) : path :=
  match rest with
  | [] => newPath
  | current :: rest' =>
      let next := match rest' with
                  | n :: _ => n                       (* 82-83 *)
                  | [] => match newPath with
                          | q :: _ :: _ => q          (* 86-87 *)
                          | _ => p0                   (* 89-90 *)
                          end
                  end in
      match simplify_step sls aed previous current next areaRemoved with
      | (false, area') => simplify_loop sls aed p0 rest' previous area' newPath
      | (true, area') => simplify_loop sls aed p0 rest' current area' (newPath ++ [current])
      end
  end.

(** data/layer.go:35-139 *)
Definition Simplify (p : path) (smallestLineSegmentSquared allowedErrorDistanceSquared : Z) : path :=
  let sls := if smallestLineSegmentSquared =? -1 then 100 else smallestLineSegmentSquared in
  let aed := if allowedErrorDistanceSquared =? -1 then 25 else allowedErrorDistanceSquared in
  match p with
  | [] | [_] | [_; _] => []
  | [_; _; _] => p
  | p0 :: _ =>
      let previous := last p p0 in
      let areaRemoved := sub64 (mul64 (px previous) (py p0)) (mul64 (py previous) (px p0)) in
      simplify_loop sls aed p0 p previous areaRemoved []
  end.

(** data/layer.go:154-168 / 220-235: the bounds loop body *)
Definition bounds_step (acc : pt * pt) (p : pt) : pt * pt :=
  let '(mn, mx) := acc in
  (Pt (if px p <? px mn then px p else px mn) (if py p <? py mn then py p else py mn),
   Pt (if px mx <? px p then px p else px mx) (if py mx <? py p then py p else py mx)).
Definition bounds_init : pt * pt := (Pt MaxMicrometer MaxMicrometer, Pt MinMicrometer MinMicrometer).

(** data/layer.go:143-171 *)
Definition PathBounds (p : path) : pt * pt :=
  match p with
  | [] => (Pt 0 0, Pt 0 0)
  | _ => fold_left bounds_step p bounds_init
  end.

(** data/layer.go:206-243; the flag "any" of line 218 is whether some path has a point *)
Definition PathsBounds (ps : paths) : pt * pt :=
  match ps with
  | [] => (Pt 0 0, Pt 0 0)
  | _ => if existsb (fun p : path => match p with [] => false | _ => true end) ps
         then fold_left (fun acc p => fold_left bounds_step p acc) ps bounds_init
         else (Pt 0 0, Pt 0 0)
  end.

(** data/layer.go:174-182 (the sine and cosine of the angle are given; degree 0 returns early) *)
Definition PathRotate (zero_degree : bool) (sin cos : spec_float) (p : path) : path :=
  if zero_degree then p else map (ptRotate sin cos) p.

(** data/layer.go:297-300 basicLayerPart (its Attributes() is nil) *)
Record part := Part { outline : path; holes : paths }.

(** data/layer.go:341-348 partitionedLayer.Bounds: only the outlines count *)
Definition LayerBounds (parts : list part) : pt * pt := PathsBounds (map outline parts).
