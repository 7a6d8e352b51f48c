(** Model of package clip (clip/clip.go, clip/linear.go).
    The clipping, offsetting and convex hull libraries are the functions of a record [clib] over which all
    theorems quantify. *)
From Verif Require Import GoBase GoFloat M_Micrometer M_Geom2D.
Local Open Scope Z_scope.

(** clipper.PolyNode: contour and children.  A PolyTree is the list of its children. *)
Inductive node := Node (contour : path) (childs : list node).
Definition contour (n : node) : path := match n with Node c _ => c end.
Definition childs (n : node) : list node := match n with Node _ l => l end.
(** clipper.ClipType, clipper.PolyType *)
Inductive clip_type := CtUnion | CtDifference | CtIntersection.
Inductive poly_type := PtSubject | PtClip.
(** one path given to AddPath / AddPaths: polygon type, closed?, points *)
Definition added := (poly_type * bool * path)%type.
Record clib := CLib {
  (** NewClipper (IoReverseSolution or IoNone); AddPath...; Execute2 (type, EvenOdd, EvenOdd): the tree and its
      Total(), or not ok *)
  execute : bool -> clip_type -> list added -> option (list node * Z);
  (** NewClipperOffset; AddPaths (JtSquare, EtClosedPolygon); MiterLimit = 2; Execute2 (delta) *)
  offset : f64 -> list path -> list node;
  (** goconvexhull2d.New; its result is a data.Path again *)
  hull : path -> path;
  (** math.Sin, math.Cos (data/micrometer.go:307-308) *)
  sine : f64 -> f64;
  cosine : f64 -> f64
}.

(** *** clip.go *)
(** clip/clip.go:48 *)
Definition offset_result := list (list (list part)).
(** clip/clip.go:50-60 *)
Definition ToOneDimension (o : offset_result) : list part := concat (concat o).

(** clip/clip.go:64-74; the callback has a state of type S *)
Section ForEach.
Context {S : Type} (cb : S -> part -> Z -> Z -> Z -> S * bool).
Fixpoint each_part (s : S) (i j k : Z) (l : list part) : S * bool :=
  match l with
  | [] => (s, false)
  | p :: l' => let '(s', stop) := cb s p i j k in if stop then (s', true) else each_part s' i j (k + 1) l'
  end.
Fixpoint each_inset (s : S) (i j : Z) (l : list (list part)) : S * bool :=
  match l with
  | [] => (s, false)
  | x :: l' => let '(s', stop) := each_part s i j 0 x in if stop then (s', true) else each_inset s' i (j + 1) l'
  end.
Fixpoint each_outer (s : S) (i : Z) (l : offset_result) : S * bool :=
  match l with
  | [] => (s, false)
  | x :: l' => let '(s', stop) := each_inset s i 0 x in if stop then (s', true) else each_outer s' (i + 1) l'
  end.
Definition ForEach (o : offset_result) (s : S) : S := fst (each_outer s 0 o).
End ForEach.

(** clip/clip.go:240-253: one round; the parts and the nodes for the next round *)
Fixpoint round (ns : list node) : list part * list node :=
  match ns with
  | [] => ([], [])
  | p :: ns' =>
      let '(ps, next) := round ns' in
      (Part (contour p) (map contour (childs p)) :: ps, flat_map childs (childs p) ++ next)
  end.
Fixpoint rounds (fuel : nat) (ns : list node) : res (list part) :=
  match ns with
  | [] => Ok []
  | _ => match fuel with
         | O => Diverge
         | S fuel' => let '(ps, next) := round ns in let* r := rounds fuel' next in Ok (ps ++ r)
         end
  end.
(** number of nodes; only used as fuel *)
Fixpoint nsize (n : node) : nat :=
  match n with Node _ l => S ((fix go (l : list node) : nat := match l with [] => O | x :: l' => (nsize x + go l')%nat end) l) end.
(** clip/clip.go:225-257 *)
Definition polyTreeToLayerParts (tree : list node) : res (list part) := rounds (list_sum (map nsize tree)) tree.

(** clip/clip.go:147-167 and 175-201: the conversions copy the points *)
Definition microPath (p : path) (simplify : bool) : path := if simplify then Simplify p (-1) (-1) else p.
Definition closed_as (t : poly_type) (ps : list path) : list added := map (fun p => (t, true, p)) ps.

Section Lib.
Variable lib : clib.

(** clip/clip.go:203-222; None is (nil, false) *)
Definition GenerateLayerParts (polygons : paths) : res (option (list part)) :=
  let polyList := map (fun p => Simplify p (-1) (-1)) polygons in
  match polyList with
  | [] => Ok (Some [])
  | _ => match execute lib false CtUnion (closed_as PtSubject polyList) with
         | None => Ok None
         | Some (tree, _) => let* ps := polyTreeToLayerParts tree in Ok (Some ps)
         end
  end.

(** clip/clip.go:275-286 (a new ClipperOffset per round instead of Clear) *)
Fixpoint inset_loop (p : part) (off : Z) (n : nat) (cur : f64) : res (list (list part)) :=
  match n with
  | O => Ok []
  | S n' =>
      let* one := polyTreeToLayerParts (offset lib cur (outline p :: holes p)) in
      let* rest := inset_loop p off n' (add64f cur (f64_of_Z (neg64 off))) in
      Ok (one :: rest)
  end.
(** clip/clip.go:268-289 *)
Definition Inset (p : part) (off insetCount initialOffset : Z) : res (list (list part)) :=
  inset_loop p off (Z.to_nat insetCount) (f64_of_Z initialOffset).
(** clip/clip.go:259-266 *)
Fixpoint InsetLayer (layer : list part) (off insetCount initialOffset : Z) : res offset_result :=
  match layer with
  | [] => Ok []
  | p :: l =>
      let* x := Inset p off insetCount initialOffset in
      let* r := InsetLayer l off insetCount initialOffset in
      Ok (x :: r)
  end.

(** clip/clip.go:308-324 *)
Definition clip_parts (t : clip_type) (parts toClip : list part) : res (option (list part)) :=
  match execute lib false t (flat_map (fun p => closed_as PtSubject (outline p :: holes p)) parts ++
                             flat_map (fun p => closed_as PtClip (outline p :: holes p)) toClip) with
  | None => Ok None
  | Some (tree, _) => let* ps := polyTreeToLayerParts tree in Ok (Some ps)
  end.
(** clip/clip.go:303-325 for slices that are nil exactly if they are empty (see M_Modifier for the only call with an
    empty slice that is not nil) *)
Definition runClipper (t : clip_type) (parts toClip : list part) : res (option (list part)) :=
  match parts, toClip with
  | [], [] => Ok (Some [])
  | _, _ => clip_parts t parts toClip
  end.
(** clip/clip.go:291-301 *)
Definition Difference := runClipper CtDifference.
Definition Intersection := runClipper CtIntersection.
Definition Union := runClipper CtUnion.

(** clip/clip.go:327-347; None is !ok *)
Definition IsCrossingPerimeter (parts : list part) (line : path) : option bool :=
  match execute lib true CtDifference
          (flat_map (fun p => closed_as PtClip (holes p ++ [outline p])) parts ++ [(PtSubject, false, line)]) with
  | None => None
  | Some (_, total) => Some (0 <? total)
  end.

(** clip/clip.go:349-362 *)
Definition Hull (parts : list part) : path := hull lib (concat (map outline parts)).

(** clip/clip.go:364-382 *)
Definition TopLevelPolygons (parts : list part) : option paths :=
  match execute lib false CtUnion (map (fun p => (PtSubject, true, outline p)) parts) with
  | None => None
  | Some (tree, _) => Some (map contour tree)
  end.

(** *** linear.go *)
(** clip/linear.go:14-21 *)
Record linear := Linear { lineDistance : Z; lineWidth : Z; degree : Z; lmin : pt; lmax : pt; rectlinear : bool; zigZag : bool }.

(** clip/linear.go:39-44 *)
Definition rotation (p : linear) (layerNr : Z) : f64 :=
  let r := f64_of_Z (degree p) in
  if rectlinear p && (rem64 layerNr 2 =? 0) then add64f r (f64_of_Z 90) else r.

(** clip/linear.go:207-219: the x coordinates of the lines *)
Fixpoint grid (fuel : nat) (x maxx dist : Z) : res (list Z) :=
  if x <=? maxx then
    match fuel with
    | O => Diverge
    | S fuel' => let* r := grid fuel' (add64 x dist) maxx dist in Ok (x :: r)
    end
  else Ok [].

(** clip/linear.go:229-244 *)
Definition shorten (smaller : Z) (c : path) : res path :=
  if smaller =? 0 then Ok c
  else
    let* p1 := idx c 0 in
    let* p2 := idx c 1 in
    let half := quot64 smaller 2 in
    if py p2 <? sub64 (py p1) half
    then Ok [Pt (px p1) (sub64 (py p1) half); Pt (px p2) (add64 (py p2) half)]
    else Ok [p1; p2].
Fixpoint map_res {A B} (f : A -> res B) (l : list A) : res (list B) :=
  match l with
  | [] => Ok []
  | a :: l' => let* b := f a in let* r := map_res f l' in Ok (b :: r)
  end.

(** clip/linear.go:179-248 for overlap = 0 (the only call, line 76) *)
Definition getInfill (fuel : nat) (dist : Z) (mn mx : pt) (outl : path) (hls : paths) (smaller : Z) : res paths :=
  let* xs := grid fuel (px mn) (px mx) dist in
  let lines := map (fun x => [Pt x (py mx); Pt x (py mn)]) xs in
  match execute lib false CtIntersection
          (closed_as PtClip (outl :: hls) ++ map (fun l => (PtSubject, false, l)) lines) with
  | None => Err "getLinearFill failed"
  | Some (tree, _) => map_res (fun n => shorten smaller (contour n)) tree
  end.

(** clip/linear.go:119-132; [i] is the index of the head of [ls] *)
Fixpoint nearest (used : list bool) (lastPoint : Z) (point : pt) (i : Z) (ls : paths) (best bestDiff : Z) : res (Z * Z) :=
  match ls with
  | [] => Ok (best, bestDiff)
  | line :: ls' =>
      let* u := idx used i in
      if u then nearest used lastPoint point (i + 1) ls' best bestDiff
      else
        let* point2 := idx line lastPoint in
        let diff := ptSub point point2 in
        if (bestDiff =? -1) || ptShorterThanOrEqual diff bestDiff
        then nearest used lastPoint point (i + 1) ls' i (ptSize diff)
        else nearest used lastPoint point (i + 1) ls' best bestDiff
  end.

(** clip/linear.go:112-173; [sorted] in order.  One unit of fuel per round; every round uses up a line. *)
Fixpoint sort_loop (p : linear) (zig : bool) (pt_ : part) (unsorted : paths) (fuel : nat) (saved : Z)
    (used : list bool) (lastIndex lastPoint : Z) (sorted : paths) : res paths :=
  if saved <? Z.of_nat (List.length unsorted) then
    match fuel with
    | O => Diverge
    | S fuel' =>
        let* ll := idx unsorted lastIndex in
        let* point := idx ll lastPoint in
        let* (bestIndex, _) := nearest used lastPoint point 0 unsorted (-1) (-1) in
        if -1 <? bestIndex then
          let* bl := idx unsorted bestIndex in
          let* sorted :=
            (if zig then
               let* sl := idx sorted (Z.of_nat (List.length sorted) - 1) in
               let* p1 := idx sl 1 in
               let* p2 := idx bl (1 - lastPoint) in
               if ptShorterThanOrEqual (ptSub p1 p2) (add64 (lineWidth p) (mul64 (lineDistance p) 2)) then
                 match IsCrossingPerimeter [pt_] [p1; p2] with
                 | None => Panic "could not calculate the difference between the current layer and the non-extrusion-move"
                 | Some true => Ok sorted
                 | Some false => Ok (sorted ++ [[p1; p2]])
                 end
               else Ok sorted
             else Ok sorted) in
          let lastPoint := 1 - lastPoint in
          let* newLine :=
            (if lastPoint =? 1 then let* b := idx bl 1 in let* a := idx bl 0 in Ok [b; a] else Ok bl) in
          sort_loop p zig pt_ unsorted fuel' (saved + 1) (set_nth (Z.to_nat bestIndex) true used) bestIndex lastPoint
            (sorted ++ [newLine])
        else Panic "there should always be a bestIndex > -1"
    end
  else Ok sorted.
(** clip/linear.go:89-176 *)
Definition sortInfill (p : linear) (unsorted : paths) (zig : bool) (pt_ : part) : res paths :=
  match unsorted with
  | [] => Ok []
  | l0 :: _ => sort_loop p zig pt_ unsorted (List.length unsorted) 1 (true :: repeat false (List.length unsorted - 1)) 0 0 [l0]
  end.

(** data/layer.go:174-182 *)
Definition rotate_path (deg : f64) (p : path) : path := PathRotate (feq deg (f64_of_Z 0)) (sine lib (ToRadians deg)) (cosine lib (ToRadians deg)) p.

(** clip/linear.go:38-86; the part is a value here, M_FillHeap.v has the slices *)
Definition Fill (fuel : nat) (p : linear) (layerNr : Z) (pt_ : part) : res paths :=
  let rot := rotation p layerNr in
  let outl := rotate_path rot (outline pt_) in
  let hls := map (rotate_path rot) (holes pt_) in
  let '(mn, mx) := PathBounds (rotate_path rot
    [lmin p; Pt (px (lmax p)) (py (lmin p)); lmax p; Pt (px (lmin p)) (py (lmax p))]) in
  let smaller := if zigZag p then lineWidth p else 0 in
  let* infill := getInfill fuel (lineDistance p) mn mx outl hls smaller in
  let* result := sortInfill p infill (zigZag p) (Part outl hls) in
  Ok (map (rotate_path (SFopp rot)) result).
End Lib.
