(** Model of the slicer package. *)
From Verif Require Import GoBase GoFloat M_Micrometer M_Geom2D M_Model.
Local Open Scope Z_scope.

(** slicer/segment.go:8-14; the flag addedToPolygon is kept outside (list of flags) *)
Record segment := Seg { sstart : pt; send : pt; sface : Z }.

(** p0.X + (p1.X-p0.X)*(z-p0.Z)/(p1.Z-p0.Z), slicer/segment.go:21-27; division by zero panics *)
Definition interp (c0 c1 z z0 z1 : Z) : res Z :=
  if sub64 z1 z0 =? 0 then Panic "integer divide by zero"
  else Ok (add64 c0 (quot64 (mul64 (sub64 c1 c0) (sub64 z z0)) (sub64 z1 z0))).
(** slicer/segment.go:18-31: start and end *)
Definition SliceFace (z : Z) (p0 p1 p2 : vec3) : res (pt * pt) :=
  let* sx := interp (vx p0) (vx p1) z (vz p0) (vz p1) in
  let* sy := interp (vy p0) (vy p1) z (vz p0) (vz p1) in
  let* ex := interp (vx p0) (vx p2) z (vz p0) (vz p2) in
  let* ey := interp (vy p0) (vy p2) z (vz p0) (vz p2) in
  Ok (Pt sx sy, Pt ex ey).

(** slicer/slicer.go:74-101: the arguments of SliceFace, None for the default case *)
Definition slice_case (z : Z) (f : face) : option (vec3 * vec3 * vec3) :=
  let '(p0, p1, p2) := f in
  if (vz p0 <? z) && (z <=? vz p1) && (z <=? vz p2) then Some (p0, p2, p1)
  else if (z <? vz p0) && (vz p1 <? z) && (vz p2 <? z) then Some (p0, p1, p2)
  else if (vz p1 <? z) && (z <=? vz p0) && (z <=? vz p2) then Some (p1, p0, p2)
  else if (z <? vz p1) && (vz p0 <? z) && (vz p2 <? z) then Some (p1, p2, p0)
  else if (vz p2 <? z) && (z <=? vz p1) && (z <=? vz p0) then Some (p2, p1, p0)
  else if (z <? vz p2) && (vz p1 <? z) && (vz p0 <? z) then Some (p2, p0, p1)
  else None.

(** slicer/layer.go:7-14: segments and faceToSegmentIndex *)
Record slayer := SLayer { lsegs : list segment; lf2s : Z -> option Z }.
(** slicer/layer.go:16-22 *)
Definition newLayer : slayer := SLayer [] (fun _ => None).

(** slicer/slicer.go:103-106 *)
Definition add_segment (l : slayer) (i : Z) (s e : pt) : slayer :=
  SLayer (lsegs l ++ [Seg s e i])
         (fun j => if j =? i then Some (Z.of_nat (List.length (lsegs l))) else lf2s l j).

(** slicer/slicer.go:59-106: one layer number of one face; None is a nil *layer *)
Definition slice_step (init thick : Z) (i : Z) (f : face) (layers : list (option slayer)) (layerNr : Z)
    : res (list (option slayer)) :=
  let z := add64 (mul64 layerNr thick) init in
  if z <? MinZ f then Ok layers
  else if layerNr <? 0 then Ok layers
  else
    let* ol := idx layers layerNr in
    let l := match ol with Some l => l | None => newLayer end in
    match slice_case z f with
    | None => Ok (set_nth (Z.to_nat layerNr) (Some l) layers)
    | Some (a, b, c) =>
        let* (s, e) := SliceFace z a b c in
        Ok (set_nth (Z.to_nat layerNr) (Some (add_segment l i s e)) layers)
    end.
(** slicer/slicer.go:58: n layer numbers from [from] on *)
Fixpoint slice_from (init thick : Z) (i : Z) (f : face) (layers : list (option slayer)) (from : Z) (n : nat)
    : res (list (option slayer)) :=
  match n with
  | O => Ok layers
  | S n' => let* layers' := slice_step init thick i f layers from in
            slice_from init thick i f layers' (from + 1) n'
  end.
(** slicer/slicer.go:39-107 (MinZ, MaxZ: the same comparisons as 40-55) *)
Definition slice_face (init thick : Z) (i : Z) (f : face) (layers : list (option slayer)) : res (list (option slayer)) :=
  let lo := quot64 (sub64 (MinZ f) init) thick in
  let hi := quot64 (sub64 (MaxZ f) init) thick in
  slice_from init thick i f layers lo (Z.to_nat (hi - lo + 1)).
Fixpoint slice_faces (init thick : Z) (i : Z) (fs : list face) (layers : list (option slayer)) : res (list (option slayer)) :=
  match fs with
  | [] => Ok layers
  | f :: fs' => let* layers' := slice_face init thick i f layers in slice_faces init thick (i + 1) fs' layers'
  end.

(** *** makePolygons *)
(** slicer/layer.go:74-90: (canClose, nextIndex) after looking at the touching faces *)
Fixpoint scan_touching (l : slayer) (added : list bool) (meld start : Z) (p0 : pt) (ts : list Z) (acc : bool * Z)
    : res (bool * Z) :=
  match ts with
  | [] => Ok acc
  | t :: ts' =>
      let '(canClose, next) := acc in
      match lf2s l t with
      | Some si =>
          if -1 <? t then
            let* seg := idx (lsegs l) si in
            if ptShorterThanOrEqual (ptSub p0 (sstart seg)) meld then
              let canClose := if si =? start then true else canClose in
              let* a := idx added si in
              if a then scan_touching l added meld start p0 ts' (canClose, next)
              else scan_touching l added meld start p0 ts' (canClose, si)
            else scan_touching l added meld start p0 ts' acc
          else scan_touching l added meld start p0 ts' acc
      | None => scan_touching l added meld start p0 ts' acc
      end
  end.
(** slicer/layer.go:55-97.  [touch i] is om.OptimizedFace(i).TouchingFaceIndices(). *)
Fixpoint walk (touch : Z -> res (Z * Z * Z)) (l : slayer) (meld start : Z) (fuel : nat) (cur : Z) (poly : path)
    (added : list bool) : res (path * bool * list bool) :=
  match fuel with
  | O => Diverge
  | S fuel' =>
      let* seg := idx (lsegs l) cur in
      let added := set_nth (Z.to_nat cur) true added in
      let poly := poly ++ [send seg] in
      let* (t0, t1, t2) := touch (sface seg) in
      let* (canClose, next) := scan_touching l added meld start (send seg) [t0; t1; t2] (false, -1) in
      if next =? -1 then Ok (poly, canClose, added)
      else walk touch l meld start fuel' next poly added
  end.
(** slicer/layer.go:44-101: chains from each segment not yet used; [is] are the remaining start indices *)
Fixpoint chains (touch : Z -> res (Z * Z * Z)) (l : slayer) (meld : Z) (is : list Z) (added : list bool)
    : res (list (path * bool)) :=
  match is with
  | [] => Ok []
  | i :: is' =>
      let* a := idx added i in
      if a then chains touch l meld is' added
      else
        let* seg := idx (lsegs l) i in
        let* (poly, canClose, added') := walk touch l meld i (S (List.length (lsegs l))) i [sstart seg] added in
        let* rest := chains touch l meld is' added' in
        Ok ((poly, canClose) :: rest)
  end.

(** l.polygons and l.closed after the chains: None is a nil polygon *)
Definition pool := list (option path * bool).

(** slicer/layer.go:114-129; [j] is the index of the head of [ps] *)
Fixpoint best_match (ps : pool) (i j : Z) (lastp : pt) (snap : Z) (best bestScore : Z) : Z :=
  match ps with
  | [] => best
  | (Some (q :: rest), false) :: ps' =>
      if i =? j then best_match ps' i (j + 1) lastp snap best bestScore
      else
        let diff := ptSub lastp q in
        if ptShorterThanOrEqual diff snap then
          let score := sub64 (ptSize diff) (mul64 (Z.of_nat (List.length (q :: rest))) 10) in
          if score <? bestScore then best_match ps' i (j + 1) lastp snap j score
          else best_match ps' i (j + 1) lastp snap best bestScore
        else best_match ps' i (j + 1) lastp snap best bestScore
  | _ :: ps' => best_match ps' i (j + 1) lastp snap best bestScore
  end.
(** slicer/layer.go:107-148: the first polygon [i] that can be joined, and its partner *)
Fixpoint find_join (all ps : pool) (i : Z) (snap : Z) : option (Z * Z) :=
  match ps with
  | [] => None
  | (Some (p :: rest), false) :: ps' =>
      let best := best_match all i 0 (last (p :: rest) p) snap (-1) (add64 snap 1) in
      if -1 <? best then Some (i, best) else find_join all ps' (i + 1) snap
  | _ :: ps' => find_join all ps' (i + 1) snap
  end.
(** slicer/layer.go:106-148 with the goto as recursion (chains have at least two points, so the empty
    path, on which Go would panic, does not occur) *)
Fixpoint join_all (fuel : nat) (snap : Z) (ps : pool) : res pool :=
  match fuel with
  | O => Diverge
  | S fuel' =>
      match find_join ps ps 0 snap with
      | None => Ok ps
      | Some (i, best) =>
          let* (pi, ci) := idx ps i in
          let* (pb, cb) := idx ps best in
          match pi, pb with
          | Some a, Some b =>
              let* fin := IsAlmostFinished (a ++ b) snap in
              let ps := set_nth (Z.to_nat i) (Some (a ++ b), if fin : bool then true else ci) ps in
              join_all fuel' snap (set_nth (Z.to_nat best) (None, cb) ps)
          | _, _ => Panic "nil polygon"
          end
      end
  end.

(** slicer/layer.go:165-176: the measured length (stops early for a closed, long enough polygon) *)
Fixpoint poly_length (closed : bool) (finish : Z) (prev : pt) (rest : path) (length : Z) : Z :=
  match rest with
  | [] => length
  | p :: rest' =>
      let length := add64 length (ptSize (ptSub p prev)) in
      if closed && (finish <? length) then length else poly_length closed finish p rest' length
  end.
(** slicer/layer.go:151-184; removeLastPoint (187-189) reslices to the full length: no effect *)
Fixpoint clear_polygons (finish : Z) (ps : pool) : res paths :=
  match ps with
  | [] => Ok []
  | (None, _) :: ps' => clear_polygons finish ps'
  | (Some poly, closed) :: ps' =>
      let* fin := IsAlmostFinished poly finish in
      let closed := if fin : bool then true else closed in
      let length := match poly with [] => 0 | p :: rest => poly_length closed finish p rest 0 end in
      let* r := clear_polygons finish ps' in
      Ok (if (finish <? length) && closed then poly :: r else r)
  end.

(** slicer/layer.go:41-185 *)
Definition zseq (n : nat) : list Z := map Z.of_nat (seq 0 n).
Definition makePolygons (touch : Z -> res (Z * Z * Z)) (meld join finish : Z) (l : slayer) : res paths :=
  let n := List.length (lsegs l) in
  let* cs := chains touch l meld (zseq n) (repeat false n) in
  let ps := map (fun c : path * bool => (Some (fst c), snd c)) cs in
  let* ps := join_all (S (List.length ps)) join ps in
  clear_polygons finish ps.

(** slicer/slicer.go:113-122: a nil layer is dereferenced *)
Fixpoint make_all (touch : Z -> res (Z * Z * Z)) (meld join finish : Z) (layers : list (option slayer)) : res (list paths) :=
  match layers with
  | [] => Ok []
  | None :: _ => Panic "nil pointer dereference"
  | Some l :: ls =>
      let* p := makePolygons touch meld join finish l in
      let* r := make_all touch meld join finish ls in
      Ok (p :: r)
  end.

(** slicer/slicer.go:33-125 up to the polygons of each layer (GenerateLayerParts is in M_Clip.v, it runs
    per layer after makePolygons of that layer; a panic or error there only replaces the result).
    make([]*layer, n) panics for a negative n. *)
Definition SlicePolygons (init thick meld join finish : Z) (om : omodel) : res (list paths) :=
  if thick =? 0 then Panic "integer divide by zero"
  else
    let n := add64 (quot64 (sub64 (vz (om_size om)) init) thick) 1 in
    if n <? 0 then Panic "makeslice: len out of range"
    else
      let* fs := omFaces om (om_faces om) in
      let* layers := slice_faces init thick 0 fs (repeat None (Z.to_nat n)) in
      make_all (fun i => let* f := idx (om_faces om) i in Ok (otouch f)) meld join finish layers.
