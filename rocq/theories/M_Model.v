(** Model of reader/reader.go (faces and bounds of a loaded model) and of the optimizer package. *)
From Verif Require Import GoBase GoFloat M_Micrometer.
Local Open Scope Z_scope.

(** reader/reader.go:12-19: a triangle *)
Definition face := (vec3 * vec3 * vec3)%type.
Definition facePoints (f : face) : list vec3 := let '(a, b, c) := f in [a; b; c].
Definition vertices (fs : list face) : list vec3 := flat_map facePoints fs.

(** reader/reader.go:125-140; an STL vertex is three float32 values *)
Definition stlVertex := (f32 * f32 * f32)%type.
Definition stlToVec (v : stlVertex) : vec3 :=
  let '(x, y, z) := v in V3 (ToMicrometer x) (ToMicrometer y) (ToMicrometer z).
Definition stlTriangleToFace (t : stlVertex * stlVertex * stlVertex) : face :=
  let '(a, b, c) := t in (stlToVec a, stlToVec b, stlToVec c).

(** reader/reader.go:67-79 and 89-101, loop bodies *)
Definition min_step (r v : vec3) : vec3 :=
  V3 (if vx v <? vx r then vx v else vx r) (if vy v <? vy r then vy v else vy r) (if vz v <? vz r then vz v else vz r).
Definition max_step (r v : vec3) : vec3 :=
  V3 (if vx r <? vx v then vx v else vx r) (if vy r <? vy v then vy v else vy r) (if vz r <? vz v then vz v else vz r).
(** reader/reader.go:63-83; m.faces[0] panics without faces *)
Definition ModelMin (fs : list face) : res vec3 :=
  match fs with
  | [] => Panic "index out of range"
  | (a, _, _) :: _ => Ok (fold_left min_step (vertices fs) a)
  end.
(** reader/reader.go:85-105 *)
Definition ModelMax (fs : list face) : res vec3 :=
  match fs with
  | [] => Panic "index out of range"
  | (a, _, _) :: _ => Ok (fold_left max_step (vertices fs) a)
  end.

(** optimizer/point.go:9-12, optimizer/face.go:7-12 (the model pointer is dropped), optimizer/model.go:10-14 *)
Record opoint := OPoint { opos : vec3; ofaces : list Z }.
Record oface := OFace { oi : Z * Z * Z; otouch : Z * Z * Z; oindex : Z }.
Record omodel := OModel { om_points : list opoint; om_faces : list oface; om_size : vec3 }.

(** conversion to the 64 bit uint [pointHash], optimizer/optimizer.go:41 *)
Definition uint64 (z : Z) : Z := z mod 2 ^ 64.
(** (pointHash(x) + m/2) / m, optimizer/optimizer.go:63-65 *)
Definition cell_of (m x : Z) : Z := uint64 (uint64 x + m / 2) / m.
Definition pointHash (m : Z) (v : vec3) : Z :=
  Z.lxor (Z.lxor (cell_of m (vx v)) (uint64 (Z.shiftl (cell_of m (vy v)) 10))) (uint64 (Z.shiftl (cell_of m (vz v)) 20)).

(** state of the faces loop: om.points, om.faces and the hash map *)
Record ost := OSt { st_points : list opoint; st_faces : list oface; st_hash : Z -> list Z }.

(** optimizer/optimizer.go:72-82 *)
Fixpoint find_near (pts : list opoint) (meld : Z) (v : vec3) (l : list Z) : res (option Z) :=
  match l with
  | [] => Ok None
  | i :: l' =>
      let* p := idx pts i in
      if v3ShorterThanOrEqual (v3Sub (opos p) v) meld then Ok (Some i) else find_near pts meld v l'
  end.
(** optimizer/optimizer.go:59-92: the point index of a vertex and the new state; m/0 panics *)
Definition add_vertex (meld : Z) (st : ost) (v : vec3) : res (Z * ost) :=
  let m := uint64 meld in
  if m =? 0 then Panic "integer divide by zero"
  else
    let h := pointHash m v in
    let* r := find_near (st_points st) meld v (st_hash st h) in
    match r with
    | Some i => Ok (i, st)
    | None =>
        let n := Z.of_nat (List.length (st_points st)) in
        Ok (n, OSt (st_points st ++ [OPoint v []]) (st_faces st)
                 (fun h' => if h' =? h then st_hash st h' ++ [n] else st_hash st h'))
    end.
(** optimizer/optimizer.go:117-119 *)
Definition add_face_index (pts : list opoint) (i f : Z) : res (list opoint) :=
  let* p := idx pts i in Ok (set_nth (Z.to_nat i) (OPoint (opos p) (ofaces p ++ [f])) pts).
(** optimizer/optimizer.go:104-114 *)
Definition common_face (l0 l1 l2 : list Z) : bool :=
  existsb (fun f0 => existsb (fun f1 => existsb (fun f2 => (f0 =? f1) && (f0 =? f2)) l2) l1) l0.
(** optimizer/optimizer.go:50-123, loop body *)
Definition add_face (meld : Z) (st : ost) (f : face) : res ost :=
  let '(a, b, c) := f in
  let* (i, st1) := add_vertex meld st a in
  let* (j, st2) := add_vertex meld st1 b in
  let* (k, st3) := add_vertex meld st2 c in
  if (i =? j) || (i =? k) || (j =? k) then Ok st3
  else
    let* pi := idx (st_points st3) i in
    let* pj := idx (st_points st3) j in
    let* pk := idx (st_points st3) k in
    if common_face (ofaces pi) (ofaces pj) (ofaces pk) then Ok st3
    else
      let n := Z.of_nat (List.length (st_faces st3)) in
      let* p1 := add_face_index (st_points st3) i n in
      let* p2 := add_face_index p1 j n in
      let* p3 := add_face_index p2 k n in
      Ok (OSt p3 (st_faces st3 ++ [OFace (i, j, k) (0, 0, 0) n]) (st_hash st3)).
Fixpoint add_faces (meld : Z) (st : ost) (fs : list face) : res ost :=
  match fs with
  | [] => Ok st
  | f :: fs' => let* st' := add_face meld st f in add_faces meld st' fs'
  end.

(** optimizer/model.go:77-90, the outer loop over the faces of the first point *)
Fixpoint touch_loop (pts : list opoint) (idx1 notFace : Z) (l : list Z) : res Z :=
  match l with
  | [] => Ok (-1)
  | f0 :: l' =>
      if f0 =? notFace then touch_loop pts idx1 notFace l'
      else let* p1 := idx pts idx1 in
           if existsb (fun f1 => negb (f1 =? notFace) && (f0 =? f1)) (ofaces p1) then Ok f0
           else touch_loop pts idx1 notFace l'
  end.
(** optimizer/model.go:76-91 *)
Definition getFaceIdxWithPoints (pts : list opoint) (idx0 idx1 notFace : Z) : res Z :=
  let* p0 := idx pts idx0 in touch_loop pts idx1 notFace (ofaces p0).

(** optimizer/optimizer.go:127-147: faces with touching information and the open face count *)
Definition open1 (t : Z) : Z := if t =? -1 then 1 else 0.
Fixpoint touch_faces (pts : list opoint) (i : Z) (fs : list oface) : res (list oface * Z) :=
  match fs with
  | [] => Ok ([], 0)
  | f :: fs' =>
      let '(a, b, c) := oi f in
      let* t0 := getFaceIdxWithPoints pts a b i in
      let* t1 := getFaceIdxWithPoints pts b c i in
      let* t2 := getFaceIdxWithPoints pts c a i in
      let* (rest, n) := touch_faces pts (i + 1) fs' in
      Ok (OFace (oi f) (t0, t1, t2) (oindex f) :: rest, open1 t0 + open1 t1 + open1 t2 + n)
  end.

(** optimizer/optimizer.go:43-163: the optimized model and the logged number of open faces *)
Definition Optimize (meld : Z) (center : vec3) (fs : list face) : res (omodel * Z) :=
  let* st := add_faces meld (OSt [] [] (fun _ => [])) fs in
  let* (faces, open) := touch_faces (st_points st) 0 (st_faces st) in
  let* mn := ModelMin fs in
  let* mx := ModelMax fs in
  let off := v3Sub (V3 (quot64 (add64 (vx mn) (vx mx)) 2) (quot64 (add64 (vy mn) (vy mx)) 2) (vz mn)) center in
  Ok (OModel (map (fun p => OPoint (v3Sub (opos p) off) (ofaces p)) (st_points st)) faces (v3Sub mx mn), open).

(** optimizer/face.go:14-20 *)
Definition oPoints (om : omodel) (f : oface) : res face :=
  let '(i, j, k) := oi f in
  let* a := idx (om_points om) i in
  let* b := idx (om_points om) j in
  let* c := idx (om_points om) k in
  Ok (opos a, opos b, opos c).
(** optimizer/face.go:26-38 *)
Definition MinZ (f : face) : Z :=
  let '(a, b, c) := f in
  let m := vz a in
  let m := if vz b <? m then vz b else m in
  if vz c <? m then vz c else m.
(** optimizer/face.go:40-52 *)
Definition MaxZ (f : face) : Z :=
  let '(a, b, c) := f in
  let m := vz a in
  let m := if m <? vz b then vz b else m in
  if m <? vz c then vz c else m.
(** optimizer/model.go:32-74: the faces as plain faces, then as in reader.go *)
Fixpoint omFaces (om : omodel) (fs : list oface) : res (list face) :=
  match fs with
  | [] => Ok []
  | f :: fs' => let* x := oPoints om f in let* r := omFaces om fs' in Ok (x :: r)
  end.
Definition omMin (om : omodel) : res vec3 := let* fs := omFaces om (om_faces om) in ModelMin fs.
Definition omMax (om : omodel) : res vec3 := let* fs := omFaces om (om_faces om) in ModelMax fs.
