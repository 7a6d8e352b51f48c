(** Watertight models. *)
From Coq Require Import Reals.
From Verif Require Import GoBase M_Micrometer M_Model S_Geom S_Model S_Slicer S_Place S_Solid.
Local Open Scope Z_scope.

(** Every edge of a face is, in the other direction, an edge of a face; no directed edge belongs to two faces; and no two faces
    have the same three corners. *)
Definition watertight (fs : list face) : Prop :=
  (forall f a b, In f fs -> In (a, b) (fedges f) -> exists g, In g fs /\ In (b, a) (fedges g)) /\
  (forall f g e, In f fs -> In g fs -> In e (fedges f) -> In e (fedges g) -> f = g) /\
  NoDup fs /\ (forall f g, In f fs -> In g fs -> (forall v, In v (facePoints f) <-> In v (facePoints g)) -> f = g).
(** different edges pass the height z more than d apart *)
Definition edges_apart (z d : Z) (fs : list face) : Prop :=
  forall f g a b c e, In f fs -> In g fs -> In (a, b) (fedges f) -> In (c, e) (fedges g) -> rises z (a, b) -> rises z (c, e) -> (a, b) <> (c, e) ->
  let p := passes z a b in let q := passes z c e in (IZR d ^ 2 < (fst p - fst q) ^ 2 + (snd p - snd q) ^ 2)%R.
(** the point of the plate above which the point p of the file is printed *)
Definition placed (d : vec3) (p : rpt) : rpt := ((fst p + IZR (vx d))%R, (snd p + IZR (vy d))%R).

(** the same triangle, named from another corner on; the same triangle with the other side up *)
Definition turned (f g : face) : Prop := let '(a, b, c) := f in g = (a, b, c) \/ g = (b, c, a) \/ g = (c, a, b).
Definition flip (f : face) : face := let '(a, b, c) := f in (a, c, b).
(** the same triangles in any order, named from any corner on; all of them may have the other side up *)
Definition rearranged (fs gs : list face) : Prop :=
  exists hs, Permutation.Permutation fs hs /\ (Forall2 turned hs gs \/ Forall2 turned (map flip hs) gs).

(** the edge e of the face f belongs to no other face *)
Definition lonely (fs : list face) (f : face) (e : vec3 * vec3) : Prop :=
  ~ exists g, In g fs /\ g <> f /\ In (fst e) (facePoints g) /\ In (snd e) (facePoints g).
