(** Models that can be printed. *)
From Verif Require Import GoBase M_Micrometer M_Model S_Geom S_Model S_Place.
Local Open Scope Z_scope.

(** the three corners of a face are different *)
Definition proper_face (f : face) : Prop := let '(a, b, c) := f in a <> b /\ a <> c /\ b <> c.
(** from face to face over common corners every face is reached from every other one *)
Inductive reach (fs : list face) : face -> face -> Prop :=
| reach_same f : In f fs -> reach fs f f
| reach_next f g h v : reach fs f g -> In h fs -> In v (facePoints g) -> In v (facePoints h) -> reach fs f h.
Definition one_piece (fs : list face) : Prop := forall f g, In f fs -> In g fs -> reach fs f g.
(** every height from the lowest to the highest vertex is met by a face: nothing floats above the rest *)
Definition no_gap (fs : list face) : Prop := forall z v w, In v (vertices fs) -> In w (vertices fs) -> vz v <= z <= vz w ->
  exists f a b, In f fs /\ In a (facePoints f) /\ In b (facePoints f) /\ vz a <= z <= vz b.
(** A model of any number of pieces within 1 m of the origin of its file, with a face at every height, at least as high as the
    first layer, with vertices further apart than the meld distance. *)
Record printable (meld first : Z) (fs : list face) : Prop := Printable {
  p_some : fs <> [];
  p_near : Forall (vec_bounded (2 ^ 20)) (vertices fs);
  p_proper : Forall proper_face fs;
  p_apart : apart meld fs;
  p_gap : no_gap fs;
  p_high : exists v w, In v (vertices fs) /\ In w (vertices fs) /\ first <= vz w - vz v }.
