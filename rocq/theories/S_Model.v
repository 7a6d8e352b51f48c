(** Specification vocabulary for triangle meshes. *)
From Verif Require Import GoBase M_Micrometer M_Model S_Geom.
Local Open Scope Z_scope.

(** tight axis parallel box of a list of vertices *)
Definition tight_box3 (l : list vec3) (mn mx : vec3) : Prop :=
  (forall v, In v l -> vx mn <= vx v <= vx mx /\ vy mn <= vy v <= vy mx /\ vz mn <= vz v <= vz mx) /\
  (exists v, In v l /\ vx v = vx mn) /\ (exists v, In v l /\ vx v = vx mx) /\
  (exists v, In v l /\ vy v = vy mn) /\ (exists v, In v l /\ vy v = vy mx) /\
  (exists v, In v l /\ vz v = vz mn) /\ (exists v, In v l /\ vz v = vz mx).

(** coordinates up to [B] in absolute value *)
Definition vec_bounded (B : Z) (v : vec3) : Prop := Z.abs (vx v) <= B /\ Z.abs (vy v) <= B /\ Z.abs (vz v) <= B.

(** exact (unbounded) translation *)
Definition shift3 (v o : vec3) : vec3 := V3 (vx v + vx o) (vy v + vy o) (vz v + vz o).

(** point [p] is one of the three points of a face (given by point numbers) *)
Definition uses (t : Z * Z * Z) (p : Z) : Prop := let '(a, b, c) := t in p = a \/ p = b \/ p = c.
Definition same_set (t u : Z * Z * Z) : Prop := forall p, uses t p <-> uses u p.
Definition degenerate (t : Z * Z * Z) : Prop := let '(a, b, c) := t in a = b \/ a = c \/ b = c.
(** the k-th edge of a face *)
Definition edge (t : Z * Z * Z) (k : nat) : Z * Z :=
  let '(a, b, c) := t in match k with O => (a, b) | 1%nat => (b, c) | _ => (c, a) end.
Definition sel3 (t : Z * Z * Z) (k : nat) : Z :=
  let '(a, b, c) := t in match k with O => a | 1%nat => b | _ => c end.

(** the grid cell of a coordinate (grid width [m], shifted by half a cell; negative coordinates use their
    unsigned 64 bit reading) *)
Definition grid (m x : Z) : Z := (if x + m / 2 <? 0 then x + m / 2 + 2 ^ 64 else x + m / 2) / m.
Definition same_cell (m : Z) (v w : vec3) : Prop :=
  grid m (vx v) = grid m (vx w) /\ grid m (vy v) = grid m (vy w) /\ grid m (vz v) = grid m (vz w).

(** point numbers of a face under a numbering of vertices *)
Definition num3 (num : vec3 -> Z) (f : face) : Z * Z * Z := let '(a, b, c) := f in (num a, num b, num c).

(** the translation that puts a model with box mn..mx on the plate *)
Definition plate_offset (mn mx center : vec3) : vec3 :=
  V3 (Z.quot (vx mn + vx mx) 2 - vx center) (Z.quot (vy mn + vy mx) 2 - vy center) (vz mn - vz center).
