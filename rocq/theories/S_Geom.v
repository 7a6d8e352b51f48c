(** Model-independent plane geometry on exact integers (no wrap-around), used in theorem statements. *)
From Verif Require Import GoBase M_Micrometer.
Local Open Scope Z_scope.

(** squared Euclidean distance, squared length, cross product of (b-a) and (p-a) *)
Definition dist2 (a b : pt) : Z := (px b - px a) ^ 2 + (py b - py a) ^ 2.
Definition norm2 (a : pt) : Z := px a ^ 2 + py a ^ 2.
Definition norm3 (v : vec3) : Z := vx v ^ 2 + vy v ^ 2 + vz v ^ 2.
Definition dist3 (v w : vec3) : Z := (vx v - vx w) ^ 2 + (vy v - vy w) ^ 2 + (vz v - vz w) ^ 2.
Definition cross (a b p : pt) : Z := (px b - px a) * (py p - py a) - (py b - py a) * (px p - px a).

(** [p] is at most [r] away from the line through a and b (from the point a, if a = b):
    the distance to the line is |cross| / |ab|. *)
Definition near_line (r : Z) (a b p : pt) : Prop :=
  (a = b -> dist2 a p <= r ^ 2) /\ (a <> b -> cross a b p ^ 2 <= r ^ 2 * dist2 a b).

(** order preserving selection *)
Inductive subseq {A} : list A -> list A -> Prop :=
| sub_nil : subseq [] []
| sub_keep x l m : subseq l m -> subseq (x :: l) (x :: m)
| sub_skip x l m : subseq l m -> subseq l (x :: m).

(** [simplifies ok pts out]: [out] is [pts] with some points removed, where each removed point [p] lies
    between two consecutive remaining points [a], [b] with [ok a b p]; the end points remain. *)
Inductive simplifies (ok : pt -> pt -> pt -> Prop) : list pt -> list pt -> Prop :=
| simp_one a : simplifies ok [a] [a]
| simp_step a removed b rest out :
    (forall p, In p removed -> ok a b p) ->
    simplifies ok (b :: rest) (b :: out) ->
    simplifies ok (a :: removed ++ b :: rest) (a :: b :: out).

(** tight bounding box of a non-empty list of points *)
Definition tight_box (l : list pt) (mn mx : pt) : Prop :=
  (forall p, In p l -> px mn <= px p <= px mx /\ py mn <= py p <= py mx) /\
  (exists p, In p l /\ px p = px mn) /\ (exists p, In p l /\ px p = px mx) /\
  (exists p, In p l /\ py p = py mn) /\ (exists p, In p l /\ py p = py mx).
