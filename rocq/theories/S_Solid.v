(** The inside of a surface made of triangles, with exact real numbers. *)
From Coq Require Import Reals.
From Verif Require Import GoBase M_Micrometer M_Geom2D M_Model S_Geom S_Model S_Slicer.
Local Open Scope R_scope.

Definition rpt : Type := R * R.
Definition exactly (p : pt) : rpt := (IZR (px p), IZR (py p)).

(** the ray from p in direction x crosses the line from a to b *)
Definition lower (y : R) (q : rpt) : bool := if Rlt_dec (snd q) y then true else false.
Definition crossed (p a b : rpt) : bool :=
  xorb (lower (snd p) a) (lower (snd p) b) &&
  (if Rlt_dec (fst p) (fst a + (snd p - snd a) / (snd b - snd a) * (fst b - fst a)) then true else false).
(** how often, modulo 2, the ray crosses the lines between neighbouring points *)
Fixpoint crossings (p : rpt) (l : list rpt) : bool :=
  match l with a :: (b :: _) as r => xorb (crossed p a b) (crossings p r) | _ => false end.
(** p is surrounded by the closed polygon c *)
Definition surrounded (c : path) (p : rpt) : bool := crossings p (map exactly (c ++ firstn 1 c)).

(** where the line from a to b passes the height z *)
Definition passes (z : Z) (a b : vec3) : rpt :=
  let t := (IZR z - IZR (vz a)) / (IZR (vz b) - IZR (vz a)) in
  (IZR (vx a) + t * (IZR (vx b) - IZR (vx a)), IZR (vy a) + t * (IZR (vy b) - IZR (vy a))).
(** the ray from p at height z in direction x hits the triangle; corners at height z count as above *)
Definition hit (z : Z) (p : rpt) (f : face) : bool :=
  match filter (fun e => xorb (vz (fst e) <? z)%Z (vz (snd e) <? z)%Z) (fedges f) with
  | [(a, b); (c, d)] => crossed p (passes z a b) (passes z c d)
  | _ => false
  end.
(** p at height z is inside the surface: the ray hits an odd number of triangles *)
Definition in_solid (fs : list face) (z : Z) (p : rpt) : bool := fold_right xorb false (map (hit z p) fs).

(** the point (x, y, z) belongs to the triangle *)
Definition on_face (f : face) (x y z : R) : Prop :=
  let '(a, b, c) := f in exists s t u, 0 <= s /\ 0 <= t /\ 0 <= u /\ s + t + u = 1 /\
    x = s * IZR (vx a) + t * IZR (vx b) + u * IZR (vx c) /\ y = s * IZR (vy a) + t * IZR (vy b) + u * IZR (vy c) /\
    z = s * IZR (vz a) + t * IZR (vz b) + u * IZR (vz c).
(** p is at least as far from the surface at height z as the diagonal of 1 um *)
Definition away (fs : list face) (z : Z) (p : rpt) : Prop :=
  forall f x y, In f fs -> on_face f x y (IZR z) -> 2 <= (x - fst p) ^ 2 + (y - snd p) ^ 2.

(** segment number t starts on the edge on which segment number s ends *)
Definition continues (z : Z) (fs : list face) (l : M_Slicer.slayer) (s t : Z) : Prop :=
  exists a b f g u v, idx (M_Slicer.lsegs l) s = Ok a /\ idx (M_Slicer.lsegs l) t = Ok b /\
    idx fs (M_Slicer.sface a) = Ok f /\ idx fs (M_Slicer.sface b) = Ok g /\
    In (u, v) (fedges f) /\ rises z (u, v) /\ In (v, u) (fedges g).
(** Segments of touching faces that do not meet are further than [meld] apart. *)
Definition unambiguous (z : Z) (fs : list face) (touch : Z -> res (Z * Z * Z)) (l : M_Slicer.slayer) (meld : Z) : Prop :=
  forall s t, follows touch l meld s t -> continues z fs l s t.

(** what simplifying may cut off: nothing, a triangle less than 5 um thick or one with two sides shorter than 10 um *)
Definition triangle_of (t : pt * pt * pt) : path := let '(a, c, n) := t in [a; c; n].
Definition sliver (t : pt * pt * pt) : Prop :=
  let '(a, c, n) := t in a = n \/ near_line 5 c a n \/ (dist2 a c < 100 /\ dist2 c n < 100)%Z.
(** the line in direction x at (y, z) does not touch the edge from u to v *)
Definition misses (z y : R) (u v : vec3) : Prop := forall t, 0 <= t <= 1 ->
  ~ (IZR (vz u) + t * (IZR (vz v) - IZR (vz u)) = z /\ IZR (vy u) + t * (IZR (vy v) - IZR (vy u)) = y).
