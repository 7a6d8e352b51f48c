(** Turning about the origin, in real numbers. *)
From Coq Require Import Reals.
From Verif Require Import GoBase GoFloat M_Micrometer M_Geom2D M_Clip L_Float.
Local Open Scope R_scope.

Definition radian (deg : Z) : R := IZR deg * PI / 180.
(** the coordinates of point p turned about (0|0) by the given angle, counterclockwise *)
Definition turned_x (deg : Z) (p : pt) : R := IZR (px p) * cos (radian deg) - IZR (py p) * sin (radian deg).
Definition turned_y (deg : Z) (p : pt) : R := IZR (px p) * sin (radian deg) + IZR (py p) * cos (radian deg).
(** q is p turned by the angle, but for rounding *)
Definition is_turned (deg : Z) (p q : pt) : Prop :=
  Rabs (IZR (px q) - turned_x deg p) <= 501 / 1000 /\ Rabs (IZR (py q) - turned_y deg p) <= 501 / 1000.

(** math.Sin and math.Cos: the results for angles up to 32 radians are at most 1 and differ by less than 2^-40 from
    sine and cosine. *)
Definition accurate (lib : clib) : Prop := forall a r, fin64 a r -> Rabs r <= 32 ->
  exists s c, fin64 (sine lib a) s /\ fin64 (cosine lib a) c /\ Rabs s <= 1 /\ Rabs c <= 1 /\
    Rabs (s - sin r) <= / 1099511627776 /\ Rabs (c - cos r) <= / 1099511627776.
