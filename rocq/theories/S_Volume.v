(** How much filament lines need, in real numbers. *)
From Coq Require Import Reals.
From Verif Require Import GoBase M_Micrometer M_Layer.
Local Open Scope R_scope.

(** micrometer in millimeter *)
Definition mm (z : Z) : R := IZR z / 1000.
(** the length of the line from a to b in millimeter *)
Definition distance (a b : pt) : R := sqrt (Rsqr (mm (px b - px a)) + Rsqr (mm (py b - py a))).
(** the length of the way from a along the points *)
Fixpoint way (a : pt) (l : list pt) : R := match l with [] => 0 | b :: l' => distance a b + way b l' end.
(** Filament (mm) for a line of the given length (mm): the volume of the line, a box of the given thickness and width
    (micrometer), times the multiplier (percent), divided by the area of a circle with the diameter (micrometer). *)
Definition filament (diameter multiplier thickness width : Z) (length : R) : R :=
  length * mm thickness * mm width * (IZR multiplier / 100) / (PI * Rsqr (mm diameter / 2)).
(** no line from a along the points is longer than 33 m in x or y *)
Fixpoint small_steps (a : pt) (l : list pt) : Prop :=
  match l with [] => True | b :: l' => (Z.abs (px b - px a) <= 2 ^ 25)%Z /\ (Z.abs (py b - py a) <= 2 ^ 25)%Z /\ small_steps b l' end.
(** the thickness of layer n *)
Definition thickness (o : options) (n : nat) : Z := match n with O => InitialLayerThickness (Print o) | _ => LayerThickness (Print o) end.
(** options up to 1 m (and 16777216 %) *)
Definition reasonable (o : options) : Prop :=
  (0 < FilamentDiameter (Filament o) <= 2 ^ 20)%Z /\ (0 <= ExtrusionMultiplier (Filament o) <= 2 ^ 24)%Z /\
  (0 <= InitialLayerThickness (Print o) <= 2 ^ 20)%Z /\ (0 <= LayerThickness (Print o) <= 2 ^ 20)%Z /\ (0 <= ExtrusionWidth (Printer o) <= 2 ^ 20)%Z.
