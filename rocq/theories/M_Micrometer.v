(** Model of data/data.go and data/micrometer.go. *)
From Verif Require Import GoBase GoFloat.
Local Open Scope Z_scope.

(** data/data.go:14-16  Millimeter.ToMicrometer
    (m*1000 is a float32 product, RoundToEven and the int64 conversion are in float64). *)
Definition ToMicrometer (m : f32) : Z := int64_of_rne (f64_of_f32 (mul32 m (f32_of_Z 1000))).

(** data/data.go:24-26  Micrometer.ToMillimeter (division in float64, then float32 conversion) *)
Definition ToMillimeter (m : Z) : f32 := f32_of_f64 (div64f (f64_of_Z m) (f64_of_Z 1000)).

(** data/data.go:21-22 *)
Definition MaxMicrometer : Z := maxInt64.
Definition MinMicrometer : Z := minInt64.

(** data/micrometer.go:75-77 (microVec3) and 251-253 (microPoint).
    The Go types are pointers, but every method used by the pipeline returns a new copy, so they are
    modelled as values.  The setters (114-124, 269-275) are record updates. *)
Record vec3 := V3 { vx : Z; vy : Z; vz : Z }.
Record pt := Pt { px : Z; py : Z }.

(** All coordinates are int64 values. *)
Definition wf_pt (p : pt) : Prop := int64 (px p) /\ int64 (py p).
Definition wf_vec3 (v : vec3) : Prop := int64 (vx v) /\ int64 (vy v) /\ int64 (vz v).

(** data/micrometer.go:88-100  Max, Min *)
Definition Max (a b : Z) : Z := if b <? a then a else b.
Definition Min (a b : Z) : Z := if a <? b then a else b.

(** data/micrometer.go:126-131 *)
Definition PointXY (v : vec3) : pt := Pt (vx v) (vy v).
(** data/micrometer.go:133-139 *)
Definition v3Add (v w : vec3) : vec3 := V3 (add64 (vx v) (vx w)) (add64 (vy v) (vy w)) (add64 (vz v) (vz w)).
(** data/micrometer.go:141-147 *)
Definition v3Sub (v w : vec3) : vec3 := V3 (sub64 (vx v) (vx w)) (sub64 (vy v) (vy w)) (sub64 (vz v) (vz w)).
(** data/micrometer.go:149-155 *)
Definition v3Mul (v : vec3) (k : Z) : vec3 := V3 (mul64 (vx v) k) (mul64 (vy v) k) (mul64 (vz v) k).
(** data/micrometer.go:157-163; division by zero panics *)
Definition v3Div (v : vec3) (k : Z) : res vec3 :=
  if k =? 0 then Panic "integer divide by zero"
  else Ok (V3 (quot64 (vx v) k) (quot64 (vy v) k) (quot64 (vz v) k)).
(** data/micrometer.go:165-173 *)
Definition v3Max (v : vec3) : Z :=
  if (vy v <? vx v) && (vz v <? vx v) then vx v
  else if vz v <? vy v then vy v else vz v.
(** data/micrometer.go:179-181 *)
Definition v3Size2 (v : vec3) : Z :=
  add64 (add64 (mul64 (vx v) (vx v)) (mul64 (vy v) (vy v))) (mul64 (vz v) (vz v)).
(** data/micrometer.go:175-177 *)
Definition v3ShorterThanOrEqual (v : vec3) (len : Z) : bool := v3Size2 v <=? mul64 len len.
(** data/micrometer.go:183-185 *)
Definition v3Size (v : vec3) : Z := int64_of_f64 (sqrt64f (f64_of_Z (v3Size2 v))).

(** data/micrometer.go:277-282 *)
Definition ptAdd (p q : pt) : pt := Pt (add64 (px p) (px q)) (add64 (py p) (py q)).
(** data/micrometer.go:284-289 *)
Definition ptSub (p q : pt) : pt := Pt (sub64 (px p) (px q)) (sub64 (py p) (py q)).
(** data/micrometer.go:291-296 *)
Definition ptMul (p : pt) (k : Z) : pt := Pt (mul64 (px p) k) (mul64 (py p) k).
(** data/micrometer.go:298-303 *)
Definition ptDiv (p : pt) (k : Z) : res pt :=
  if k =? 0 then Panic "integer divide by zero" else Ok (Pt (quot64 (px p) k) (quot64 (py p) k)).
(** data/2d.go:78-80; the constant math.Pi / 180 is the float64 next to it *)
Definition ToRadians (angle : f64) : f64 := mul64f angle (S754_finite false 5030569068109113 (-58)).
(** data/micrometer.go:305-314.  The results of math.Sin and math.Cos for the radian of the angle are parameters. *)
Definition ptRotate (sin cos : f64) (p : pt) : pt :=
  Pt (int64_of_rne (sub64f (mul64f (f64_of_Z (px p)) cos) (mul64f (f64_of_Z (py p)) sin)))
     (int64_of_rne (add64f (mul64f (f64_of_Z (px p)) sin) (mul64f (f64_of_Z (py p)) cos))).
(** data/micrometer.go:328-330 *)
Definition ptSize2 (p : pt) : Z := add64 (mul64 (px p) (px p)) (mul64 (py p) (py p)).
(** data/micrometer.go:319-326 *)
Definition ptShorterThanOrEqual (p : pt) (len : Z) : bool :=
  if (len <? px p) || (px p <? neg64 len) || (len <? py p) || (py p <? neg64 len) then false
  else ptSize2 p <=? mul64 len len.
(** data/micrometer.go:332-334 *)
Definition ptSize (p : pt) : Z := int64_of_f64 (sqrt64f (f64_of_Z (ptSize2 p))).
(** data/micrometer.go:336-340 *)
Definition ptSizeMM (p : pt) : f32 :=
  let x := ToMillimeter (px p) in
  let y := ToMillimeter (py p) in
  f32_of_f64 (sqrt64f (f64_of_f32 (add32 (mul32 x x) (mul32 y y)))).
