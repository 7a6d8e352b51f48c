(** Go's float32/float64 as the standard library's IEEE-754 specification floats.
    All operations round to nearest even after every step (amd64: no fused multiply-add). *)
From Coq Require Export SpecFloat.
From Verif Require Import GoBase.
Local Open Scope Z_scope.

Definition f32 := spec_float.
Definition f64 := spec_float.

(** The values a float32/float64 variable can hold. *)
Definition valid32 (x : f32) : bool := valid_binary 24 128 x.
Definition valid64 (x : f64) : bool := valid_binary 53 1024 x.

(** float64(i) for an int64 *)
Definition f64_of_Z (z : Z) : f64 := binary_normalize 53 1024 z 0 false.
(** float32(i) for an int64 or an integer constant *)
Definition f32_of_Z (z : Z) : f32 := binary_normalize 24 128 z 0 false.
Definition cond_opp (s : bool) (m : Z) : Z := if s then - m else m.
(** float32(x) for a float64 x *)
Definition f32_of_f64 (x : f64) : f32 :=
  match x with
  | S754_finite s m e => binary_normalize 24 128 (cond_opp s (Zpos m)) e s
  | _ => x
  end.
(** float64(x) for a float32 x (exact) *)
Definition f64_of_f32 (x : f32) : f64 :=
  match x with
  | S754_finite s m e => binary_normalize 53 1024 (cond_opp s (Zpos m)) e s
  | _ => x
  end.

Definition add32 (x y : f32) := SFadd 24 128 x y.
Definition sub32 (x y : f32) := SFsub 24 128 x y.
Definition mul32 (x y : f32) := SFmul 24 128 x y.
Definition div32 (x y : f32) := SFdiv 24 128 x y.
Definition add64f (x y : f64) := SFadd 53 1024 x y.
Definition sub64f (x y : f64) := SFsub 53 1024 x y.
Definition mul64f (x y : f64) := SFmul 53 1024 x y.
Definition div64f (x y : f64) := SFdiv 53 1024 x y.
Definition sqrt64f (x : f64) := SFsqrt 53 1024 x.

Definition feq (x y : spec_float) : bool := match SFcompare x y with Some Eq => true | _ => false end.
Definition flt (x y : spec_float) : bool := match SFcompare x y with Some Lt => true | _ => false end.
Definition fle (x y : spec_float) : bool := match SFcompare x y with Some Lt | Some Eq => true | _ => false end.

(** The exact value m * 2^e rounded to an integer: nearest even, and toward zero. *)
Definition rne_Z (m e : Z) : Z :=
  if 0 <=? e then m * 2 ^ e
  else let q := m / 2 ^ (- e) in
       let r := m mod 2 ^ (- e) in
       match (2 * r ?= 2 ^ (- e)) with
       | Lt => q
       | Gt => q + 1
       | Eq => if Z.even q then q else q + 1
       end.
Definition trunc_Z (m e : Z) : Z :=
  if 0 <=? e then m * 2 ^ e else Z.quot m (2 ^ (- e)).

(** int64(f): truncation toward zero; NaN, infinities and out-of-range values give MinInt64
    (amd64 CVTTSD2SQ; implementation-defined by the Go specification). *)
Definition clamp_int64 (z : Z) : Z := if (- 2 ^ 63 <=? z) && (z <? 2 ^ 63) then z else - 2 ^ 63.
Definition int64_of_f64 (x : f64) : Z :=
  match x with
  | S754_zero _ => 0
  | S754_finite s m e => clamp_int64 (trunc_Z (cond_opp s (Zpos m)) e)
  | _ => - 2 ^ 63
  end.
(** int64(math.RoundToEven(f)): RoundToEven is exact, so the two steps are one here. *)
Definition int64_of_rne (x : f64) : Z :=
  match x with
  | S754_zero _ => 0
  | S754_finite s m e => clamp_int64 (rne_Z (cond_opp s (Zpos m)) e)
  | _ => - 2 ^ 63
  end.

(** int64(-math.Round(f)): halves are rounded away from zero; Round and the sign change are exact. *)
Definition rha_Z (m e : Z) : Z := if 0 <=? e then m * 2 ^ e else (2 * m + 2 ^ (- e)) / (2 * 2 ^ (- e)).
Definition int64_of_neg_round (x : f64) : Z :=
  match x with
  | S754_zero _ => 0
  | S754_finite s m e => clamp_int64 (- cond_opp s (rha_Z (Zpos m) e))
  | _ => - 2 ^ 63
  end.

(** Decimal fixed point formatting: the exact value of [x] scaled by 10^k and rounded half to even
    (strconv.FormatFloat(x, 'f', k, _): correctly rounded decimal of the exact binary value).
    [None] for NaN/Inf. *)
Definition dec_scaled (k : Z) (x : spec_float) : option (bool * Z) :=
  match x with
  | S754_zero s => Some (s, 0)
  | S754_finite s m e => Some (s, rne_Z (Zpos m * 10 ^ k) e)
  | _ => None
  end.
