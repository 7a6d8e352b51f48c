(** float64 addition of small integers is exact, as an equation between floats. *)
From Coq Require Import Reals Psatz.
From Verif Require Import GoBase GoFloat L_Float.
From Flocq Require Import Core BinarySingleNaN.
Local Open Scope Z_scope.

Lemma normal_int z : Z.abs z <= 2 ^ 53 ->
  exists b : binary_float 53 1024, B2SF b = f64_of_Z z /\ is_finite b = true /\ B2R b = IZR z /\ Bsign b = (z <? 0).
Proof.
  intros H. exists (binary_normalize 53 1024 P53 E53 mode_NE z 0 false).
  pose proof (fin64_of_Z z H) as (V & F & E).
  pose proof (normalize_equiv 53 1024 P53 E53 z 0 false) as N. fold (f64_of_Z z) in N.
  split; [auto|]. rewrite N in F, E. rewrite is_finite_SF_B2SF in F. rewrite SF2R_B2SF in E.
  split; [exact F|]. split; [exact E|].
  generalize (binary_normalize_correct 53 1024 P53 E53 mode_NE z 0 false). cbv zeta.
  assert (R : Rlt_bool (Rabs (round radix2 (SpecFloat.fexp 53 1024) (round_mode mode_NE) (F2R (Float radix2 z 0)))) (bpow radix2 1024) = true).
  { apply Rlt_bool_true. replace (F2R (Float radix2 z 0)) with (IZR z) by (unfold F2R; cbn; lra).
    rewrite round_generic; [|auto with typeclass_instances|apply generic_int; [auto with typeclass_instances|exact H|easy]].
    apply Rle_lt_trans with (bpow radix2 53); [|apply bpow_lt; reflexivity]. rewrite <- abs_IZR, <- IZR_pow2 by lia. apply IZR_le, H. }
  rewrite R. intros (_ & _ & S). rewrite S.
  replace (F2R (Float radix2 z 0)) with (IZR z) by (unfold F2R; cbn; lra).
  destruct (Z.ltb_spec z 0) as [L|L].
  - rewrite Rcompare_Lt; [reflexivity|apply IZR_lt, L].
  - destruct (Z.eq_dec z 0) as [-> |NZ]; [rewrite Rcompare_Eq; reflexivity|]. rewrite Rcompare_Gt; [reflexivity|apply IZR_lt; lia].
Qed.
Lemma add_int a b : Z.abs a <= 2 ^ 53 -> Z.abs b <= 2 ^ 53 -> Z.abs (a + b) <= 2 ^ 53 -> add64f (f64_of_Z a) (f64_of_Z b) = f64_of_Z (a + b).
Proof.
  intros Ha Hb Hc. destruct (normal_int a Ha) as (x & <- & Fx & Rx & Sx). destruct (normal_int b Hb) as (y & <- & Fy & Ry & Sy).
  destruct (normal_int (a + b) Hc) as (w & <- & Fw & Rw & Sw).
  unfold add64f. rewrite (add_equiv 53 1024 P53 E53). f_equal.
  generalize (Bplus_correct 53 1024 P53 E53 mode_NE x y Fx Fy). rewrite Rx, Ry, <- plus_IZR.
  rewrite round_generic; [|auto with typeclass_instances|apply generic_int; [auto with typeclass_instances|exact Hc|easy]].
  rewrite Rlt_bool_true.
  2:{ apply Rle_lt_trans with (bpow radix2 53); [|apply bpow_lt; reflexivity]. rewrite <- abs_IZR, <- IZR_pow2 by lia. apply IZR_le, Hc. }
  intros (R & F & S). apply B2R_Bsign_inj; [exact F|exact Fw|rewrite Rw; exact R|].
  rewrite S, Sw, Sx, Sy. destruct (Z.ltb_spec (a + b) 0).
  - rewrite Rcompare_Lt; [reflexivity|apply IZR_lt; assumption].
  - destruct (Z.eq_dec (a + b) 0) as [E|NZ].
    + rewrite E, Rcompare_Eq by reflexivity. destruct (Z.ltb_spec a 0), (Z.ltb_spec b 0); try reflexivity. lia.
    + rewrite Rcompare_Gt; [reflexivity|apply IZR_lt; lia].
Qed.
