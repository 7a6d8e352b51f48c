(** The overlap in percent, computed in single precision, is exact for the usual widths. *)
From Coq Require Import Reals Psatz.
From Verif Require Import GoBase GoFloat M_Builder L_Float L_Extrude S_Modifier.
From Flocq Require Import Core BinarySingleNaN.
Local Open Scope Z_scope.

Lemma small24 z : Z.abs z <= 2 ^ 24 -> (Rabs (rnd32 (IZR z)) < bpow radix2 128)%R /\ rnd32 (IZR z) = IZR z.
Proof.
  intros H. assert (E : rnd32 (IZR z) = IZR z) by (apply round_generic; [auto with typeclass_instances|apply generic_int; [auto with typeclass_instances|exact H|easy]]).
  split; [|exact E]. rewrite E, <- abs_IZR. apply Rle_lt_trans with (bpow radix2 24); [|apply bpow_lt; reflexivity]. rewrite <- IZR_pow2 by lia. apply IZR_le, H.
Qed.
Lemma hundredth_pos x : 0 <= x <= 2 ^ 23 -> Ztrunc (rnd32 (IZR x / 100)) = x / 100 /\ (0 <= rnd32 (IZR x / 100) < 2 ^ 20)%R.
Proof.
  intros H. set (q := x / 100). set (r := x mod 100). assert (X : x = 100 * q + r) by exact (Z.div_mod x 100 ltac:(discriminate)).
  assert (R : 0 <= r < 100) by exact (Z.mod_pos_bound x 100 eq_refl). assert (Q : 0 <= q <= 83886) by (clearbody q r; lia).
  assert (E : (IZR x / 100 = IZR q + IZR r / 100)%R). { rewrite X, plus_IZR, mult_IZR. field. }
  assert (R' : (0 <= IZR r <= 99)%R). { split; apply IZR_le; lia. }
  assert (Lo : (IZR q <= rnd32 (IZR x / 100))%R).
  { apply Rle_trans with (rnd32 (IZR q)); [rewrite (proj2 (small24 q ltac:(lia))); lra|]. apply round_le; try typeclasses eauto. lra. }
  assert (Up : (rnd32 (IZR x / 100) <= IZR (128 * (q + 1) - 1) * / 128)%R).
  { assert (G : generic_format radix2 (SpecFloat.fexp 24 128) (IZR (128 * (q + 1) - 1) * / 128)).
    { apply (generic_format_FLT radix2 (SpecFloat.emin 24 128) 24). exists (Float radix2 (128 * (q + 1) - 1) (-7)).
      - unfold F2R; cbn [Fnum Fexp]. f_equal.
      - cbn [Fnum]. change (Zpower radix2 24) with 16777216. lia.
      - cbn [Fexp]. rewrite emin24. lia. }
    rewrite <- (round_generic radix2 (SpecFloat.fexp 24 128) ZnearestE (IZR (128 * (q + 1) - 1) * / 128) G).
    apply round_le; try typeclasses eauto. rewrite minus_IZR, mult_IZR, plus_IZR. lra. }
  assert (Q' : (0 <= IZR q <= 83886)%R). { split; apply IZR_le; lia. }
  rewrite minus_IZR, mult_IZR, plus_IZR in Up. split; [|lra].
  rewrite Ztrunc_floor by lra. apply Zfloor_imp. rewrite plus_IZR. lra.
Qed.
Lemma hundredth x : Z.abs x <= 2 ^ 23 -> Ztrunc (rnd32 (IZR x / 100)) = Z.quot x 100 /\ (Rabs (rnd32 (IZR x / 100)) < 2 ^ 20)%R.
Proof.
  intros H. destruct (Z.le_ge_cases 0 x) as [P|N].
  - destruct (hundredth_pos x) as (A & B); [lia|]. rewrite A, Z.quot_div_nonneg by lia. split; [reflexivity|]. rewrite Rabs_pos_eq; lra.
  - destruct (hundredth_pos (- x)) as (A & B); [lia|].
    assert (E : rnd32 (IZR x / 100) = (- rnd32 (IZR (- x) / 100))%R). { rewrite <- round_NE_opp. f_equal. rewrite opp_IZR. field. }
    rewrite E. rewrite Ztrunc_opp, A. replace x with (- - x) by lia. rewrite Z.quot_opp_l by lia. rewrite Z.opp_involutive. rewrite Z.quot_div_nonneg by lia. split; [reflexivity|]. rewrite Rabs_Ropp, Rabs_pos_eq; lra.
Qed.
Theorem amount_correct w p : amount_ok w p ->
  int_of_f32 (div32 (mul32 (f32_of_Z w) (sub32 (f32_of_Z 100) (f32_of_Z p))) (f32_of_Z 100)) = amount w p.
Proof.
  intros (Hw & Hp & Hx).
  assert (F1 : fin32 (sub32 (f32_of_Z 100) (f32_of_Z p)) (IZR (100 - p))).
  { destruct (small24 (100 - p)) as (A & B); [lia|]. rewrite <- B. rewrite minus_IZR in *. apply fin_sub; [typeclasses eauto|typeclasses eauto|apply fin32_of_Z; lia|apply fin32_of_Z; lia|exact A]. }
  assert (F2 : fin32 (mul32 (f32_of_Z w) (sub32 (f32_of_Z 100) (f32_of_Z p))) (IZR (w * (100 - p)))).
  { destruct (small24 (w * (100 - p))) as (A & B); [lia|]. rewrite <- B. rewrite mult_IZR in *. apply fin_mul; [typeclasses eauto|typeclasses eauto|apply fin32_of_Z; lia|exact F1|exact A]. }
  destruct (hundredth (w * (100 - p)) Hx) as (A & B).
  assert (B' : (Rabs (rnd32 (IZR (w * (100 - p)) / 100)) < bpow radix2 128)%R).
  { apply Rlt_trans with (2 ^ 20)%R; [exact B|]. replace (2 ^ 20)%R with (bpow radix2 20) by (cbn; lra). apply bpow_lt. reflexivity. }
  assert (F3 : fin32 (div32 (mul32 (f32_of_Z w) (sub32 (f32_of_Z 100) (f32_of_Z p))) (f32_of_Z 100)) (rnd32 (IZR (w * (100 - p)) / 100))).
  { apply fin_div; [typeclasses eauto|typeclasses eauto|exact F2|apply (fin32_of_Z 100); lia|lra|exact B']. }
  rewrite (speed_trunc _ _ F3); rewrite A; [reflexivity|]. unfold int64.
  assert (Z.abs (Z.quot (w * (100 - p)) 100) <= 2 ^ 23). { rewrite <- (Z.quot_abs) by lia. change (Z.abs 100) with 100. rewrite Z.quot_div_nonneg by lia. apply Z.div_le_upper_bound; lia. } lia.
Qed.
