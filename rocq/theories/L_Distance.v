(** The distance of the infill lines, computed in double precision, is the exact quotient rounded down. *)
From Coq Require Import Reals Psatz.
From Verif Require Import GoBase GoFloat M_Render L_Float.
From Flocq Require Import Core BinarySingleNaN Relative.
Local Open Scope Z_scope.

Lemma rel64 x : (bpow radix2 (-1000) <= Rabs x)%R -> exists e, (Rabs e <= / 9007199254740992)%R /\ rnd64 x = (x * (1 + e))%R.
Proof.
  intros H. destruct (relative_error_N_FLT_ex radix2 (SpecFloat.emin 53 1024) 53 P53 (fun x => negb (Z.even x)) x) as (e & He & E).
  - rewrite emin53. apply Rle_trans with (2 := H). apply bpow_le. lia.
  - exists e. split; [|exact E]. apply Rle_trans with (1 := He). change (bpow radix2 (- (53) + 1)) with (/ 4503599627370496)%R. lra.
Qed.
Lemma ge_tiny x : (/ 2 ^ 60 <= x)%R -> (bpow radix2 (-1000) <= Rabs x)%R.
Proof.
  intros H. assert (0 < / 2 ^ 60)%R by (apply Rinv_0_lt_compat; lra). rewrite Rabs_pos_eq by lra. apply Rle_trans with (2 := H). replace (/ 2 ^ 60)%R with (bpow radix2 (-60)) by (cbn; lra). apply bpow_le. lia.
Qed.
Lemma lt_huge x : (0 <= x <= 2 ^ 60)%R -> (Rabs x < bpow radix2 1024)%R.
Proof. intros H. rewrite Rabs_pos_eq by lra. apply Rle_lt_trans with (2 ^ 60)%R; [lra|]. replace (2 ^ 60)%R with (bpow radix2 60) by (cbn; lra). apply bpow_lt. reflexivity. Qed.

Lemma fin_unique x y r : fin64 x r -> fin64 y r -> r <> 0%R -> x = y.
Proof.
  intros Fx Fy N. apply fin_inv in Fx, Fy. destruct Fx as (a & <- & Fa & Ra), Fy as (b & <- & Fb & Rb). f_equal.
  apply B2R_inj; [destruct a; try discriminate; [cbn in Ra; lra|reflexivity]|destruct b; try discriminate; [cbn in Rb; lra|reflexivity]|congruence].
Qed.
Lemma mul_exact a b : Z.abs a <= 2 ^ 53 -> Z.abs b <= 2 ^ 53 -> 1 <= Z.abs (a * b) <= 2 ^ 53 -> mul64f (f64_of_Z a) (f64_of_Z b) = f64_of_Z (a * b).
Proof.
  intros Ha Hb Hab. apply (fin_unique _ _ (IZR (a * b))); [|apply fin64_of_Z; lia|apply not_0_IZR; lia].
  assert (G : rnd64 (IZR (a * b)) = IZR (a * b)) by (apply round_generic; [typeclasses eauto|apply generic_int; [typeclasses eauto|lia|rewrite emin53; lia]]).
  rewrite <- G. rewrite mult_IZR in *. apply fin_mul; try typeclasses eauto; [apply fin64_of_Z; lia|apply fin64_of_Z; lia|]. rewrite G, <- mult_IZR, <- abs_IZR.
  apply Rle_lt_trans with (bpow radix2 53); [rewrite <- IZR_pow2 by lia; apply IZR_le; lia|apply bpow_lt; reflexivity].
Qed.
Lemma zero_times p : 1 <= p <= 2 ^ 53 -> mul64f (f64_of_Z 0) (f64_of_Z p) = f64_of_Z 0.
Proof.
  intros H. destruct (fin64_of_Z p ltac:(lia)) as (V & F & R). assert (P : (0 < IZR p)%R) by (apply IZR_lt; lia). destruct (f64_of_Z p) as [s|s| |s m e]; try discriminate; [cbn in R; lra|].
  destruct s; [|reflexivity]. exfalso. rewrite <- R in P. cbn in P. unfold F2R in P. cbn in P. pose proof (bpow_gt_0 radix2 e). pose proof (IZR_lt (Z.neg m) 0 eq_refl). nra.
Qed.
(** what the code computes from the number of lines times the percentage *)
Definition spacing (n : Z) : Z := int64_of_f64 (div64f (f64_of_Z 10000) (div64f (f64_of_Z n) (f64_of_Z 100))).
Lemma spacing_real n : 1 <= n <= 2 ^ 53 -> exists r, fin64 (div64f (f64_of_Z 10000) (div64f (f64_of_Z n) (f64_of_Z 100))) r /\
  (1000000 / IZR n * (1 - 3 / 9007199254740992) <= r <= 1000000 / IZR n * (1 + 3 / 9007199254740992))%R.
Proof.
  intros H. assert (Hn : (1 <= IZR n <= 9007199254740992)%R) by (split; apply IZR_le; lia).
  destruct (rel64 (IZR n / 100)) as (e1 & B1 & E1). { apply ge_tiny. lra. } apply Rabs_le_inv in B1.
  assert (Q1 : (/ 200 <= rnd64 (IZR n / 100) <= 2 ^ 58)%R) by (rewrite E1; split; nra).
  assert (F1 : fin64 (div64f (f64_of_Z n) (f64_of_Z 100)) (rnd64 (IZR n / 100))).
  { apply fin_div; try typeclasses eauto; [apply fin64_of_Z; lia|apply (fin64_of_Z 100); lia|lra|apply lt_huge; lra]. }
  set (q := rnd64 (IZR n / 100)) in *.
  assert (Qi : (10000 / q = 1000000 / IZR n * / (1 + e1))%R). { rewrite E1. field. split; lra. }
  assert (I1 : (1 - / 9007199254740992 <= / (1 + e1) <= 1 + 3 / 2 / 9007199254740992)%R).
  { split; [apply Rmult_le_reg_r with (1 + e1)%R|apply Rmult_le_reg_r with (1 + e1)%R]; try lra; rewrite Rinv_l by lra; nra. }
  assert (T : (1000000 / 9007199254740992 <= 1000000 / IZR n <= 1000000)%R).
  { split; [unfold Rdiv at 1 2; apply Rmult_le_compat_l; [lra|apply Rinv_le; lra]|]. unfold Rdiv. rewrite <- (Rmult_1_r 1000000) at 2. apply Rmult_le_compat_l; [lra|]. rewrite <- Rinv_1. apply Rinv_le; lra. }
  assert (Q2 : (/ 10000000000000 <= 10000 / q <= 2000000)%R). { rewrite Qi. set (t := (1000000 / IZR n)%R) in *. set (i := (/ (1 + e1))%R) in *. split; nra. }
  destruct (rel64 (10000 / q)) as (e2 & B2 & E2). { apply ge_tiny. apply Rle_trans with (2 := proj1 Q2). lra. } apply Rabs_le_inv in B2.
  exists (rnd64 (10000 / q)). split.
  - apply fin_div; try typeclasses eauto; [apply (fin64_of_Z 10000); lia|exact F1|lra|]. apply lt_huge. rewrite E2. split; nra.
  - rewrite E2, Qi. set (t := (1000000 / IZR n)%R) in *. set (i := (/ (1 + e1))%R) in *. assert (P : (1 - 3 / 9007199254740992 <= i * (1 + e2) <= 1 + 3 / 9007199254740992)%R) by (split; nra).
    rewrite Rmult_assoc. split; apply Rmult_le_compat_l; lra.
Qed.
Definition divisors : list Z := [1; 2; 4; 5; 8; 10; 16; 20; 25; 32; 40; 50; 64; 80; 100; 125; 160; 200; 250; 320; 400; 500; 625; 800; 1000; 1250; 1600; 2000; 2500; 3125; 4000; 5000; 6250; 8000; 10000; 12500; 15625; 20000; 25000; 31250; 40000; 50000; 62500; 100000; 125000; 200000; 250000; 500000; 1000000].
Lemma spacing_divisors : Forall (fun n => spacing n = 1000000 / n) divisors.
Proof. repeat constructor; vm_compute; reflexivity. Qed.
(** every divisor of 10^6 is in the list: n * m = 10^6 makes one of both at most 1000 *)
Lemma small_divisor n : 1 <= n <= 1000 -> 1000000 mod n = 0 -> In n divisors /\ In (1000000 / n) divisors.
Proof.
  intros H. assert (A : forallb (fun k => let n := Z.of_nat k in negb (1000000 mod n =? 0) || (existsb (Z.eqb n) divisors && existsb (Z.eqb (1000000 / n)) divisors)) (seq 1 1000) = true) by (vm_compute; reflexivity).
  rewrite forallb_forall in A. specialize (A (Z.to_nat n)). rewrite in_seq in A. specialize (A ltac:(lia)). cbn zeta in A. rewrite Z2Nat.id in A by lia.
  intros D. rewrite D in A. rewrite Z.eqb_refl in A. cbn [negb orb] in A. apply andb_true_iff in A. destruct A as [A B]. apply existsb_exists in A, B. destruct A as (x & Ix & Ex). destruct B as (y & Iy & Ey). apply Z.eqb_eq in Ex, Ey. subst. auto.
Qed.
Lemma in_divisors n : 1 <= n -> 1000000 mod n = 0 -> In n divisors.
Proof.
  intros H D. destruct (Z.le_gt_cases n 1000) as [L|G]; [apply small_divisor; lia|].
  pose proof (Z.div_mod 1000000 n ltac:(lia)) as E. rewrite D, Z.add_0_r in E. set (m := 1000000 / n) in *. assert (M : 1 <= m <= 1000) by nia.
  destruct (small_divisor m M) as (_ & I); [rewrite E, Z.mul_comm, Z.mul_comm; apply Z_mod_mult|]. replace (1000000 / m) with n in I; [exact I|]. rewrite E. symmetry. apply Z.div_mul. lia.
Qed.
Theorem spacing_exact n : 1 <= n <= 2 ^ 53 -> spacing n = 1000000 / n.
Proof.
  intros H. destruct (Z.eq_dec (1000000 mod n) 0) as [D|D].
  - pose proof (in_divisors n ltac:(lia) D) as I. exact (proj1 (Forall_forall _ _) spacing_divisors n I).
  - destruct (spacing_real n H) as (r & F & B).
    pose proof (Z.div_mod 1000000 n ltac:(lia)) as E. pose proof (Z.mod_pos_bound 1000000 n ltac:(lia)) as M. set (k := 1000000 / n) in *. set (s := 1000000 mod n) in *.
    assert (K : 0 <= k <= 1000000) by (unfold k; split; [apply Z.div_pos; lia|apply Z.div_le_upper_bound; nia]). clearbody k s.
    assert (Hn : (1 <= IZR n)%R) by (apply IZR_le; lia). assert (Hs : (1 <= IZR s <= IZR n - 1)%R) by (rewrite <- minus_IZR; split; apply IZR_le; lia).
    assert (T : (1000000 / IZR n = IZR k + IZR s * / IZR n)%R). { replace 1000000%R with (IZR (n * k + s)) by (rewrite <- E; reflexivity). rewrite plus_IZR, mult_IZR. field. lra. }
    assert (I : (0 < / IZR n <= 1)%R). { split; [apply Rinv_0_lt_compat; lra|]. rewrite <- Rinv_1. apply Rinv_le; lra. }
    assert (NI : (IZR n * / IZR n = 1)%R) by (apply Rinv_r; lra).
    assert (R : (IZR k < r < IZR k + 1)%R). { assert (X : (1000000 / IZR n = 1000000 * / IZR n)%R) by reflexivity. rewrite X in *. set (i := (/ IZR n)%R) in *. clearbody i. split; nra. }
    assert (Hk : (0 <= IZR k)%R) by (apply IZR_le; lia).
    assert (Tr : Ztrunc r = k). { rewrite Ztrunc_floor by lra. apply Zfloor_imp. rewrite plus_IZR. lra. }
    unfold spacing. rewrite (int64_of_f64_correct _ r F); rewrite Tr; [reflexivity|]. unfold int64. lia.
Qed.
