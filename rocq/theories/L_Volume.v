(** Relative errors of the float computations of the extrusion. *)
From Coq Require Import Reals Psatz Machin Ratan AltSeries.
From Verif Require Import GoBase GoFloat M_Micrometer M_Clip M_Builder S_Builder S_Volume L_Float L_Micrometer L_Extrude.
From Flocq Require Import Core BinarySingleNaN Relative Round_NE.
Local Open Scope R_scope.

Local Instance Hp24 : Prec_gt_0 24 := eq_refl.
Local Instance He24 : Prec_lt_emax 24 128 := eq_refl.
Local Instance Hp53 : Prec_gt_0 53 := eq_refl.
Local Instance He53 : Prec_lt_emax 53 1024 := eq_refl.
Local Instance VE24 : Valid_exp (SpecFloat.fexp 24 128) := fexp_correct 24 128 Hp24.
Local Instance VE53 : Valid_exp (SpecFloat.fexp 53 1024) := fexp_correct 53 1024 Hp53.

Lemma PI_near : 3.14159257 <= PI <= 3.14159269.
Proof.
  pose proof (PI_2_3_7_ineq 3) as [L U]. change (S (2 * 3)) with 7%nat in L. change (2 * 3)%nat with 6%nat in U.
  cbv [sum_f_R0] in L, U. cbv [tg_alt PI_2_3_7_tg Ratan_seq] in L, U. simpl in L, U. lra.
Qed.

Definition v := / 8388608.
Definition lo (k : nat) := (1 - v) ^ k.
Definition hi (k : nat) := (1 + v) ^ k.
Lemma v_pos : 0 < v < / 8000000. Proof. unfold v. lra. Qed.
Lemma lo_pos k : 0 < lo k. Proof. apply pow_lt. unfold v. lra. Qed.
Lemma hi_pos k : 0 < hi k. Proof. apply pow_lt. unfold v. lra. Qed.
Lemma lo_le1 k : lo k <= 1. Proof. unfold lo. apply Rle_trans with (1 ^ k); [apply pow_incr; unfold v; lra|rewrite pow1; lra]. Qed.
Lemma hi_ge1 k : 1 <= hi k. Proof. apply pow_R1_Rle. unfold v. lra. Qed.
Lemma lo_add a b : lo (a + b) = lo a * lo b. Proof. apply pow_add. Qed.
Lemma hi_add a b : hi (a + b) = hi a * hi b. Proof. apply pow_add. Qed.
Lemma lo_hi k : 1 <= lo k * hi (2 * k).
Proof. induction k as [|k IH]; [change (2 * 0)%nat with 0%nat; unfold lo, hi; cbn [pow]; lra|]. replace (2 * S k)%nat with (2 + 2 * k)%nat by lia. rewrite hi_add. unfold lo in *. cbn [pow]. pose proof (hi_pos (2 * k)). pose proof (lo_pos k). unfold lo in *.
  assert (1 <= (1 - v) * hi 2) by (unfold hi, v; cbn [pow]; lra). apply Rle_trans with ((1 - v) * hi 2 * ((1 - v) ^ k * hi (2 * k))); [|right; ring]. apply Rle_trans with (1 * 1); [lra|]. apply Rmult_le_compat; lra. Qed.
Lemma hi_lo k : lo k * hi k <= 1.
Proof. unfold lo, hi. rewrite <- Rpow_mult_distr. apply Rle_trans with (1 ^ k); [apply pow_incr; unfold v; lra|rewrite pow1; lra]. Qed.

Definition rel (k : nat) (x r : R) : Prop := 0 <= r /\ r * lo k <= x <= r * hi k.
Lemma rel_pos k x r : rel k x r -> 0 <= x.
Proof. intros (H & H1 & _). eapply Rle_trans; [|exact H1]. apply Rmult_le_pos; [exact H|]. left. apply lo_pos. Qed.
Lemma rel_refl r : 0 <= r -> rel 0 r r.
Proof. intros H. unfold rel, lo, hi. cbn [pow]. lra. Qed.
Lemma rel_weaken k k' x r : (k <= k')%nat -> rel k x r -> rel k' x r.
Proof.
  intros L (H & H1 & H2). split; [exact H|]. replace k' with (k + (k' - k))%nat by lia. rewrite lo_add, hi_add. split.
  - eapply Rle_trans; [|exact H1]. apply Rmult_le_compat_l; [exact H|]. pose proof (lo_le1 (k' - k)). pose proof (lo_pos k). pose proof (lo_pos (k' - k)). nra.
  - eapply Rle_trans; [exact H2|]. apply Rmult_le_compat_l; [exact H|]. pose proof (hi_ge1 (k' - k)). pose proof (hi_pos k). nra.
Qed.
Lemma rel_mul k k' x r y s : rel k x r -> rel k' y s -> rel (k + k') (x * y) (r * s).
Proof.
  intros A B. pose proof (rel_pos _ _ _ A). pose proof (rel_pos _ _ _ B). destruct A as (A & A1 & A2), B as (B & B1 & B2). pose proof (lo_pos k). pose proof (lo_pos k').
  split; [apply Rmult_le_pos; assumption|]. rewrite lo_add, hi_add. split.
  - apply Rle_trans with ((r * lo k) * (s * lo k')); [right; ring|]. apply Rmult_le_compat; try assumption; apply Rmult_le_pos; lra.
  - apply Rle_trans with ((r * hi k) * (s * hi k')); [|right; ring]. apply Rmult_le_compat; assumption.
Qed.
Lemma rel_inv k y s : 0 < s -> rel k y s -> 0 < y /\ rel (2 * k) (/ y) (/ s).
Proof.
  intros S (_ & B1 & B2). pose proof (lo_pos k). pose proof (hi_pos k). assert (Y : 0 < y) by (eapply Rlt_le_trans; [|exact B1]; apply Rmult_lt_0_compat; assumption).
  split; [exact Y|]. split; [left; apply Rinv_0_lt_compat, S|]. split.
  - apply Rle_trans with (/ s * lo k); [apply Rmult_le_compat_l; [left; apply Rinv_0_lt_compat, S|]; replace (2 * k)%nat with (k + k)%nat by lia; rewrite lo_add; pose proof (lo_le1 k); nra|].
    apply Rmult_le_reg_r with (y * s); [apply Rmult_lt_0_compat; assumption|]. replace (/ s * lo k * (y * s)) with (lo k * y) by (field; lra). replace (/ y * (y * s)) with s by (field; lra).
    pose proof (hi_lo k). apply Rle_trans with (lo k * (s * hi k)); [apply Rmult_le_compat_l; lra|]. nra.
  - apply Rmult_le_reg_r with (y * s); [apply Rmult_lt_0_compat; assumption|]. replace (/ s * hi (2 * k) * (y * s)) with (hi (2 * k) * y) by (field; lra). replace (/ y * (y * s)) with s by (field; lra).
    pose proof (lo_hi k). pose proof (hi_pos (2 * k)). apply Rle_trans with (hi (2 * k) * (s * lo k)); [nra|]. apply Rmult_le_compat_l; lra.
Qed.
Lemma rel_div k k' x r y s : 0 < s -> rel k x r -> rel k' y s -> rel (k + 2 * k') (x / y) (r / s).
Proof. intros S A B. apply rel_mul; [exact A|]. apply rel_inv; assumption. Qed.
Lemma rel_add k x r y s : rel k x r -> rel k y s -> rel k (x + y) (r + s).
Proof. intros (A & A1 & A2) (B & B1 & B2). split; [lra|]. rewrite !Rmult_plus_distr_r. lra. Qed.
Lemma rel_sqrt k x r : rel k x r -> rel k (sqrt x) (sqrt r).
Proof.
  intros A. pose proof (rel_pos _ _ _ A). destruct A as (A & A1 & A2). split; [apply sqrt_pos|]. pose proof (lo_pos k). pose proof (hi_pos k). pose proof (lo_le1 k). pose proof (hi_ge1 k). pose proof (sqrt_pos r). split.
  - apply Rle_trans with (sqrt (r * lo k)); [|apply sqrt_le_1; [apply Rmult_le_pos; lra|assumption..]]. rewrite sqrt_mult by lra. apply Rmult_le_compat_l; [assumption|].
    rewrite <- (sqrt_Rsqr (lo k)) at 1 by lra. apply sqrt_le_1; unfold Rsqr; nra.
  - apply Rle_trans with (sqrt (r * hi k)); [apply sqrt_le_1; [assumption|apply Rmult_le_pos; lra|assumption]|]. rewrite sqrt_mult by lra. apply Rmult_le_compat_l; [assumption|].
    rewrite <- (sqrt_Rsqr (hi k)) at 2 by lra. apply sqrt_le_1; unfold Rsqr; nra.
Qed.

(** magnitudes *)
Definition mid (e : Z) (r : R) : Prop := r = 0 \/ bpow radix2 (- e) <= r <= bpow radix2 e.
Lemma mid_mul a b r s : mid a r -> mid b s -> mid (a + b) (r * s).
Proof.
  intros [->|A] [->|B]; try (left; ring). right. rewrite Z.opp_add_distr, !bpow_plus. pose proof (bpow_gt_0 radix2 (- a)). pose proof (bpow_gt_0 radix2 (- b)).
  split; apply Rmult_le_compat; lra.
Qed.
Lemma mid_inv b s : 0 < s -> mid b s -> mid b (/ s).
Proof.
  intros S [->|B]; [lra|]. right. pose proof (bpow_gt_0 radix2 (- b)). split.
  - rewrite bpow_opp. apply Rinv_le; lra.
  - replace b with (- - b)%Z at 1 by lia. rewrite bpow_opp. apply Rinv_le; lra.
Qed.
Lemma mid_div a b r s : 0 < s -> mid a r -> mid b s -> mid (a + b) (r / s).
Proof. intros S A B. apply mid_mul; [exact A|]. apply mid_inv; assumption. Qed.
Lemma mid_add a r s : (0 <= a)%Z -> mid a r -> mid a s -> mid (a + 1) (r + s).
Proof.
  intros Ha. pose proof (bpow_gt_0 radix2 a). pose proof (bpow_gt_0 radix2 (- a)). unfold mid. rewrite Z.opp_add_distr, !bpow_plus. change (bpow radix2 1) with 2. change (bpow radix2 (- (1))) with (/ 2).
  intros [->|A] [->|B]; [left; ring| | |]; right; lra.
Qed.
Lemma mid_sqrt a r : (0 <= a)%Z -> mid a r -> mid a (sqrt r).
Proof.
  intros Ha [->|A]; [left; apply sqrt_0|]. right. pose proof (bpow_gt_0 radix2 (- a)). assert (1 <= bpow radix2 a) by (change 1 with (bpow radix2 0); apply bpow_le; lia).
  assert (bpow radix2 (- a) <= 1) by (change 1 with (bpow radix2 0); apply bpow_le; lia). split.
  - rewrite <- (sqrt_Rsqr (bpow radix2 (- a))) by lra. apply sqrt_le_1; unfold Rsqr; nra.
  - rewrite <- (sqrt_Rsqr (bpow radix2 a)) by lra. apply sqrt_le_1; unfold Rsqr; nra.
Qed.
Lemma small_k k : (k <= 99)%nat -> / 2 <= lo k /\ hi k <= 2.
Proof.
  intros H. assert (L : 1 - INR k * v <= lo k). { clear H. induction k as [|k IH]; [unfold lo; cbn [pow INR]; lra|]. rewrite S_INR. unfold lo in *. cbn [pow]. pose proof (pos_INR k). pose proof v_pos. nra. }
  assert (U : lo k * hi k <= 1) by apply hi_lo. assert (INR k <= 99) by (rewrite INR_IZR_INZ; apply IZR_le; lia). pose proof v_pos. pose proof (pos_INR k).
  assert (/ 2 <= lo k) by nra. split; [assumption|]. pose proof (hi_pos k). nra.
Qed.

Section Round.
Variables prec emax : Z.
Context (Hp : Prec_gt_0 prec) (He : Prec_lt_emax prec emax).
Hypothesis P24 : (24 <= prec)%Z.
Hypothesis E128 : (SpecFloat.emin prec emax + prec <= -125)%Z.
Hypothesis M128 : (128 <= emax)%Z.
Notation rnd := (round radix2 (SpecFloat.fexp prec emax) ZnearestE).
Local Instance VE : Valid_exp (SpecFloat.fexp prec emax) := fexp_correct prec emax Hp.
Lemma rel_rnd k e x r : (k <= 98)%nat -> (0 <= e <= 120)%Z -> rel k x r -> mid e r -> rel (S k) (rnd x) r /\ Rabs (rnd x) < bpow radix2 emax.
Proof.
  intros Hk He' A M. pose proof (small_k k ltac:(lia)) as (L & U). pose proof (rel_pos _ _ _ A) as X. destruct M as [->|M].
  - assert (x = 0) as -> by (destruct A as (_ & A1 & A2); lra). rewrite round_0 by typeclasses eauto. split; [unfold rel; lra|]. rewrite Rabs_R0. apply bpow_gt_0.
  - assert (Bx : bpow radix2 (-121) <= x <= bpow radix2 121).
    { destruct A as (A0 & A1 & A2). assert (bpow radix2 (-120) <= r <= bpow radix2 120). { split; [eapply Rle_trans; [|apply M]|eapply Rle_trans; [apply M|]]; apply bpow_le; lia. }
      replace (bpow radix2 (-121)) with (bpow radix2 (-120) * / 2) by (change (/ 2) with (bpow radix2 (-1)); rewrite <- bpow_plus; reflexivity).
      replace (bpow radix2 121) with (bpow radix2 120 * 2) by (change 2 with (bpow radix2 1); rewrite <- bpow_plus; reflexivity). pose proof (bpow_gt_0 radix2 (-120)). split; nra. }
    destruct (relative_error_N_FLT_ex radix2 (SpecFloat.emin prec emax) prec Hp (fun x => negb (Z.even x)) x) as (eps & Heps & E).
    { rewrite Rabs_pos_eq by exact X. eapply Rle_trans; [|apply Bx]. apply bpow_le. lia. }
    change (round radix2 (FLT_exp (SpecFloat.emin prec emax) prec) (Znearest (fun x => negb (Z.even x))) x) with (rnd x) in E.
    assert (Hv : Rabs eps <= v). { eapply Rle_trans; [exact Heps|]. apply Rle_trans with (/ 2 * bpow radix2 (-23)); [apply Rmult_le_compat_l; [lra|]; apply bpow_le; lia|]. unfold v. simpl. lra. }
    apply Rabs_le_inv in Hv. pose proof v_pos. rewrite E. split.
    + assert (A' := A). destruct A as (A0 & A1 & A2). split; [exact A0|]. replace (S k) with (k + 1)%nat by lia. rewrite lo_add, hi_add. unfold lo at 2, hi at 2. cbn [pow]. rewrite !Rmult_1_r. split.
      * rewrite <- Rmult_assoc. apply Rmult_le_compat; try lra. apply Rmult_le_pos; [lra|]. left; apply lo_pos.
      * rewrite <- Rmult_assoc. apply Rmult_le_compat; lra.
    + rewrite Rabs_pos_eq by (apply Rmult_le_pos; lra). apply Rle_lt_trans with (bpow radix2 121 * 2); [apply Rmult_le_compat; lra|]. replace (bpow radix2 121 * 2) with (bpow radix2 122) by (change 122%Z with (121 + 1)%Z; rewrite bpow_plus; reflexivity). apply bpow_lt. lia.
Qed.
End Round.

(** *** floats *)
Definition approx (k : nat) (e : Z) (x : f32) (r : R) : Prop := exists a, fin32 x a /\ rel k a r /\ mid e r.
Lemma round32 k e x r : (k <= 98)%nat -> (0 <= e <= 120)%Z -> rel k x r -> mid e r -> rel (S k) (rnd32 x) r /\ Rabs (rnd32 x) < bpow radix2 128.
Proof. apply rel_rnd; auto with typeclass_instances; try lia; rewrite ?emin24; lia. Qed.
Lemma round64 k e x r : (k <= 98)%nat -> (0 <= e <= 120)%Z -> rel k x r -> mid e r -> rel (S k) (rnd64 x) r /\ Rabs (rnd64 x) < bpow radix2 1024.
Proof. apply rel_rnd; auto with typeclass_instances; try lia; rewrite ?emin53; lia. Qed.
Lemma approx_mul k e x r k' e' y s : (k + k' <= 98)%nat -> (0 <= e + e' <= 120)%Z -> approx k e x r -> approx k' e' y s -> approx (S (k + k')) (e + e') (mul32 x y) (r * s).
Proof.
  intros K E (a & Fa & Ra & Ma) (b & Fb & Rb & Mb). pose proof (mid_mul _ _ _ _ Ma Mb) as M. destruct (round32 _ _ _ _ K E (rel_mul _ _ _ _ _ _ Ra Rb) M) as [R B].
  exists (rnd32 (a * b)). split; [|split; [exact R|exact M]]. apply fin_mul; auto with typeclass_instances.
Qed.
Lemma approx_div k e x r k' e' y s : 0 < s -> (k + 2 * k' <= 98)%nat -> (0 <= e + e' <= 120)%Z -> approx k e x r -> approx k' e' y s -> approx (S (k + 2 * k')) (e + e') (div32 x y) (r / s).
Proof.
  intros S K E (a & Fa & Ra & Ma) (b & Fb & Rb & Mb). pose proof (mid_div _ _ _ _ S Ma Mb) as M. destruct (round32 _ _ _ _ K E (rel_div _ _ _ _ _ _ S Ra Rb) M) as [R B].
  exists (rnd32 (a / b)). split; [|split; [exact R|exact M]]. apply fin_div; auto with typeclass_instances. apply Rgt_not_eq. exact (proj1 (rel_inv _ _ _ S Rb)).
Qed.
Lemma approx_add k e x r y s : (k <= 98)%nat -> (0 <= e <= 119)%Z -> approx k e x r -> approx k e y s -> approx (S k) (e + 1) (add32 x y) (r + s).
Proof.
  intros K E (a & Fa & Ra & Ma) (b & Fb & Rb & Mb). pose proof (mid_add _ _ _ (proj1 E) Ma Mb) as M. destruct (round32 k (e + 1) _ _ K ltac:(lia) (rel_add _ _ _ _ _ Ra Rb) M) as [R B].
  exists (rnd32 (a + b)). split; [|split; [exact R|exact M]]. apply fin_add; auto with typeclass_instances.
Qed.
Lemma bp n : (0 <= n)%Z -> bpow radix2 n = IZR (2 ^ n). Proof. apply bpow_val. Qed.
Lemma approx_int z : (0 <= z <= 2 ^ 24)%Z -> approx 0 24 (f32_of_Z z) (IZR z).
Proof.
  intros H. exists (IZR z). split; [apply fin32_of_Z; lia|]. split; [apply rel_refl, IZR_le; lia|]. destruct (Z.eq_dec z 0) as [->|N]; [left; reflexivity|]. right.
  split; [apply Rle_trans with 1; [change 1 with (bpow radix2 0); apply bpow_le; lia|apply IZR_le; lia]|rewrite bp by lia; apply IZR_le; lia].
Qed.
Lemma mid_mm m : (0 <= m <= 2 ^ 25)%Z -> mid 16 (IZR m / 1000).
Proof.
  intros H. destruct (Z.eq_dec m 0) as [->|N]; [left; lra|]. right. assert (1 <= IZR m <= 33554432) by (split; apply IZR_le; lia).
  rewrite bpow_neg, bp by lia. change (2 ^ 16)%Z with 65536%Z. lra.
Qed.
(** ToMillimeter, also of negative values *)
Lemma mm_signed m : (Z.abs m <= 2 ^ 25)%Z -> exists a, fin32 (ToMillimeter m) a /\ rel 2 (Rabs a) (IZR (Z.abs m) / 1000).
Proof.
  intros H. assert (Pz : (0 <= Z.abs m)%Z) by lia. assert (M : mid 16 (IZR (Z.abs m) / 1000)) by (apply mid_mm; lia).
  assert (R0 : rel 0 (IZR (Z.abs m) / 1000) (IZR (Z.abs m) / 1000)) by (apply rel_refl; apply IZR_le in Pz; lra).
  assert (A : Rabs (IZR m / 1000) = IZR (Z.abs m) / 1000) by (unfold Rdiv; rewrite Rabs_mult, <- abs_IZR, (Rabs_pos_eq (/ 1000)) by lra; reflexivity).
  destruct (round64 0 16 _ _ ltac:(lia) ltac:(lia) R0 M) as [R1 B1]. destruct (round32 1 16 _ _ ltac:(lia) ltac:(lia) R1 M) as [R2 B2].
  rewrite <- A in R1, B1, R2, B2. rewrite round_NE_abs in R1, B1, R2, B2 by typeclasses eauto. rewrite round_NE_abs in R2, B2 by typeclasses eauto. rewrite Rabs_Rabsolu in B1, B2.
  assert (D : fin64 (div64f (f64_of_Z m) (f64_of_Z 1000)) (rnd64 (IZR m / 1000))).
  { apply fin_div; auto with typeclass_instances; try lra. - apply fin64_of_Z; lia. - apply (fin64_of_Z 1000); cbn; lia. }
  exists (rnd32 (rnd64 (IZR m / 1000))). split; [unfold ToMillimeter; apply fin32_of_f64; [exact D|exact B2]|]. rewrite <- A. exact R2.
Qed.
Lemma approx_mm m : (0 <= m <= 2 ^ 25)%Z -> approx 2 16 (ToMillimeter m) (IZR m / 1000).
Proof.
  intros H. destruct (mm_signed m ltac:(lia)) as (a & Fa & Ra). rewrite Z.abs_eq in Ra by lia. exists a. split; [exact Fa|]. split; [|apply mid_mm; exact H].
  assert (P : plus (ToMillimeter m)) by (apply plus_mm; lia). apply plus_ge0 in P. destruct Fa as (_ & _ & <-). rewrite Rabs_pos_eq in Ra by exact P. exact Ra.
Qed.
Lemma approx_square m : (Z.abs m <= 2 ^ 25)%Z -> approx 5 32 (mul32 (ToMillimeter m) (ToMillimeter m)) (Rsqr (IZR m / 1000)).
Proof.
  intros H. destruct (mm_signed m H) as (a & Fa & Ra). pose proof (mid_mm (Z.abs m) ltac:(lia)) as M.
  pose proof (rel_mul _ _ _ _ _ _ Ra Ra) as R. rewrite <- Rabs_mult, Rabs_pos_eq in R by nra. assert (E : IZR (Z.abs m) / 1000 * (IZR (Z.abs m) / 1000) = Rsqr (IZR m / 1000)).
  { unfold Rsqr. rewrite abs_IZR. unfold Rabs. destruct (Rcase_abs (IZR m)); field. }
  pose proof (mid_mul _ _ _ _ M M) as MM. destruct (round32 (2 + 2) (16 + 16) _ _ ltac:(lia) ltac:(lia) R MM) as [R' B]. exists (rnd32 (a * a)). rewrite E in *. split; [|split; [exact R'|exact MM]].
  apply fin_mul; auto with typeclass_instances.
Qed.
Lemma approx_size p : (Z.abs (px p) <= 2 ^ 25)%Z -> (Z.abs (py p) <= 2 ^ 25)%Z -> approx 8 33 (ptSizeMM p) (sqrt (Rsqr (IZR (px p) / 1000) + Rsqr (IZR (py p) / 1000))).
Proof.
  intros X Y. destruct (approx_add 5 32 _ _ _ _ ltac:(lia) ltac:(lia) (approx_square _ X) (approx_square _ Y)) as (a & Fa & Ra & Ma).
  pose proof (rel_sqrt _ _ _ Ra) as Rs. pose proof (mid_sqrt (32 + 1) _ ltac:(lia) Ma) as Ms. destruct (round64 6 33 _ _ ltac:(lia) ltac:(lia) Rs Ms) as [R1 B1]. destruct (round32 7 33 _ _ ltac:(lia) ltac:(lia) R1 Ms) as [R2 B2].
  exists (rnd32 (rnd64 (sqrt a))). split; [|split; [exact R2|exact Ms]]. unfold ptSizeMM. apply fin32_of_f64; [|exact B2]. apply fin_sqrt; auto with typeclass_instances; [apply fin64_of_f32, Fa|exact (rel_pos _ _ _ Ra)].
Qed.
Lemma approx_pi : approx 1 2 pi32 PI.
Proof.
  exists (13176795 / 4194304). pose proof PI_near. split; [|split].
  - split; [reflexivity|]. split; [reflexivity|]. unfold pi32. cbn [SF2R]. unfold F2R. cbn [Fnum Fexp cond_Zopp]. change (bpow radix2 (-22)) with (bpow radix2 (Z.opp 22)). rewrite (bpow_neg 22) by lia. reflexivity.
  - unfold rel, lo, hi, v. cbn [pow]. lra.
  - right. rewrite bpow_neg, bp by lia. change (2 ^ 2)%Z with 4%Z. lra.
Qed.
Lemma mid_weaken e e' r : (e <= e')%Z -> mid e r -> mid e' r.
Proof. intros L [->|M]; [left; reflexivity|right]. split; [eapply Rle_trans; [|apply M]|eapply Rle_trans; [apply M|]]; apply bpow_le; lia. Qed.
Lemma approx_mm20 m : (0 <= m <= 2 ^ 20)%Z -> approx 2 11 (ToMillimeter m) (IZR m / 1000).
Proof.
  intros H. destruct (approx_mm m ltac:(lia)) as (a & F & R & _). exists a. split; [exact F|]. split; [exact R|].
  destruct (Z.eq_dec m 0) as [->|N]; [left; lra|]. right. assert (1 <= IZR m <= 1048576) by (split; apply IZR_le; lia).
  rewrite bpow_neg, bp by lia. change (2 ^ 11)%Z with 2048%Z. lra.
Qed.
Lemma approx_permm d m t w : (0 < d <= 2 ^ 20)%Z -> (0 <= m <= 2 ^ 24)%Z -> (0 <= t <= 2 ^ 20)%Z -> (0 <= w <= 2 ^ 20)%Z ->
  approx 26 79 (extrusion_per_mm d m t w) ((mm t * mm w) / (PI * (mm d / 2) * (mm d / 2)) * (IZR m / 100)).
Proof.
  intros D M T W. pose proof PI_near as Pi. unfold mm.
  assert (D0 : 0 < IZR d) by (apply IZR_lt; lia).
  assert (A2 : approx 0 1 (f32_of_Z 2) 2). { exists 2. split; [apply (fin32_of_Z 2); cbn; lia|]. split; [apply rel_refl; lra|]. right. rewrite bpow_neg, bp by lia. change (2 ^ 1)%Z with 2%Z. lra. }
  assert (A100 : approx 0 7 (f32_of_Z 100) 100). { exists 100. split; [apply (fin32_of_Z 100); cbn; lia|]. split; [apply rel_refl; lra|]. right. rewrite bpow_neg, bp by lia. change (2 ^ 7)%Z with 128%Z. lra. }
  pose proof (approx_div 2 11 _ _ 0 1 _ 2 ltac:(lra) ltac:(lia) ltac:(lia) (approx_mm20 d ltac:(lia)) A2) as R.
  pose proof (approx_mul 1 2 _ _ 3 12 _ _ ltac:(lia) ltac:(lia) approx_pi R) as P1.
  pose proof (approx_mul 5 14 _ _ 3 12 _ _ ltac:(lia) ltac:(lia) P1 R) as Area.
  pose proof (approx_mul 2 11 _ _ 2 11 _ _ ltac:(lia) ltac:(lia) (approx_mm20 t ltac:(lia)) (approx_mm20 w ltac:(lia))) as TW.
  assert (Pa : 0 < PI * (IZR d / 1000 / 2) * (IZR d / 1000 / 2)) by (assert (0 < IZR d / 1000 / 2) by lra; assert (0 < PI) by lra; apply Rmult_lt_0_compat; [apply Rmult_lt_0_compat|]; assumption).
  pose proof (approx_div 5 22 _ _ 9 26 _ _ Pa ltac:(lia) ltac:(lia) TW Area) as Q.
  pose proof (approx_div 0 24 _ _ 0 7 _ 100 ltac:(lra) ltac:(lia) ltac:(lia) (approx_int m M) A100) as Mu.
  pose proof (approx_mul 24 48 _ _ 1 31 _ _ ltac:(lia) ltac:(lia) Q Mu) as F. exact F.
Qed.
(** *** a line *)
Lemma sub_small a b : (Z.abs (px b - px a) <= 2 ^ 25)%Z -> (Z.abs (py b - py a) <= 2 ^ 25)%Z -> ptSub b a = Pt (px b - px a) (py b - py a).
Proof. intros X Y. unfold ptSub. unfold sub64. rewrite !wrap_id by (unfold int64; lia). reflexivity. Qed.
Lemma rel_35 x r : rel 35 x r -> Rabs (x - r) <= r * (5 / 1000000).
Proof.
  intros (A & B & C). assert (L : 1 - 5 / 1000000 <= lo 35) by (unfold lo, v; cbn [pow]; lra). assert (U : hi 35 <= 1 + 5 / 1000000) by (unfold hi, v; cbn [pow]; lra).
  apply Rabs_le. split; nra.
Qed.
Lemma filament_permm d m t w l : (0 < d)%Z -> l * ((mm t * mm w) / (PI * (mm d / 2) * (mm d / 2)) * (IZR m / 100)) = filament d m t w l.
Proof. intros D. assert (0 < IZR d) by (apply IZR_lt; lia). pose proof PI_RGT_0. unfold filament, mm, Rsqr. field. lra. Qed.
Lemma filament_add d m t w a b : filament d m t w (a + b) = filament d m t w a + filament d m t w b.
Proof. unfold filament, Rdiv. ring. Qed.
Lemma filament_ge0 d m t w l : (0 < d)%Z -> (0 <= m)%Z -> (0 <= t)%Z -> (0 <= w)%Z -> 0 <= l -> 0 <= filament d m t w l.
Proof.
  intros D M T W L. apply IZR_lt in D. apply IZR_le in M, T, W. pose proof PI_RGT_0. unfold filament, mm, Rsqr.
  assert (0 < IZR d / 1000 / 2) by lra. assert (Q : 0 < PI * (IZR d / 1000 / 2 * (IZR d / 1000 / 2))) by (apply Rmult_lt_0_compat; [|apply Rmult_lt_0_compat]; assumption).
  unfold Rdiv at 1. apply Rmult_le_pos; [|left; apply Rinv_0_lt_compat; exact Q]. repeat apply Rmult_le_pos; lra.
Qed.
Lemma distance_ge0 a b : 0 <= distance a b. Proof. apply sqrt_pos. Qed.
Lemma line_approx d m t w a b : (0 < d <= 2 ^ 20)%Z -> (0 <= m <= 2 ^ 24)%Z -> (0 <= t <= 2 ^ 20)%Z -> (0 <= w <= 2 ^ 20)%Z ->
  (Z.abs (px b - px a) <= 2 ^ 25)%Z -> (Z.abs (py b - py a) <= 2 ^ 25)%Z ->
  exists x, fin32 (line_amount (extrusion_per_mm d m t w) a b) x /\ rel 35 x (filament d m t w (distance a b)).
Proof.
  intros D M T W X Y. unfold line_amount. rewrite sub_small by assumption. pose proof (approx_size (Pt (px b - px a) (py b - py a)) X Y) as S. cbn [px py] in S.
  destruct (approx_mul 8 33 _ _ 26 79 _ _ ltac:(lia) ltac:(lia) S (approx_permm d m t w D M T W)) as (x & Fx & Rx & _). exists x. split; [exact Fx|].
  rewrite filament_permm in Rx by lia. exact Rx.
Qed.
(** *** many lines *)
Definition counter (E : f32) (ms : list (vec3 * Z * f32)) : f32 := last (map snd ms) E.
Lemma counter_cons E m ms : counter E (m :: ms) = counter (snd m) ms.
Proof. unfold counter. cbn [map]. destruct ms as [|m' ms]; [reflexivity|]. cbn [map]. generalize (snd m'), (map snd ms). intros x l. revert x. induction l as [|y l IH]; intros x; [reflexivity|]. cbn [last] in *. apply IH. Qed.
Lemma add_rel x y a b : fin32 x a -> fin32 y b -> Rabs (rnd32 (a + b) - (a + b)) <= / 16777216 * Rabs (rnd32 (a + b)).
Proof.
  intros X Y. destruct (Plus_error.FLT_plus_error_N_round_ex radix2 (SpecFloat.emin 24 128) 24 (fun x => negb (Z.even x)) a b) as (eps & He & E).
  - exact (fin_format 24 128 x a X). - exact (fin_format 24 128 y b Y).
  - change (round radix2 (FLT_exp (SpecFloat.emin 24 128) 24) (Znearest (fun x => negb (Z.even x))) (a + b)) with (rnd32 (a + b)) in E.
    set (s := rnd32 (a + b)) in *. rewrite E. replace (s - s * (1 + eps)) with (- (s * eps)) by ring. rewrite Rabs_Ropp, Rabs_mult, Rmult_comm.
    apply Rmult_le_compat_r; [apply Rabs_pos|]. eapply Rle_trans; [exact He|]. unfold u_ro. change (bpow radix2 (- (24) + 1)) with (/ 8388608). lra.
Qed.
Section Lines.
Variables (d m t w : Z) (st : settings) (z : Z).
Hypothesis D : (0 < d <= 2 ^ 20)%Z.
Hypothesis M : (0 <= m <= 2 ^ 24)%Z.
Hypothesis T : (0 <= t <= 2 ^ 20)%Z.
Hypothesis W : (0 <= w <= 2 ^ 20)%Z.
Hypothesis P : s_permm st = extrusion_per_mm d m t w.
Lemma line_plus a b : valid32 (line_amount (s_permm st) a b) = true /\ plus (line_amount (s_permm st) a b).
Proof.
  rewrite P. unfold line_amount. split; [apply valid_mul; try reflexivity; [apply valid_size|apply valid_permm]|apply plus_mul; [apply plus_size|apply plus_permm; lia]].
Qed.
Lemma lines_counter l : forall here E a, valid32 E = true -> small_steps a l ->
  is_finite_SF (counter E (commanded here E (lines_ops st z a l))) = true ->
  is_finite_SF E = true /\ valid32 (counter E (commanded here E (lines_ops st z a l))) = true /\
  SF2R radix2 E <= SF2R radix2 (counter E (commanded here E (lines_ops st z a l))) /\
  Rabs (SF2R radix2 (counter E (commanded here E (lines_ops st z a l))) - SF2R radix2 E - filament d m t w (way a l)) <=
   filament d m t w (way a l) * (5 / 1000000) +
   INR (List.length l) * (/ 16777216 * Rmax (Rabs (SF2R radix2 E)) (Rabs (SF2R radix2 (counter E (commanded here E (lines_ops st z a l)))))).
Proof.
  induction l as [|b l IH]; intros here E a V S F.
  - cbn [lines_ops commanded] in *. change (counter E []) with E in *. split; [exact F|]. split; [exact V|]. split; [lra|]. cbn [way List.length INR].
    assert (filament d m t w 0 = 0) as -> by (unfold filament, Rdiv; ring). rewrite Rminus_0_r, Rminus_eq_0, Rabs_R0. lra.
  - destruct S as (Sx & Sy & S). destruct (line_approx d m t w a b D M T W Sx Sy) as (x & Fx & Rx). rewrite <- P in Fx. destruct (line_plus a b) as [Ve Pe].
    pose proof (distance_ge0 a b) as Dg. cbn [lines_ops] in *. unfold line_op in *. cbn [commanded] in *. set (e := line_amount (s_permm st) a b) in *.
    cbn [way List.length]. rewrite S_INR, filament_add. pose proof (pos_INR (List.length l)) as PI.
    destruct (match here with Some q => same_place q (at_z b z) && is_zero e | None => false end) eqn:St.
    + assert (Z0 : filament d m t w (distance a b) = 0).
      { assert (x = 0) as ->. { destruct Fx as (_ & _ & <-). destruct here; [|discriminate]. apply andb_prop in St. destruct St as [_ St]. destruct e; try discriminate. reflexivity. }
        destruct Rx as (R0 & R1 & _). pose proof (lo_pos 35). nra. }
      destruct (IH here E b V S F) as (I1 & I2 & I3 & I4). split; [exact I1|]. split; [exact I2|]. split; [exact I3|]. rewrite Z0, Rplus_0_l.
      eapply Rle_trans; [exact I4|]. apply Rplus_le_compat_l. apply Rmult_le_compat_r; [|lra]. apply Rmult_le_pos; [lra|]. eapply Rle_trans; [apply Rabs_pos|apply Rmax_l].
    + rewrite counter_cons in *. cbn [snd] in *. assert (V' : valid32 (add32 E e) = true) by (apply valid_add; try reflexivity; assumption).
      destruct (IH (Some (at_z b z)) (add32 E e) b V' S F) as (I1 & I2 & I3 & I4).
      pose proof (add_up E e V Ve Pe I1) as Up. destruct (fin_add_inv 24 128 _ _ E e V Ve I1) as (FE & Fe & Va). split; [exact FE|]. split; [exact I2|].
      set (final := SF2R radix2 (counter (add32 E e) (commanded (Some (at_z b z)) (add32 E e) (lines_ops st z b l)))) in *.
      split; [lra|].
      pose proof (add_rel E e _ _ (fin_of 24 128 E V FE) (fin_of 24 128 e Ve Fe)) as Er. change (SFadd 24 128 E e) with (add32 E e) in Va. rewrite <- Va in Er.
      set (e1 := SF2R radix2 (add32 E e)) in *. set (e0 := SF2R radix2 E) in *. destruct Fx as (_ & _ & Ex). rewrite Ex in Er.
      pose proof (rel_35 _ _ Rx) as Rl. set (f := filament d m t w (distance a b)) in *. set (f' := filament d m t w (way b l)) in *.
      assert (Mx : Rabs e1 <= Rmax (Rabs e0) (Rabs final)). { unfold Rmax. destruct (Rle_dec (Rabs e0) (Rabs final)) as [q|q]; revert q; unfold Rabs; repeat destruct Rcase_abs; lra. }
      assert (Mx' : Rmax (Rabs e1) (Rabs final) <= Rmax (Rabs e0) (Rabs final)) by (apply Rmax_lub; [exact Mx|apply Rmax_r]).
      replace (final - e0 - (f + f')) with ((final - e1 - f') + ((e1 - (e0 + x)) + (x - f))) by ring.
      eapply Rle_trans; [apply Rabs_triang|]. apply Rle_trans with ((f' * (5 / 1000000) + INR (List.length l) * (/ 16777216 * Rmax (Rabs e0) (Rabs final))) + (/ 16777216 * Rmax (Rabs e0) (Rabs final) + f * (5 / 1000000))).
      * apply Rplus_le_compat.
        -- eapply Rle_trans; [exact I4|]. apply Rplus_le_compat_l. apply Rmult_le_compat_l; [exact PI|]. apply Rmult_le_compat_l; [lra|exact Mx'].
        -- eapply Rle_trans; [apply Rabs_triang|]. apply Rplus_le_compat; [|exact Rl]. eapply Rle_trans; [exact Er|]. apply Rmult_le_compat_l; [lra|exact Mx].
      * right. ring.
Qed.
End Lines.
