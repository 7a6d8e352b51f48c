(** The specification floats of the model compute the correctly rounded real results (through Flocq). *)
From Coq Require Import Reals Psatz.
From Verif Require Import GoBase GoFloat.
From Flocq Require Import Core BinarySingleNaN Relative.
Local Open Scope R_scope.

Lemma IZR_pow2 e : (0 <= e)%Z -> IZR (2 ^ e) = bpow radix2 e.
Proof. intros H. rewrite <- (IZR_Zpower radix2) by exact H. reflexivity. Qed.

Section Gen.
Variables prec emax : Z.
Context (Hp : Prec_gt_0 prec) (He : Prec_lt_emax prec emax).
Notation fexp := (SpecFloat.fexp prec emax).
Notation rnd := (round radix2 fexp ZnearestE).

(** [x] is a valid finite float with real value [r]. *)
Definition fin (x : spec_float) (r : R) : Prop :=
  valid_binary prec emax x = true /\ is_finite_SF x = true /\ SF2R radix2 x = r.

Lemma fin_B (b : binary_float prec emax) : is_finite b = true -> fin (B2SF b) (B2R b).
Proof.
  intros H. repeat split.
  - apply valid_binary_B2SF.
  - rewrite is_finite_SF_B2SF; exact H.
  - apply SF2R_B2SF.
Qed.
Lemma fin_inv x r : fin x r -> exists b : binary_float prec emax, B2SF b = x /\ is_finite b = true /\ B2R b = r.
Proof.
  intros (H1 & H2 & H3). exists (SF2B x H1). repeat split.
  - apply B2SF_SF2B.
  - rewrite is_finite_SF2B; exact H2.
  - rewrite B2R_SF2B; exact H3.
Qed.

Lemma rne_equiv s m l : SpecFloat.round_nearest_even m l = choice_mode mode_NE s m l.
Proof.
  case l; [reflexivity|intro c]. case c; [ | reflexivity..].
  simpl; unfold Round.cond_incr; case Z.even; reflexivity.
Qed.
Lemma round_aux_equiv sx mx ex lx :
  SpecFloat.binary_round_aux prec emax sx mx ex lx = binary_round_aux prec emax mode_NE sx mx ex lx.
Proof.
  unfold SpecFloat.binary_round_aux, binary_round_aux.
  set (mrse' := shr_fexp _ _ _). case mrse'; intros mrs' e'; simpl.
  now rewrite (rne_equiv sx).
Qed.
Lemma round_equiv s m e : SpecFloat.binary_round prec emax s m e = binary_round prec emax mode_NE s m e.
Proof.
  unfold SpecFloat.binary_round, binary_round, shl_align_fexp.
  set (mez := shl_align _ _ _); case mez as [mz ez]. apply round_aux_equiv.
Qed.
Lemma normalize_equiv m e z :
  SpecFloat.binary_normalize prec emax m e z = B2SF (binary_normalize prec emax Hp He mode_NE m e z).
Proof.
  case m as [ | p | p]; [reflexivity|simpl; rewrite B2SF_SF2B; apply round_equiv..].
Qed.
Lemma mul_equiv x y : SFmul prec emax (B2SF x) (B2SF y) = B2SF (@Bmult prec emax Hp He mode_NE x y).
Proof.
  case x as [sx|sx| |sx mx ex Bx]; case y as [sy|sy| |sy my ey By]; [now trivial.. | ].
  simpl. rewrite B2SF_SF2B. apply round_aux_equiv.
Qed.
Lemma add_equiv x y : SFadd prec emax (B2SF x) (B2SF y) = B2SF (@Bplus prec emax Hp He mode_NE x y).
Proof.
  case x as [sx|sx| |sx mx ex Bx]; case y as [sy|sy| |sy my ey By];
    [now (trivial || simpl; case Bool.eqb).. | ].
  apply normalize_equiv.
Qed.
Lemma sub_equiv x y : SFsub prec emax (B2SF x) (B2SF y) = B2SF (@Bminus prec emax Hp He mode_NE x y).
Proof.
  case x as [sx|sx| |sx mx ex Bx]; case y as [sy|sy| |sy my ey By];
    [now (trivial || simpl; case Bool.eqb).. | ].
  simpl. unfold Zminus. rewrite <- cond_Zopp_negb. apply normalize_equiv.
Qed.
Lemma div_equiv x y : SFdiv prec emax (B2SF x) (B2SF y) = B2SF (@Bdiv prec emax Hp He mode_NE x y).
Proof.
  case x as [sx|sx| |sx mx ex Bx]; case y as [sy|sy| |sy my ey By];
    [now (trivial || simpl; case Bool.eqb).. | ].
  simpl. rewrite B2SF_SF2B. set (melz := SFdiv_core_binary _ _ _ _ _ _).
  case melz as [[mz ez] lz]. apply round_aux_equiv.
Qed.
Lemma sqrt_equiv x : SFsqrt prec emax (B2SF x) = B2SF (@Bsqrt prec emax Hp He mode_NE x).
Proof.
  case x as [sx|sx| |sx mx ex Bx]; [now (trivial || case sx).. | ].
  case sx; [reflexivity | ]. simpl. rewrite B2SF_SF2B.
  set (melz := SFsqrt_core_binary _ _ _ _). case melz as [[mz ez] lz]. apply round_aux_equiv.
Qed.

Lemma fin_normalize m e z :
  Rabs (rnd (F2R (Float radix2 m e))) < bpow radix2 emax ->
  fin (SpecFloat.binary_normalize prec emax m e z) (rnd (F2R (Float radix2 m e))).
Proof.
  intros H. rewrite normalize_equiv.
  generalize (binary_normalize_correct prec emax Hp He mode_NE m e z). cbv zeta.
  rewrite Rlt_bool_true by exact H. intros (H1 & H2 & _).
  simpl in H1. rewrite <- H1. apply fin_B; exact H2.
Qed.
Lemma fin_mul x y a b : fin x a -> fin y b -> Rabs (rnd (a * b)) < bpow radix2 emax ->
  fin (SFmul prec emax x y) (rnd (a * b)).
Proof.
  intros Hx Hy H. apply fin_inv in Hx as (bx & <- & Fx & <-). apply fin_inv in Hy as (b' & <- & Fy & <-).
  rewrite mul_equiv. generalize (Bmult_correct prec emax Hp He mode_NE bx b').
  rewrite Rlt_bool_true by exact H. intros (H1 & H2 & _).
  simpl in H1. rewrite <- H1. apply fin_B. rewrite H2, Fx, Fy; reflexivity.
Qed.
Lemma fin_add x y a b : fin x a -> fin y b -> Rabs (rnd (a + b)) < bpow radix2 emax ->
  fin (SFadd prec emax x y) (rnd (a + b)).
Proof.
  intros Hx Hy H. apply fin_inv in Hx as (bx & <- & Fx & <-). apply fin_inv in Hy as (b' & <- & Fy & <-).
  rewrite add_equiv. generalize (Bplus_correct prec emax Hp He mode_NE bx b' Fx Fy).
  rewrite Rlt_bool_true by exact H. intros (H1 & H2 & _).
  simpl in H1. rewrite <- H1. apply fin_B, H2.
Qed.
Lemma fin_sub x y a b : fin x a -> fin y b -> Rabs (rnd (a - b)) < bpow radix2 emax ->
  fin (SFsub prec emax x y) (rnd (a - b)).
Proof.
  intros Hx Hy H. apply fin_inv in Hx as (bx & <- & Fx & <-). apply fin_inv in Hy as (b' & <- & Fy & <-).
  rewrite sub_equiv. generalize (Bminus_correct prec emax Hp He mode_NE bx b' Fx Fy).
  rewrite Rlt_bool_true by exact H. intros (H1 & H2 & _).
  simpl in H1. rewrite <- H1. apply fin_B, H2.
Qed.
Lemma fin_div x y a b : fin x a -> fin y b -> b <> 0 -> Rabs (rnd (a / b)) < bpow radix2 emax ->
  fin (SFdiv prec emax x y) (rnd (a / b)).
Proof.
  intros Hx Hy Hb H. apply fin_inv in Hx as (bx & <- & Fx & <-). apply fin_inv in Hy as (b' & <- & Fy & <-).
  rewrite div_equiv. generalize (Bdiv_correct prec emax Hp He mode_NE bx b' Hb).
  rewrite Rlt_bool_true by exact H. intros (H1 & H2 & _).
  simpl in H1. rewrite <- H1. apply fin_B. rewrite H2; exact Fx.
Qed.
Lemma fin_sqrt x a : fin x a -> 0 <= a -> fin (SFsqrt prec emax x) (rnd (sqrt a)).
Proof.
  intros Hx Ha. apply fin_inv in Hx as (bx & <- & Fx & <-).
  rewrite sqrt_equiv. generalize (Bsqrt_correct prec emax Hp He mode_NE bx). intros (H1 & H2 & _).
  simpl in H1. rewrite <- H1. apply fin_B. rewrite H2.
  destruct bx as [s|s| |s m e B]; try discriminate; try reflexivity.
  destruct s; [|reflexivity]. exfalso. simpl in Ha.
  assert (F2R (Float radix2 (Zneg m) e) < 0) by (apply F2R_lt_0; reflexivity). lra.
Qed.

Lemma bpow_emax_ge1 : 1 <= bpow radix2 emax.
Proof.
  change 1 with (bpow radix2 0). apply bpow_le. unfold Prec_gt_0, Prec_lt_emax in *. lia.
Qed.

(** relative and absolute error of the rounding *)
Lemma rnd_error x :
  exists eps eta, Rabs eps <= / 2 * bpow radix2 (- prec + 1) /\
    Rabs eta <= / 2 * bpow radix2 (SpecFloat.emin prec emax) /\ rnd x = x * (1 + eps) + eta.
Proof.
  destruct (error_N_FLT radix2 (SpecFloat.emin prec emax) prec Hp (fun x => negb (Z.even x)) x)
    as (eps & eta & H1 & H2 & _ & H3).
  exists eps, eta. repeat split; assumption.
Qed.

Lemma generic_int z : (Z.abs z <= 2 ^ prec)%Z -> (SpecFloat.emin prec emax <= 0)%Z -> generic_format radix2 fexp (IZR z).
Proof.
  intros H Hmin. destruct (Z.eq_dec (Z.abs z) (2 ^ prec)) as [E|E].
  - assert (Hz : generic_format radix2 fexp (IZR (2 ^ prec))).
    { rewrite IZR_pow2 by (unfold Prec_gt_0 in Hp; lia). apply generic_format_bpow.
      unfold SpecFloat.fexp, SpecFloat.emin in *. unfold Prec_gt_0, Prec_lt_emax in *. lia. }
    destruct (Z.abs_spec z) as [[_ Hz']|[_ Hz']]; rewrite Hz' in E.
    + rewrite E; exact Hz.
    + replace z with (- 2 ^ prec)%Z by lia. rewrite opp_IZR. apply generic_format_opp, Hz.
  - apply (generic_format_FLT radix2 (SpecFloat.emin prec emax) prec).
    exists (Float radix2 z 0).
    + unfold F2R; simpl. ring.
    + simpl. change (Zpower 2 prec) with (2 ^ prec)%Z. lia.
    + simpl. exact Hmin.
Qed.
Lemma fin_int z s : (Z.abs z <= 2 ^ prec)%Z -> (SpecFloat.emin prec emax <= 0)%Z ->
  fin (SpecFloat.binary_normalize prec emax z 0 s) (IZR z).
Proof.
  intros H Hmin.
  assert (E : F2R (Float radix2 z 0) = IZR z) by (unfold F2R; simpl; ring).
  assert (Hr : rnd (F2R (Float radix2 z 0)) = IZR z).
  { rewrite E. apply round_generic; [auto with typeclass_instances | apply generic_int; assumption]. }
  rewrite <- Hr. apply fin_normalize. rewrite Hr, <- abs_IZR.
  apply Rle_lt_trans with (bpow radix2 prec).
  - rewrite <- IZR_pow2 by (unfold Prec_gt_0 in Hp; lia). apply IZR_le; exact H.
  - apply bpow_lt. exact He.
Qed.
Lemma fin_format x r : fin x r -> generic_format radix2 fexp r.
Proof. intros H. apply fin_inv in H as (b & _ & _ & <-). apply generic_format_B2R. Qed.
Lemma fin_lt_emax x r : fin x r -> Rabs r < bpow radix2 emax.
Proof. intros H. apply fin_inv in H as (b & _ & _ & <-). apply abs_B2R_lt_emax. Qed.
End Gen.

#[global] Instance P24 : Prec_gt_0 24. Proof. reflexivity. Qed.
#[global] Instance P53 : Prec_gt_0 53. Proof. reflexivity. Qed.
#[global] Instance E24 : Prec_lt_emax 24 128. Proof. reflexivity. Qed.
#[global] Instance E53 : Prec_lt_emax 53 1024. Proof. reflexivity. Qed.

Notation fin32 := (fin 24 128).
Notation fin64 := (fin 53 1024).
Notation rnd32 := (round radix2 (SpecFloat.fexp 24 128) ZnearestE).
Notation rnd64 := (round radix2 (SpecFloat.fexp 53 1024) ZnearestE).

Lemma emin24 : SpecFloat.emin 24 128 = (-149)%Z. Proof. reflexivity. Qed.
Lemma emin53 : SpecFloat.emin 53 1024 = (-1074)%Z. Proof. reflexivity. Qed.

Lemma F2R_cond s m e : F2R (Float radix2 (cond_opp s (Zpos m)) e) = SF2R radix2 (S754_finite s m e).
Proof. destruct s; reflexivity. Qed.

(** float32(x), float64(x) *)
Lemma fin32_of_f64 x r : fin64 x r -> Rabs (rnd32 r) < bpow radix2 128 -> fin32 (f32_of_f64 x) (rnd32 r).
Proof.
  intros (V & F & E) H. destruct x as [s|s| |s m e]; try discriminate; [simpl in E|].
  - subst r. rewrite round_0 by auto with typeclass_instances. repeat split; reflexivity.
  - subst r. rewrite <- (F2R_cond s m e). unfold f32_of_f64. apply fin_normalize; auto with typeclass_instances;
    rewrite (F2R_cond s m e); exact H.
Qed.
Lemma fin64_of_f32 x r : fin32 x r -> fin64 (f64_of_f32 x) r.
Proof.
  intros H. pose proof H as G. apply fin_format in G; auto with typeclass_instances.
  pose proof H as B. apply fin_lt_emax in B; auto with typeclass_instances.
  assert (G' : generic_format radix2 (SpecFloat.fexp 53 1024) r).
  { apply (generic_inclusion_mag radix2 (SpecFloat.fexp 24 128)).
    - intros _. unfold SpecFloat.fexp, SpecFloat.emin. lia.
    - exact G. }
  assert (R1 : rnd64 r = r) by (apply round_generic; auto with typeclass_instances).
  destruct H as (V & F & E). destruct x as [s|s| |s m e]; try discriminate; [simpl in E|].
  - subst r. repeat split; reflexivity.
  - rewrite <- R1. subst r. rewrite <- (F2R_cond s m e). unfold f64_of_f32.
    apply fin_normalize; [auto with typeclass_instances..|]. rewrite (F2R_cond s m e), R1. eapply Rlt_trans; [exact B|]. apply bpow_lt. reflexivity.
Qed.

Lemma fin64_of_Z z : (Z.abs z <= 2 ^ 53)%Z -> fin64 (f64_of_Z z) (IZR z).
Proof. intros H. apply fin_int; auto with typeclass_instances. easy. Qed.
Lemma fin32_of_Z z : (Z.abs z <= 2 ^ 24)%Z -> fin32 (f32_of_Z z) (IZR z).
Proof. intros H. apply fin_int; auto with typeclass_instances. easy. Qed.

(** integer roundings of an exact value *)
Lemma rne_Z_correct m e : rne_Z m e = ZnearestE (F2R (Float radix2 m e)).
Proof.
  unfold rne_Z, F2R; simpl Fnum; simpl Fexp. destruct (Z.leb_spec 0 e) as [He|He].
  - rewrite <- IZR_pow2 by lia. rewrite <- mult_IZR. symmetry.
    rewrite <- (Zrnd_IZR ZnearestE (m * 2 ^ e)) at 2. reflexivity.
  - set (d := (2 ^ (- e))%Z). assert (Hd : (0 < d)%Z) by (apply Z.pow_pos_nonneg; lia).
    assert (Eb : bpow radix2 e = / IZR d).
    { replace e with (- - e)%Z by lia. rewrite bpow_opp. unfold d. rewrite <- IZR_pow2 by lia. reflexivity. }
    rewrite Eb. fold (Rdiv (IZR m) (IZR d)).
    set (q := (m / d)%Z). set (r := (m mod d)%Z).
    pose proof (Z.div_mod m d ltac:(lia)) as Hm. fold q r in Hm.
    pose proof (Z.mod_pos_bound m d Hd) as Hr. fold r in Hr.
    assert (Hd' : 0 < IZR d) by (apply IZR_lt; exact Hd).
    assert (Hv : IZR m / IZR d = IZR q + IZR r / IZR d).
    { rewrite Hm, plus_IZR, mult_IZR. field. lra. }
    assert (Hfr0 : 0 <= IZR r / IZR d).
    { apply Rmult_le_pos; [apply IZR_le; lia | left; apply Rinv_0_lt_compat; exact Hd']. }
    assert (Hfr1 : IZR r / IZR d < 1).
    { apply (Rmult_lt_reg_r (IZR d)); [exact Hd'|]. field_simplify; [|lra]. apply IZR_lt; lia. }
    assert (Hfl : Zfloor (IZR m / IZR d) = q).
    { apply Zfloor_imp. rewrite Hv, plus_IZR. simpl. lra. }
    unfold Znearest. rewrite Hfl.
    assert (Hfr : IZR m / IZR d - IZR q = IZR r / IZR d) by (rewrite Hv; ring). rewrite Hfr.
    destruct (Z.compare_spec (2 * r) d) as [C|C|C].
    + rewrite Rcompare_Eq.
      * destruct (Z.even q) eqn:Ev; simpl; [reflexivity|].
        symmetry. apply Zceil_imp. rewrite Hv. assert (0 < IZR r / IZR d).
        { apply Rmult_lt_0_compat; [apply IZR_lt; lia|apply Rinv_0_lt_compat; exact Hd']. }
        rewrite minus_IZR, plus_IZR. simpl. lra.
      * apply (Rmult_eq_reg_r (2 * IZR d)); [|lra]. field_simplify; [|lra].
        rewrite <- mult_IZR. rewrite C. reflexivity.
    + rewrite Rcompare_Lt; [reflexivity|].
      apply (Rmult_lt_reg_r (2 * IZR d)); [lra|]. field_simplify; [|lra].
      rewrite <- mult_IZR. apply IZR_lt; exact C.
    + rewrite Rcompare_Gt.
      * symmetry. apply Zceil_imp. rewrite Hv. assert (0 < IZR r / IZR d).
        { apply Rmult_lt_0_compat; [apply IZR_lt; lia|apply Rinv_0_lt_compat; exact Hd']. }
        rewrite minus_IZR, plus_IZR. simpl. lra.
      * apply (Rmult_lt_reg_r (2 * IZR d)); [lra|]. field_simplify; [|lra].
        rewrite <- mult_IZR. apply IZR_lt; exact C.
Qed.

Lemma trunc_Z_correct m e : trunc_Z m e = Ztrunc (F2R (Float radix2 m e)).
Proof.
  unfold trunc_Z, F2R; simpl Fnum; simpl Fexp. destruct (Z.leb_spec 0 e) as [He|He].
  - rewrite <- IZR_pow2 by lia. rewrite <- mult_IZR. rewrite Ztrunc_IZR. reflexivity.
  - set (d := (2 ^ (- e))%Z). assert (Hd : (0 < d)%Z) by (apply Z.pow_pos_nonneg; lia).
    assert (Eb : bpow radix2 e = / IZR d).
    { replace e with (- - e)%Z by lia. rewrite bpow_opp. unfold d. rewrite <- IZR_pow2 by lia. reflexivity. }
    rewrite Eb. fold (Rdiv (IZR m) (IZR d)). symmetry. apply Ztrunc_div. lia.
Qed.

Lemma clamp_id z : int64 z -> clamp_int64 z = z.
Proof.
  unfold int64, clamp_int64. intros H.
  destruct (Z.leb_spec (- 2 ^ 63) z); [|lia]. destruct (Z.ltb_spec z (2 ^ 63)); [|lia]. reflexivity.
Qed.
Lemma int64_of_rne_correct x r : fin64 x r -> int64 (ZnearestE r) -> int64_of_rne x = ZnearestE r.
Proof.
  intros (V & F & E) H. destruct x as [s|s| |s m e]; try discriminate; [simpl in E|]; subst r.
  - simpl. symmetry. apply (Zrnd_IZR ZnearestE 0).
  - unfold int64_of_rne. rewrite rne_Z_correct, F2R_cond. apply clamp_id. exact H.
Qed.
Lemma int64_of_f64_correct x r : fin64 x r -> int64 (Ztrunc r) -> int64_of_f64 x = Ztrunc r.
Proof.
  intros (V & F & E) H. destruct x as [s|s| |s m e]; try discriminate; [simpl in E|]; subst r.
  - simpl. symmetry. apply (Ztrunc_IZR 0).
  - unfold int64_of_f64. rewrite trunc_Z_correct, F2R_cond. apply clamp_id. exact H.
Qed.

Lemma ZnearestE_unique x z : Rabs (x - IZR z) < / 2 -> ZnearestE x = z.
Proof. intros H. apply Znearest_imp. exact H. Qed.
