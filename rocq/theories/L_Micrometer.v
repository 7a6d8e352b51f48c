(** Lemmas about the unit conversions and the vector operations. *)
From Coq Require Import Reals Psatz ZifyBool.
From Verif Require Import GoBase GoFloat M_Micrometer L_Float.
From Flocq Require Import Core BinarySingleNaN.
Local Open Scope R_scope.

Section Half.
Variables prec emax : Z.
Context (Hp : Prec_gt_0 prec) (He : Prec_lt_emax prec emax).
Notation fexp := (SpecFloat.fexp prec emax).
Notation rnd := (round radix2 fexp ZnearestE).

Local Instance VE : Valid_exp fexp := fexp_correct prec emax Hp.

Lemma rnd_abs_le x e : (SpecFloat.emin prec emax <= e)%Z -> Rabs x <= bpow radix2 e -> Rabs (rnd x) <= bpow radix2 e.
Proof.
  intros Hmin H. apply abs_round_le_generic; auto with typeclass_instances.
  apply generic_format_bpow. unfold SpecFloat.fexp. unfold Prec_gt_0 in Hp. lia.
Qed.
Lemma rnd_half_ulp x e : (SpecFloat.emin prec emax <= e - prec)%Z -> Rabs x <= bpow radix2 e ->
  Rabs (rnd x - x) <= / 2 * bpow radix2 (e - prec).
Proof.
  intros Hmin H. destruct (Req_dec x 0) as [->|Hx0].
  - rewrite round_0 by auto with typeclass_instances. rewrite Rminus_0_r, Rabs_R0.
    apply Rmult_le_pos; [lra|apply bpow_ge_0].
  - destruct (Rle_lt_or_eq_dec _ _ H) as [Hlt|Heq].
    + eapply Rle_trans; [apply error_le_half_ulp; auto with typeclass_instances|].
      apply Rmult_le_compat_l; [lra|]. rewrite ulp_neq_0 by exact Hx0. apply bpow_le.
      unfold cexp. assert (mag radix2 x <= e)%Z by (apply mag_le_bpow; assumption).
      unfold SpecFloat.fexp. lia.
    + assert (G : generic_format radix2 fexp x).
      { rewrite <- (Rabs_pos_eq (bpow radix2 e)) in Heq by apply bpow_ge_0.
        assert (Gb : generic_format radix2 fexp (bpow radix2 e)).
        { apply generic_format_bpow. unfold SpecFloat.fexp. unfold Prec_gt_0 in Hp. lia. }
        unfold Rabs in Heq. destruct (Rcase_abs x), (Rcase_abs (bpow radix2 e)).
        - replace x with (bpow radix2 e) by lra. exact Gb.
        - replace x with (- bpow radix2 e) by lra. apply generic_format_opp, Gb.
        - replace x with (- bpow radix2 e) by lra. apply generic_format_opp, Gb.
        - replace x with (bpow radix2 e) by lra. exact Gb. }
      rewrite round_generic by (auto with typeclass_instances).
      replace (x - x) with 0 by ring. rewrite Rabs_R0. apply Rmult_le_pos; [lra|apply bpow_ge_0].
Qed.
End Half.

Lemma bpow_val e : (0 <= e)%Z -> bpow radix2 e = IZR (2 ^ e).
Proof. intros H. symmetry. apply IZR_pow2, H. Qed.
Lemma bpow_neg e : (0 < e)%Z -> bpow radix2 (- e) = / IZR (2 ^ e).
Proof. intros H. rewrite bpow_opp. rewrite bpow_val by lia. reflexivity. Qed.

(** ToMillimeter: within [bpow e] millimeters the result is at most half an ulp (2^(e-25)) plus a tiny
    double rounding term away from m/1000. *)
Lemma ToMillimeter_err m e : (0 <= e <= 30)%Z -> Rabs (IZR m / 1000) <= bpow radix2 e ->
  exists y, fin32 (ToMillimeter m) y /\ Rabs y <= bpow radix2 e /\
    Rabs (y - IZR m / 1000) <= bpow radix2 (e - 25) + bpow radix2 (e - 54).
Proof.
  intros He H.
  assert (Hm : (Z.abs m <= 2 ^ 53)%Z).
  { apply le_IZR. rewrite abs_IZR.
    assert (Rabs (IZR m / 1000) <= bpow radix2 30) by (eapply Rle_trans; [exact H|apply bpow_le; lia]).
    rewrite bpow_val in H0 by lia. unfold Rdiv in H0. rewrite Rabs_mult, (Rabs_pos_eq (/ 1000)) in H0 by lra.
    change (2 ^ 30)%Z with 1073741824%Z in H0. change (2 ^ 53)%Z with 9007199254740992%Z. lra. }
  assert (F1000 : fin64 (f64_of_Z 1000) 1000) by (apply (fin64_of_Z 1000); cbn; lia).
  assert (B1 : Rabs (rnd64 (IZR m / 1000)) <= bpow radix2 e).
  { apply rnd_abs_le; auto with typeclass_instances. rewrite emin53. lia. }
  assert (D : fin64 (div64f (f64_of_Z m) (f64_of_Z 1000)) (rnd64 (IZR m / 1000))).
  { apply fin_div; auto with typeclass_instances; try lra.
    - apply fin64_of_Z; exact Hm.
    - eapply Rle_lt_trans; [exact B1|]. apply bpow_lt. lia. }
  set (x := rnd64 (IZR m / 1000)) in *.
  assert (B2 : Rabs (rnd32 x) <= bpow radix2 e).
  { apply rnd_abs_le; auto with typeclass_instances. rewrite emin24. lia. }
  exists (rnd32 x). split; [|split].
  - unfold ToMillimeter. apply fin32_of_f64; [exact D|].
    eapply Rle_lt_trans; [exact B2|]. apply bpow_lt. lia.
  - exact B2.
  - replace (rnd32 x - IZR m / 1000) with ((rnd32 x - x) + (x - IZR m / 1000)) by ring.
    eapply Rle_trans; [apply Rabs_triang|]. apply Rplus_le_compat.
    + eapply Rle_trans.
      * apply (rnd_half_ulp 24 128 _ x e); [rewrite emin24; lia|exact B1].
      * change (/ 2) with (bpow radix2 (-1)). rewrite <- bpow_plus. apply bpow_le. lia.
    + eapply Rle_trans.
      * apply (rnd_half_ulp 53 1024 _ (IZR m / 1000) e); [rewrite emin53; lia|exact H].
      * change (/ 2) with (bpow radix2 (-1)). rewrite <- bpow_plus. apply bpow_le. lia.
Qed.

Lemma round_trip_main m : (Z.abs m <= 8191999)%Z -> ToMicrometer (ToMillimeter m) = m.
Proof.
  intros H.
  assert (Hm : Rabs (IZR m) <= 8191999) by (rewrite <- abs_IZR; apply IZR_le; exact H).
  assert (Hx : Rabs (IZR m / 1000) <= bpow radix2 13).
  { unfold Rdiv. rewrite Rabs_mult, (Rabs_pos_eq (/ 1000)) by lra. rewrite bpow_val by lia.
    change (2 ^ 13)%Z with 8192%Z. lra. }
  destruct (ToMillimeter_err m 13 ltac:(lia) Hx) as (y & Fy & By & Ey).
  assert (F1000 : fin32 (f32_of_Z 1000) 1000) by (apply (fin32_of_Z 1000); cbn; lia).
  change (13 - 25)%Z with (Z.opp 12) in Ey. change (13 - 54)%Z with (Z.opp 41) in Ey.
  rewrite !bpow_neg in Ey by lia.
  change (2 ^ 12)%Z with 4096%Z in Ey. change (2 ^ 41)%Z with 2199023255552%Z in Ey.
  apply Rabs_le_inv in Ey. apply Rabs_le_inv in Hm.
  assert (By' : Rabs (y * 1000) <= bpow radix2 23).
  { rewrite bpow_val by lia. change (2 ^ 23)%Z with 8388608%Z. apply Rabs_le. lra. }
  assert (Bz : Rabs (rnd32 (y * 1000)) <= bpow radix2 23).
  { apply rnd_abs_le; auto with typeclass_instances. rewrite emin24. lia. }
  assert (Fz : fin32 (mul32 (ToMillimeter m) (f32_of_Z 1000)) (rnd32 (y * 1000))).
  { apply fin_mul; auto with typeclass_instances. eapply Rle_lt_trans; [exact Bz|]. apply bpow_lt; lia. }
  assert (Ez : Rabs (rnd32 (y * 1000) - y * 1000) <= / 4).
  { eapply Rle_trans; [apply (rnd_half_ulp 24 128 _ (y * 1000) 23); [rewrite emin24; lia|exact By']|].
    change (23 - 24)%Z with (- 1)%Z. simpl bpow. lra. }
  assert (N : ZnearestE (rnd32 (y * 1000)) = m).
  { apply ZnearestE_unique. apply Rabs_le_inv in Ez. apply Rabs_lt. lra. }
  unfold ToMicrometer. rewrite (int64_of_rne_correct _ (rnd32 (y * 1000))).
  - exact N.
  - apply fin64_of_f32. exact Fz.
  - rewrite N. unfold int64. lia.
Qed.

Lemma round_trip m : (Z.abs m <= 8192010)%Z -> ToMicrometer (ToMillimeter m) = m.
Proof.
  intros H. destruct (Z_le_dec (Z.abs m) 8191999) as [L|L]; [apply round_trip_main; exact L|].
  assert (E : forallb (fun k => (ToMicrometer (ToMillimeter (8192000 + k)) =? 8192000 + k)
                && (ToMicrometer (ToMillimeter (- (8192000 + k))) =? - (8192000 + k)))%Z
              [0; 1; 2; 3; 4; 5; 6; 7; 8; 9; 10]%Z = true) by (vm_compute; reflexivity).
  rewrite forallb_forall in E. specialize (E (Z.abs m - 8192000)%Z).
  replace (8192000 + (Z.abs m - 8192000))%Z with (Z.abs m) in E by lia.
  assert (I : In (Z.abs m - 8192000)%Z [0; 1; 2; 3; 4; 5; 6; 7; 8; 9; 10]%Z).
  { assert (0 <= Z.abs m - 8192000 <= 10)%Z by lia. set (k := (Z.abs m - 8192000)%Z) in *. clearbody k.
    assert (Hk : (k = 0 \/ k = 1 \/ k = 2 \/ k = 3 \/ k = 4 \/ k = 5 \/ k = 6 \/ k = 7 \/ k = 8 \/ k = 9 \/ k = 10)%Z) by lia.
    simpl. intuition auto. }
  apply E in I. apply andb_prop in I as [I1 I2].
  destruct (Z.abs_spec m) as [[_ A]|[_ A]]; rewrite A in I1, I2.
  - apply Z.eqb_eq, I1.
  - replace (- - m)%Z with m in I2 by lia. apply Z.eqb_eq, I2.
Qed.

(** [dec_scaled k]: the printed decimal is the nearest one to the exact value. *)
Lemma dec_scaled_correct (x : f32) y k : (0 <= k)%Z -> fin32 x y ->
  exists s a, dec_scaled k x = Some (s, a) /\ (0 <= a)%Z /\
    Rabs (IZR (if s then - a else a)%Z - y * IZR (10 ^ k)) <= / 2.
Proof.
  intros Hk (V & F & E). destruct x as [s|s| |s m e]; try discriminate.
  - exists s, 0%Z. simpl in E. subst y. repeat split; [lia|].
    replace (IZR (if s then - 0 else 0)%Z) with 0 by (destruct s; reflexivity).
    rewrite Rmult_0_l, Rminus_0_r, Rabs_R0. lra.
  - exists s, (rne_Z (Zpos m * 10 ^ k) e). split; [reflexivity|].
    rewrite rne_Z_correct.
    assert (V0 : F2R (Float radix2 (Zpos m * 10 ^ k) e) = F2R (Float radix2 (Zpos m) e) * IZR (10 ^ k)).
    { unfold F2R; cbn [Fnum Fexp]. rewrite mult_IZR. ring. }
    assert (P : 0 <= F2R (Float radix2 (Zpos m) e)) by (apply F2R_ge_0; simpl; lia).
    assert (P10 : 0 < IZR (10 ^ k)) by (apply IZR_lt, Z.pow_pos_nonneg; lia).
    rewrite V0. set (v := F2R (Float radix2 (Zpos m) e)) in *.
    pose proof (Znearest_half (fun x => negb (Z.even x)) (v * IZR (10 ^ k))) as N.
    split.
    + assert (Hpos : 0 <= v * IZR (10 ^ k)) by (apply Rmult_le_pos; lra).
      destruct (Z_le_dec 0 (ZnearestE (v * IZR (10 ^ k)))) as [L|L]; [exact L|].
      exfalso. assert (IZR (ZnearestE (v * IZR (10 ^ k))) <= -1) by (apply IZR_le; lia).
      apply Rabs_le_inv in N. lra.
    + rewrite <- E. destruct s; simpl SF2R.
      * replace (F2R (Float radix2 (Zneg m) e)) with (- v) by (unfold v; rewrite <- F2R_Zopp; reflexivity).
        rewrite opp_IZR. apply Rabs_le_inv in N. apply Rabs_le. lra.
      * fold v. apply Rabs_le_inv in N. apply Rabs_le. lra.
Qed.

Lemma printed_close m : (Z.abs m <= 32768000)%Z ->
  exists s a, dec_scaled 2 (ToMillimeter m) = Some (s, a) /\ (0 <= a)%Z /\
    (Z.abs (10 * (if s then - a else a) - m) <= 5)%Z.
Proof.
  intros H.
  assert (Hm : Rabs (IZR m) <= 32768000) by (rewrite <- abs_IZR; apply IZR_le; exact H).
  assert (Hx : Rabs (IZR m / 1000) <= bpow radix2 15).
  { unfold Rdiv. rewrite Rabs_mult, (Rabs_pos_eq (/ 1000)) by lra. rewrite bpow_val by lia.
    change (2 ^ 15)%Z with 32768%Z. lra. }
  destruct (ToMillimeter_err m 15 ltac:(lia) Hx) as (y & Fy & By & Ey).
  change (15 - 25)%Z with (Z.opp 10) in Ey. change (15 - 54)%Z with (Z.opp 39) in Ey.
  rewrite !bpow_neg in Ey by lia.
  change (2 ^ 10)%Z with 1024%Z in Ey. change (2 ^ 39)%Z with 549755813888%Z in Ey.
  destruct (dec_scaled_correct _ _ 2 ltac:(lia) Fy) as (s & a & E1 & E2 & E3).
  exists s, a. split; [exact E1|]. split; [exact E2|].
  set (c := (if s then - a else a)%Z) in *.
  apply Rabs_le_inv in Ey. apply Rabs_le_inv in E3. change (10 ^ 2)%Z with 100%Z in E3.
  assert (A1 : IZR (10 * c - m) < 6) by (rewrite minus_IZR, mult_IZR; lra).
  assert (A2 : -6 < IZR (10 * c - m)) by (rewrite minus_IZR, mult_IZR; lra).
  apply lt_IZR in A1. apply lt_IZR in A2. lia.
Qed.

(** Square roots *)
Lemma sqrt_floor n : (0 <= n < 2 ^ 52)%Z -> int64_of_f64 (sqrt64f (f64_of_Z n)) = Z.sqrt n.
Proof.
  intros Hn. set (q := Z.sqrt n).
  pose proof (Z.sqrt_spec n ltac:(lia)) as [Q1 Q2]. fold q in Q1, Q2.
  assert (Hq : (0 <= q)%Z) by (apply Z.sqrt_nonneg).
  assert (Hq2 : (q + 1 <= 2 ^ 26)%Z) by (change (2 ^ 52)%Z with (2 ^ 26 * 2 ^ 26)%Z in Hn; nia).
  assert (Fn : fin64 (f64_of_Z n) (IZR n)) by (apply fin64_of_Z; change (2 ^ 53)%Z with (2 * 2 ^ 52)%Z; lia).
  assert (Hn0 : 0 <= IZR n) by (apply IZR_le; lia).
  pose proof (fin_sqrt 53 1024 _ _ _ _ Fn Hn0) as Fs. fold (sqrt64f (f64_of_Z n)) in Fs.
  assert (Hq0 : 0 <= IZR q) by (apply IZR_le; exact Hq).
  assert (Hlow : IZR q <= sqrt (IZR n)).
  { rewrite <- (sqrt_square (IZR q)) by exact Hq0. apply sqrt_le_1_alt. rewrite <- mult_IZR. apply IZR_le; exact Q1. }
  assert (Gq : generic_format radix2 (SpecFloat.fexp 53 1024) (IZR q)).
  { apply generic_int; auto with typeclass_instances; [change (2 ^ 53)%Z with (2 ^ 27 * 2 ^ 26)%Z; lia|easy]. }
  assert (L : IZR q <= rnd64 (sqrt (IZR n))).
  { apply round_ge_generic; [exact (fexp_correct 53 1024 P53)|auto with typeclass_instances|exact Gq|exact Hlow]. }
  set (t := IZR (q + 1)). assert (Ht : 1 <= t) by (unfold t; apply IZR_le; lia).
  assert (Ht2 : t <= 67108864) by (unfold t; apply IZR_le; exact Hq2).
  assert (Ht3 : IZR n <= t * t - 1).
  { unfold t. rewrite <- mult_IZR. change 1 with (IZR 1). rewrite <- minus_IZR. apply IZR_le. unfold Z.succ in Q2. lia. }
  assert (Hi : 0 < / (2 * t)) by (apply Rinv_0_lt_compat; lra).
  assert (Hi2 : / (2 * 67108864) <= / (2 * t)) by (apply Rinv_le; lra).
  assert (Hi3 : / (2 * t) * t = / 2) by (field; lra).
  assert (U0 : sqrt (IZR n) <= t - / (2 * t)).
  { rewrite <- (sqrt_square (t - / (2 * t))).
    - apply sqrt_le_1_alt. eapply Rle_trans; [exact Ht3|].
      set (i := / (2 * t)) in *. replace ((t - i) * (t - i)) with (t * t - 2 * (i * t) + i * i) by ring.
      rewrite Hi3. assert (0 <= i * i) by (apply Rle_0_sqr). lra.
    - assert (/ (2 * t) <= / 2 * 1) by (rewrite <- Hi3; rewrite <- (Rmult_1_r (/ (2 * t))) at 1; apply Rle_trans with (/ (2 * t) * t); [apply Rmult_le_compat_l; lra|lra]). lra. }
  assert (B : Rabs (sqrt (IZR n)) <= bpow radix2 26).
  { rewrite Rabs_pos_eq by apply sqrt_pos. rewrite bpow_val by lia. change (2 ^ 26)%Z with 67108864%Z. lra. }
  assert (Er : Rabs (rnd64 (sqrt (IZR n)) - sqrt (IZR n)) <= / 2 * bpow radix2 (26 - 53)).
  { apply rnd_half_ulp; auto with typeclass_instances. rewrite emin53. lia. }
  change (26 - 53)%Z with (Z.opp 27) in Er. rewrite bpow_neg in Er by lia. change (2 ^ 27)%Z with 134217728%Z in Er.
  apply Rabs_le_inv in Er.
  assert (U : rnd64 (sqrt (IZR n)) < t) by lra.
  assert (T : Ztrunc (rnd64 (sqrt (IZR n))) = q).
  { rewrite Ztrunc_floor by lra. apply Zfloor_imp. split; [exact L|exact U]. }
  rewrite (int64_of_f64_correct _ _ Fs).
  - exact T.
  - rewrite T. unfold int64. lia.
Qed.
