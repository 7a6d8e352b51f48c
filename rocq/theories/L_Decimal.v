(** Lemmas about the option texts in millimeters. *)
From Coq Require Import Reals Psatz ZifyBool.
From Verif Require Import GoBase GoFloat GoStr M_Micrometer M_Option M_Flags S_Text L_Str L_Float L_Micrometer.
From Flocq Require Import Core BinarySingleNaN.
Local Open Scope string_scope.
Local Open Scope Z_scope.

(** *** dividing numbers with any number of digits *)
Lemma fin_div_raw prec emax (Hp : Prec_gt_0 prec) (He : Prec_lt_emax prec emax) sx mx ex my ey :
  let x := F2R (Float radix2 (cond_opp sx (Zpos mx)) ex) in
  let y := F2R (Float radix2 (Zpos my) ey) in
  let q := round radix2 (SpecFloat.fexp prec emax) ZnearestE (x / y)%R in
  (Rabs q < bpow radix2 emax)%R -> fin prec emax (SFdiv prec emax (S754_finite sx mx ex) (S754_finite false my ey)) q.
Proof.
  intros x y q H.
  generalize (Bdiv_correct_aux prec emax Hp He mode_NE sx mx ex false my ey). cbv zeta.
  change (F2R (Float radix2 (cond_Zopp sx (Zpos mx)) ex)) with x.
  change (F2R (Float radix2 (cond_Zopp false (Zpos my)) ey)) with y.
  unfold SFdiv. destruct (SFdiv_core_binary prec emax (Zpos mx) ex (Zpos my) ey) as [[mz ez] lz].
  rewrite round_aux_equiv. change (round_mode mode_NE) with ZnearestE. fold q.
  rewrite Rlt_bool_true by exact H. intros (V & E & F & _). split; [exact V|]. split; [exact F|exact E].
Qed.

Lemma decimal32_correct neg m k : 0 <= m -> 0 <= k ->
  let q := rnd32 (IZR (cond_opp neg m) / IZR (10 ^ k)) in
  (Rabs q < bpow radix2 128)%R -> fin32 (decimal32 neg m (- k)) q.
Proof.
  intros Hm Hk q H. unfold decimal32. destruct m as [|p|p]; [| |lia].
  - assert (E : q = 0%R).
    { unfold q. replace (IZR (cond_opp neg 0)) with 0%R by (destruct neg; reflexivity). unfold Rdiv. rewrite Rmult_0_l. apply round_0. auto with typeclass_instances. }
    rewrite E. repeat split.
  - destruct (Z.leb_spec 0 (- k)) as [C|C].
    + assert (k = 0) as -> by lia.
      assert (E : F2R (Float radix2 (cond_opp neg (Zpos p * 10 ^ (- 0))) 0) = (IZR (cond_opp neg (Zpos p)) / IZR (10 ^ 0))%R).
      { unfold F2R. cbn [Fnum Fexp]. change (10 ^ (- 0)) with 1. change (10 ^ 0) with 1. rewrite Z.mul_1_r. cbn [bpow]. field. }
      pose proof (fin_normalize 24 128 P24 E24 (cond_opp neg (Zpos p * 10 ^ (- 0))) 0 neg) as N. rewrite E in N. apply N, H.
    + rewrite Z.opp_involutive. assert (P : 0 < 10 ^ k) by (apply Z.pow_pos_nonneg; lia).
      pose proof (fin_div_raw 24 128 P24 E24 neg p 0 (Z.to_pos (10 ^ k)) 0) as N. cbv zeta in N.
      assert (E1 : F2R (Float radix2 (cond_opp neg (Zpos p)) 0) = IZR (cond_opp neg (Zpos p))) by (unfold F2R; cbn [Fnum Fexp bpow]; ring).
      assert (E2 : F2R (Float radix2 (Zpos (Z.to_pos (10 ^ k))) 0) = IZR (10 ^ k)).
      { unfold F2R; cbn [Fnum Fexp bpow]. rewrite Z2Pos.id by exact P. ring. }
      rewrite E1, E2 in N. apply N, H.
Qed.

Lemma div_raw_overflow prec emax (Hp : Prec_gt_0 prec) (He : Prec_lt_emax prec emax) sx mx ex my ey :
  let x := F2R (Float radix2 (cond_opp sx (Zpos mx)) ex) in
  let y := F2R (Float radix2 (Zpos my) ey) in
  (bpow radix2 emax <= Rabs (round radix2 (SpecFloat.fexp prec emax) ZnearestE (x / y)))%R ->
  SFdiv prec emax (S754_finite sx mx ex) (S754_finite false my ey) = S754_infinity sx.
Proof.
  intros x y H.
  generalize (Bdiv_correct_aux prec emax Hp He mode_NE sx mx ex false my ey). cbv zeta.
  change (F2R (Float radix2 (cond_Zopp sx (Zpos mx)) ex)) with x.
  change (F2R (Float radix2 (cond_Zopp false (Zpos my)) ey)) with y.
  unfold SFdiv. destruct (SFdiv_core_binary prec emax (Zpos mx) ex (Zpos my) ey) as [[mz ez] lz].
  rewrite round_aux_equiv. change (round_mode mode_NE) with ZnearestE.
  rewrite Rlt_bool_false by exact H. intros (_ & ->). destruct sx; reflexivity.
Qed.
Lemma decimal32_overflow neg m k : 0 <= m -> 0 <= k ->
  (bpow radix2 128 <= Rabs (rnd32 (IZR (cond_opp neg m) / IZR (10 ^ k))))%R -> decimal32 neg m (- k) = S754_infinity neg.
Proof.
  intros Hm Hk H. unfold decimal32. destruct m as [|p|p]; [| |lia].
  - exfalso. replace (IZR (cond_opp neg 0)) with 0%R in H by (destruct neg; reflexivity). unfold Rdiv in H. rewrite Rmult_0_l, round_0, Rabs_R0 in H by auto with typeclass_instances.
    pose proof (bpow_gt_0 radix2 128). lra.
  - destruct (Z.leb_spec 0 (- k)) as [C|C].
    + assert (k = 0) as -> by lia.
      assert (E : F2R (Float radix2 (cond_opp neg (Zpos p * 10 ^ (- 0))) 0) = (IZR (cond_opp neg (Zpos p)) / IZR (10 ^ 0))%R).
      { unfold F2R. cbn [Fnum Fexp]. change (10 ^ (- 0)) with 1. change (10 ^ 0) with 1. rewrite Z.mul_1_r. cbn [bpow]. field. }
      rewrite (normalize_equiv 24 128 P24 E24).
      generalize (binary_normalize_correct 24 128 P24 E24 mode_NE (cond_opp neg (Zpos p * 10 ^ (- 0))) 0 neg). cbv zeta.
      rewrite E. change (round_mode mode_NE) with ZnearestE. rewrite Rlt_bool_false by exact H. intros ->.
      assert (Sg : Rlt_bool (IZR (cond_opp neg (Zpos p)) / IZR (10 ^ 0)) 0 = neg).
      { change (10 ^ 0) with 1. unfold Rdiv. rewrite Rinv_1, Rmult_1_r. destruct neg; [apply Rlt_bool_true|apply Rlt_bool_false]; apply IZR_lt || apply IZR_le; cbn; lia. }
      try rewrite Sg. destruct neg; reflexivity.
    + rewrite Z.opp_involutive. assert (P : 0 < 10 ^ k) by (apply Z.pow_pos_nonneg; lia).
      pose proof (div_raw_overflow 24 128 P24 E24 neg p 0 (Z.to_pos (10 ^ k)) 0) as N. cbv zeta in N.
      assert (E1 : F2R (Float radix2 (cond_opp neg (Zpos p)) 0) = IZR (cond_opp neg (Zpos p))) by (unfold F2R; cbn [Fnum Fexp bpow]; ring).
      assert (E2 : F2R (Float radix2 (Zpos (Z.to_pos (10 ^ k))) 0) = IZR (10 ^ k)).
      { unfold F2R; cbn [Fnum Fexp bpow]. rewrite Z2Pos.id by exact P. ring. }
      rewrite E1, E2 in N. apply N, H.
Qed.

(** *** plain decimal texts *)
Definition any_digit (s : string) : bool := negb (all_chars (fun c => negb (is_digit c)) s).
Lemma digit_char c : is_digit c = true -> Ascii.eqb c "_" = false /\ Ascii.eqb c "." = false /\ Ascii.eqb c "+" = false /\ Ascii.eqb c "-" = false.
Proof. intros H. repeat split; apply (digit_neq c); try exact H; reflexivity. Qed.
Lemma scan_read s : forall acc dot k a k' sd und, num_scan s acc dot k = Some (a, k') ->
  read_digits false s acc (Z.of_nat k) dot sd und = (a, Z.of_nat k', sd || any_digit s, und, "").
Proof.
  induction s as [|c s IH]; intros acc dot k a k' sd und; cbn [num_scan read_digits]; cbv zeta.
  - intros [= <- <-]. unfold any_digit. cbn. rewrite orb_false_r. reflexivity.
  - unfold any_digit. cbn [all_chars]. destruct (is_digit c) eqn:D.
    + destruct (digit_char c D) as (-> & -> & _). cbn [orb negb andb].
      intros H. rewrite orb_true_r. replace (acc * 10 + (code c - 48)) with (10 * acc + (code c - 48)) by ring.
      replace (if dot then Z.of_nat k + 1 else Z.of_nat k) with (Z.of_nat (if dot then S k else k)) by (destruct dot; lia).
      rewrite (IH _ _ _ _ _ true und H). reflexivity.
    + destruct (Ascii.eqb_spec c ".") as [->|]; [|discriminate]. cbn [andb negb]. destruct dot; [discriminate|]. cbn [negb].
      change (Ascii.eqb "." "_") with false. cbv iota. intros H. rewrite (IH _ _ _ _ _ sd und H). reflexivity.
Qed.
(** such a text is not one of the special ones and not hexadecimal *)
Definition num_char (c : ascii) : bool := is_digit c || Ascii.eqb c ".".
Lemma scan_chars s : forall acc dot k r, num_scan s acc dot k = Some r -> all_chars num_char s = true.
Proof.
  induction s as [|c s IH]; intros acc dot k r; cbn [num_scan all_chars]; [reflexivity|]. unfold num_char at 1.
  destruct (is_digit c); [intros H; cbn [orb andb]; eapply IH; eassumption|].
  destruct (Ascii.eqb c "."); [|discriminate]. destruct dot; [discriminate|]. intros H. cbn [orb andb]. exact (IH _ _ _ _ H).
Qed.
Lemma num_char_cases c : num_char c = true -> (code c <= 57 /\ 46 <= code c) /\ (lowerc c =? 120) = false.
Proof. destruct c as [[] [] [] [] [] [] [] []]; intros H; try discriminate H; (split; [split; vm_compute; discriminate|reflexivity]). Qed.
Definition lowered (c : ascii) : ascii := if (65 <=? code c) && (code c <=? 90) then chr (code c + 32) else c.
Lemma special_cons c t : special (String c t) = None \/ In (lowered c) ["n"; "i"; "+"; "-"]%char.
Proof.
  unfold special. cbn [lower]. fold (lowered c). set (d := lowered c). clearbody d. set (u := lower t). clearbody u.
  destruct (Ascii.eqb_spec d "n") as [->|N1]; [right; cbn; tauto|].
  destruct (Ascii.eqb_spec d "i") as [->|N2]; [right; cbn; tauto|].
  destruct (Ascii.eqb_spec d "+") as [->|N3]; [right; cbn; tauto|].
  destruct (Ascii.eqb_spec d "-") as [->|N4]; [right; cbn; tauto|].
  left. cbn [String.eqb].
  rewrite (proj2 (Ascii.eqb_neq d "n") N1), (proj2 (Ascii.eqb_neq d "i") N2), (proj2 (Ascii.eqb_neq d "+") N3), (proj2 (Ascii.eqb_neq d "-") N4).
  reflexivity.
Qed.
Lemma lowered_num c : num_char c = true -> lowered c = c.
Proof. intros H. apply num_char_cases in H. unfold lowered. destruct (Z.leb_spec 65 (code c)); [lia|reflexivity]. Qed.
Lemma special_plain s : all_chars num_char s = true -> special s = None.
Proof.
  destruct s as [|c t]; [reflexivity|]. cbn [all_chars]. intros H. apply andb_prop in H. destruct H as [H _].
  destruct (special_cons c t) as [|I]; [assumption|]. rewrite (lowered_num c H) in I. exfalso.
  destruct I as [<-|[<-|[<-|[<-|[]]]]]; discriminate H.
Qed.
Lemma special_minus s : all_chars num_char s = true -> special ("-" ++ s) = None.
Proof.
  intros H. destruct s as [|c t]; [reflexivity|]. cbn [all_chars] in H. apply andb_prop in H. destruct H as [H _].
  cbn [append]. unfold special. cbn [lower]. fold (lowered c). rewrite (lowered_num c H).
  change (lowered "-") with "-"%char. set (u := lower t). clearbody u.
  assert (N : Ascii.eqb c "i" = false) by (apply Ascii.eqb_neq; intros ->; discriminate H).
  change (if (65 <=? code "-") && (code "-" <=? 90) then chr (code "-" + 32) else "-"%char) with "-"%char.
  assert (E : forall w r, String.eqb (String "-" (String c u)) (String w r) = (Ascii.eqb "-" w && String.eqb (String c u) r)%bool).
  { intros w r. cbn [String.eqb]. destruct (Ascii.eqb "-" w); reflexivity. }
  rewrite !E. change (Ascii.eqb "-" "n") with false. change (Ascii.eqb "-" "i") with false. change (Ascii.eqb "-" "+") with false. change (Ascii.eqb "-" "-") with true.
  assert (E2 : forall r, String.eqb (String c u) (String "i" r) = false).
  { intros r. cbn [String.eqb]. rewrite N. reflexivity. }
  rewrite !E2. reflexivity.
Qed.
Lemma split_base_plain s : all_chars num_char s = true -> split_base s = (false, s).
Proof.
  destruct s as [|z [|x [|c t]]]; try reflexivity. cbn [all_chars]. intros H. apply andb_prop in H. destruct H as [_ H].
  apply andb_prop in H. destruct H as [H _]. apply num_char_cases in H. destruct H as [_ H]. cbn [split_base]. rewrite H, andb_false_r. reflexivity.
Qed.
Lemma split_sign_plain s : all_chars num_char s = true -> split_sign s = (false, s).
Proof.
  destruct s as [|c t]; [reflexivity|]. cbn [all_chars]. intros H. apply andb_prop in H. destruct H as [H _]. cbn [split_sign].
  destruct (Ascii.eqb_spec c "+") as [->|]; [discriminate H|]. destruct (Ascii.eqb_spec c "-") as [->|]; [discriminate H|reflexivity].
Qed.
Lemma any_digit_minus s : any_digit ("-" ++ s) = any_digit s.
Proof. reflexivity. Qed.

Lemma parse_plain s a k : parse_num s = Some (a, k) -> any_digit s = true ->
  exists neg m, 0 <= m /\ a = cond_opp neg m /\ parse_float32 s = finish32 (decimal32 neg m (- Z.of_nat k)).
Proof.
  assert (B : forall t m neg j, num_scan t 0 false 0 = Some (m, j) -> any_digit t = true -> special s = None -> split_sign s = (neg, t) ->
    0 <= m /\ parse_float32 s = finish32 (decimal32 neg m (- Z.of_nat j))).
  { intros t m neg j S D Hs Hsg. split.
    - assert (G : forall u acc dot i r, 0 <= acc -> num_scan u acc dot i = Some r -> 0 <= fst r).
      { clear. induction u as [|c u IH]; intros acc dot i r Ha; cbn [num_scan]; [intros [= <-]; exact Ha|].
        destruct (is_digit c) eqn:D; [apply IH; unfold is_digit in D; lia|]. destruct (Ascii.eqb c "." && negb dot); [apply IH, Ha|discriminate]. }
      apply (G _ _ _ _ _ (Z.le_refl 0) S).
    - unfold parse_float32. rewrite Hs, Hsg, (split_base_plain _ (scan_chars _ _ _ _ _ S)).
      change 0%Z with (Z.of_nat 0) at 2. rewrite (scan_read t 0 false 0 m j false false S), D. cbn [orb negb].
      cbv iota. rewrite Z.sub_0_l. reflexivity. }
  unfold parse_num. destruct s as [|c t]; [discriminate|].
  destruct (Ascii.eqb_spec c "-") as [->|C].
  - destruct (num_scan t 0 false 0) as [[m j]|] eqn:S; [|discriminate]. intros [= <- <-] D.
    destruct (B t m true j S D) as [B1 B2]; [apply special_minus; eapply scan_chars; eassumption|reflexivity|].
    exists true, m. split; [exact B1|]. split; [reflexivity|exact B2].
  - intros S D. destruct (B (String c t) a false k S D) as [B1 B2].
    + apply special_plain. eapply scan_chars; eassumption.
    + apply split_sign_plain. eapply scan_chars; eassumption.
    + exists false, a. split; [exact B1|]. split; [reflexivity|exact B2].
Qed.

(** a decimal text is read as the nearest float32 *)
Lemma millimeter_nearest s a k : parse_num s = Some (a, k) -> any_digit s = true ->
  let q := rnd32 (IZR a / IZR (10 ^ Z.of_nat k)) in
  (Rabs q < bpow radix2 128)%R -> exists x, MillimeterSet s = (x, None) /\ fin32 x q.
Proof.
  intros H D q Hq. destruct (parse_plain s a k H D) as (neg & m & Hm & -> & E).
  pose proof (decimal32_correct neg m (Z.of_nat k) Hm ltac:(lia) Hq) as F.
  exists (decimal32 neg m (- Z.of_nat k)). split; [|exact F]. unfold MillimeterSet. rewrite E. unfold finish32.
  destruct F as (_ & Fi & _). destruct (decimal32 neg m (- Z.of_nat k)); try reflexivity. discriminate Fi.
Qed.

Lemma millimeter_overflow s a k : parse_num s = Some (a, k) -> any_digit s = true ->
  (bpow radix2 128 <= Rabs (rnd32 (IZR a / IZR (10 ^ Z.of_nat k))))%R -> exists x, MillimeterSet s = (x, Some RangeErr).
Proof.
  intros H D Hq. destruct (parse_plain s a k H D) as (neg & m & Hm & -> & E). unfold MillimeterSet. rewrite E.
  rewrite (decimal32_overflow neg m (Z.of_nat k) Hm ltac:(lia) Hq). eexists. reflexivity.
Qed.

(** *** micrometers *)
Local Open Scope R_scope.
Lemma near_micrometers n y : (Z.abs n <= 8191999)%Z -> Rabs (y - IZR n / 1000) <= / 4096 ->
  forall x, fin32 x y -> ToMicrometer x = n.
Proof.
  intros H Ey x Fx.
  assert (Hm : Rabs (IZR n) <= 8191999) by (rewrite <- abs_IZR; apply IZR_le; exact H).
  assert (F1000 : fin32 (f32_of_Z 1000) 1000) by (apply (fin32_of_Z 1000); cbn; lia).
  apply Rabs_le_inv in Ey. apply Rabs_le_inv in Hm.
  assert (By' : Rabs (y * 1000) <= bpow radix2 23).
  { rewrite bpow_val by lia. change (2 ^ 23)%Z with 8388608%Z. apply Rabs_le. lra. }
  assert (Bz : Rabs (rnd32 (y * 1000)) <= bpow radix2 23).
  { apply rnd_abs_le; auto with typeclass_instances. rewrite emin24. lia. }
  assert (Fz : fin32 (mul32 x (f32_of_Z 1000)) (rnd32 (y * 1000))).
  { apply fin_mul; auto with typeclass_instances. eapply Rle_lt_trans; [exact Bz|]. apply bpow_lt; lia. }
  assert (Ez : Rabs (rnd32 (y * 1000) - y * 1000) <= / 4).
  { eapply Rle_trans; [apply (rnd_half_ulp 24 128 _ (y * 1000) 23); [rewrite emin24; lia|exact By']|].
    change (23 - 24)%Z with (- 1)%Z. simpl bpow. lra. }
  assert (N : ZnearestE (rnd32 (y * 1000)) = n).
  { apply ZnearestE_unique. apply Rabs_le_inv in Ez. apply Rabs_lt. lra. }
  unfold ToMicrometer. rewrite (int64_of_rne_correct _ (rnd32 (y * 1000))).
  - exact N.
  - apply fin64_of_f32. exact Fz.
  - rewrite N. unfold int64. lia.
Qed.
Lemma thousandth_bound n : (Z.abs n <= 8191999)%Z -> Rabs (IZR n / 1000) <= bpow radix2 13.
Proof.
  intros H. assert (Hm : Rabs (IZR n) <= 8191999) by (rewrite <- abs_IZR; apply IZR_le; exact H).
  unfold Rdiv. rewrite Rabs_mult, (Rabs_pos_eq (/ 1000)) by lra. rewrite bpow_val by lia. change (2 ^ 13)%Z with 8192%Z. lra.
Qed.
Lemma thousandth_round n : (Z.abs n <= 8191999)%Z ->
  Rabs (rnd32 (IZR n / 1000)) < bpow radix2 128 /\ Rabs (rnd32 (IZR n / 1000) - IZR n / 1000) <= / 4096.
Proof.
  intros H. pose proof (thousandth_bound n H) as B. split.
  - apply Rle_lt_trans with (bpow radix2 13); [|apply bpow_lt; lia]. apply rnd_abs_le; auto with typeclass_instances. rewrite emin24. lia.
  - eapply Rle_trans; [apply (rnd_half_ulp 24 128 _ _ 13); [rewrite emin24; lia|exact B]|].
    change (/ 2) with (bpow radix2 (- 1)). rewrite <- bpow_plus. change (-1 + (13 - 24))%Z with (- (12))%Z. rewrite bpow_neg by lia. change (2 ^ 12)%Z with 4096%Z. lra.
Qed.
Lemma decimal_value a k n : (a * 1000 = n * 10 ^ Z.of_nat k)%Z -> IZR a / IZR (10 ^ Z.of_nat k) = IZR n / 1000.
Proof.
  intros H. assert (P : 0 < IZR (10 ^ Z.of_nat k)) by (apply IZR_lt, Z.pow_pos_nonneg; lia).
  apply (f_equal IZR) in H. rewrite !mult_IZR in H. apply Rmult_eq_reg_r with (IZR (10 ^ Z.of_nat k) * 1000); [|lra].
  field_simplify; lra.
Qed.
Lemma millimeter_text s a k n : parse_num s = Some (a, k) -> any_digit s = true -> (a * 1000 = n * 10 ^ Z.of_nat k)%Z -> (Z.abs n <= 8191999)%Z ->
  exists x, MillimeterSet s = (x, None) /\ fin32 x (rnd32 (IZR n / 1000)) /\ ToMicrometer x = n.
Proof.
  intros H D E B. pose proof (thousandth_round n B) as [T1 T2].
  pose proof (millimeter_nearest s a k H D) as M. cbv zeta in M. rewrite (decimal_value a k n E) in M.
  destruct (M T1) as (x & Hx & Fx). exists x. split; [exact Hx|]. split; [exact Fx|]. eapply near_micrometers; eassumption.
Qed.
Lemma millimeter_string x n : (Z.abs n <= 8191999)%Z -> fin32 x (rnd32 (IZR n / 1000)) -> parse_num (MillimeterString x) = Some (n, 3%nat) /\ any_digit (MillimeterString x) = true.
Proof.
  intros B F. pose proof (thousandth_round n B) as [_ T].
  destruct (dec_scaled_correct x _ 3 ltac:(lia) F) as (s & a & E1 & E2 & E3).
  assert (V : (if s then - a else a)%Z = n).
  { change (10 ^ 3)%Z with 1000%Z in E3. apply Rabs_le_inv in E3. apply Rabs_le_inv in T.
    set (b := (if s then - a else a)%Z) in *. assert (A : Rabs (IZR b - IZR n) < 1) by (apply Rabs_lt; lra).
    rewrite <- minus_IZR, <- abs_IZR in A. apply lt_IZR in A. lia. }
  split.
  - unfold MillimeterString. rewrite (parse_num_fixed 3 x s a ltac:(lia) E1 E2), V. reflexivity.
  - unfold MillimeterString, fmt_fixed. change (Z.of_nat 3) with 3%Z. rewrite E1.
    destruct (udec_nonempty (a / 10 ^ 3) ltac:(apply Z.div_pos; lia)) as (c & t & -> & Hc).
    destruct s; cbn [append]; unfold any_digit; cbn [all_chars]; rewrite Hc; cbn [negb andb]; rewrite ?andb_false_r; reflexivity.
Qed.
Lemma millimeter_round_trip s a k n x : parse_num s = Some (a, k) -> any_digit s = true -> (a * 1000 = n * 10 ^ Z.of_nat k)%Z -> (Z.abs n <= 8191999)%Z ->
  MillimeterSet s = (x, None) -> exists y, MillimeterSet (MillimeterString x) = (y, None) /\ SF2R radix2 y = SF2R radix2 x.
Proof.
  intros H D E B Hx. destruct (millimeter_text s a k n H D E B) as (x' & Hx' & Fx & _). rewrite Hx in Hx'. injection Hx' as <-.
  destruct (millimeter_string x n B Fx) as (P & Q).
  destruct (millimeter_text _ n 3 n P Q) as (y & Hy & Fy & _); [change (10 ^ Z.of_nat 3)%Z with 1000%Z; lia|exact B|].
  exists y. split; [exact Hy|]. destruct Fx as (_ & _ & ->). destruct Fy as (_ & _ & ->). reflexivity.
Qed.
