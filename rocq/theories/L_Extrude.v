(** Float arithmetic of the extrusion counter. *)
From Coq Require Import Reals Psatz.
From Verif Require Import GoBase GoFloat GoStr M_Micrometer M_Geom2D S_Text S_Printer S_Builder M_Clip M_Builder S_Calls L_Float L_Micrometer L_Printer L_Builder L_Calls.
From Flocq Require Import Core BinarySingleNaN Plus_error Relative.
Local Open Scope R_scope.

(** *** signs *)
Definition plus (x : spec_float) : Prop :=
  match x with S754_zero s | S754_infinity s | S754_finite s _ _ => s = false | S754_nan => True end.
Section Gen.
Variables prec emax : Z.
Lemma plus_round_aux m e l : plus (SpecFloat.binary_round_aux prec emax false m e l).
Proof.
  unfold SpecFloat.binary_round_aux. destruct (SpecFloat.shr_fexp _ _ _ _ _) as [a b]. destruct (SpecFloat.shr_fexp _ _ _ _ _) as [c d].
  destruct (SpecFloat.shr_m c); try reflexivity; try exact I. destruct (d <=? emax - prec)%Z; reflexivity.
Qed.
Lemma plus_normalize m e : (0 <= m)%Z -> plus (SpecFloat.binary_normalize prec emax m e false).
Proof.
  intros H. destruct m; [reflexivity| |lia]. unfold SpecFloat.binary_normalize, SpecFloat.binary_round.
  destruct (SpecFloat.shl_align _ _ _) as [a b]. apply plus_round_aux.
Qed.
Lemma plus_mul x y : plus x -> plus y -> plus (SFmul prec emax x y).
Proof.
  destruct x as [a|a| |a m e], y as [b|b| |b n f]; cbn [plus SFmul]; intros A B; subst; try exact I; try reflexivity.
  apply plus_round_aux.
Qed.
Lemma plus_div x y : plus x -> plus y -> plus (SFdiv prec emax x y).
Proof.
  destruct x as [a|a| |a m e], y as [b|b| |b n f]; cbn [plus SFdiv]; intros A B; subst; try exact I; try reflexivity.
  destruct (SFdiv_core_binary _ _ _ _ _ _) as [[q r] l]. apply plus_round_aux.
Qed.
Lemma plus_add x y : plus x -> plus y -> plus (SFadd prec emax x y).
Proof.
  destruct x as [a|a| |a m e], y as [b|b| |b n f]; cbn [plus SFadd]; intros A B; subst; try exact I; try reflexivity.
  apply plus_normalize. cbn [SpecFloat.cond_Zopp]. lia.
Qed.
Lemma plus_sqrt x : plus x -> plus (SFsqrt prec emax x).
Proof.
  destruct x as [a|a| |a m e]; cbn [plus]; intros A; subst; try exact I; try reflexivity. cbn [SFsqrt].
  destruct (SFsqrt_core_binary _ _ _ _) as [[q r] l]. apply plus_round_aux.
Qed.
End Gen.
Lemma plus_f32 x : plus x -> plus (f32_of_f64 x).
Proof. destruct x; cbn [plus f32_of_f64]; intros H; subst; try exact I; try reflexivity. apply plus_normalize. cbn. lia. Qed.
Lemma plus_f64 x : plus x -> plus (f64_of_f32 x).
Proof. destruct x; cbn [plus f64_of_f32]; intros H; subst; try exact I; try reflexivity. apply plus_normalize. cbn. lia. Qed.
Lemma plus_square x : plus (mul32 x x).
Proof.
  unfold mul32. destruct x as [a|a| |a m e]; cbn [SFmul plus]; rewrite ?xorb_nilpotent; try reflexivity; try exact I. apply plus_round_aux.
Qed.
Lemma plus_mm m : (0 <= m)%Z -> plus (ToMillimeter m).
Proof. intros H. apply plus_f32, plus_div; apply plus_normalize; lia. Qed.
Lemma plus_size p : plus (ptSizeMM p).
Proof. apply plus_f32, plus_sqrt, plus_f64, plus_add; apply plus_square. Qed.
Lemma plus_permm d m t w : (0 <= d)%Z -> (0 <= m)%Z -> (0 <= t)%Z -> (0 <= w)%Z -> plus (extrusion_per_mm d m t w).
Proof.
  intros D M T W. unfold extrusion_per_mm, mul32, div32.
  repeat first [apply plus_mul | apply plus_div | apply plus_mm | apply plus_normalize | assumption | lia | reflexivity].
Qed.

(** *** every operation yields a valid float *)
Section Valid.
Variables prec emax : Z.
Context (Hp : Prec_gt_0 prec) (He : Prec_lt_emax prec emax).
Notation valid := (valid_binary prec emax).
Lemma valid_B x : valid x = true -> exists b : binary_float prec emax, x = B2SF b.
Proof. intros H. exists (SF2B x H). rewrite B2SF_SF2B. reflexivity. Qed.
Lemma valid_normalize m e z : valid (SpecFloat.binary_normalize prec emax m e z) = true.
Proof. rewrite (normalize_equiv prec emax Hp He). apply valid_binary_B2SF. Qed.
Lemma valid_mul x y : valid x = true -> valid y = true -> valid (SFmul prec emax x y) = true.
Proof. intros A B. apply valid_B in A as (a & ->). apply valid_B in B as (b & ->). rewrite (mul_equiv _ _ Hp He). apply valid_binary_B2SF. Qed.
Lemma valid_add x y : valid x = true -> valid y = true -> valid (SFadd prec emax x y) = true.
Proof. intros A B. apply valid_B in A as (a & ->). apply valid_B in B as (b & ->). rewrite (add_equiv _ _ Hp He). apply valid_binary_B2SF. Qed.
Lemma valid_div x y : valid x = true -> valid y = true -> valid (SFdiv prec emax x y) = true.
Proof. intros A B. apply valid_B in A as (a & ->). apply valid_B in B as (b & ->). rewrite (div_equiv _ _ Hp He). apply valid_binary_B2SF. Qed.
Lemma valid_sqrt x : valid x = true -> valid (SFsqrt prec emax x) = true.
Proof. intros A. apply valid_B in A as (a & ->). rewrite (sqrt_equiv _ _ Hp He). apply valid_binary_B2SF. Qed.
Lemma fin_of x : valid x = true -> is_finite_SF x = true -> fin prec emax x (SF2R radix2 x).
Proof. intros V F. repeat split; assumption. Qed.
(** a finite sum is the rounded exact sum *)
Lemma fin_add_inv x y : valid x = true -> valid y = true -> is_finite_SF (SFadd prec emax x y) = true ->
  is_finite_SF x = true /\ is_finite_SF y = true /\
  SF2R radix2 (SFadd prec emax x y) = round radix2 (SpecFloat.fexp prec emax) ZnearestE (SF2R radix2 x + SF2R radix2 y).
Proof.
  intros A B F.
  assert (Fx : is_finite_SF x = true) by (destruct x as [a|a| |a m e], y as [b|b| |b n f]; try reflexivity; try discriminate F;
    cbn [SFadd] in F; destruct (Bool.eqb a b); discriminate F).
  assert (Fy : is_finite_SF y = true) by (destruct x as [a|a| |a m e], y as [b|b| |b n f]; try reflexivity; try discriminate F;
    cbn [SFadd] in F; destruct (Bool.eqb a b); discriminate F).
  split; [exact Fx|]. split; [exact Fy|].
  apply valid_B in A as (a & ->). apply valid_B in B as (b & ->). rewrite (add_equiv _ _ Hp He) in *.
  rewrite is_finite_SF_B2SF in *. pose proof (Bplus_correct prec emax Hp He mode_NE a b Fx Fy) as C.
  destruct (Rlt_bool _ _).
  - destruct C as (C & _). rewrite !SF2R_B2SF. exact C.
  - destruct C as (C & _). rewrite <- is_finite_SF_B2SF, C in F. unfold binary_overflow in F. simpl in F.
    destruct (Bsign a); discriminate F.
Qed.
End Valid.

Local Instance Hp24 : Prec_gt_0 24 := eq_refl.
Local Instance He24 : Prec_lt_emax 24 128 := eq_refl.
Local Instance Hp53 : Prec_gt_0 53 := eq_refl.
Local Instance He53 : Prec_lt_emax 53 1024 := eq_refl.
Local Instance VE24 : Valid_exp (SpecFloat.fexp 24 128) := fexp_correct 24 128 Hp24.

Lemma valid32_of_f64 x : valid64 x = true -> valid32 (f32_of_f64 x) = true.
Proof. destruct x; intros H; try exact H. apply valid_normalize; assumption || reflexivity. Qed.
Lemma valid64_of_f32 x : valid32 x = true -> valid64 (f64_of_f32 x) = true.
Proof. destruct x; intros H; try exact H. apply valid_normalize; reflexivity. Qed.
Lemma valid_mm m : valid32 (ToMillimeter m) = true.
Proof. apply valid32_of_f64, valid_div; try reflexivity; apply valid_normalize; reflexivity. Qed.
Lemma valid_size p : valid32 (ptSizeMM p) = true.
Proof.
  apply valid32_of_f64, valid_sqrt; try reflexivity. apply valid64_of_f32, valid_add; try reflexivity;
    apply valid_mul; try reflexivity; apply valid_mm.
Qed.
Lemma valid_permm d m t w : valid32 (extrusion_per_mm d m t w) = true.
Proof.
  unfold extrusion_per_mm, mul32, div32.
  repeat first [apply valid_mul; [reflexivity|reflexivity| |] | apply valid_div; [reflexivity|reflexivity| |] | apply valid_mm
    | apply valid_normalize; reflexivity | reflexivity].
Qed.
Lemma plus_ge0 x : plus x -> 0 <= SF2R radix2 x.
Proof. destruct x as [a|a| |a m e]; cbn [plus SF2R]; intros H; subst; try lra. apply F2R_ge_0. cbn. lia. Qed.

(** *** the printed E value is monotone *)
Lemma shown4 x : is_finite_SF x = true -> shown 4 x = Some (ZnearestE (SF2R radix2 x * 10000)).
Proof.
  destruct x as [s|s| |s m e]; intros F; try discriminate F; unfold shown; cbn [dec_scaled SF2R].
  - rewrite Rmult_0_l. change 0 with (IZR 0). rewrite (Znearest_imp _ 0 0); [destruct s; reflexivity|]. rewrite Rminus_0_r, Rabs_R0. lra.
  - rewrite rne_Z_correct.
    assert (V : F2R (Float radix2 (Zpos m * 10 ^ 4) e) = F2R (Float radix2 (Zpos m) e) * 10000).
    { unfold F2R; cbn [Fnum Fexp]. rewrite mult_IZR. change (IZR (10 ^ 4)) with 10000. ring. }
    rewrite V. change (10 ^ (4 - 4))%Z with 1%Z. rewrite Z.mul_1_r. f_equal. destruct s; [|reflexivity]. cbn [SpecFloat.cond_Zopp cond_Zopp].
    change (Zneg m) with (- Zpos m)%Z. rewrite F2R_Zopp, Ropp_mult_distr_l_reverse.
    set (v := F2R (Float radix2 (Zpos m) e) * 10000). rewrite Znearest_opp. f_equal.
    unfold Znearest. destruct (Rcompare (v - IZR (Zfloor v)) (/ 2)); try reflexivity.
    replace (Z.even (- (Zfloor v + 1))) with (Z.even (Zfloor v + 1)) by (rewrite Z.even_opp; reflexivity).
    rewrite Z.add_1_r, Z.even_succ, <- Z.negb_even. destruct (Z.even (Zfloor v)); reflexivity.
Qed.
Lemma shown4_finite x : shown 4 x <> None -> is_finite_SF x = true.
Proof. unfold shown. destruct x; cbn [dec_scaled]; intros H; try reflexivity; contradiction. Qed.

Lemma add_up x e : valid32 x = true -> valid32 e = true -> plus e -> is_finite_SF (add32 x e) = true ->
  SF2R radix2 x <= SF2R radix2 (add32 x e).
Proof.
  intros X E P F. destruct (fin_add_inv 24 128 _ _ x e X E F) as (Fx & Fe & V). unfold add32. rewrite V.
  rewrite <- (round_generic radix2 (SpecFloat.fexp 24 128) ZnearestE (SF2R radix2 x)) at 1.
  - apply round_le; try typeclasses eauto. pose proof (plus_ge0 e P). lra.
  - apply (fin_format 24 128 x). apply fin_of; assumption.
Qed.

Local Open Scope Z_scope.
Lemma commanded_rising ops : forall here E ms e0, valid32 E = true -> shown 4 E = Some e0 ->
  Forall (fun o : op => valid32 (snd (fst o)) = true /\ plus (snd (fst o))) ops ->
  Forall2 executed (commanded here E ops) ms -> Forall (fun r => rE r <> None) ms -> rising e0 ms.
Proof.
  induction ops as [|[[p e] s] ops IH]; intros here E ms e0 V S H X N.
  - cbn in X. inversion X; subst. exact I.
  - inversion H as [|? ? [He Hq] H']; subst. cbn [fst snd] in *. cbn [commanded] in X.
    destruct (match here with Some q => same_place q p && is_zero e | None => false end); [apply (IH here E); assumption|].
    inversion X as [|? ? ? ms' X1 X2]; subst. inversion N as [|? ? N1 N2]; subst. cbn [rising].
    destruct X1 as (_ & _ & _ & RE & _). rewrite RE in N1. pose proof (shown4_finite _ N1) as F.
    rewrite RE, (shown4 _ F). eexists. split; [reflexivity|]. split.
    + assert (FE : is_finite_SF E = true) by (apply shown4_finite; congruence).
      rewrite (shown4 _ FE) in S. injection S as <-.
      apply (@Zrnd_le ZnearestE (valid_rnd_N _)).
      apply Rmult_le_compat_r; [lra|]. apply add_up; assumption.
    + apply (IH (Some p) (add32 E e)); try assumption; [|apply shown4, F].
      apply valid_add; [reflexivity..| |]; assumption.
Qed.

Lemma lines_plus st z l : forall a, valid32 (s_permm st) = true -> plus (s_permm st) ->
  Forall (fun o : op => valid32 (snd (fst o)) = true /\ plus (snd (fst o))) (lines_ops st z a l).
Proof.
  induction l as [|b l IH]; intros a V P; constructor; [|apply IH; assumption]. cbn [line_op fst snd]. unfold line_amount.
  split; [apply valid_mul; try reflexivity; [apply valid_size|exact V]|apply plus_mul; [apply plus_size|exact P]].
Qed.
Lemma polygon_plus st from p0 ps z open : valid32 (s_permm st) = true -> plus (s_permm st) ->
  Forall (fun o : op => valid32 (snd (fst o)) = true /\ plus (snd (fst o))) (polygon_ops st false from p0 ps z open).
Proof.
  intros V P. apply Forall_app. split; [|apply lines_plus; assumption]. constructor; [|constructor]. split; reflexivity.
Qed.

(** *** retracting and pushing back *)
Local Open Scope R_scope.
Lemma small_round x : Rabs x <= bpow radix2 100 -> Rabs (rnd32 x) < bpow radix2 128.
Proof.
  intros H. apply Rle_lt_trans with (bpow radix2 100).
  - apply (rnd_abs_le 24 128 Hp24); [rewrite emin24; lia|exact H].
  - apply bpow_lt. lia.
Qed.
Lemma sum_rel x y : generic_format radix2 (SpecFloat.fexp 24 128) x -> generic_format radix2 (SpecFloat.fexp 24 128) y ->
  exists d, Rabs d <= bpow radix2 (-24) /\ rnd32 (x + y) = (x + y) * (1 + d).
Proof.
  intros X Y. destruct (FLT_plus_error_N_ex radix2 (SpecFloat.emin 24 128) 24 (fun x => negb (Z.even x)) x y X Y) as (d & D & E).
  exists d. split; [|exact E]. eapply Rle_trans; [exact D|].
  assert (U : u_ro radix2 24 = bpow radix2 (-24)) by (unfold u_ro; simpl; lra).
  rewrite U. assert (P : 0 < bpow radix2 (-24)) by apply bpow_gt_0.
  apply Rmult_le_reg_r with (1 + bpow radix2 (-24)); [lra|]. unfold Rdiv. rewrite Rmult_assoc, Rinv_l by lra. nra.
Qed.
Lemma retract_drift x y a b : fin32 x a -> fin32 y b -> Rabs a <= bpow radix2 98 -> Rabs b <= bpow radix2 98 ->
  exists c, fin32 (add32 (add32 x (SFopp y)) y) c /\ Rabs (c - a) <= (Rabs a + Rabs b) * bpow radix2 (-22).
Proof.
  intros X Y A B.
  assert (Y' : fin32 (SFopp y) (- b)).
  { destruct Y as (V & F & E). repeat split.
    - destruct y; exact V.
    - destruct y; exact F.
    - rewrite <- E. destruct y as [s|s| |s m e]; cbn [SFopp SF2R]; try (symmetry; apply Ropp_0); try lra.
      destruct s; cbn [negb SpecFloat.cond_Zopp]; rewrite <- F2R_Zopp; reflexivity. }
  assert (T98 : bpow radix2 100 = 4 * bpow radix2 98).
  { change 100%Z with (2 + 98)%Z. rewrite bpow_plus. reflexivity. }
  assert (P98 : 0 < bpow radix2 98) by apply bpow_gt_0.
  assert (S1 : Rabs (rnd32 (a + - b)) < bpow radix2 128).
  { apply small_round. eapply Rle_trans; [apply Rabs_triang|]. rewrite Rabs_Ropp. lra. }
  pose proof (fin_add 24 128 _ _ x (SFopp y) a (- b) X Y' S1) as F1. fold (add32 x (SFopp y)) in F1.
  destruct (sum_rel a (- b) (fin_format _ _ _ _ X) (fin_format _ _ _ _ Y')) as (d1 & D1 & E1).
  assert (U : bpow radix2 (-24) = / 16777216) by (simpl; lra).
  assert (U2 : bpow radix2 (-22) = / 4194304) by (simpl; lra).
  assert (S2 : Rabs (rnd32 (rnd32 (a + - b) + b)) < bpow radix2 128).
  { apply small_round. eapply Rle_trans; [apply Rabs_triang|].
    assert (Rabs (rnd32 (a + - b)) <= 3 * bpow radix2 98); [|lra].
    rewrite E1, Rabs_mult. rewrite U in D1.
    assert (Rabs (a + - b) <= 2 * bpow radix2 98) by (eapply Rle_trans; [apply Rabs_triang|]; rewrite Rabs_Ropp; lra).
    assert (Rabs (1 + d1) <= 1.5) by (apply Rabs_le; apply Rabs_le_inv in D1; lra).
    apply Rle_trans with (2 * bpow radix2 98 * 1.5); [|lra]. apply Rmult_le_compat; try apply Rabs_pos; assumption. }
  pose proof (fin_add 24 128 _ _ _ y _ b F1 Y S2) as F2.
  destruct (sum_rel (rnd32 (a + - b)) b (fin_format _ _ _ _ F1) (fin_format _ _ _ _ Y)) as (d2 & D2 & E2).
  eexists. split; [exact F2|]. rewrite E2, E1. rewrite U in *. rewrite U2.
  replace (((a + - b) * (1 + d1) + b) * (1 + d2) - a) with ((a - b) * (d1 * (1 + d2)) + a * d2) by ring.
  eapply Rle_trans; [apply Rabs_triang|]. rewrite !Rabs_mult.
  assert (Rabs (1 + d2) <= 2) by (apply Rabs_le; apply Rabs_le_inv in D2; lra).
  assert (Rabs d1 * Rabs (1 + d2) <= / 16777216 * 2) by (apply Rmult_le_compat; try apply Rabs_pos; assumption).
  assert (Rabs (a - b) <= Rabs a + Rabs b) by (unfold Rminus; eapply Rle_trans; [apply Rabs_triang|]; rewrite Rabs_Ropp; lra).
  pose proof (Rabs_pos a). pose proof (Rabs_pos b). pose proof (Rabs_pos d1). pose proof (Rabs_pos d2). pose proof (Rabs_pos (a - b)).
  pose proof (Rabs_pos (1 + d2)).
  assert (Rabs (a - b) * (Rabs d1 * Rabs (1 + d2)) <= (Rabs a + Rabs b) * (/ 16777216 * 2)).
  { apply Rmult_le_compat; try assumption. apply Rmult_le_pos; assumption. }
  assert (Rabs a * Rabs d2 <= (Rabs a + Rabs b) * / 16777216) by (apply Rmult_le_compat; lra).
  lra.
Qed.

(** speeds are cut down to whole mm/s *)
Lemma speed_trunc v r : fin32 v r -> int64 (Ztrunc r) -> int_of_f32 v = Ztrunc r.
Proof. intros V H. apply int64_of_f64_correct; [apply fin64_of_f32, V|exact H]. Qed.

(** *** proper calls keep the floats valid and the extrusion per mm non-negative *)
Local Open Scope Z_scope.
Record good (g : builder) : Prop := Good {
  gd_amount : valid32 (extrusionAmount g) = true; gd_ramount : valid32 (retractionAmount g) = true;
  gd_permm : valid32 (extrusionPerMM g) = true; gd_plus : plus (extrusionPerMM g);
  gd_d : 0 <= filamentDiameter g; gd_m : 0 <= extrusionMultiplier g }.
Lemma op_amount p e s g : valid32 (extrusionAmount g) = true -> valid32 e = true -> valid32 (extrusionAmount (AddMoveSpeed p e s g)) = true.
Proof.
  intros A B. unfold AddMoveSpeed. match goal with |- context [if ?c then _ else _] => destruct c end; [exact A|].
  cbn [extrusionAmount]. apply valid_add; [reflexivity|reflexivity|exact A|exact B].
Qed.
Lemma ops_amount os : forall g, valid32 (extrusionAmount g) = true -> Forall (fun o : op => valid32 (snd (fst o)) = true) os ->
  valid32 (extrusionAmount (do_ops os g)) = true.
Proof.
  induction os as [|[[p e] s] os IH]; intros g A H; [exact A|]. inversion H; subst. apply IH; [apply op_amount; assumption|assumption].
Qed.
Lemma same_good g g' : same_settings g g' -> valid32 (extrusionAmount g') = true -> good g -> good g'.
Proof. intros (A & B & C & D & E & F & G & X & Y) V [? ? ? ? ? ?]. constructor; congruence || (rewrite ?A, ?X, ?Y; assumption). Qed.
Lemma valid_opp x : valid32 (SFopp x) = valid32 x.
Proof. destruct x; reflexivity. Qed.
Lemma polygon_valid st c from p0 ps z open : valid32 (s_permm st) = true -> valid32 (s_ramount st) = true ->
  Forall (fun o : op => valid32 (snd (fst o)) = true) (polygon_ops st c from p0 ps z open).
Proof.
  intros V R. apply Forall_app. split.
  - unfold approach_ops. destruct c; [|repeat constructor].
    destruct (SFltb (S754_zero false) (s_hop st)); repeat constructor; cbn [fst snd]; rewrite ?valid_opp; exact R.
  - generalize p0 at 1. induction (ps ++ _)%list as [|b l IH]; intros a; constructor; [|apply IH].
    cbn [line_op fst snd]. apply valid_mul; [reflexivity|reflexivity|apply valid_size|exact V].
Qed.
Lemma call_good lib c g g' : proper c -> run_call lib c g = Ok g' -> good g -> good g'.
Proof.
  intros P E G. pose proof G as [? ? ? ? ? ?]. destruct c; cbn [run_call proper] in *;
    try (injection E as <-; first [exact G | constructor; assumption]; fail).
  - injection E as <-. constructor; try assumption; cbn; [apply valid_permm|apply plus_permm; tauto].
  - injection E as <-. apply (same_good g); [apply move_settings|apply op_amount; assumption|exact G].
  - injection E as <-. unfold AddMove. apply (same_good g); [apply move_settings|apply op_amount; assumption|exact G].
  - apply (same_good g); [apply (call_same_polygon _ _ _ _ _ _ _ E)| |exact G].
    destruct polygon as [|v polygon]; [injection E as <-; assumption|].
    destruct (DP_nonempty (v :: polygon)) as (p0 & ps & D); [discriminate|].
    rewrite (polygon_spec lib layer (v :: polygon) z open g p0 ps ltac:(discriminate) D) in E.
    destruct (crossing lib layer g p0) as [c|]; [|discriminate]. injection E as <-.
    apply ops_amount; [assumption|]. apply polygon_valid; assumption.
Qed.
Lemma calls_good lib cs : forall g g', Forall proper cs -> run_calls lib cs g = Ok g' -> good g -> good g'.
Proof.
  induction cs as [|c cs IH]; intros g g' P E G; cbn [run_calls] in E; [injection E as <-; exact G|].
  inversion P; subst. apply bind_Ok in E. destruct E as (g1 & E1 & E2). apply (IH g1); [assumption|exact E2|]. eapply call_good; eassumption.
Qed.
Lemma new_good d m : 0 <= d -> 0 <= m -> good (NewGCodeBuilder d m).
Proof. intros D M. constructor; try reflexivity; assumption. Qed.

Lemma sapp_inj_l (s a b : string) : (s ++ a)%string = (s ++ b)%string -> a = b.
Proof. induction s as [|c s IH]; intros B; [exact B|]. injection B as B. apply IH, B. Qed.
Lemma polygon_rising lib d m cs g r0 layer polygon z open g' t e0 :
  run_calls lib cs (NewGCodeBuilder d m) = Ok g -> Forall harmless cs -> Forall proper cs -> 0 <= d -> 0 <= m -> rE r0 = Some 0 ->
  AddPolygon lib layer polygon z open g = Ok g' -> (forall p0, crossing lib layer g p0 = Some false) ->
  rE (replay r0 (buf g)) = Some e0 -> buf g' = (buf g ++ t)%string ->
  Forall (fun r => rE r <> None) (moves (replay r0 (buf g)) t) -> rising e0 (moves (replay r0 (buf g)) t).
Proof.
  intros E H P D M R A C RE B N. destruct (calls_good lib cs _ _ P E (new_good d m D M)) as [V _ VP Q _ _].
  destruct polygon as [|v polygon].
  - injection A as <-. assert (t = ""%string); [|subst t; exact I].
    apply (sapp_inj_l (buf g)). rewrite <- B. rewrite L_Str.sapp_nil_r. reflexivity.
  - destruct (DP_nonempty (v :: polygon)) as (p0 & ps & DD); [discriminate|].
    destruct (polygon_after lib d m cs g r0 layer (v :: polygon) z open g' p0 ps E H R ltac:(discriminate) DD A) as (c & t' & C' & B' & MM).
    rewrite C in C'. injection C' as <-. assert (t' = t) by (apply (sapp_inj_l (buf g)); congruence). subst t'.
    destruct (in_step lib d m cs g r0 E H R) as (_ & SE & _). rewrite SE in RE.
    refine (commanded_rising _ _ _ _ e0 V RE _ MM N). apply polygon_plus; assumption.
Qed.
