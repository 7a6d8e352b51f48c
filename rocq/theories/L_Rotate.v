(** Turning points about the origin. *)
From Coq Require Import Reals Psatz Machin Ratan AltSeries Permutation.
From Flocq Require Import Core BinarySingleNaN.
From Verif Require Import GoBase GoFloat M_Micrometer M_Geom2D M_Clip L_Float L_Geom2D S_Geom S_Slicer S_Clip S_Fill L_Clip L_Linear P_Data P_Clip L_Fill S_Rotate.
Local Open Scope R_scope.

(** *** pi *)
Lemma tg n : PI_2_3_7_tg n = (2 * (/3) ^ (2*n+1) + (/7)^(2*n+1)) * / IZR (Z.of_nat (2*n+1)).
Proof. unfold PI_2_3_7_tg, Ratan_seq. rewrite INR_IZR_INZ. unfold Rdiv. ring. Qed.
Lemma PI_near : 3.141592653589 <= PI <= 3.141592653590.
Proof.
  pose proof (PI_2_3_7_ineq 6) as H. cbn [Nat.mul Nat.add] in H.
  unfold sum_f_R0, tg_alt in H. rewrite !tg in H. cbn [Nat.mul Nat.add Z.of_nat Pos.of_succ_nat Pos.succ pow] in H.
  lra.
Qed.
Lemma deg64_near : Rabs (deg64 - PI / 180) <= / 140737488355328.
Proof.
  unfold deg64. cbn [SF2R cond_Zopp]. unfold F2R. cbn [Fnum Fexp bpow]. change (Z.pow_pos radix2 58) with 288230376151711744%Z.
  pose proof PI_near. apply Rabs_le. lra.
Qed.
(** *** sine and cosine change slowly *)
Lemma sin_small x : Rabs (sin x) <= Rabs x.
Proof.
  destruct (Rtotal_order x 0) as [H|[->|H]].
  - rewrite (Rabs_left x H). replace (sin x) with (- sin (- x)) by (rewrite sin_neg; ring). rewrite Rabs_Ropp. destruct (Rle_dec (- x) 1) as [L|L].
    + rewrite Rabs_pos_eq; [apply Rlt_le, sin_lt_x; lra|]. apply Rlt_le, sin_gt_0; [lra|]. pose proof PI_near. lra.
    + apply Rle_trans with 1; [|lra]. apply Rabs_le. apply SIN_bound.
  - rewrite sin_0, Rabs_R0. lra.
  - rewrite (Rabs_pos_eq x) by lra. destruct (Rle_dec x 1) as [L|L].
    + rewrite Rabs_pos_eq; [apply Rlt_le, sin_lt_x; lra|]. apply Rlt_le, sin_gt_0; [lra|]. pose proof PI_near. lra.
    + apply Rle_trans with 1; [|lra]. apply Rabs_le. apply SIN_bound.
Qed.
Lemma half_abs x : Rabs (x / 2) = Rabs x / 2.
Proof. unfold Rdiv. rewrite Rabs_mult, (Rabs_pos_eq (/ 2)) by lra. reflexivity. Qed.
Lemma sin_slow a b : Rabs (sin a - sin b) <= Rabs (a - b).
Proof.
  rewrite form4, 2!Rabs_mult, (Rabs_pos_eq 2) by lra. pose proof (sin_small ((a - b) / 2)) as S0. rewrite half_abs in S0.
  assert (Rabs (cos ((a + b) / 2)) <= 1) by (apply Rabs_le, COS_bound). pose proof (Rabs_pos (sin ((a - b) / 2))). pose proof (Rabs_pos (cos ((a + b) / 2))). nra.
Qed.
Lemma cos_slow a b : Rabs (cos a - cos b) <= Rabs (a - b).
Proof.
  rewrite form2, 2!Rabs_mult, Rabs_left by lra. pose proof (sin_small ((a - b) / 2)) as S0. rewrite half_abs in S0.
  assert (Rabs (sin ((a + b) / 2)) <= 1) by (apply Rabs_le, SIN_bound). pose proof (Rabs_pos (sin ((a - b) / 2))). pose proof (Rabs_pos (sin ((a + b) / 2))). nra.
Qed.
(** *** rounding *)
Lemma rnd_near x B : Rabs x <= B -> 1 <= B -> Rabs (rnd64 x - x) <= B * / 4503599627370496.
Proof.
  intros H HB. destruct (rnd_error 53 1024 _ x) as (e & t & He & Ht & ->). replace (x * (1 + e) + t - x) with (x * e + t) by ring.
  apply Rle_trans with (1 := Rabs_triang _ _). rewrite Rabs_mult.
  assert (T : Rabs t <= / 9007199254740992).
  { apply Rle_trans with (1 := Ht). rewrite emin53. apply Rle_trans with (bpow radix2 (-53)).
    - replace (bpow radix2 (-53)) with (1 * bpow radix2 (-53)) by ring. apply Rmult_le_compat; [lra|apply bpow_ge_0|lra|apply bpow_le; lia].
    - cbn [bpow]. change (Z.pow_pos radix2 53) with 9007199254740992%Z. lra. }
  assert (E : Rabs e <= / 9007199254740992).
  { apply Rle_trans with (1 := He). replace (bpow radix2 (- (53) + 1)) with (/ 4503599627370496) by reflexivity. lra. }
  pose proof (Rabs_pos x). pose proof (Rabs_pos e). nra.
Qed.
Lemma fin_opp a r : fin64 a r -> fin64 (SFopp a) (- r).
Proof.
  intros (V & F & E). destruct a as [s|s| |s m e]; try discriminate; cbn [SFopp].
  - repeat split. cbn in *. lra.
  - repeat split; [exact V|]. rewrite <- E. cbn [SF2R]. rewrite <- F2R_Zopp. f_equal. f_equal. destruct s; reflexivity.
Qed.
Lemma feq_zero a : feq a (f64_of_Z 0) = true -> forall r, fin64 a r -> r = 0.
Proof.
  intros H r (V & F & E). destruct a as [s|s| |s m e]; try discriminate; [symmetry; exact E|]. exfalso. destruct s; discriminate.
Qed.

Section Turn.
Variable lib : clib.
Hypothesis Acc : accurate lib.
(** one coordinate of the result *)
Lemma coordinate x y u v cu cv op (f : R -> R -> R) : (op = sub64f /\ f = Rminus \/ op = add64f /\ f = Rplus) -> (Z.abs x <= 2 ^ 24)%Z -> (Z.abs y <= 2 ^ 24)%Z ->
  forall a b, fin64 u a -> fin64 v b -> Rabs a <= 1 -> Rabs b <= 1 -> Rabs (a - cu) <= / 68719476736 -> Rabs (b - cv) <= / 68719476736 ->
  Rabs (IZR (int64_of_rne (op (mul64f (f64_of_Z x) u) (mul64f (f64_of_Z y) v))) - f (IZR x * cu) (IZR y * cv)) <= 501 / 1000.
Proof.
  intros Op Hx Hy a b Fa Fb Aa Ab Na Nb.
  assert (Xr : Rabs (IZR x) <= 16777216) by (rewrite <- abs_IZR; apply IZR_le; exact Hx). assert (Yr : Rabs (IZR y) <= 16777216) by (rewrite <- abs_IZR; apply IZR_le; exact Hy).
  assert (M1 : Rabs (IZR x * a) <= 16777216) by (rewrite Rabs_mult; pose proof (Rabs_pos (IZR x)); pose proof (Rabs_pos a); nra).
  assert (M2 : Rabs (IZR y * b) <= 16777216) by (rewrite Rabs_mult; pose proof (Rabs_pos (IZR y)); pose proof (Rabs_pos b); nra).
  pose proof (rnd_near _ _ M1 ltac:(lra)) as R1. pose proof (rnd_near _ _ M2 ltac:(lra)) as R2.
  pose proof (rnd_le_int _ (2 ^ 24) ltac:(lia) M1) as B1. pose proof (rnd_le_int _ (2 ^ 24) ltac:(lia) M2) as B2.
  assert (F1 : fin64 (mul64f (f64_of_Z x) u) (rnd64 (IZR x * a))) by (apply fin_mul; try typeclasses eauto; [apply fin64_of_Z; lia|exact Fa|apply (below_emax _ (2 ^ 24)); [lia|exact B1]]).
  assert (F2 : fin64 (mul64f (f64_of_Z y) v) (rnd64 (IZR y * b))) by (apply fin_mul; try typeclasses eauto; [apply fin64_of_Z; lia|exact Fb|apply (below_emax _ (2 ^ 24)); [lia|exact B2]]).
  assert (D1 : Rabs (IZR x * a - IZR x * cu) <= 16777216 * / 68719476736).
  { replace (IZR x * a - IZR x * cu) with (IZR x * (a - cu)) by ring. rewrite Rabs_mult. apply Rmult_le_compat; try apply Rabs_pos; assumption. }
  assert (D2 : Rabs (IZR y * b - IZR y * cv) <= 16777216 * / 68719476736).
  { replace (IZR y * b - IZR y * cv) with (IZR y * (b - cv)) by ring. rewrite Rabs_mult. apply Rmult_le_compat; try apply Rabs_pos; assumption. }
  set (p := rnd64 (IZR x * a)) in *. set (q := rnd64 (IZR y * b)) in *. clearbody p q.
  set (xa := IZR x * a) in *. set (yb := IZR y * b) in *. set (xc := IZR x * cu) in *. set (yc := IZR y * cv) in *. clearbody xa yb xc yc. clear Fa Fb Aa Ab Na Nb Xr Yr M1 M2.
  change (IZR (2 ^ 24)) with 16777216 in B1, B2. apply Rabs_le_inv in B1, B2, R1, R2, D1, D2.
  assert (G : fin64 (op (mul64f (f64_of_Z x) u) (mul64f (f64_of_Z y) v)) (rnd64 (f p q)) /\ Rabs (f p q) <= 33554432 /\ Rabs (f p q - f xc yc) <= / 1024).
  { destruct Op as [(-> & ->)|(-> & ->)].
    - assert (A : Rabs (p - q) <= IZR (2 ^ 25)) by (change (IZR (2 ^ 25)) with 33554432; apply Rabs_le; lra). split; [|split; [exact A|apply Rabs_le; lra]].
      apply fin_sub; try typeclasses eauto; try assumption. apply (below_emax _ (2 ^ 25)); [lia|]. apply rnd_le_int; [lia|exact A].
    - assert (A : Rabs (p + q) <= IZR (2 ^ 25)) by (change (IZR (2 ^ 25)) with 33554432; apply Rabs_le; lra). split; [|split; [exact A|apply Rabs_le; lra]].
      apply fin_add; try typeclasses eauto; try assumption. apply (below_emax _ (2 ^ 25)); [lia|]. apply rnd_le_int; [lia|exact A]. }
  destruct G as (F & A & D). pose proof (rnd_near _ _ A ltac:(lra)) as R3. pose proof (rnd_le_int _ (2 ^ 25) ltac:(lia) A) as B3.
  set (w := rnd64 (f p q)) in *. clearbody w. pose proof (Znearest_half (fun x => negb (Z.even x)) w) as H.
  rewrite (int64_of_rne_correct _ _ F).
  - apply Rabs_le_inv in R3, D, H. apply Rabs_le. fold ZnearestE in *. lra.
  - apply Rabs_le_inv in B3. rewrite <- opp_IZR in B3. destruct B3 as (B4 & B5). apply (Zrnd_le ZnearestE) in B4, B5. rewrite Zrnd_IZR in B4, B5 by typeclasses eauto. unfold int64. lia.
Qed.
(** the angle *)
Lemma angle_near a z : fin64 a (IZR z) -> (Z.abs z <= 2 ^ 10)%Z ->
  exists s c, fin64 (sine lib (ToRadians a)) s /\ fin64 (cosine lib (ToRadians a)) c /\ Rabs s <= 1 /\ Rabs c <= 1 /\
    Rabs (s - sin (radian z)) <= / 68719476736 /\ Rabs (c - cos (radian z)) <= / 68719476736.
Proof.
  intros Fa Hz. assert (Zr : Rabs (IZR z) <= 1024) by (rewrite <- abs_IZR; apply IZR_le; exact Hz).
  pose proof deg64_near as N. pose proof PI_near as P.
  assert (M : Rabs (IZR z * deg64) <= 20).
  { rewrite Rabs_mult. assert (Rabs deg64 <= 18 / 1000) by (apply Rabs_le_inv in N; apply Rabs_le; lra). pose proof (Rabs_pos (IZR z)). pose proof (Rabs_pos deg64). nra. }
  pose proof (rnd_near _ _ M ltac:(lra)) as R1. pose proof (rnd_le_int _ 20 ltac:(lia) M) as B1.
  assert (F : fin64 (ToRadians a) (rnd64 (IZR z * deg64))).
  { unfold ToRadians. apply fin_mul; try typeclasses eauto; [exact Fa|exact fin_deg64|]. apply (below_emax _ 20); [lia|exact B1]. }
  assert (D : Rabs (rnd64 (IZR z * deg64) - radian z) <= / 100000000000).
  { replace (rnd64 (IZR z * deg64) - radian z) with ((rnd64 (IZR z * deg64) - IZR z * deg64) + IZR z * (deg64 - PI / 180)) by (unfold radian; field).
    apply Rle_trans with (1 := Rabs_triang _ _). rewrite (Rabs_mult (IZR z)). 
    assert (Rabs (IZR z) * Rabs (deg64 - PI / 180) <= 1024 * / 140737488355328) by (apply Rmult_le_compat; try apply Rabs_pos; assumption). lra. }
  set (r := rnd64 (IZR z * deg64)) in *. clearbody r. destruct (Acc _ _ F ltac:(lra)) as (s & c & Fs & Fc & As & Ac & Ns & Nc).
  exists s, c. repeat (split; [assumption|]). pose proof (sin_slow r (radian z)) as S1. pose proof (cos_slow r (radian z)) as C1. split.
  - replace (s - sin (radian z)) with ((s - sin r) + (sin r - sin (radian z))) by ring. apply Rle_trans with (1 := Rabs_triang _ _). lra.
  - replace (c - cos (radian z)) with ((c - cos r) + (cos r - cos (radian z))) by ring. apply Rle_trans with (1 := Rabs_triang _ _). lra.
Qed.
Lemma radian_0 : radian 0 = 0. Proof. unfold radian. field. Qed.
Lemma rotate_turned a z l : fin64 a (IZR z) -> (Z.abs z <= 2 ^ 10)%Z -> Forall (pt_bounded (2 ^ 24)) l -> Forall2 (is_turned z) l (rotate_path lib a l).
Proof.
  intros Fa Hz Fl. unfold rotate_path, PathRotate. destruct (feq a _) eqn:Q.
  - pose proof (feq_zero a Q _ Fa) as Z0. apply (eq_IZR z 0) in Z0. subst z. clear. induction l as [|p l IH]; constructor; [|exact IH].
    unfold is_turned, turned_x, turned_y. rewrite radian_0, sin_0, cos_0. split; apply Rabs_le; lra.
  - destruct (angle_near a z Fa Hz) as (s & c & Fs & Fc & As & Ac & Ns & Nc). induction Fl as [|p l (X & Y) Fl IH]; constructor; [|exact IH].
    unfold ptRotate, is_turned, turned_x, turned_y. cbn [px py]. split.
    + apply (coordinate _ _ _ _ _ _ sub64f Rminus (or_introl (conj eq_refl eq_refl)) X Y c s); assumption.
    + apply (coordinate _ _ _ _ _ _ add64f Rplus (or_intror (conj eq_refl eq_refl)) X Y s c); assumption.
Qed.
End Turn.
(** *** turning back *)
Lemma radian_opp z : radian (- z) = - radian z.
Proof. unfold radian. rewrite opp_IZR. field. Qed.
(** a rounding error of [e], turned *)
Lemma turned_error c s ex ey : c * c + s * s = 1 -> Rabs ex <= 501 / 1000 -> Rabs ey <= 501 / 1000 -> Rabs (ex * c - ey * s) <= 709 / 1000 /\ Rabs (ex * s + ey * c) <= 709 / 1000.
Proof.
  intros E Hx Hy. apply Rabs_le_inv in Hx, Hy. assert (Q : ex * ex + ey * ey <= 502002 / 1000000) by nra.
  assert (T : (ex * c - ey * s) * (ex * c - ey * s) + (ex * s + ey * c) * (ex * s + ey * c) <= 502002 / 1000000).
  { replace ((ex * c - ey * s) * (ex * c - ey * s) + (ex * s + ey * c) * (ex * s + ey * c)) with ((ex * ex + ey * ey) * (c * c + s * s)) by ring. rewrite E. lra. }
  set (u := ex * c - ey * s) in *. set (v := ex * s + ey * c) in *. clearbody u v. split; apply Rabs_le; nra.
Qed.
(** If q is p turned by -z but for rounding, then p is nearly q turned by z. *)
Lemma turned_back z p q : is_turned (- z) p q -> Rabs (turned_x z q - IZR (px p)) <= 709 / 1000 /\ Rabs (turned_y z q - IZR (py p)) <= 709 / 1000.
Proof.
  unfold is_turned, turned_x, turned_y. rewrite radian_opp, sin_neg, cos_neg. set (c := cos (radian z)). set (s := sin (radian z)).
  assert (E : c * c + s * s = 1) by (pose proof (sin2_cos2 (radian z)) as H; unfold Rsqr in H; subst c s; lra). intros (H1 & H2).
  destruct (turned_error c s _ _ E H1 H2) as (T1 & T2). clearbody c s. clear H1 H2. split.
  - replace (IZR (px q) * c - IZR (py q) * s - IZR (px p)) with ((IZR (px q) - (IZR (px p) * c - IZR (py p) * - s)) * c - (IZR (py q) - (IZR (px p) * - s + IZR (py p) * c)) * s); [exact T1|].
    transitivity (IZR (px q) * c - IZR (py q) * s - IZR (px p) * (c * c + s * s)); [ring|rewrite E; ring].
  - replace (IZR (px q) * s + IZR (py q) * c - IZR (py p)) with ((IZR (px q) - (IZR (px p) * c - IZR (py p) * - s)) * s + (IZR (py q) - (IZR (px p) * - s + IZR (py p) * c)) * c); [exact T2|].
    transitivity (IZR (px q) * s + IZR (py q) * c - IZR (py p) * (c * c + s * s)); [ring|rewrite E; ring].
Qed.
Lemma there_and_back z p q r : is_turned z p q -> is_turned (- z) q r -> (Z.abs (px r - px p) <= 1)%Z /\ (Z.abs (py r - py p) <= 1)%Z.
Proof.
  intros H1 (H2 & H3). rewrite <- (Z.opp_involutive z) in H1. apply turned_back in H1. destruct H1 as (H1 & H4).
  assert (A : forall a b t, Rabs (IZR a - t) <= 501 / 1000 -> Rabs (t - IZR b) <= 709 / 1000 -> (Z.abs (a - b) <= 1)%Z).
  { intros a b t A1 A2. apply Rabs_le_inv in A1, A2. assert (IZR (a - b) < 2 /\ -2 < IZR (a - b)) as (L1 & L2) by (rewrite minus_IZR; lra). apply lt_IZR in L1. change (-2) with (IZR (-2)) in L2. apply lt_IZR in L2. lia. }
  split; eapply A; eassumption.
Qed.
