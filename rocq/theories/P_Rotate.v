(** Turned points and turned infill lines. *)
From Coq Require Import Reals Psatz Permutation.
From Flocq Require Import Core BinarySingleNaN.
From Verif Require Import GoBase GoFloat M_Micrometer M_Geom2D M_Clip L_Float L_Geom2D S_Geom S_Slicer S_Clip S_Fill L_Clip L_Linear P_Data P_Clip L_Fill L_Lines L_Zig S_Rotate L_Rotate L_Strip L_LineLib.
Local Open Scope Z_scope.

(** *** C98 *)
(** Turning a path: every coordinate is the one of the truly turned point, rounded. *)
Theorem path_turned : forall lib degree l, accurate lib -> Z.abs degree <= 2 ^ 10 -> Forall (pt_bounded (2 ^ 24)) l ->
  Forall2 (is_turned degree) l (rotate_path lib (f64_of_Z degree) l).
Proof. intros lib degree l A H F. apply rotate_turned; [exact A|apply fin64_of_Z; lia|exact H|exact F]. Qed.
Print Assumptions path_turned.

Lemma turned_bound z p q B : pt_bounded B p -> is_turned z p q -> pt_bounded (2 * B + 1) q.
Proof.
  intros (X & Y) (H1 & H2). unfold turned_x, turned_y in *.
  assert (Xr : (Rabs (IZR (px p)) <= IZR B)%R) by (rewrite <- abs_IZR; apply IZR_le; exact X). assert (Yr : (Rabs (IZR (py p)) <= IZR B)%R) by (rewrite <- abs_IZR; apply IZR_le; exact Y).
  assert (C : (Rabs (cos (radian z)) <= 1)%R) by (apply Rabs_le, COS_bound). assert (S0 : (Rabs (sin (radian z)) <= 1)%R) by (apply Rabs_le, SIN_bound).
  assert (P : forall u v, (Rabs u <= IZR B -> Rabs v <= 1 -> - IZR B <= u * v <= IZR B)%R).
  { intros u v Hu Hv. apply Rabs_le_inv. rewrite Rabs_mult. pose proof (Rabs_pos u). pose proof (Rabs_pos v). nra. }
  pose proof (P _ _ Xr C). pose proof (P _ _ Xr S0). pose proof (P _ _ Yr C). pose proof (P _ _ Yr S0). apply Rabs_le_inv in H1, H2.
  assert (Q : forall a, (- (2 * IZR B + 1) <= IZR a <= 2 * IZR B + 1)%R -> Z.abs a <= 2 * B + 1).
  { intros a Ha. rewrite <- mult_IZR, <- plus_IZR, <- opp_IZR in Ha. destruct Ha as (L1 & L2). apply le_IZR in L1, L2. lia. }
  split; apply Q; lra.
Qed.
(** Turning and turning back moves a point by at most one micrometer in each direction. *)
Theorem turn_and_back : forall lib degree l, accurate lib -> Z.abs degree <= 2 ^ 10 -> Forall (pt_bounded (2 ^ 22)) l ->
  Forall2 (fun p q => Z.abs (px q - px p) <= 1 /\ Z.abs (py q - py p) <= 1) l
    (rotate_path lib (SFopp (f64_of_Z degree)) (rotate_path lib (f64_of_Z degree) l)).
Proof.
  intros lib degree l A H F. assert (F1 : Forall (pt_bounded (2 ^ 24)) l) by (eapply Forall_impl; [|exact F]; unfold pt_bounded; intros; lia).
  pose proof (path_turned lib degree l A H F1) as T. set (m := rotate_path lib (f64_of_Z degree) l) in *. clearbody m.
  assert (Fm : Forall (pt_bounded (2 ^ 24)) m).
  { clear F1. revert F. induction T as [|p q l m Hp T IH]; intros F; constructor; inversion F; subst; [|auto].
    match goal with Hb : pt_bounded _ p |- _ => pose proof (turned_bound _ _ _ _ Hb Hp) as (Q1 & Q2) end. split; lia. }
  assert (Fo : fin64 (SFopp (f64_of_Z degree)) (IZR (- degree))) by (rewrite opp_IZR; apply fin_opp, fin64_of_Z; lia).
  pose proof (rotate_turned lib A _ (- degree) m Fo ltac:(lia) Fm) as T2. clear F F1 Fm Fo. set (k := rotate_path _ _ m) in *. clearbody k. revert k T2.
  induction T as [|p q l m Hp T IH]; intros k T2; inversion T2 as [|? r ? k' Hq T3]; subst; constructor; [eapply there_and_back; eassumption|apply IH; exact T3].
Qed.
Print Assumptions turn_and_back.

(** a library with the true sine and cosine, rounded to multiples of 2^-52 *)
Definition f64_of_R (r : R) : f64 := binary_normalize 53 1024 (ZnearestE (r * 4503599627370496)) (-52) false.
Lemma f64_of_R_near r : (Rabs r <= 1)%R -> exists x, fin64 (f64_of_R r) x /\ (Rabs x <= 1)%R /\ (Rabs (x - r) <= / 1099511627776)%R.
Proof.
  intros H. unfold f64_of_R. set (m := ZnearestE _).
  assert (Hm : (Rabs (IZR m) <= 4503599627370496)%R).
  { assert (L : (Rabs (r * 4503599627370496) <= 4503599627370496)%R) by (rewrite Rabs_mult, (Rabs_pos_eq 4503599627370496) by lra; lra).
    apply Rabs_le_inv in L. destruct L as (L1 & L2). apply (Zrnd_le ZnearestE) in L2. rewrite Zrnd_IZR in L2 by typeclasses eauto. rewrite <- opp_IZR in L1. apply (Zrnd_le ZnearestE) in L1. rewrite Zrnd_IZR in L1 by typeclasses eauto.
    fold m in L1, L2. apply Rabs_le. rewrite <- opp_IZR. split; apply IZR_le; assumption. }
  assert (E : F2R (Float radix2 m (-52)) = (IZR m * / 4503599627370496)%R) by reflexivity.
  assert (B : (Rabs (F2R (Float radix2 m (-52))) <= 1)%R). { rewrite E. apply Rabs_le_inv in Hm. apply Rabs_le. lra. }
  pose proof (rnd_le_int _ 1 ltac:(lia) B) as B1. exists (rnd64 (F2R (Float radix2 m (-52)))). split; [|split; [exact B1|]].
  - apply fin_normalize; try typeclasses eauto. apply (below_emax _ 1); [lia|exact B1].
  - pose proof (rnd_near _ _ B ltac:(lra)) as R1. pose proof (Znearest_half (fun x => negb (Z.even x)) (r * 4503599627370496)) as N. fold m in N. apply Rabs_le_inv in N, R1. rewrite E in *. apply Rabs_le. lra.
Qed.
Definition turning_lib : clib := CLib line_execute strip_offset (fun p => p) (fun a => f64_of_R (sin (SF2R radix2 a))) (fun a => f64_of_R (cos (SF2R radix2 a))).
Lemma turning_accurate : accurate turning_lib.
Proof.
  intros a r (_ & _ & E) _. cbn [sine cosine turning_lib]. rewrite E.
  destruct (f64_of_R_near (sin r)) as (s & Fs & As & Ns); [apply Rabs_le, SIN_bound|]. destruct (f64_of_R_near (cos r)) as (c & Fc & Ac & Nc); [apply Rabs_le, COS_bound|].
  exists s, c. tauto.
Qed.
(** 1 mm to the right, turned by 30 degrees and by 90 degrees *)
Example path_turned_ex : rotate_path turning_lib (f64_of_Z 30) [Pt 1000 0] = [Pt 866 500] /\ rotate_path turning_lib (f64_of_Z 90) [Pt 1000 0; Pt 0 20] = [Pt 0 1000; Pt (-20) 0].
Proof.
  assert (N : forall a b t, (Rabs (IZR a - t) <= 501 / 1000 -> Rabs (t - IZR b) < 499 / 1000 -> a = b)%R).
  { intros a b t A1 A2. apply Rabs_le_inv in A1. apply Rabs_def2 in A2. assert (IZR (a - b) < 1 /\ -1 < IZR (a - b))%R as (L1 & L2) by (rewrite minus_IZR; lra). apply lt_IZR in L1. change (-1)%R with (IZR (-1)) in L2. apply lt_IZR in L2. lia. }
  assert (F : forall x y, Z.abs x <= 1000 -> Z.abs y <= 1000 -> pt_bounded (2 ^ 24) (Pt x y)) by (intros; split; cbn [px py]; lia).
  split.
  - pose proof (path_turned turning_lib 30 [Pt 1000 0] turning_accurate ltac:(lia)) as T. assert (Fl : Forall (pt_bounded (2 ^ 24)) [Pt 1000 0]) by (constructor; [apply F; lia|constructor]). specialize (T Fl). set (m := rotate_path _ _ _) in *. clearbody m.
    inversion T as [|? q ? l' (H1 & H2) T']; subst. inversion T'; subst. f_equal. unfold turned_x, turned_y in *. cbn [px py] in *.
    assert (R0 : radian 30 = (PI / 6)%R) by (unfold radian; field). rewrite R0, sin_PI6, cos_PI6 in *. assert (S3 : (1.73205 <= sqrt 3 <= 1.73206)%R).
    { split; [apply Rsqr_incr_0_var|apply Rsqr_incr_0_var]; rewrite ?Rsqr_sqrt by lra; unfold Rsqr; try lra. apply sqrt_pos. }
    destruct q as [qx qy]. cbn [px py] in *. f_equal; [eapply N; [exact H1|]|eapply N; [exact H2|]]; apply Rabs_def1; lra.
  - pose proof (path_turned turning_lib 90 [Pt 1000 0; Pt 0 20] turning_accurate ltac:(lia)) as T. assert (Fl : Forall (pt_bounded (2 ^ 24)) [Pt 1000 0; Pt 0 20]) by (constructor; [apply F; lia|constructor; [apply F; lia|constructor]]). specialize (T Fl). set (m := rotate_path _ _ _) in *. clearbody m.
    inversion T as [|? q ? l' (H1 & H2) T']; subst. inversion T' as [|? q' ? l'' (H3 & H4) T'']; subst. inversion T''; subst. unfold turned_x, turned_y in *. cbn [px py] in *.
    assert (R0 : radian 90 = (PI / 2)%R) by (unfold radian; field). rewrite R0, sin_PI2, cos_PI2 in *. destruct q as [qx qy], q' as [rx ry]. cbn [px py] in *.
    f_equal; [f_equal; [eapply N; [exact H1|]|eapply N; [exact H2|]]|f_equal; f_equal; [eapply N; [exact H3|]|eapply N; [exact H4|]]]; apply Rabs_def1; lra.
Qed.

(** *** C99 *)
(** The lines of a filled part without zig-zag: turned by the angle both ends lie on upright lines with the given distance,
    starting at the left side of the turned box.  The angle is the given one, and 90 degrees more in every other layer. *)
Theorem infill_direction : forall lib fuel distance width degree mn mx rectlinear nr q ls, capable lib -> accurate lib -> Z.abs degree <= 2 ^ 9 ->
  pt_bounded (2 ^ 22) mn -> pt_bounded (2 ^ 22) mx -> 0 < distance <= 2 ^ 28 -> 0 <= width <= 2 ^ 28 -> 2 ^ 24 < Z.of_nat fuel * distance ->
  Fill lib fuel (Linear distance width degree mn mx rectlinear false) nr q = Ok ls ->
  let angle := degree + (if rectlinear && Z.even nr then 90 else 0) in
  let corners := [mn; Pt (px mx) (py mn); mx; Pt (px mn) (py mx)] in
  exists left, (forall p, In p corners -> (IZR left <= turned_x angle p + 501 / 1000)%R) /\ (exists p, In p corners /\ (Rabs (IZR left - turned_x angle p) <= 501 / 1000)%R) /\
    forall l, In l ls -> exists a b k, l = [a; b] /\ 0 <= k /\
      (Rabs (turned_x angle a - IZR (left + k * distance)) <= 709 / 1000)%R /\ (Rabs (turned_x angle b - IZR (left + k * distance)) <= 709 / 1000)%R.
Proof.
  intros lib fuel di w dg mn mx rl nr q ls Cap Acc Hdg Bn Bx Hd Hw Hf E angle corners. unfold Fill in E. cbn [lmin lmax lineDistance zigZag] in E. fold corners in E.
  rewrite fill_rotation in E by (cbn [degree]; lia). cbn [rectlinear degree] in E.
  replace (if rl && Z.even nr then dg + 90 else dg) with angle in E by (subst angle; destruct (rl && Z.even nr); lia).
  assert (Ha : Z.abs angle <= 2 ^ 10) by (subst angle; destruct (rl && Z.even nr); lia). clearbody angle.
  assert (F : Forall (pt_bounded (2 ^ 22)) corners).
  { destruct Bn, Bx. constructor; [split; assumption|]. constructor; [split; cbn [px py]; assumption|]. constructor; [split; assumption|]. constructor; [split; cbn [px py]; assumption|constructor]. }
  pose proof (box_bounds lib Cap (2 ^ 22) (f64_of_Z angle) corners ltac:(lia) ltac:(discriminate) F ltac:(exists angle; split; [reflexivity|lia])) as BB.
  assert (F1 : Forall (pt_bounded (2 ^ 24)) corners) by (eapply Forall_impl; [|exact F]; unfold pt_bounded; intros; lia).
  pose proof (path_turned lib angle corners Acc Ha F1) as T. assert (Ne : rotate_path lib (f64_of_Z angle) corners <> []) by (intros Q; rewrite Q in T; inversion T).
  pose proof (path_bounds_tight _ Ne) as Ti.
  assert (Wf : Forall wf_pt (rotate_path lib (f64_of_Z angle) corners)).
  { revert F T. generalize (rotate_path lib (f64_of_Z angle) corners). generalize corners. clear. intros l m F T. induction T as [|p q l m Hp T IH]; constructor; inversion F as [|? ? B F']; subst; [|auto].
    pose proof (turned_bound _ _ _ _ B Hp) as (Q1 & Q2). split; unfold int64; lia. }
  specialize (Ti Wf). destruct (PathBounds _) as [mn' mx'] eqn:PB. cbn [fst snd] in Ti. destruct Ti as (T1 & T2 & _). destruct BB as ((M1 & M2) & (X1 & X2) & Ox & Oy).
  exists (px mn'). split; [|split].
  - intros p Ip. clear - T T1 Ip. revert T1 Ip. induction T as [|p' q' l m (Hp & _) T IH]; intros T1 Ip; [destruct Ip|]. destruct Ip as [<-|Ip]; [|apply IH; [intros r Ir; apply T1; right; exact Ir|exact Ip]].
    pose proof (T1 q' (or_introl eq_refl)) as ((L & _) & _). apply IZR_le in L. apply Rabs_le_inv in Hp. lra.
  - destruct T2 as (q' & Iq & Eq). rewrite <- Eq. clear - T Iq. induction T as [|p0 q0 l m (Hp & _) T IH]; [destruct Iq|]. destruct Iq as [->|Iq]; [exists p0; split; [left; reflexivity|exact Hp]|]. destruct (IH Iq) as (p & Ip & H). exists p. split; [right; exact Ip|exact H].
  - clear T T1 T2 Wf Ne F F1 PB.
    destruct (getInfill_total lib Cap fuel di mn' mx' (rotate_path lib (f64_of_Z angle) (outline q)) (map (rotate_path lib (f64_of_Z angle)) (holes q)) 0) as (inf & Eg & Fg); try (unfold pt_bounded; lia).
    rewrite Eg in E. cbn [bind] in E. set (prt := Part _ _) in E.
    assert (LO : lines_ok inf).
    { eapply Forall_impl; [|exact Fg]. cbn beta. intros l (k & y1 & y2 & -> & K0 & Kx & B1 & B2). split; [reflexivity|]. assert (0 <= k * di) by nia. repeat constructor; cbn [px py]; lia. }
    apply bind_Ok in E. destruct E as (out & Es & E). injection E as <-.
    assert (Go : forall m, In m out -> exists m0, In m0 inf /\ (m = m0 \/ m = rev m0)).
    { destruct inf as [|l0 inf]; [injection Es as <-; intros m []|].
      destruct (infill_sorted lib (Linear di w dg mn mx rl false) prt false l0 inf LO ltac:(intros; apply (crossing_total lib Cap)) ltac:(cbn; lia) ltac:(cbn; lia)) as (order & o' & Es' & Pm & W).
      rewrite Es in Es'. injection Es' as ->. destruct (woven_each _ _ _ _ _ _ W) as (_ & W2). intros m [<-|Im]; [exists l0; split; [left; reflexivity|left; reflexivity]|].
      destruct (W2 m Im) as [(m0 & I0 & H)|(a & c & _ & C)]; [|discriminate C]. exists m0. split; [right; eapply Permutation_in; [exact Pm|exact I0]|exact H]. }
    assert (Fo : fin64 (SFopp (f64_of_Z angle)) (IZR (- angle))) by (rewrite opp_IZR; apply fin_opp, fin64_of_Z; lia).
    intros l Il. apply in_map_iff in Il. destruct Il as (m & <- & Im). destruct (Go m Im) as (m0 & I0 & Hm). rewrite Forall_forall in Fg. destruct (Fg m0 I0) as (k & y1 & y2 & -> & K0 & Kx & B1 & B2). assert (Kp : 0 <= k * di) by nia.
    assert (Hm' : exists z1 z2, m = [Pt (px mn' + k * di) z1; Pt (px mn' + k * di) z2] /\ py mn' <= z1 <= py mx' /\ py mn' <= z2 <= py mx').
    { destruct Hm as [->| ->]; [exists y1, y2|exists y2, y1]; (split; [reflexivity|split; assumption]). }
    clear Hm. destruct Hm' as (z1 & z2 & -> & C1 & C2).
    assert (Fm : Forall (pt_bounded (2 ^ 24)) [Pt (px mn' + k * di) z1; Pt (px mn' + k * di) z2]) by (constructor; [split; cbn [px py]; lia|constructor; [split; cbn [px py]; lia|constructor]]).
    pose proof (rotate_turned lib Acc _ (- angle) _ Fo ltac:(lia) Fm) as T. inversion T as [|? a ? r Ta Tr E1 E2]; subst. inversion Tr as [|? b ? r' Tb Tr']; subst. inversion Tr'; subst.
    exists a, b, k. split; [reflexivity|]. split; [exact K0|]. apply turned_back in Ta, Tb. cbn [px] in Ta, Tb. split; [exact (proj1 Ta)|exact (proj1 Tb)].
Qed.
Print Assumptions infill_direction.
Lemma turning_capable : capable turning_lib.
Proof.
  split.
  - exact (never_fails line_lib line_capable).
  - exact (cuts_lines line_lib line_capable).
  - intros a r (_ & _ & E). cbn [sine cosine turning_lib]. rewrite E.
    destruct (f64_of_R_near (sin r)) as (s & Fs & As & _); [apply Rabs_le, SIN_bound|]. destruct (f64_of_R_near (cos r)) as (c & Fc & Ac & _); [apply Rabs_le, COS_bound|].
    exists s, c. tauto.
Qed.
(** lines at 45 degrees; the other ones are upright and one of them is within the part *)
Example infill_direction_ex : capable turning_lib /\ accurate turning_lib /\
  (exists ls, Fill turning_lib 17 (Linear 1048576 200 45 (Pt 500 0) (Pt 2000 900) true false) 1 (Part [Pt 300 0; Pt 1300 0] []) = Ok ls) /\
  Fill turning_lib 17 (Linear 1048576 200 0 (Pt 500 0) (Pt 2000 900) true false) 1 (Part [Pt 300 0; Pt 1300 0] []) = Ok [[Pt 500 900; Pt 500 0]].
Proof.
  split; [exact turning_capable|]. split; [exact turning_accurate|]. split; [|lazy; reflexivity].
  destruct (fill_total turning_lib turning_capable 17 (Linear 1048576 200 45 (Pt 500 0) (Pt 2000 900) true false) 1 (Part [Pt 300 0; Pt 1300 0] [])) as (ls & E & _); try (cbn; lia); try (split; cbn; lia).
  exists ls. exact E.
Qed.
