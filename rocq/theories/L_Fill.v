(** Filling a part always works. *)
From Coq Require Import Reals Psatz Permutation.
From Verif Require Import GoBase GoFloat M_Micrometer M_Geom2D M_Clip L_Float L_Geom2D S_Geom S_Slicer S_Clip S_Fill L_Clip L_Linear P_Data P_Clip.
From Flocq Require Import Core BinarySingleNaN.
Local Open Scope Z_scope.

Lemma rnd_le_int x k : 0 <= k <= 2 ^ 53 -> (Rabs x <= IZR k)%R -> (Rabs (rnd64 x) <= IZR k)%R.
Proof.
  intros K H. apply abs_round_le_generic; [typeclasses eauto|typeclasses eauto|apply generic_int; [typeclasses eauto|lia|rewrite emin53; lia]|exact H].
Qed.
Lemma below_emax x k : 0 <= k <= 2 ^ 53 -> (Rabs x <= IZR k)%R -> (Rabs x < bpow radix2 1024)%R.
Proof. intros K H. apply Rle_lt_trans with (1 := H). apply Rle_lt_trans with (bpow radix2 53); [rewrite <- IZR_pow2 by lia; apply IZR_le; lia|apply bpow_lt; reflexivity]. Qed.
(** the radian of a whole number of degrees *)
Definition deg64 : R := SF2R radix2 (S754_finite false 5030569068109113 (-58)).
Lemma fin_deg64 : fin64 (S754_finite false 5030569068109113 (-58)) deg64.
Proof. repeat split. Qed.
Lemma deg64_pos : (0 < deg64 <= 1)%R.
Proof.
  unfold deg64. cbn [SF2R cond_Zopp]. unfold F2R. cbn [Fnum Fexp bpow]. rewrite <- (Rinv_r 288230376151711744) by lra.
  change (Z.pow_pos radix2 58) with 288230376151711744. assert (0 < / 288230376151711744)%R by (apply Rinv_0_lt_compat; lra). split; nra.
Qed.
Lemma fin_radians z : Z.abs z <= 2 ^ 53 -> fin64 (ToRadians (f64_of_Z z)) (rnd64 (IZR z * deg64)).
Proof.
  intros Hz. unfold ToRadians. apply fin_mul; try typeclasses eauto; [apply fin64_of_Z; exact Hz|exact fin_deg64|].
  apply (below_emax _ (2 ^ 53)); [lia|]. apply rnd_le_int; [lia|]. rewrite Rabs_mult, (Rabs_pos_eq deg64) by apply Rlt_le, deg64_pos.
  rewrite <- abs_IZR. apply IZR_le in Hz. pose proof deg64_pos. assert (0 <= IZR (Z.abs z))%R by (apply IZR_le; lia). nra.
Qed.
Lemma turned_coordinate x y a b s c op B : 0 <= B <= 2 ^ 51 -> Z.abs x <= B -> Z.abs y <= B -> fin64 a s -> fin64 b c -> (Rabs s <= 1)%R -> (Rabs c <= 1)%R ->
  (op = sub64f \/ op = add64f) -> Z.abs (int64_of_rne (op (mul64f (f64_of_Z x) a) (mul64f (f64_of_Z y) b))) <= 2 * B.
Proof.
  intros HB Hx Hy Fa Fb As Ac Op. assert (Xr : (Rabs (IZR x) <= IZR B)%R) by (rewrite <- abs_IZR; apply IZR_le; exact Hx). assert (Yr : (Rabs (IZR y) <= IZR B)%R) by (rewrite <- abs_IZR; apply IZR_le; exact Hy).
  assert (M1 : (Rabs (IZR x * s) <= IZR B)%R) by (rewrite Rabs_mult; pose proof (Rabs_pos (IZR x)); pose proof (Rabs_pos s); nra).
  assert (M2 : (Rabs (IZR y * c) <= IZR B)%R) by (rewrite Rabs_mult; pose proof (Rabs_pos (IZR y)); pose proof (Rabs_pos c); nra).
  apply (rnd_le_int _ B) in M1; [|lia]. apply (rnd_le_int _ B) in M2; [|lia].
  assert (F1 : fin64 (mul64f (f64_of_Z x) a) (rnd64 (IZR x * s))) by (apply fin_mul; try typeclasses eauto; [apply fin64_of_Z; lia|exact Fa|apply (below_emax _ B); [lia|exact M1]]).
  assert (F2 : fin64 (mul64f (f64_of_Z y) b) (rnd64 (IZR y * c))) by (apply fin_mul; try typeclasses eauto; [apply fin64_of_Z; lia|exact Fb|apply (below_emax _ B); [lia|exact M2]]).
  set (u := rnd64 (IZR x * s)) in *. set (v := rnd64 (IZR y * c)) in *. clearbody u v.
  assert (G : exists w, fin64 (op (mul64f (f64_of_Z x) a) (mul64f (f64_of_Z y) b)) (rnd64 w) /\ (Rabs (rnd64 w) <= IZR (2 * B))%R).
  { assert (W : (Rabs (u - v) <= IZR (2 * B))%R /\ (Rabs (u + v) <= IZR (2 * B))%R).
    { rewrite mult_IZR. apply Rabs_le_inv in M1, M2. split; apply Rabs_le; lra. }
    destruct W as (W1 & W2). apply (rnd_le_int _ (2 * B)) in W1, W2; try lia.
    destruct Op as [-> | ->]; [exists (u - v)%R|exists (u + v)%R]; (split; [|assumption]).
    - apply fin_sub; try typeclasses eauto; try assumption. apply (below_emax _ (2 * B)); [lia|exact W1].
    - apply fin_add; try typeclasses eauto; try assumption. apply (below_emax _ (2 * B)); [lia|exact W2]. }
  destruct G as (w & F & W).
  assert (N : Z.abs (ZnearestE (rnd64 w)) <= 2 * B).
  { apply Rabs_le_inv in W. rewrite <- opp_IZR in W. destruct W as (W1 & W2). apply (Zrnd_le ZnearestE) in W1, W2. rewrite Zrnd_IZR in W1, W2 by typeclasses eauto. lia. }
  rewrite (int64_of_rne_correct _ _ F); [exact N|]. unfold int64. lia.
Qed.
Lemma turned a b s c B p : 0 <= B <= 2 ^ 51 -> pt_bounded B p -> fin64 a s -> fin64 b c -> (Rabs s <= 1)%R -> (Rabs c <= 1)%R -> pt_bounded (2 * B) (ptRotate a b p).
Proof.
  intros HB (X & Y) Fa Fb As Ac. unfold ptRotate. split; cbn [px py]; eapply turned_coordinate; eauto.
Qed.

Section Fill.
Variable lib : clib.
Hypothesis Cap : capable lib.
Lemma box_bounds B rot l : 0 <= B <= 2 ^ 51 -> l <> [] -> Forall (pt_bounded B) l -> (exists z, rot = f64_of_Z z /\ Z.abs z <= 2 ^ 53) ->
  let '(mn, mx) := PathBounds (rotate_path lib rot l) in pt_bounded (2 * B) mn /\ pt_bounded (2 * B) mx /\ px mn <= px mx /\ py mn <= py mx.
Proof.
  intros HB Ne F (z & -> & Hz). assert (F2 : Forall (pt_bounded (2 * B)) (rotate_path lib (f64_of_Z z) l)).
  { unfold rotate_path, PathRotate. destruct (feq _ _).
    - eapply Forall_impl; [|exact F]. unfold pt_bounded. intros; lia.
    - destruct (turns lib Cap _ _ (fin_radians z Hz)) as (s & c & Fs & Fc & As & Ac). apply Forall_forall. intros q Iq. apply in_map_iff in Iq. destruct Iq as (p & <- & Ip). rewrite Forall_forall in F. eapply turned; eauto. }
  assert (Ne2 : rotate_path lib (f64_of_Z z) l <> []). { unfold rotate_path, PathRotate. destruct (feq _ _); [exact Ne|]. destruct l; [contradiction|discriminate]. }
  set (r := rotate_path lib (f64_of_Z z) l) in *. pose proof (path_bounds_tight r Ne2) as T.
  assert (Wf : Forall wf_pt r). { eapply Forall_impl; [|exact F2]. unfold pt_bounded, wf_pt, int64. intros; lia. } specialize (T Wf). destruct (PathBounds r) as [mn mx]. cbn [fst snd] in T.
  destruct T as (T1 & T2 & T3 & T4 & T5). rewrite Forall_forall in F2.
  destruct T2 as (p1 & I1 & E1), T3 as (p2 & I2 & E2), T4 as (p3 & I3 & E3), T5 as (p4 & I4 & E4).
  pose proof (F2 _ I1) as (A1 & _). pose proof (F2 _ I2) as (A2 & _). pose proof (F2 _ I3) as (_ & A3). pose proof (F2 _ I4) as (_ & A4).
  pose proof (T1 _ I1) as (B1 & _). pose proof (T1 _ I3) as (_ & B3). unfold pt_bounded. repeat split; lia.
Qed.
Lemma shorten_total s x y1 y2 : 0 <= s < 2 ^ 60 -> Z.abs y1 <= 2 ^ 60 -> Z.abs y2 <= 2 ^ 60 ->
  exists z1 z2, shorten s [Pt x y1; Pt x y2] = Ok [Pt x z1; Pt x z2] /\ (forall b t, b <= y1 <= t -> b <= y2 <= t -> b <= z1 <= t /\ b <= z2 <= t).
Proof.
  intros Hs H1 H2. unfold shorten. destruct (Z.eqb_spec s 0); [exists y1, y2; split; [reflexivity|auto]|]. change (idx [Pt x y1; Pt x y2] 0) with (Ok (Pt x y1)). change (idx [Pt x y1; Pt x y2] 1) with (Ok (Pt x y2)). cbn [bind px py].
  assert (Q : quot64 s 2 = s / 2). { unfold quot64. rewrite Z.quot_div_nonneg by lia. apply wrap_id. unfold int64. pose proof (Z.div_pos s 2). pose proof (Z.div_le_upper_bound s 2 s). lia. }
  assert (Hq : 0 <= s / 2 <= s) by (split; [apply Z.div_pos; lia|apply Z.div_le_upper_bound; lia]). rewrite Q. unfold sub64, add64. rewrite !wrap_id by (unfold int64; lia).
  destruct (Z.ltb_spec y2 (y1 - s / 2)); [|exists y1, y2; split; [reflexivity|auto]]. eexists _, _. split; [reflexivity|]. intros b t B1 B2. lia.
Qed.
Lemma map_res_total {A B} (f : A -> res B) (Q : B -> Prop) l : (forall a, In a l -> exists b, f a = Ok b /\ Q b) -> exists bs, map_res f l = Ok bs /\ Forall Q bs.
Proof.
  induction l as [|a l IH]; intros H; [exists []; split; [reflexivity|constructor]|]. destruct (H a (or_introl eq_refl)) as (b & Eb & Qb). destruct IH as (bs & Es & Fs); [intros; apply H; right; assumption|].
  exists (b :: bs). cbn [map_res]. rewrite Eb. cbn [bind]. rewrite Es. cbn [bind]. split; [reflexivity|constructor; assumption].
Qed.
Lemma getInfill_total fuel d mn mx outl hls s : 0 < d <= 2 ^ 60 -> pt_bounded (2 ^ 60) mn -> pt_bounded (2 ^ 60) mx -> py mn <= py mx -> 0 <= s < 2 ^ 60 -> px mx - px mn < Z.of_nat fuel * d ->
  exists ls, getInfill lib fuel d mn mx outl hls s = Ok ls /\
    Forall (fun l => exists k y1 y2, l = [Pt (px mn + k * d) y1; Pt (px mn + k * d) y2] /\ 0 <= k /\ px mn + k * d <= px mx /\ py mn <= y1 <= py mx /\ py mn <= y2 <= py mx) ls.
Proof.
  intros Hd (M1 & M2) (X1 & X2) My Hs Hf. unfold getInfill.
  destruct (infill_grid d (px mn) (px mx) fuel ltac:(lia) ltac:(unfold int64; lia) ltac:(lia) Hf) as (xs & Ex & Gx & _). rewrite Ex. cbn [bind].
  destruct (execute lib false CtIntersection _) as [(tree, n)|] eqn:EX; [|destruct (never_fails lib Cap _ _ _ EX)].
  apply map_res_total. intros c Ic. assert (VL : Forall upright (map (fun x => [Pt x (py mx); Pt x (py mn)]) xs)).
  { apply Forall_forall. intros q Iq. apply in_map_iff in Iq. destruct Iq as (x & <- & _). exists x, (py mx), (py mn). split; [reflexivity|lia]. }
  destruct (cuts_lines lib Cap _ _ _ _ VL EX c Ic) as (x & t & b & y1 & y2 & Ia & Ec & B1 & B2).
  apply in_map_iff in Ia. destruct Ia as (x0 & Q & Ix). injection Q as Q1 Q2 Q3. subst x0 t b. rewrite Ec.
  apply In_nth_error in Ix. destruct Ix as (j & Ij). assert (Iz : idx xs (Z.of_nat j) = Ok x).
  { unfold idx. destruct (Z.ltb_spec (Z.of_nat j) 0); [lia|]. rewrite Nat2Z.id, Ij. reflexivity. }
  destruct (Gx _ _ Iz) as (Xe & Xm). destruct (shorten_total s x y1 y2 Hs ltac:(lia) ltac:(lia)) as (z1 & z2 & Es & Hz). exists [Pt x z1; Pt x z2]. split; [exact Es|].
  destruct (Hz _ _ B1 B2). exists (Z.of_nat j), z1, z2. rewrite <- Xe. repeat split; lia.
Qed.
Lemma crossing_total parts line : IsCrossingPerimeter lib parts line <> None.
Proof. unfold IsCrossingPerimeter. destruct (execute _ _ _ _) as [[? ?]|] eqn:E; [discriminate|destruct (never_fails lib Cap _ _ _ E)]. Qed.
(** all lines have two points *)
Lemma woven_lines conn b l0 e order out : woven conn b l0 e order out -> Forall (fun l => List.length l = 2%nat) order -> Forall (fun l => List.length l = 2%nat) out.
Proof.
  induction 1 as [|b' prev e' l lr o N W IH]; intros F; [constructor|].
  inversion F as [|? ? Fl Fr]; subst. apply Forall_app. split; [destruct (conn _ _); repeat constructor|]. constructor; [destruct b'; [rewrite rev_length|]; exact Fl|exact (IH Fr)].
Qed.
Theorem fill_total fuel p nr q : Z.abs (degree p) <= 2 ^ 52 -> pt_bounded (2 ^ 22) (lmin p) -> pt_bounded (2 ^ 22) (lmax p) ->
  0 < lineDistance p <= 2 ^ 28 -> 0 <= lineWidth p <= 2 ^ 28 -> 2 ^ 24 < Z.of_nat fuel * lineDistance p ->
  exists ls, Fill lib fuel p nr q = Ok ls /\ Forall (fun l => List.length l = 2%nat) ls.
Proof.
  intros Hdeg Bn Bx Hd Hw Hf. unfold Fill.
  assert (R : exists z, rotation p nr = f64_of_Z z /\ Z.abs z <= 2 ^ 53) by (rewrite fill_rotation by exact Hdeg; eexists; split; [reflexivity|destruct (_ && _); lia]).
  pose proof (box_bounds (2 ^ 22) (rotation p nr) [lmin p; Pt (px (lmax p)) (py (lmin p)); lmax p; Pt (px (lmin p)) (py (lmax p))] ltac:(lia) ltac:(discriminate)) as BB.
  assert (F : Forall (pt_bounded (2 ^ 22)) [lmin p; Pt (px (lmax p)) (py (lmin p)); lmax p; Pt (px (lmin p)) (py (lmax p))]).
  { destruct Bn, Bx. constructor; [split; assumption|]. constructor; [split; cbn [px py]; assumption|]. constructor; [split; assumption|]. constructor; [split; cbn [px py]; assumption|constructor]. }
  specialize (BB F R). clear R F. set (rot := rotation p nr) in *. clearbody rot. cbn zeta.
  destruct (PathBounds _) as [mn mx]. destruct BB as ((M1 & M2) & (X1 & X2) & Ox & Oy).
  destruct (getInfill_total fuel (lineDistance p) mn mx (rotate_path lib rot (outline q)) (map (rotate_path lib rot) (holes q)) (if zigZag p then lineWidth p else 0)) as (ls & Eg & Fg); try (unfold pt_bounded; lia).
  { destruct (zigZag p); lia. }
  rewrite Eg. cbn [bind]. set (prt := Part _ _).
  assert (LO : lines_ok ls).
  { eapply Forall_impl; [|exact Fg]. cbn beta. intros l (k & y1 & y2 & -> & K0 & Kx & B1 & B2). split; [reflexivity|]. assert (0 <= k * lineDistance p) by nia. repeat constructor; cbn [px py]; lia. }
  assert (S : exists out, sortInfill lib p ls (zigZag p) prt = Ok out /\ Forall (fun l => List.length l = 2%nat) out).
  { destruct ls as [|l0 ls]; [exists []; split; [reflexivity|constructor]|].
    destruct (infill_sorted lib p prt (zigZag p) l0 ls LO ltac:(intros; apply crossing_total) ltac:(lia) ltac:(lia)) as (order & out & Es & Pm & W). exists (l0 :: out). split; [exact Es|].
    assert (Fl : Forall (fun l : path => List.length l = 2%nat) (l0 :: ls)) by (eapply Forall_impl; [|exact LO]; cbn; tauto). inversion Fl as [|? ? F0 F1]; subst. constructor; [exact F0|].
    eapply woven_lines; [exact W|]. rewrite Forall_forall in *. intros l Il. apply F1. eapply Permutation_in; [exact Pm|exact Il]. }
  destruct S as (out & Es & Fo). rewrite Es. cbn [bind]. eexists. split; [reflexivity|]. apply Forall_forall. intros l Il. apply in_map_iff in Il. destruct Il as (m & <- & Im). rewrite Forall_forall in Fo. specialize (Fo m Im).
  unfold rotate_path, PathRotate. destruct (feq _ _); [exact Fo|]. rewrite map_length. exact Fo.
Qed.
End Fill.
