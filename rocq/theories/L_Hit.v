(** Which triangles a ray hits; polygons without one point. *)
From Coq Require Import Reals Lra.
From Verif Require Import GoBase GoFloat M_Micrometer M_Geom2D M_Model M_Clip S_Geom S_Simplify S_Model S_Slicer S_Area L_Simplify S_Solid L_Ray L_Solid.
Local Open Scope R_scope.

Lemma misses_sym z y u v : misses z y u v -> misses z y v u.
Proof. intros M t T (A & B). apply (M (1 - t)); [lra|]. split; [rewrite <- A|rewrite <- B]; ring. Qed.
Lemma ratio a b : (0 < b /\ 0 <= a <= b) \/ (b < 0 /\ b <= a <= 0) -> 0 <= a / b <= 1.
Proof.
  intros [(B & A0 & A1)|(B & A1 & A0)].
  - split; [apply Rmult_le_pos; [lra|left; apply Rinv_0_lt_compat; lra]|]. apply (Rmult_le_reg_r b); [lra|]. unfold Rdiv. rewrite Rmult_assoc, Rinv_l by lra. lra.
  - replace (a / b) with ((- a) / (- b)) by (field; lra). split; [apply Rmult_le_pos; [lra|left; apply Rinv_0_lt_compat; lra]|]. apply (Rmult_le_reg_r (- b)); [lra|]. unfold Rdiv. rewrite Rmult_assoc, Rinv_l by lra. lra.
Qed.
Lemma crossed_point p a b : crossed p a b = true -> exists t, 0 <= t <= 1 /\ snd a + t * (snd b - snd a) = snd p /\ fst p < fst a + t * (fst b - fst a).
Proof.
  unfold crossed. intros H. apply andb_true_iff in H. destruct H as (D & X). apply lower_diff in D. destruct (Rlt_dec _ _) as [Lt|]; [|discriminate].
  exists ((snd p - snd a) / (snd b - snd a)). split; [apply ratio; lra|]. split; [field; lra|exact Lt].
Qed.
Lemma point_crossed p a b t : 0 <= t <= 1 -> snd a + t * (snd b - snd a) = snd p -> snd a <> snd p -> snd b <> snd p -> fst p < fst a + t * (fst b - fst a) -> crossed p a b = true.
Proof.
  intros (T0 & T1) Y Na Nb X. unfold crossed.
  assert (D : snd a < snd p < snd b \/ snd b < snd p < snd a).
  { destruct (Rtotal_order (snd a) (snd p)) as [A|[A|A]]; [|contradiction|]; destruct (Rtotal_order (snd b) (snd p)) as [B|[B|B]]; try contradiction; try (left; lra); try (right; lra); exfalso.
    - assert (snd a + t * (snd b - snd a) < snd p); [|lra]. replace (snd a + t * (snd b - snd a)) with ((1 - t) * snd a + t * snd b) by ring. replace (snd p) with ((1 - t) * snd p + t * snd p) by ring.
      destruct (Rle_lt_or_eq_dec 0 t T0) as [Tp|<-]; [apply Rplus_le_lt_compat; [apply Rmult_le_compat_l; lra|apply Rmult_lt_compat_l; lra]|lra].
    - assert (snd p < snd a + t * (snd b - snd a)); [|lra]. replace (snd a + t * (snd b - snd a)) with ((1 - t) * snd a + t * snd b) by ring. replace (snd p) with ((1 - t) * snd p + t * snd p) at 1 by ring.
      destruct (Rle_lt_or_eq_dec 0 t T0) as [Tp|<-]; [apply Rplus_le_lt_compat; [apply Rmult_le_compat_l; lra|apply Rmult_lt_compat_l; lra]|lra]. }
  replace (xorb (lower (snd p) a) (lower (snd p) b)) with true by (unfold lower; destruct (Rlt_dec (snd a) (snd p)), (Rlt_dec (snd b) (snd p)); try reflexivity; lra). cbn [andb].
  replace ((snd p - snd a) / (snd b - snd a)) with t by (rewrite <- Y; field; lra). destruct (Rlt_dec _ _); [reflexivity|contradiction].
Qed.
(** the corner a is on the other side of the height z than b and c *)
Lemma apex_crossed z p a b c x s t u : (vz a < z <= vz b /\ vz a < z <= vz c)%Z \/ (vz b < z <= vz a /\ vz c < z <= vz a)%Z ->
  misses (IZR z) (snd p) a b -> misses (IZR z) (snd p) a c -> 0 <= s -> 0 <= t -> 0 <= u -> s + t + u = 1 -> fst p < x ->
  x = s * IZR (vx a) + t * IZR (vx b) + u * IZR (vx c) -> snd p = s * IZR (vy a) + t * IZR (vy b) + u * IZR (vy c) -> IZR z = s * IZR (vz a) + t * IZR (vz b) + u * IZR (vz c) ->
  crossed p (passes z a b) (passes z a c) = true.
Proof.
  intros H Mb Mc Hs Ht Hu S Xp X Y Hz.
  assert (H' : (IZR (vz a) < IZR z <= IZR (vz b) /\ IZR (vz a) < IZR z <= IZR (vz c)) \/ (IZR (vz b) < IZR z <= IZR (vz a) /\ IZR (vz c) < IZR z <= IZR (vz a))).
  { destruct H as [((A & B) & C & D)|((A & B) & C & D)]; apply IZR_lt in A, C; apply IZR_le in B, D; [left|right]; lra. }
  clear H. unfold misses in *. unfold passes. set (da := IZR z - IZR (vz a)). set (db := IZR (vz b) - IZR (vz a)) in *. set (dc := IZR (vz c) - IZR (vz a)) in *.
  assert (E : t * db + u * dc = da). { unfold da. rewrite Hz. replace s with (1 - t - u) by lra. unfold db, dc. ring. }
  assert (Nb : db <> 0) by (unfold db; lra). assert (Nc : dc <> 0) by (unfold dc; lra).
  assert (Na : da <> 0).
  { intros Z0. assert (Ez : IZR (vz a) = IZR z) by (unfold da in Z0; lra). assert (db < 0 /\ dc < 0) by (unfold db, dc; lra).
    assert (t = 0 /\ u = 0) as (-> & ->). { rewrite Z0 in E. split; nra. }
    apply (Mb 0); [lra|]. split; [lra|]. rewrite Y. replace s with 1 by lra. ring. }
  set (P := (IZR (vx a) + da / db * (IZR (vx b) - IZR (vx a)), IZR (vy a) + da / db * (IZR (vy b) - IZR (vy a)))). set (Q := (IZR (vx a) + da / dc * (IZR (vx c) - IZR (vx a)), IZR (vy a) + da / dc * (IZR (vy c) - IZR (vy a)))).
  assert (Sg : (0 < da /\ 0 < db /\ 0 < dc /\ da <= db /\ da <= dc) \/ (da < 0 /\ db < 0 /\ dc < 0 /\ db <= da /\ dc <= da)) by (unfold da, db, dc in *; lra).
  assert (Tb : 0 <= da / db <= 1) by (apply ratio; lra). assert (Tc : 0 <= da / dc <= 1) by (apply ratio; lra).
  apply (point_crossed p P Q (u * dc / da)).
  - apply ratio. destruct Sg as [(A & B & C & _)|(A & B & C & _)]; [left|right]; (split; [exact A|]); split; nra.
  - unfold P, Q. cbn [fst snd]. rewrite Y. replace s with (1 - t - u) by lra. apply (Rmult_eq_reg_r da); [|exact Na].
    replace (IZR (vy a) + da / db * (IZR (vy b) - IZR (vy a)) + u * dc / da * (IZR (vy a) + da / dc * (IZR (vy c) - IZR (vy a)) - (IZR (vy a) + da / db * (IZR (vy b) - IZR (vy a)))))
      with (IZR (vy a) + (da - u * dc) / db * (IZR (vy b) - IZR (vy a)) + u * (IZR (vy c) - IZR (vy a))) by (field; repeat split; assumption).
    replace (da - u * dc) with (t * db) by lra. field. exact Nb.
  - unfold P. cbn [snd]. intros A. apply (Mb (da / db) Tb). split; [unfold da; fold db; field_simplify; [unfold db; lra|exact Nb]|exact A].
  - unfold Q. cbn [snd]. intros A. apply (Mc (da / dc) Tc). split; [unfold da; fold dc; field_simplify; [unfold dc; lra|exact Nc]|exact A].
  - unfold P, Q. cbn [fst snd]. replace (IZR (vx a) + da / db * (IZR (vx b) - IZR (vx a)) + u * dc / da * (IZR (vx a) + da / dc * (IZR (vx c) - IZR (vx a)) - (IZR (vx a) + da / db * (IZR (vx b) - IZR (vx a)))))
      with (IZR (vx a) + (da - u * dc) / db * (IZR (vx b) - IZR (vx a)) + u * (IZR (vx c) - IZR (vx a))) by (field; repeat split; assumption).
    replace (da - u * dc) with (t * db) by lra. replace (IZR (vx a) + t * db / db * (IZR (vx b) - IZR (vx a)) + u * (IZR (vx c) - IZR (vx a))) with x; [exact Xp|].
    rewrite X. replace s with (1 - t - u) by lra. field. exact Nb.
Qed.
(** no corner is below z *)
Lemma straddle z y u v : IZR (vz u) = z -> IZR (vz v) = z -> misses z y u v -> (IZR (vy u) < y /\ IZR (vy v) < y) \/ (y < IZR (vy u) /\ y < IZR (vy v)).
Proof.
  intros Zu Zv M. set (a := IZR (vy u)) in *. set (b := IZR (vy v)) in *.
  assert (Ma : a <> y) by (intros A; apply (M 0); [lra|]; split; fold a; lra). assert (Mb : b <> y) by (intros B; apply (M 1); [lra|]; split; fold a b; lra).
  destruct (Rtotal_order a y) as [A|[A|A]]; [|contradiction|]; destruct (Rtotal_order b y) as [B|[B|B]]; try contradiction; try lra; exfalso.
  - apply (M ((y - a) / (b - a))); [apply ratio; lra|]. fold a b. split; [rewrite Zu, Zv; ring|field; lra].
  - apply (M ((y - a) / (b - a))); [apply ratio; lra|]. fold a b. split; [rewrite Zu, Zv; ring|field; lra].
Qed.
Lemma hit_point f z p : (forall u v, In (u, v) (fedges f) -> misses (IZR z) (snd p) u v) -> (hit z p f = true <-> exists x, fst p < x /\ on_face f x (snd p) (IZR z)).
Proof.
  intros M. split.
  - intros H. unfold hit in H. destruct (filter (fun e => xorb (vz (fst e) <? z)%Z (vz (snd e) <? z)%Z) (fedges f)) as [|[a b] [|[c d] [|e r]]] eqn:Ef; try discriminate.
    assert (G : forall e, In e [(a, b); (c, d)] -> In e (fedges f) /\ (falls z e \/ rises z e)).
    { intros e I. rewrite <- Ef in I. apply filter_In in I. destruct I as (I & X). split; [exact I|]. unfold falls, rises. destruct (Z.ltb_spec (vz (fst e)) z), (Z.ltb_spec (vz (snd e)) z); try discriminate; lia. }
    destruct (G (a, b) (or_introl eq_refl)) as (I1 & F1), (G (c, d) (or_intror (or_introl eq_refl))) as (I2 & F2).
    destruct (crossed_point _ _ _ H) as (t & T & Y & X). eexists. split; [exact X|]. rewrite <- Y. apply on_face_between; [apply passes_on_face; assumption..|exact T].
  - destruct f as [[a b] c]. intros (x & Xp & s & t & u & Hs & Ht & Hu & S & X & Y & Hz). cbn [fedges] in M.
    pose proof (M a b (or_introl eq_refl)) as Mab. pose proof (M b c (or_intror (or_introl eq_refl))) as Mbc. pose proof (M c a (or_intror (or_intror (or_introl eq_refl)))) as Mca. clear M.
    pose proof (misses_sym _ _ _ _ Mab) as Mba. pose proof (misses_sym _ _ _ _ Mbc) as Mcb. pose proof (misses_sym _ _ _ _ Mca) as Mac.
    unfold hit. cbn [fedges filter fst snd]. destruct (Z.ltb_spec (vz a) z) as [A|A], (Z.ltb_spec (vz b) z) as [B|B], (Z.ltb_spec (vz c) z) as [C|C]; cbn [xorb].
    + exfalso. apply IZR_lt in A, B, C. assert (0 < s * (IZR z - IZR (vz a)) + t * (IZR z - IZR (vz b)) + u * (IZR z - IZR (vz c))); [|nra].
      assert (0 <= s * (IZR z - IZR (vz a)) /\ 0 <= t * (IZR z - IZR (vz b)) /\ 0 <= u * (IZR z - IZR (vz c))) as (G1 & G2 & G3) by (repeat split; apply Rmult_le_pos; lra).
      destruct (Rle_lt_or_eq_dec 0 s Hs) as [P|<-]; [assert (0 < s * (IZR z - IZR (vz a))) by (apply Rmult_lt_0_compat; lra); lra|].
      destruct (Rle_lt_or_eq_dec 0 t Ht) as [P|<-]; [assert (0 < t * (IZR z - IZR (vz b))) by (apply Rmult_lt_0_compat; lra); lra|].
      assert (0 < u * (IZR z - IZR (vz c))) by (apply Rmult_lt_0_compat; lra). lra.
    + rewrite (passes_sym z b c) by lia. rewrite (apex_crossed z p c b a x u t s); try lra; try reflexivity; try assumption. right. lia.
    + rewrite (passes_sym z a b) by lia. rewrite (apex_crossed z p b a c x t s u); try lra; try reflexivity; try assumption. right. lia.
    + rewrite (passes_sym z c a) by lia. rewrite (apex_crossed z p a b c x s t u); try lra; try reflexivity; try assumption. left. lia.
    + rewrite (passes_sym z c a) by lia. rewrite (apex_crossed z p a b c x s t u); try lra; try reflexivity; try assumption. right. lia.
    + rewrite (passes_sym z a b) by lia. rewrite (apex_crossed z p b a c x t s u); try lra; try reflexivity; try assumption. left. lia.
    + rewrite (passes_sym z b c) by lia. rewrite (apex_crossed z p c b a x u t s); try lra; try reflexivity; try assumption. left. lia.
    + exfalso. apply IZR_le in A, B, C.
      assert (0 <= s * (IZR (vz a) - IZR z) /\ 0 <= t * (IZR (vz b) - IZR z) /\ 0 <= u * (IZR (vz c) - IZR z)) as (G1 & G2 & G3) by (repeat split; apply Rmult_le_pos; lra).
      assert (S0 : s * (IZR (vz a) - IZR z) + t * (IZR (vz b) - IZR z) + u * (IZR (vz c) - IZR z) = 0).
      { replace (s * (IZR (vz a) - IZR z) + t * (IZR (vz b) - IZR z) + u * (IZR (vz c) - IZR z)) with (s * IZR (vz a) + t * IZR (vz b) + u * IZR (vz c) - (s + t + u) * IZR z) by ring. rewrite S, <- Hz. ring. }
      destruct (Rle_lt_or_eq_dec 0 s Hs) as [Ps|<-]. 2:{ apply (Mbc u); [lra|]. split; [rewrite Hz|rewrite Y]; replace t with (1 - u) by lra; ring. }
      destruct (Rle_lt_or_eq_dec 0 t Ht) as [Pt_|<-]. 2:{ apply (Mca s); [lra|]. split; [rewrite Hz|rewrite Y]; replace u with (1 - s) by lra; ring. }
      destruct (Rle_lt_or_eq_dec 0 u Hu) as [Pu|<-]. 2:{ apply (Mab t); [lra|]. split; [rewrite Hz|rewrite Y]; replace s with (1 - t) by lra; ring. }
      assert (Za : IZR (vz a) = IZR z) by nra. assert (Zb : IZR (vz b) = IZR z) by nra. assert (Zc : IZR (vz c) = IZR z) by nra.
      destruct (straddle _ _ a b Za Zb Mab) as [(L1 & L2)|(L1 & L2)], (straddle _ _ b c Zb Zc Mbc) as [(L3 & L4)|(L3 & L4)]; try lra.
      * assert (s * (snd p - IZR (vy a)) + t * (snd p - IZR (vy b)) + u * (snd p - IZR (vy c)) = 0). { replace (s * (snd p - IZR (vy a)) + t * (snd p - IZR (vy b)) + u * (snd p - IZR (vy c))) with ((s + t + u) * snd p - (s * IZR (vy a) + t * IZR (vy b) + u * IZR (vy c))) by ring. rewrite S, <- Y. ring. }
        assert (0 < s * (snd p - IZR (vy a)) /\ 0 < t * (snd p - IZR (vy b)) /\ 0 < u * (snd p - IZR (vy c))) by (repeat split; apply Rmult_lt_0_compat; lra). lra.
      * assert (s * (IZR (vy a) - snd p) + t * (IZR (vy b) - snd p) + u * (IZR (vy c) - snd p) = 0). { replace (s * (IZR (vy a) - snd p) + t * (IZR (vy b) - snd p) + u * (IZR (vy c) - snd p)) with (s * IZR (vy a) + t * IZR (vy b) + u * IZR (vy c) - (s + t + u) * snd p) by ring. rewrite S, <- Y. ring. }
        assert (0 < s * (IZR (vy a) - snd p) /\ 0 < t * (IZR (vy b) - snd p) /\ 0 < u * (IZR (vy c) - snd p)) by (repeat split; apply Rmult_lt_0_compat; lra). lra.
Qed.
