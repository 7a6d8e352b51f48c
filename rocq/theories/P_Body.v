(** Properties C102 and C103: what is printed is the body in the file. *)
From Coq Require Import Reals Lra.
From Verif Require Import GoBase GoFloat GoStr M_Micrometer M_Geom2D M_Model M_Slicer M_Clip M_Builder M_Option M_Layer M_Render M_Modifier M_Process M_Flags
  S_Geom S_Model S_Slicer S_Clip S_Area S_Calls S_Machine S_Render S_Modifier S_Process S_Fill S_Flags S_Place S_Print S_Solid S_Body L_Float L_Model L_Slicer L_SliceLoop L_SliceAll L_Area L_Clip L_Strip L_LineLib L_Modifier L_Infill L_Process L_Solid
  P_Model P_Slicer P_Modifier P_Render P_Process P_Pipeline P_Complete P_Flags P_EndToEnd P_Solid P_Print.
Local Open Scope string_scope.
Local Open Scope list_scope.
Local Open Scope Z_scope.

(** *** moving *)
Lemma shift3_vz v d : vz (shift3 v d) = vz v + vz d. Proof. reflexivity. Qed.
Lemma shift3_inj v w d : shift3 v d = shift3 w d -> v = w.
Proof. destruct v, w. unfold shift3. cbn. intros [= ]. f_equal; lia. Qed.
Definition shift_edge (d : vec3) (e : vec3 * vec3) : vec3 * vec3 := (shift3 (fst e) d, shift3 (snd e) d).
Lemma fedges_move d f : fedges (move d f) = map (shift_edge d) (fedges f).
Proof. destruct f as [[a b] c]. reflexivity. Qed.
Lemma points_move d f : facePoints (move d f) = map (fun v => shift3 v d) (facePoints f).
Proof. destruct f as [[a b] c]. reflexivity. Qed.
Lemma move_inj d f g : move d f = move d g -> f = g.
Proof. destruct f as [[a b] c], g as [[a' b'] c']. cbn [move]. intros [= E1 E2 E3]. f_equal; [f_equal|]; eapply shift3_inj; unfold shift3; f_equal; eassumption. Qed.
Lemma passes_move z d a b : passes (z + vz d) (shift3 a d) (shift3 b d) = placed d (passes z a b).
Proof.
  unfold passes, placed. rewrite !shift3_vz, !plus_IZR. change (vx (shift3 a d)) with (vx a + vx d). change (vy (shift3 a d)) with (vy a + vy d). change (vx (shift3 b d)) with (vx b + vx d). change (vy (shift3 b d)) with (vy b + vy d).
  rewrite !plus_IZR. cbn [fst snd].
  replace ((IZR z + IZR (vz d) - (IZR (vz a) + IZR (vz d))) / (IZR (vz b) + IZR (vz d) - (IZR (vz a) + IZR (vz d))))%R with ((IZR z - IZR (vz a)) / (IZR (vz b) - IZR (vz a)))%R by (f_equal; ring || (f_equal; ring)).
  f_equal; ring.
Qed.
Lemma crossed_move d p a b : crossed (placed d p) (placed d a) (placed d b) = crossed p a b.
Proof.
  assert (Lw : forall q, lower (snd (placed d p)) (placed d q) = lower (snd p) q).
  { intros q. unfold lower, placed. cbn [snd]. destruct (Rlt_dec _ _), (Rlt_dec _ _); try reflexivity; lra. }
  unfold crossed. rewrite !Lw. f_equal. unfold placed. cbn [fst snd].
  replace (snd p + IZR (vy d) - (snd a + IZR (vy d)))%R with (snd p - snd a)%R by ring. replace (snd b + IZR (vy d) - (snd a + IZR (vy d)))%R with (snd b - snd a)%R by ring.
  replace (fst b + IZR (vx d) - (fst a + IZR (vx d)))%R with (fst b - fst a)%R by ring. set (s := ((snd p - snd a) / (snd b - snd a) * (fst b - fst a))%R). destruct (Rlt_dec _ _), (Rlt_dec _ _); try reflexivity; lra.
Qed.
Lemma hit_move z d p f : hit (z + vz d) (placed d p) (move d f) = hit z p f.
Proof.
  unfold hit. rewrite fedges_move.
  assert (F : forall l, filter (fun e => xorb (vz (fst e) <? z + vz d) (vz (snd e) <? z + vz d)) (map (shift_edge d) l) = map (shift_edge d) (filter (fun e => xorb (vz (fst e) <? z) (vz (snd e) <? z)) l)).
  { induction l as [|[a b] l IH]; [reflexivity|]. cbn [map filter shift_edge fst snd]. rewrite !shift3_vz, IH.
    assert (Lt : forall v, (vz v + vz d <? z + vz d) = (vz v <? z)) by (intros v; destruct (Z.ltb_spec (vz v + vz d) (z + vz d)), (Z.ltb_spec (vz v) z); lia || reflexivity). rewrite !Lt. destruct (xorb _ _); reflexivity. }
  rewrite F. destruct (filter _ (fedges f)) as [|[a b] [|[c e] [|x l]]]; cbn [map shift_edge fst snd]; try reflexivity. rewrite !passes_move. apply crossed_move.
Qed.
(** the moved body contains the moved points *)
Lemma in_solid_move fs z d p : in_solid (moved d fs) (z + vz d) (placed d p) = in_solid fs z p.
Proof. unfold in_solid, moved. rewrite map_map. f_equal. apply map_ext. intros f. apply hit_move. Qed.
Lemma on_face_move d f x y z : on_face (move d f) x y z <-> on_face f (x - IZR (vx d)) (y - IZR (vy d)) (z - IZR (vz d)).
Proof.
  destruct f as [[a b] c]. cbn [move]. unfold on_face, shift3. cbn [vx vy vz]. rewrite !plus_IZR. split; intros (s & t & u & S & T & U & E & X & Y & Z); exists s, t, u; repeat (split; [assumption|]).
  - replace u with (1 - s - t)%R in * by lra. repeat split; [rewrite X|rewrite Y|rewrite Z]; ring.
  - replace u with (1 - s - t)%R in * by lra. repeat split; [apply (Rplus_eq_reg_r (- IZR (vx d)))|apply (Rplus_eq_reg_r (- IZR (vy d)))|apply (Rplus_eq_reg_r (- IZR (vz d)))]; [transitivity (x - IZR (vx d))%R; [ring|rewrite X; ring]|transitivity (y - IZR (vy d))%R; [ring|rewrite Y; ring]|transitivity (z - IZR (vz d))%R; [ring|rewrite Z; ring]].
Qed.
Lemma away_move fs z d p : away fs z p -> away (moved d fs) (z + vz d) (placed d p).
Proof.
  intros A f x y If Of. unfold moved in If. apply in_map_iff in If. destruct If as (g & <- & Ig). apply on_face_move in Of. rewrite plus_IZR in Of.
  replace (IZR z + IZR (vz d) - IZR (vz d))%R with (IZR z) in Of by ring. pose proof (A g _ _ Ig Of) as H. unfold placed. cbn [fst snd] in *.
  replace (x - (fst p + IZR (vx d)))%R with (x - IZR (vx d) - fst p)%R by ring. replace (y - (snd p + IZR (vy d)))%R with (y - IZR (vy d) - snd p)%R by ring. exact H.
Qed.

(** *** the optimizer keeps all faces *)
Lemma subseq_length {A} (l m : list A) : subseq l m -> (List.length l <= List.length m)%nat.
Proof. induction 1; cbn; lia. Qed.
Lemma subseq_all {A} (l m : list A) : subseq l m -> List.length l = List.length m -> l = m.
Proof. induction 1 as [|x l m S IH|x l m S IH]; cbn; intros E; [reflexivity|f_equal; apply IH; lia|apply subseq_length in S; lia]. Qed.
(** If moreover all faces have three different corners and no two the same three, the optimized model is the given one, moved. *)
Theorem optimizer_identity : forall meld center fs om open mn mx, usable meld center fs -> apart meld fs -> Forall proper_face fs -> NoDup fs ->
  (forall f g, In f fs -> In g fs -> (forall v, In v (facePoints f) <-> In v (facePoints g)) -> f = g) ->
  Optimize meld center fs = Ok (om, open) -> tight_box3 (vertices fs) mn mx ->
  omFaces om (om_faces om) = Ok (moved (back (plate_offset mn mx center)) fs).
Proof.
  intros meld center fs om open mn mx U A Pp Nd Di E Tb. destruct (optimizer_exact _ _ _ _ _ U A E) as (mn' & mx' & ofs & Tb' & Ef & Sub & Keep).
  destruct (box_unique _ _ _ _ _ Tb Tb') as (<- & <-). set (d := back (plate_offset mn mx center)) in *. rewrite Ef. f_equal. apply subseq_all; [exact Sub|].
  apply Nat.le_antisymm; [apply subseq_length; exact Sub|]. apply NoDup_incl_length.
  - unfold moved. apply FinFun.Injective_map_NoDup; [|exact Nd]. intros f g. apply move_inj.
  - intros f' If'. unfold moved in If'. apply in_map_iff in If'. destruct If' as (f & <- & If). rewrite Forall_forall in Pp. destruct (Keep f If (Pp f If)) as (g & Ig & Hg).
    pose proof (subseq_in _ _ Sub g Ig) as Ig'. unfold moved in Ig'. apply in_map_iff in Ig'. destruct Ig' as (g0 & <- & Ig0). assert (f = g0); [|subst g0; exact Ig].
    apply Di; [exact If|exact Ig0|]. intros v. specialize (Hg (shift3 v d)). rewrite !move_points in Hg.
    assert (Q : forall h, In v (facePoints h) <-> exists w, In w (facePoints h) /\ shift3 v d = shift3 w d).
    { intros h. split; [eauto|]. intros (w & Iw & Ew). apply shift3_inj in Ew. subst w. exact Iw. }
    rewrite (Q f), (Q g0). tauto.
Qed.
Print Assumptions optimizer_identity.

Lemma watertight_closed meld center fs om open mn mx : usable meld center fs -> watertight fs -> Optimize meld center fs = Ok (om, open) ->
  omFaces om (om_faces om) = Ok (moved (back (plate_offset mn mx center)) fs) -> closed_model om.
Proof.
  intros Us (W1 & W2 & Nd & _) Eo Ef. set (d := back (plate_offset mn mx center)) in *. pose proof (omFaces_forall2 _ _ _ Ef) as F2.
  destruct (optimizer_separation _ _ _ _ _ Us Eo) as (mn' & mx' & _ & Sep).
  assert (PI : forall i j p q, idx (om_points om) i = Ok p -> idx (om_points om) j = Ok q -> opos p = opos q -> i = j).
  { intros i j p q Ip Iq E. destruct (Z.eq_dec i j) as [|N]; [assumption|exfalso].
    pose proof (Sep i j p q N Ip Iq) as S. rewrite E in S. specialize (S (conj eq_refl (conj eq_refl eq_refl))).
    unfold dist3 in S. rewrite !Z.sub_diag in S. destruct Us as (Hm & _). nia. }
  assert (PE : forall o f, oPoints om o = Ok f -> forall e, In e (fedges f) <->
     exists k p q, (k < 3)%nat /\ idx (om_points om) (fst (edge (oi o) k)) = Ok p /\ idx (om_points om) (snd (edge (oi o) k)) = Ok q /\ e = (opos p, opos q)).
  { intros o f E e. unfold oPoints in E. destruct (oi o) as [[a b] c]. apply bind_Ok in E. destruct E as (p & Ep & E).
    apply bind_Ok in E. destruct E as (q & Eq & E). apply bind_Ok in E. destruct E as (r & Er & E). injection E as <-. cbn [fedges In]. split.
    - intros [<-|[<-|[<-|[]]]]; [exists 0%nat, p, q|exists 1%nat, q, r|exists 2%nat, r, p]; cbn [edge fst snd]; repeat split; auto; lia.
    - intros (k & p' & q' & Hk & E1 & E2 & ->). destruct k as [|[|[|k]]]; [| | |lia]; cbn [edge fst snd] in *.
      + left. congruence. + right; left. congruence. + right; right; left. congruence. }
  assert (PX : forall o f k, oPoints om o = Ok f -> (k < 3)%nat -> exists p q, idx (om_points om) (fst (edge (oi o) k)) = Ok p /\ idx (om_points om) (snd (edge (oi o) k)) = Ok q).
  { intros o f k E Hk. unfold oPoints in E. destruct (oi o) as [[a b] c]. apply bind_Ok in E. destruct E as (p & Ep & E).
    apply bind_Ok in E. destruct E as (q & Eq & E). apply bind_Ok in E. destruct E as (r & Er & E). destruct k as [|[|[|k]]]; [| | |lia]; cbn [edge fst snd]; eauto. }
  assert (Fs : forall i o, idx (om_faces om) i = Ok o -> exists f, idx fs i = Ok f /\ oPoints om o = Ok (move d f)).
  { intros i o Io. destruct (forall2_idx_l _ _ _ F2 _ _ Io) as (g & Ig & Pg). unfold moved in Ig. unfold idx in Ig |- *. destruct (i <? 0); [discriminate|]. rewrite nth_error_map in Ig.
    destruct (nth_error fs (Z.to_nat i)) as [f|]; [|discriminate]. cbn [option_map] in Ig. injection Ig as <-. eauto. }
  split.
  - intros i o k Io Hk. destruct (Fs i o Io) as (f & If & Po). destruct (PX o _ k Po Hk) as (p & q & Ip & Iq).
    assert (Ie : In (opos p, opos q) (fedges (move d f))) by (apply (PE _ _ Po); exists k, p, q; auto).
    rewrite fedges_move in Ie. apply in_map_iff in Ie. destruct Ie as ([a b] & Eab & Iab). unfold shift_edge in Eab. cbn [fst snd] in Eab.
    destruct (W1 f a b (idx_In _ _ _ If) Iab) as (g & Ig & Iba). apply In_nth_error in Ig. destruct Ig as (j & Ej).
    assert (Ij : idx (moved d fs) (Z.of_nat j) = Ok (move d g)). { unfold idx. destruct (Z.ltb_spec (Z.of_nat j) 0); [lia|]. rewrite Nat2Z.id. unfold moved. rewrite nth_error_map, Ej. reflexivity. }
    destruct (forall2_idx _ _ _ F2 _ _ Ij) as (og & Iog & Pog).
    assert (Ie' : In (opos q, opos p) (fedges (move d g))) by (rewrite fedges_move; apply in_map_iff; exists (b, a); split; [unfold shift_edge; cbn [fst snd]; congruence|exact Iba]).
    apply (PE _ _ Pog) in Ie'. destruct Ie' as (m & q' & p' & Hm & Iq' & Ip' & E'). injection E' as Eq Ep. exists (Z.of_nat j), og, m. split; [exact Iog|]. split; [exact Hm|].
    rewrite (PI _ _ _ _ Iq Iq' Eq), (PI _ _ _ _ Ip Ip' Ep). destruct (edge (oi og) m); reflexivity.
  - intros i j o o' k m Io Io' Hk Hm Ee. destruct (Fs i o Io) as (f & If & Po). destruct (Fs j o' Io') as (g & Ig & Pg). destruct (PX o _ k Po Hk) as (p & q & Ip & Iq).
    assert (I1 : In (opos p, opos q) (fedges (move d f))) by (apply (PE _ _ Po); exists k, p, q; auto).
    assert (I2 : In (opos p, opos q) (fedges (move d g))) by (apply (PE _ _ Pg); exists m, p, q; rewrite <- Ee; auto).
    rewrite fedges_move in I1, I2. apply in_map_iff in I1, I2. destruct I1 as (e1 & E1 & I1), I2 as (e2 & E2 & I2).
    assert (e1 = e2). { destruct e1 as [a b], e2 as [a' b']. unfold shift_edge in *. cbn [fst snd] in *. rewrite <- E2 in E1. apply pair_equal_spec in E1. destruct E1 as (X1 & X2). f_equal; eapply shift3_inj; eassumption. } subst e2.
    assert (f = g) by (apply (W2 f g e1); [eapply idx_In; eassumption|eapply idx_In; eassumption|assumption|assumption]). subst g.
    unfold idx in If, Ig. destruct (Z.ltb_spec i 0); [discriminate|]. destruct (Z.ltb_spec j 0); [discriminate|].
    destruct (nth_error fs (Z.to_nat i)) as [f1|] eqn:N1; [|discriminate]. injection If as ->. destruct (nth_error fs (Z.to_nat j)) as [f2|] eqn:N2; [|discriminate]. injection Ig as ->.
    apply Z2Nat.inj; [lia|lia|]. apply (proj1 (NoDup_nth_error fs) Nd); [apply nth_error_Some; congruence|congruence].
Qed.
Lemma near_apart (m a1 a2 b1 b2 A1 A2 B1 B2 : R) : (0 <= m)%R -> ((a1 - b1) ^ 2 + (a2 - b2) ^ 2 <= m ^ 2)%R ->
  (Rabs (a1 - A1) < 1)%R -> (Rabs (a2 - A2) < 1)%R -> (Rabs (b1 - B1) < 1)%R -> (Rabs (b2 - B2) < 1)%R ->
  ((A1 - B1) ^ 2 + (A2 - B2) ^ 2 <= (m + 3) ^ 2)%R.
Proof.
  intros Hm D H1 H2 H3 H4. apply Rabs_def2 in H1, H2, H3, H4. set (x := (a1 - b1)%R) in *. set (y := (a2 - b2)%R) in *.
  set (u := (A1 - B1)%R). set (v := (A2 - B2)%R). assert (U : (x - 2 <= u <= x + 2)%R) by (unfold x, u; lra). assert (V : (y - 2 <= v <= y + 2)%R) by (unfold y, v; lra). clearbody x y u v. clear H1 H2 H3 H4.
  assert (Hu : (u ^ 2 <= (Rabs x + 2) ^ 2)%R). { unfold Rabs; destruct (Rcase_abs x); nra. }
  assert (Hv : (v ^ 2 <= (Rabs y + 2) ^ 2)%R). { unfold Rabs; destruct (Rcase_abs y); nra. }
  rewrite <- (pow2_abs x), <- (pow2_abs y) in D. pose proof (Rabs_pos x) as X0. pose proof (Rabs_pos y) as Y0. set (x' := Rabs x) in *. set (y' := Rabs y) in *. clearbody x' y'. clear U V x y.
  assert (S : (x' + y' <= 3 / 2 * m)%R). { apply Rnot_lt_le. intros C. assert ((3 / 2 * m) ^ 2 < (x' + y') ^ 2)%R by nra. assert ((x' + y') ^ 2 <= 2 * m ^ 2)%R by (pose proof (pow2_ge_0 (x' - y')); nra). nra. }
  nra.
Qed.
(** different edges far apart: no segments are confused *)
Lemma apart_unambiguous z fs touch l meld : watertight fs -> 0 <= meld -> edges_apart z (meld + 3) fs -> layer_of z fs l -> unambiguous z fs touch l meld.
Proof.
  intros (W1 & _) Hm A L s t (a & b & ts & j & Ia & Ib & _ & _ & _ & _ & D).
  destruct (layer_seg z fs l L a (idx_In _ _ _ Ia)) as (f & If & Cf). destruct (layer_seg z fs l L b (idx_In _ _ _ Ib)) as (g & Ig & Cg).
  destruct Cf as (_ & (u & v & Eu) & _ & Oe). destruct Cg as ((c & e & Ec) & _ & Os & _). destruct (proj2 (Eu (u, v)) eq_refl) as (Iuv & Ruv). destruct (proj2 (Ec (c, e)) eq_refl) as (Ice & Fce).
  exists a, b, f, g, u, v. repeat (split; [assumption|]).
  destruct (W1 g c e (idx_In _ _ _ Ig) Ice) as (h & Ih & Iec). assert (Rec : rises z (e, c)) by (unfold rises, falls in *; cbn [fst snd] in *; lia).
  assert (Dec : (u, v) = (e, c) \/ (u, v) <> (e, c)). { destruct (vec_dec u e) as [-> |N1]; [destruct (vec_dec v c) as [-> |N2]; [left; reflexivity|right; congruence]|right; congruence]. }
  destruct Dec as [Eq|Ne]; [injection Eq as -> ->; exact Ice|exfalso].
  pose proof (A f h _ _ _ _ (idx_In _ _ _ If) Ih Iuv Iec Ruv Rec Ne) as Far; cbv zeta in Far.
  pose proof (Oe _ _ Iuv Ruv) as O1; pose proof (Os _ _ Ice Fce) as O2.
  apply on_edge_near in O1; [|unfold rises in Ruv; cbn [fst snd] in Ruv; lia]; apply on_edge_near in O2; [|unfold falls in Fce; cbn [fst snd] in Fce; lia].
  rewrite (passes_sym z c e) in O2 by (unfold falls in Fce; cbn [fst snd] in Fce; lia).
  destruct O1 as (A1 & A2), O2 as (B1 & B2). unfold dist2 in D. apply IZR_le in D.
  apply (Rlt_irrefl (IZR (meld + 3) ^ 2)). eapply Rlt_le_trans; [exact Far|]. rewrite plus_IZR.
  eapply near_apart; [apply IZR_le; exact Hm| |exact A1|exact A2|exact B1|exact B2].
  rewrite <- !minus_IZR. rewrite !pow_IZR. rewrite <- plus_IZR. change (Z.of_nat 2) with 2.
  replace ((px (send a) - px (sstart b)) ^ 2 + (py (send a) - py (sstart b)) ^ 2) with ((px (sstart b) - px (send a)) ^ 2 + (py (sstart b) - py (send a)) ^ 2) by ring. exact D.
Qed.

Lemma watertight_moved d fs : watertight fs -> watertight (moved d fs).
Proof.
  intros (W1 & W2 & Nd & Di).
  assert (Ed : forall f a b, In (a, b) (fedges (move d f)) -> exists a' b', a = shift3 a' d /\ b = shift3 b' d /\ In (a', b') (fedges f)).
  { intros f a b I. rewrite fedges_move in I. apply in_map_iff in I. destruct I as ([a' b'] & E & I). injection E as <- <-. eauto. }
  assert (Ed' : forall f a b, In (a, b) (fedges f) -> In (shift3 a d, shift3 b d) (fedges (move d f))).
  { intros f a b I. rewrite fedges_move. apply in_map_iff. exists (a, b). auto. }
  repeat split.
  - intros f a b If I. unfold moved in If. apply in_map_iff in If. destruct If as (f' & <- & If). destruct (Ed _ _ _ I) as (a' & b' & -> & -> & I'). destruct (W1 f' a' b' If I') as (g & Ig & Ie).
    exists (move d g). split; [apply in_map; exact Ig|apply Ed'; exact Ie].
  - intros f g [a b] If Ig I1 I2. unfold moved in If, Ig. apply in_map_iff in If, Ig. destruct If as (f' & <- & If), Ig as (g' & <- & Ig).
    destruct (Ed _ _ _ I1) as (a1 & b1 & -> & -> & J1). destruct (Ed _ _ _ I2) as (a2 & b2 & E1 & E2 & J2). apply shift3_inj in E1, E2. subst a2 b2. f_equal. exact (W2 f' g' _ If Ig J1 J2).
  - unfold moved. apply FinFun.Injective_map_NoDup; [|exact Nd]. intros f g. apply move_inj.
  - intros f g If Ig H. unfold moved in If, Ig. apply in_map_iff in If, Ig. destruct If as (f' & <- & If), Ig as (g' & <- & Ig). f_equal. apply Di; [assumption..|].
    intros v. specialize (H (shift3 v d)). rewrite !move_points in H. split; intros I.
    + destruct (proj1 H (ex_intro _ v (conj I eq_refl))) as (w & Iw & E). apply shift3_inj in E. subst w. exact Iw.
    + destruct (proj2 H (ex_intro _ v (conj I eq_refl))) as (w & Iw & E). apply shift3_inj in E. subst w. exact Iw.
Qed.
Lemma edges_apart_moved z m d fs : edges_apart z m fs -> edges_apart (z + vz d) m (moved d fs).
Proof.
  intros A f g a b c e If Ig I1 I2 R1 R2 N. unfold moved in If, Ig. apply in_map_iff in If, Ig. destruct If as (f' & <- & If), Ig as (g' & <- & Ig).
  rewrite fedges_move in I1, I2. apply in_map_iff in I1, I2. destruct I1 as ([a' b'] & E1 & I1), I2 as ([c' e'] & E2 & I2). unfold shift_edge in E1, E2. cbn [fst snd] in E1, E2.
  apply pair_equal_spec in E1, E2. destruct E1 as (<- & <-), E2 as (<- & <-). cbv zeta. rewrite !passes_move.
  assert (R1' : rises z (a', b')) by (unfold rises in *; cbn [fst snd] in *; change (vz (shift3 a' d)) with (vz a' + vz d) in R1; change (vz (shift3 b' d)) with (vz b' + vz d) in R1; lia).
  assert (R2' : rises z (c', e')) by (unfold rises in *; cbn [fst snd] in *; change (vz (shift3 c' d)) with (vz c' + vz d) in R2; change (vz (shift3 e' d)) with (vz e' + vz d) in R2; lia).
  pose proof (A f' g' a' b' c' e' If Ig I1 I2 R1' R2' ltac:(intros Q; injection Q as -> ->; apply N; reflexivity)) as H. cbv zeta in H. unfold placed. cbn [fst snd].
  eapply Rlt_le_trans; [exact H|]. right. ring.
Qed.
(** what a printable model is for the slicer *)
Lemma printable_sliced meld center init thick fs om open mn mx : let d := back (plate_offset mn mx center) in
  0 <= init <= 2 ^ 30 -> 0 < thick <= 2 ^ 30 -> 0 < meld < 2 ^ 31 -> Z.abs (vx center) <= 2 ^ 19 -> Z.abs (vy center) <= 2 ^ 19 -> vz center = 0 ->
  printable meld init fs -> watertight fs -> tight_box3 (vertices fs) mn mx -> Optimize meld center fs = Ok (om, open) ->
  usable meld center fs /\ closed_model om /\ sliceable init thick om (moved d fs) /\
  (forall j, 0 <= j < layer_count init thick om -> exists f, In f (moved d fs) /\ visited init thick j f).
Proof.
  intros d Hi Ht Hm Cx Cy Cz Pr W Tb Eo.
  assert (U : usable meld center fs).
  { split; [exact Hm|]. split; [|repeat split; lia]. eapply Forall_impl; [|exact (p_near _ _ _ Pr)]. intros v (A & B & C). repeat split; lia. }
  assert (Ef : omFaces om (om_faces om) = Ok (moved d fs)).
  { destruct W as (_ & _ & Nd & Di). exact (optimizer_identity _ _ _ _ _ _ _ U (p_apart _ _ _ Pr) (p_proper _ _ _ Pr) Nd Di Eo Tb). }
  destruct (printable_optimized _ _ _ _ _ _ _ _ _ U Pr Eo Tb Ef Cz) as (Mt & Sz).
  split; [exact U|]. split; [exact (watertight_closed _ _ _ _ _ _ _ U W Eo Ef)|]. split.
  - assert (Bp : forall p, In p (om_points om) -> vec_bounded (2 ^ 24) (opos p)).
    { intros p Ip. destruct (optimizer_placement _ _ _ _ _ U Eo) as (_ & Pl & _). destruct (Pl p Ip) as (Bx & By & Bz). rewrite Sz in Bx, By, Bz.
      pose proof (p_near _ _ _ Pr) as Nr. rewrite Forall_forall in Nr. destruct Tb as (_ & (v1 & I1 & E1) & (v2 & I2 & E2) & (v3 & I3 & E3) & (v4 & I4 & E4) & (v5 & I5 & E5) & (v6 & I6 & E6)).
      destruct (Nr _ I1) as (N1 & _). destruct (Nr _ I2) as (N2 & _). destruct (Nr _ I3) as (_ & N3 & _). destruct (Nr _ I4) as (_ & N4 & _). destruct (Nr _ I5) as (_ & _ & N5). destruct (Nr _ I6) as (_ & _ & N6).
      cbn -[Z.mul] in Bx, By, Bz. clear - Bx By Bz N1 N2 N3 N4 N5 N6 E1 E2 E3 E4 E5 E6 Cx Cy Cz. unfold vec_bounded. repeat split; lia. }
    destruct (optimized_sliceable _ _ _ _ _ init thick U Eo ltac:(lia) Bp ltac:(lia) Ht) as (ofs & Sl). assert (ofs = moved d fs) by (destruct Sl as (_ & _ & _ & Ef' & _); congruence). subst ofs. exact Sl.
  - intros j Hj.
    assert (High : init <= vz mx - vz mn). { destruct (p_high _ _ _ Pr) as (v & w & Iv & Iw & H). destruct (proj1 Tb v Iv) as (_ & _ & H1). destruct (proj1 Tb w Iw) as (_ & _ & H2). lia. }
    destruct (Mt (S_Slicer.height init thick j)) as (f & If & Hf).
    { unfold layer_count in Hj. rewrite Sz in Hj. cbn [vz] in Hj. unfold S_Slicer.height. pose proof (Z.mul_div_le (vz mx - vz mn - init) thick ltac:(lia)) as Q. rewrite Z.quot_div_nonneg in Hj by lia. set (q := (vz mx - vz mn - init) / thick) in *. clearbody q. nia. }
    exists f. split; [exact If|]. split; [apply Hf|left; apply Hf].
Qed.

Section Bodies.
Context {P : Type} (at_ : P -> rpt).
Let inside (c : path) (x : P) : bool := surrounded c (at_ x).
(** *** C102 *)
(** A finished run of a watertight model: layer k covers exactly the points above which the body described by the file is, at
    the height of the layer above its lowest vertex, moved to the middle of the plate. *)
Theorem printed_body : forall lib tangent fuel env o input text (r : finished lib tangent fuel env o input text) mn mx k l,
  exact inside lib ->
  let fs := f_faces _ _ _ _ _ _ _ r in let d := back (plate_offset mn mx (Center (Printer o))) in
  let init := InitialLayerThickness (Print o) in let thick := LayerThickness (Print o) in let meld := MeldDistance (Slicing o) in
  let join := JoinPolygonSnapDistance (Slicing o) in let finish := FinishPolygonSnapDistance (Slicing o) in let center := Center (Printer o) in
  0 <= init <= 2 ^ 30 -> 0 < thick <= 2 ^ 30 -> 2 <= meld <= 2 ^ 30 -> 0 <= join <= 2 ^ 30 -> 0 <= finish <= 2 ^ 30 ->
  Z.abs (vx center) <= 2 ^ 19 -> Z.abs (vy center) <= 2 ^ 19 -> vz center = 0 -> Z.of_nat (List.length fs) < 2 ^ 56 ->
  printable meld init fs -> watertight fs -> tight_box3 (vertices fs) mn mx ->
  nth_error (f_layers _ _ _ _ _ _ _ r) k = Some l -> let z := vz mn + init + Z.of_nat k * thick in
  (forall v, In v (vertices fs) -> vz v <> z) -> edges_apart z (meld + 3) fs ->
  exists dropped slivers, (forall c, In c dropped -> path_len c <= finish) /\ (forall t, In t slivers -> sliver t) /\
    forall x y, at_ x = placed d y -> away fs z y -> (covered inside (LayerParts l) x <->
      xorb (in_solid fs z y) (parity surrounded (dropped ++ map triangle_of slivers) (at_ x)) = true).
Proof.
  intros lib tangent fuel env o input text r mn mx k l X fs d init thick meld join finish center Hi Ht Hm Hj Hf Cx Cy Cz N Pr W Tb El z NV Ap.
  destruct (all_keeps _ _ _ _ _ _ _ r) as (names & K). destruct (keeps_nth _ _ _ _ _ K El) as (l0 & El0 & Lp & _). clear K El.
  assert (Eo := f_optimize _ _ _ _ _ _ _ r). assert (Es := f_slice _ _ _ _ _ _ _ r). fold fs meld center in Eo. set (om := f_model _ _ _ _ _ _ _ r) in *. set (open := f_open _ _ _ _ _ _ _ r) in *.
  destruct (printable_sliced meld center init thick fs om open mn mx Hi Ht ltac:(lia) Cx Cy Cz Pr W Tb Eo) as (U & CM & SL & V). fold d in SL, V.
  assert (Dz : vz d = - vz mn) by (unfold d, back, plate_offset; fold center; cbn; lia).
  assert (Ez : S_Slicer.height init thick (Z.of_nat k) = z + vz d) by (unfold S_Slicer.height, z; lia).
  destruct (layer_cross_section at_ lib meld center fs om open (moved d fs) o (f_sliced _ _ _ _ _ _ _ r) k l0 X U Eo CM SL V) as (dropped & slivers & Hd & Hs & H).
  - unfold moved. rewrite map_length. exact N.
  - exact Hm.
  - exact Hj.
  - exact Hf.
  - fold init thick. rewrite Ez. intros f v If Iv. unfold moved in If. apply in_map_iff in If. destruct If as (g & <- & Ig). apply move_points in Iv. destruct Iv as (w & Iw & ->). change (vz (shift3 w d)) with (vz w + vz d).
    intros E. apply (NV w); [apply in_flat_map; eauto|lia].
  - fold init thick. rewrite Ez. intros sl Ll. apply apart_unambiguous; [apply watertight_moved; exact W|fold meld; lia| |exact Ll]. apply edges_apart_moved. exact Ap.
  - exact Es.
  - exact El0.
  - fold init thick in H. rewrite Ez in H. exists dropped, slivers. split; [exact Hd|]. split; [exact Hs|]. intros x y Exy Aw.
    assert (A : away (moved d fs) (z + vz d) (at_ x)) by (rewrite Exy; apply away_move; exact Aw). specialize (H x A).
    replace (in_solid (moved d fs) (z + vz d) (at_ x)) with (in_solid fs z y) in H by (rewrite Exy; symmetry; apply in_solid_move). unfold LayerParts in *. rewrite Lp. exact H.
Qed.
(** *** C103 *)
(** What such a run extrudes lies inside the body: every wall is a contour of a part, and every line of the bottom, the top and
    the infill fills a part, that is inside the body, moved to the middle of the plate, at the height of its layer. *)
Theorem run_prints_body : forall lib tangent fuel env o input text (r : finished lib tangent fuel env o input text) mn mx,
  exact inside lib ->
  let fs := f_faces _ _ _ _ _ _ _ r in let d := back (plate_offset mn mx (Center (Printer o))) in
  let init := InitialLayerThickness (Print o) in let thick := LayerThickness (Print o) in let meld := MeldDistance (Slicing o) in
  let join := JoinPolygonSnapDistance (Slicing o) in let finish := FinishPolygonSnapDistance (Slicing o) in let center := Center (Printer o) in
  let w := ExtrusionWidth (Printer o) in let overlap := InfillOverlapPercent (Print o) in let full := add64 overlap (AdditionalInternalInfillOverlapPercent (Print o)) in
  0 <= init <= 2 ^ 30 -> 0 < thick <= 2 ^ 30 -> 2 <= meld <= 2 ^ 30 -> 0 <= join <= 2 ^ 30 -> 0 <= finish <= 2 ^ 30 ->
  Z.abs (vx center) <= 2 ^ 19 -> Z.abs (vy center) <= 2 ^ 19 -> vz center = 0 -> Z.of_nat (List.length fs) < 2 ^ 56 ->
  0 <= w -> InsetCount (Print o) <= 2 ^ 20 -> amount_ok w overlap -> 0 <= amount w overlap -> amount_ok w full ->
  printable meld init fs -> watertight fs -> tight_box3 (vertices fs) mn mx ->
  exists infill ps b, planned lib o fuel (PointXY (f_min _ _ _ _ _ _ _ r)) (PointXY (f_max _ _ _ _ _ _ _ r)) infill (f_layers _ _ _ _ _ _ _ r) ps /\
    run_calls lib (concat (all_calls o ps)) (NewGCodeBuilder (FilamentDiameter (Filament o)) (ExtrusionMultiplier (Filament o))) = Ok b /\ text = BuilderString b /\
    forall k plan, nth_error ps k = Some plan -> let z := vz mn + init + Z.of_nat k * thick in
      (forall v, In v (vertices fs) -> vz v <> z) -> edges_apart z (meld + 3) fs ->
      exists dropped slivers, (forall c, In c dropped -> path_len c <= finish) /\ (forall t, In t slivers -> sliver t) /\
        let in_body q := forall x y, at_ x = placed d y -> away fs z y -> in_part inside q x ->
          xorb (in_solid fs z y) (parity surrounded (dropped ++ map triangle_of slivers) (at_ x)) = true in
        (forall layer q z open, In (CPolygon layer q z open) (p_walls plan) -> open = false /\ exists p, In q (outline p :: holes p) /\ in_body p) /\
        (forall layer line z open, In (CPolygon layer line z open) (p_fill plan) -> open = true /\
           exists l name pattern parts p lines, nth_error (f_layers _ _ _ _ _ _ _ r) k = Some l /\ In name ["support"; "supportInterface"; "bottom"; "top"; "infill"] /\
             PartsAttribute l name = Ok parts /\ In p parts /\ Fill lib fuel pattern (Z.of_nat k) p = Ok lines /\ In line lines /\
             (In name ["bottom"; "top"; "infill"] -> in_body p)).
Proof.
  intros lib tangent fuel env o input text r mn mx X fs d init thick meld join finish center w overlap full Hi Ht Hm Hj Hf Cx Cy Cz N Hw Hc A1 A2 A3 Pr W Tb.
  destruct (run_prints_inside_model P inside lib tangent fuel env o input text r X Hw Hc A1 A2 A3) as (lps & infill & ps & b & El & Len & Pl & Er & Et & H).
  exists infill, ps, b. split; [exact Pl|]. split; [exact Er|]. split; [exact Et|]. intros k plan Ek z NV Ap.
  destruct (H k plan Ek) as (polygons & Epo & Hwalls & Hfill).
  destruct (nth_error (f_layers _ _ _ _ _ _ _ r) k) as [l|] eqn:Ekl. 2: { apply nth_error_None in Ekl. rewrite <- (proj1 Pl) in Ekl. apply nth_error_None in Ekl. congruence. }
  destruct (printed_body lib tangent fuel env o input text r mn mx k l X Hi Ht Hm Hj Hf Cx Cy Cz N Pr W Tb Ekl NV Ap) as (dropped & slivers & Hd & Hs & Cov).
  exists dropped, slivers. split; [exact Hd|]. split; [exact Hs|].
  assert (G : forall q, (forall x, in_part inside q x -> parity inside (map (fun c => Simplify c (-1) (-1)) polygons) x = true) ->
    forall x y, at_ x = placed d y -> away fs z y -> in_part inside q x -> xorb (in_solid fs z y) (parity surrounded (dropped ++ map triangle_of slivers) (at_ x)) = true).
  { intros q Hq x y Exy Aw Ix. apply (proj1 (Cov x y Exy Aw)). specialize (Hq x Ix).
    destruct (layer_parts_exact inside lib X o _ _ (f_slice _ _ _ _ _ _ _ r)) as (lps' & El' & _ & Lx). rewrite El in El'. injection El' as <-.
    destruct (all_keeps _ _ _ _ _ _ _ r) as (names & K). destruct (keeps_nth _ _ _ _ _ K Ekl) as (l0 & El0 & Lp & _). destruct (Lx k l0 El0) as (ps' & Eps' & _ & _ & Cx0). rewrite Epo in Eps'. injection Eps' as <-.
    unfold LayerParts in *. rewrite Lp. apply Cx0. exact Hq. }
  split.
  - intros layer q z' open I. destruct (Hwalls layer q z' open I) as (Ho & p & Iq & Hp). split; [exact Ho|]. exists p. split; [exact Iq|]. apply G. exact Hp.
  - intros layer line z' open I. destruct (Hfill layer line z' open I) as (Ho & l' & name & pattern & parts & p & lines & R1 & R2 & R3 & R4 & R5 & R6 & R7). split; [exact Ho|].
    exists l', name, pattern, parts, p, lines. repeat (split; [assumption|]). intros Hn. apply G. exact (R7 Hn).
Qed.
End Bodies.
Print Assumptions printed_body.
Print Assumptions run_prints_body.

(** the run for the tetrahedron of 1 mm, seen at a point of the plate *)
Lemma one_capable q : capable (one_lib q).
Proof.
  split.
  - intros r t l. discriminate.
  - intros clip lines tree n U E c Ic. exfalso. cbn [execute one_lib] in E. injection E as <- _. revert Ic.
    assert (Z : closed_of PtSubject (closed_as PtClip clip ++ map (fun l => (PtSubject, false, l)) lines) = []).
    { clear. induction clip as [|x clip IH]; [induction lines as [|x lines IH]; [reflexivity|exact IH]|exact IH]. }
    rewrite Z. unfold one_clip. cbn [parity op andb]. intros [].
  - intros a r _. cbn [sine cosine one_lib]. exists 0%R, 1%R. split; [exact (fin64_of_Z 0 ltac:(vm_compute; discriminate))|]. split; [exact (fin64_of_Z 1 ltac:(vm_compute; discriminate))|].
    rewrite Rabs_R0, Rabs_R1. lra.
Qed.
Lemma corner_moved : moved (V3 99500 99500 0) corner_fs = tetra_fs.
Proof. vm_compute. reflexivity. Qed.
Lemma corner_watertight : watertight corner_fs.
Proof.
  repeat split.
  - intros f a b If I. unfold corner_fs in If. repeat (destruct If as [<-|If]; [|]); [| | | |destruct If].
    all: repeat (destruct I as [[= <- <-]|I]; [|]); [| | |destruct I].
    all: first [exists (nth 0 corner_fs (V3 0 0 0, V3 0 0 0, V3 0 0 0)); split; [cbn; tauto|]; cbn; tauto|exists (nth 1 corner_fs (V3 0 0 0, V3 0 0 0, V3 0 0 0)); split; [cbn; tauto|]; cbn; tauto
      |exists (nth 2 corner_fs (V3 0 0 0, V3 0 0 0, V3 0 0 0)); split; [cbn; tauto|]; cbn; tauto|exists (nth 3 corner_fs (V3 0 0 0, V3 0 0 0, V3 0 0 0)); split; [cbn; tauto|]; cbn; tauto].
  - intros f g e If Ig I1 I2. unfold corner_fs in If, Ig.
    repeat (destruct If as [<-|If]; [|]); [| | | |destruct If]; (repeat (destruct Ig as [<-|Ig]; [|]); [| | | |destruct Ig]); try reflexivity; exfalso; cbn [fedges] in I1, I2;
      (repeat (destruct I1 as [<-|I1]; [|]); [| | |destruct I1]); repeat (destruct I2 as [I2|I2]; [discriminate I2|]); destruct I2.
  - repeat (constructor; [cbn; intuition discriminate|]). constructor.
  - intros f g If Ig H. unfold corner_fs in If, Ig.
    repeat (destruct If as [<-|If]; [|]); [| | | |destruct If]; (repeat (destruct Ig as [<-|Ig]; [|]); [| | | |destruct Ig]); try reflexivity; exfalso.
    all: first [solve [destruct (proj1 (H (V3 0 0 0)) ltac:(cbn; tauto)) as [E|[E|[E|[]]]]; discriminate E]
      |solve [destruct (proj1 (H (V3 1000 0 0)) ltac:(cbn; tauto)) as [E|[E|[E|[]]]]; discriminate E]
      |solve [destruct (proj1 (H (V3 0 1000 0)) ltac:(cbn; tauto)) as [E|[E|[E|[]]]]; discriminate E]
      |solve [destruct (proj1 (H (V3 0 0 1000)) ltac:(cbn; tauto)) as [E|[E|[E|[]]]]; discriminate E]].
Qed.
Lemma corner_rises f a b : In f corner_fs -> In (a, b) (fedges f) -> rises 400 (a, b) -> b = V3 0 0 1000 /\ In a [V3 0 0 0; V3 1000 0 0; V3 0 1000 0].
Proof.
  intros If I R. unfold corner_fs in If. repeat (destruct If as [<-|If]; [|]); [| | | |destruct If]; (repeat (destruct I as [[= <- <-]|I]; [|]); [| | |destruct I]); unfold rises in R; cbn in R; try lia; (split; [reflexivity|cbn; tauto]).
Qed.
Lemma corner_passes : passes 400 (V3 0 0 0) (V3 0 0 1000) = (0, 0)%R /\ passes 400 (V3 1000 0 0) (V3 0 0 1000) = (600, 0)%R /\ passes 400 (V3 0 1000 0) (V3 0 0 1000) = (0, 600)%R.
Proof. unfold passes. cbn [vx vy vz]. repeat split; f_equal; field. Qed.
Lemma corner_apart : edges_apart 400 33 corner_fs.
Proof.
  intros f g a b c e If Ig I1 I2 R1 R2 N. destruct (corner_rises f a b If I1 R1) as (-> & Ja). destruct (corner_rises g c e Ig I2 R2) as (-> & Jc). destruct corner_passes as (P0 & P1 & P2). cbv zeta.
  repeat (destruct Ja as [<-|Ja]; [|]); [| | |destruct Ja]; (repeat (destruct Jc as [<-|Jc]; [|]); [| | |destruct Jc]); try (exfalso; apply N; reflexivity); rewrite ?P0, ?P1, ?P2; cbn [fst snd]; lra.
Qed.
Lemma corner_spot_away : away corner_fs 400 (100, 100)%R.
Proof.
  intros f x y If. unfold corner_fs in If.
  destruct If as [<-|[<-|[<-|[<-|[]]]]]; intros (s & t & u & Hs & Ht & Hu & S & X & Y & Hz); cbn [vx vy vz] in *; cbn [fst snd].
  - lra.
  - assert (E : y = 0%R) by lra. rewrite E. pose proof (pow2_ge_0 (x - 100)). lra.
  - assert (E : x = 0%R) by lra. rewrite E. pose proof (pow2_ge_0 (y - 100)). lra.
  - assert (E : y = (600 - x)%R) by lra. rewrite E. pose proof (pow2_ge_0 (x - 300)). nra.
Qed.
Lemma corner_spot_inside : in_solid corner_fs 400 (100, 100)%R = true.
Proof.
  rewrite <- (in_solid_move corner_fs 400 (V3 99500 99500 0)), corner_moved. change (400 + vz (V3 99500 99500 0)) with 400.
  replace (placed (V3 99500 99500 0) (100, 100)%R) with spot; [exact spot_inside|]. unfold placed, spot. cbn [fst snd vx vy]. f_equal; lra.
Qed.
(** its second layer, 0.4 mm above the plate, at a point above the body *)
Example printed_body_ex : forall fuel, 2 ^ 24 < Z.of_nat fuel ->
  exists text (r : finished (one_lib spot) (fun _ => f64_of_Z 1) fuel corner_file DefaultOptions "part.stl" text) l dropped slivers,
    nth_error (f_layers _ _ _ _ _ _ _ r) 1 = Some l /\ (forall c, In c dropped -> path_len c <= 1000) /\ (forall t, In t slivers -> sliver t) /\
    (covered (fun c x => surrounded c (only spot x)) (LayerParts l) tt <-> xorb true (parity surrounded (dropped ++ map triangle_of slivers) spot) = true).
Proof.
  intros fuel Fuel.
  destruct (model_printed unit (fun c x => surrounded c (only spot x)) (one_lib spot) (fun _ => f64_of_Z 1) fuel corner_file corner_os (fun _ => None) DefaultOptions "part.stl" "" corner_fs (V3 0 0 0) (V3 1000 1000 1000)
    (one_exact spot) (one_capable spot) Fuel default_workable) as (_ & text & n & ks & [r] & _ & _ & Hh & Lk & Ev); try (solve [vm_compute; intuition discriminate]).
  - repeat constructor.
  - repeat constructor.
  - apply corner_printable. left. reflexivity.
  - apply corner_box. left. reflexivity.
  - exists text, r.
    assert (Ff : f_faces _ _ _ _ _ _ _ r = corner_fs). { assert (Er := f_read _ _ _ _ _ _ _ r). assert (Er' : Read corner_file "part.stl" = Ok corner_fs) by (vm_compute; reflexivity). congruence. }
    destruct (nth_error (f_layers _ _ _ _ _ _ _ r) 1) as [l|] eqn:El.
    2: { exfalso. apply nth_error_None in El. destruct (all_keeps _ _ _ _ _ _ _ r) as (names & K). rewrite (keeps_length _ _ _ K) in El.
      assert (Eo := f_optimize _ _ _ _ _ _ _ r). assert (Es := f_slice _ _ _ _ _ _ _ r). rewrite Ff in Eo. assert (Eo' : Optimize 30 (V3 100000 100000 0) corner_fs = Ok (corner_om, 0)) by (vm_compute; reflexivity).
      change (MeldDistance (Slicing DefaultOptions)) with 30 in Eo. change (Center (Printer DefaultOptions)) with (V3 100000 100000 0) in Eo. rewrite Eo' in Eo. set (om := f_model _ _ _ _ _ _ _ r) in *. assert (Em : om = corner_om) by congruence.
      destruct (layer_parts_exact _ _ (one_exact spot) _ _ _ Es) as (lps & Ep & Len & _). rewrite Em in Ep.
      assert (Ep' : exists ps, polygons_at DefaultOptions corner_om = Ok ps /\ List.length ps = 5%nat) by (eexists; split; [vm_compute; reflexivity|reflexivity]).
      destruct Ep' as (ps & Ep' & L5). rewrite Ep in Ep'. injection Ep' as ->. rewrite L5 in Len. rewrite Len in El. lia. }
    destruct (printed_body (only spot) (one_lib spot) (fun _ => f64_of_Z 1) fuel corner_file DefaultOptions "part.stl" text r (V3 0 0 0) (V3 1000 1000 1000) 1 l (one_exact spot)) as (dropped & slivers & Hd & Hs & Hc).
    1-8: vm_compute; intuition discriminate.
    + rewrite Ff. vm_compute. reflexivity.
    + rewrite Ff. apply corner_printable. left. reflexivity.
    + rewrite Ff. exact corner_watertight.
    + rewrite Ff. apply corner_box. left. reflexivity.
    + exact El.
    + rewrite Ff. intros v Iv. repeat (destruct Iv as [<-|Iv]; [vm_compute; discriminate|]). destruct Iv.
    + rewrite Ff. exact corner_apart.
    + exists l, dropped, slivers. split; [reflexivity|]. split; [exact Hd|]. split; [exact Hs|]. specialize (Hc tt (100, 100)%R). rewrite Ff in Hc.
      change (vz (V3 0 0 0) + InitialLayerThickness (Print DefaultOptions) + Z.of_nat 1 * LayerThickness (Print DefaultOptions)) with 400 in Hc. rewrite corner_spot_inside in Hc.
      apply Hc; [|exact corner_spot_away]. change (back (plate_offset (V3 0 0 0) (V3 1000 1000 1000) (Center (Printer DefaultOptions)))) with (V3 99500 99500 0).
      unfold placed, only, spot. cbn [fst snd vx vy]. f_equal; lra.
Qed.
