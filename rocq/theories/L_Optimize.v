(** Optimize as a whole. *)
From Coq Require Import Sorted.
From Verif Require Import GoBase GoFloat M_Micrometer M_Model S_Geom S_Model L_Vec L_Model.
Local Open Scope Z_scope.

Definition good_meld (meld : Z) : Prop := 0 < meld < 2 ^ 31.
Definition good_model (fs : list face) : Prop := Forall (vec_bounded (2 ^ 29)) (vertices fs).

Lemma good_uint meld : good_meld meld -> uint64 meld = meld.
Proof. intros H. unfold uint64. apply Z.mod_small. unfold good_meld in H. lia. Qed.
Lemma sub64_small a b : Z.abs a <= 2 ^ 29 -> Z.abs b <= 2 ^ 61 -> sub64 a b = a - b.
Proof. intros. apply sub64_id. unfold int64. lia. Qed.
Lemma good_self meld : good_meld meld -> forall v, v3ShorterThanOrEqual (v3Sub v v) meld = true.
Proof.
  intros [H1 H2] [x y z]. unfold v3ShorterThanOrEqual, v3Sub. cbn [vx vy vz].
  unfold sub64. rewrite !Z.sub_diag. change (wrap 0) with 0. apply Z.leb_le.
  change (v3Size2 {| vx := 0; vy := 0; vz := 0 |}) with 0. rewrite mul64_id; [nia|unfold int64; nia].
Qed.

Lemma near_exact meld v w : good_meld meld -> vec_bounded (2 ^ 29) v -> vec_bounded (2 ^ 29) w ->
  v3ShorterThanOrEqual (v3Sub v w) meld = true <-> dist3 v w <= meld ^ 2.
Proof.
  intros Hm (A & B & C) (D & E & F).
  assert (Es : v3Sub v w = V3 (vx v - vx w) (vy v - vy w) (vz v - vz w)).
  { unfold v3Sub. rewrite !sub64_id by (unfold int64; lia). reflexivity. }
  rewrite Es. rewrite v3Shorter_exact; [reflexivity| |unfold good_meld in Hm; lia].
  unfold norm3. cbn [vx vy vz].
  assert (K : forall a, Z.abs a <= 2 ^ 30 -> a ^ 2 <= 2 ^ 60).
  { intros a Ha. pose proof (sq_bound a (2 ^ 30) Ha). lia. }
  pose proof (K (vx v - vx w) ltac:(lia)). pose proof (K (vy v - vy w) ltac:(lia)). pose proof (K (vz v - vz w) ltac:(lia)). lia.
Qed.

Lemma tight_unique l mn mx mn' mx' : tight_box3 l mn mx -> tight_box3 l mn' mx' -> mn = mn' /\ mx = mx'.
Proof.
  intros (B & (a & Ia & Ea) & (b & Ib & Eb) & (c & Ic & Ec) & (d & Id & Ed) & (e & Ie & Ee) & (f & If & Ef))
         (B' & (a' & Ia' & Ea') & (b' & Ib' & Eb') & (c' & Ic' & Ec') & (d' & Id' & Ed') & (e' & Ie' & Ee') & (f' & If' & Ef')).
  split; apply v3_eta;
    repeat match goal with H : In ?x l |- _ => pose proof (B _ H); pose proof (B' _ H); clear H end; lia.
Qed.

(** everything about a successful run *)
Record optimized (meld : Z) (center : vec3) (fs : list face) (om : omodel) (open : Z) (num : vec3 -> Z) (mn mx : vec3) : Prop := {
  o_box : tight_box3 (vertices fs) mn mx;
  o_size : om_size om = V3 (vx mx - vx mn) (vy mx - vy mn) (vz mx - vz mn);
  o_meld : forall v, In v (vertices fs) -> exists p, idx (om_points om) (num v) = Ok p /\
             dist3 (shift3 (opos p) (plate_offset mn mx center)) v <= meld ^ 2;
  o_src : forall p, In p (om_points om) -> In (shift3 (opos p) (plate_offset mn mx center)) (vertices fs);
  o_order : subseq (map oi (om_faces om)) (map (num3 num) fs);
  o_all : forall f, In f fs -> degenerate (num3 num f) \/ exists g, In g (om_faces om) /\ same_set (oi g) (num3 num f);
  o_face : forall j f, idx (om_faces om) j = Ok f -> oindex f = j /\ ~ degenerate (oi f) /\
             (forall p, uses (oi f) p -> exists q, idx (om_points om) p = Ok q);
  o_lists : forall i p, idx (om_points om) i = Ok p -> StronglySorted Z.lt (ofaces p) /\
             forall j, In j (ofaces p) <-> exists f, idx (om_faces om) j = Ok f /\ uses (oi f) i;
  o_nodup : forall j k f g, idx (om_faces om) j = Ok f -> idx (om_faces om) k = Ok g -> same_set (oi f) (oi g) -> j = k;
  o_touch : forall i f k, idx (om_faces om) i = Ok f -> (k < 3)%nat ->
             touch_spec (om_faces om) (sel3 (otouch f) k) (fst (edge (oi f) k)) (snd (edge (oi f) k)) i;
  o_open : open = fold_right Z.add 0 (map open3 (om_faces om));
  o_sep : forall i j p q, i <> j -> idx (om_points om) i = Ok p -> idx (om_points om) j = Ok q ->
             same_cell meld (shift3 (opos p) (plate_offset mn mx center)) (shift3 (opos q) (plate_offset mn mx center)) ->
             meld ^ 2 < dist3 (opos p) (opos q) }.

Lemma facelist_lt fs p : forall n, StronglySorted Z.lt (facelist n fs p) /\ Forall (fun j => n <= j) (facelist n fs p).
Proof.
  induction fs as [|f fs IH]; intros n; cbn [facelist]; [split; constructor|].
  destruct (IH (n + 1)) as [S F]. assert (F' : Forall (fun j => n < j) (facelist (n + 1) fs p)).
  { eapply Forall_impl; [|exact F]. cbn; intros; lia. }
  destruct (usesb (oi f) p).
  - split; [constructor; assumption|]. constructor; [lia|]. eapply Forall_impl; [|exact F']. cbn; intros; lia.
  - split; [exact S|]. eapply Forall_impl; [|exact F']. cbn; intros; lia.
Qed.

Lemma cell_grid m x : good_meld m -> Z.abs x <= 2 ^ 29 -> cell_of m x = grid m x.
Proof.
  intros [H1 H2] Hx. unfold cell_of, grid, uint64.
  assert (0 <= m / 2 < 2 ^ 31) by (split; [apply Z.div_pos; lia|apply Z.div_lt_upper_bound; lia]).
  f_equal. rewrite Zplus_mod_idemp_l. destruct (Z.ltb_spec (x + m / 2) 0).
  - rewrite <- (Z_mod_plus_full (x + m / 2) 1 (2 ^ 64)). apply Z.mod_small. lia.
  - apply Z.mod_small. lia.
Qed.
Lemma hash_cell m v w : good_meld m -> vec_bounded (2 ^ 29) v -> vec_bounded (2 ^ 29) w -> same_cell m v w -> pointHash m v = pointHash m w.
Proof.
  intros Hm (A & B & C) (D & E & F) (G1 & G2 & G3). unfold pointHash. rewrite !cell_grid by assumption. rewrite G1, G2, G3. reflexivity.
Qed.

Lemma Forall2_idx {A B} (R : A -> B -> Prop) l l' : Forall2 R l l' -> forall j,
  (forall b, idx l' j = Ok b -> exists a, idx l j = Ok a /\ R a b) /\ (forall a, idx l j = Ok a -> exists b, idx l' j = Ok b /\ R a b).
Proof.
  intros F j. unfold idx. destruct (j <? 0); [split; intros ? H; discriminate|].
  generalize (Z.to_nat j) as n. induction F as [|x y l l' Hxy F IH]; intros [|n]; cbn; try (split; intros ? H; discriminate).
  - split; intros ? H; injection H as <-; eauto.
  - apply IH.
Qed.

Lemma optimize_spec meld center fs : good_meld meld -> good_model fs -> vec_bounded (2 ^ 60) center -> fs <> [] ->
  exists om open num mn mx, Optimize meld center fs = Ok (om, open) /\ optimized meld center fs om open num mn mx.
Proof.
  intros Hm Hg Hc Hf. pose proof (good_uint _ Hm) as Hu. unfold Optimize.
  assert (Hm0 : uint64 meld <> 0) by (rewrite Hu; unfold good_meld in Hm; lia).
  destruct (add_faces_spec meld Hm0 (good_self _ Hm) fs (OSt [] [] (fun _ => [])) [] (FInv_init meld)) as (st & Es & I).
  rewrite Es. cbn [bind]. cbn [app] in I.
  destruct (touch_faces_spec meld st fs I (st_faces st) 0 [] eq_refl eq_refl) as (faces & open & Et & Eo & F2 & T). rewrite Et. cbn [bind].
  destruct (model_bounds fs Hf) as (mn & mx & En & Ex & Box). rewrite En, Ex. cbn [bind].
  set (off := v3Sub _ center). set (om := OModel _ faces (v3Sub mx mn)).
  exists om, open, (loc meld st), mn, mx. split; [reflexivity|].
  unfold good_model in Hg. rewrite Forall_forall in Hg.
  assert (Bn : vec_bounded (2 ^ 29) mn /\ vec_bounded (2 ^ 29) mx).
  { clear -Hg Box. destruct Box as (_ & (a & Ia & Ea) & (b & Ib & Eb) & (c & Ic & Ec) & (d & Id & Ed) & (e & Ie & Ee) & (f & If & Ef)).
    unfold vec_bounded. rewrite <- Ea, <- Eb, <- Ec, <- Ed, <- Ee, <- Ef.
    repeat split; match goal with |- Z.abs (_ ?a) <= _ => assert (K : In a (vertices fs)) by assumption; destruct (Hg a K) as (K1 & K2 & K3); assumption end. }
  destruct Bn as [(N1 & N2 & N3) (X1 & X2 & X3)]. destruct Hc as (C1 & C2 & C3).
  assert (Qb : forall a b, Z.abs a <= 2 ^ 29 -> Z.abs b <= 2 ^ 29 -> Z.abs (Z.quot (a + b) 2) <= 2 ^ 29).
  { intros a b Ha Hb. pose proof (Z.quot_rem' (a + b) 2). pose proof (Z.rem_bound_abs (a + b) 2 ltac:(lia)). lia. }
  assert (Eoff : off = plate_offset mn mx center).
  { unfold off, plate_offset, v3Sub. cbn [vx vy vz]. unfold quot64.
    pose proof (Qb (vx mn) (vx mx) N1 X1). pose proof (Qb (vy mn) (vy mx) N2 X2).
    rewrite !add64_id by (unfold int64; lia). rewrite !wrap_id by (unfold int64; lia). rewrite !sub64_id by (unfold int64; lia). reflexivity. }
  assert (Pb : forall i p, idx (st_points st) i = Ok p -> vec_bounded (2 ^ 29) (opos p)).
  { intros i p E. apply Hg. eapply (src _ _ _ (fv _ _ _ I)), E. }
  assert (Sh : forall p, vec_bounded (2 ^ 29) p -> shift3 (v3Sub p off) (plate_offset mn mx center) = p /\ v3Sub p off = V3 (vx p - vx off) (vy p - vy off) (vz p - vz off)).
  { assert (PO : Z.abs (vx (plate_offset mn mx center)) <= 2 ^ 61 /\ Z.abs (vy (plate_offset mn mx center)) <= 2 ^ 61 /\ Z.abs (vz (plate_offset mn mx center)) <= 2 ^ 61).
    { pose proof (Qb (vx mn) (vx mx) N1 X1) as A1. pose proof (Qb (vy mn) (vy mx) N2 X2) as A2. unfold plate_offset. cbn [vx vy vz].
      clear - A1 A2 N3 C1 C2 C3. lia. }
    destruct PO as (O1 & O2 & O3).
    intros p (P1 & P2 & P3). rewrite Eoff. unfold v3Sub, shift3. cbn [vx vy vz].
    rewrite (sub64_small _ _ P1 O1), (sub64_small _ _ P2 O2), (sub64_small _ _ P3 O3). split; [apply v3_eta; cbn [vx vy vz]; ring|reflexivity]. }
  assert (Pt : forall i p', idx (om_points om) i = Ok p' <-> exists p, idx (st_points st) i = Ok p /\ p' = OPoint (v3Sub (opos p) off) (ofaces p)).
  { intros i p'. cbn [om om_points]. rewrite idx_map. destruct (idx (st_points st) i) as [p| | |]; cbn [bind]; split; intros K; try discriminate.
    - injection K as <-. eauto.
    - destruct K as (q & [= <-] & ->). reflexivity.
    - destruct K as (q & K & _). discriminate.
    - destruct K as (q & K & _). discriminate.
    - destruct K as (q & K & _). discriminate. }
  assert (Fi : forall j g, idx faces j = Ok g -> exists f, idx (st_faces st) j = Ok f /\ oi g = oi f /\ oindex g = oindex f).
  { intros j g E. destruct (proj1 (Forall2_idx _ _ _ F2 j) g E) as (f & Ef & H1 & H2). eauto. }
  assert (Fi' : forall j f, idx (st_faces st) j = Ok f -> exists g, idx faces j = Ok g /\ oi g = oi f /\ oindex g = oindex f).
  { intros j f E. destruct (proj2 (Forall2_idx _ _ _ F2 j) f E) as (g & Eg & H1 & H2). eauto. }
  assert (Mo : map oi faces = map oi (st_faces st)).
  { clear -F2. induction F2 as [|x y l l' [E _] F IH]; cbn; [reflexivity|]. congruence. }
  constructor.
  - exact Box.
  - cbn [om om_size]. unfold v3Sub. rewrite !sub64_id by (unfold int64; lia). reflexivity.
  - intros v Hv. destruct (located _ _ _ (fv _ _ _ I) v Hv) as (i & L). unfold loc. rewrite L.
    unfold locate in L.
    destruct (find_near_spec (st_points st) meld v (st_hash st (pointHash (uint64 meld) v))) as (r & Er & Hr).
    { intros m Hm'. destruct (hash_in _ _ _ (fv _ _ _ I) _ _ Hm') as (p & E & _). eauto. }
    rewrite L in Er. injection Er as <-. destruct Hr as (_ & p & E & S).
    exists (OPoint (v3Sub (opos p) off) (ofaces p)). split; [apply Pt; eauto|]. cbn [opos].
    destruct (Sh (opos p) (Pb i p E)) as [-> _]. apply near_exact in S; [exact S|exact Hm|eapply Pb, E|apply Hg, Hv].
  - intros p' Hp. destruct (In_idx _ _ Hp) as (i & Ei). apply Pt in Ei. destruct Ei as (p & E & ->). cbn [opos].
    destruct (Sh (opos p) (Pb i p E)) as [-> _]. eapply (src _ _ _ (fv _ _ _ I)), E.
  - cbn [om om_faces]. rewrite Mo. exact (order _ _ _ I).
  - intros f Hf'. cbn [om om_faces]. destruct (all _ _ _ I f Hf') as [D|(g & Hg' & S)]; [left; exact D|right].
    destruct (In_idx _ _ Hg') as (j & Ej). destruct (Fi' _ _ Ej) as (g' & Eg' & O & _). exists g'. split; [eapply idx_In, Eg'|]. rewrite O. exact S.
  - intros j g E. cbn [om om_faces] in E. destruct (Fi _ _ E) as (f & Ef & O & O'). destruct (face_ok _ _ _ I _ _ Ef) as (Q1 & Q2 & Q3).
    rewrite O, O'. split; [exact Q1|]. split; [exact Q2|]. intros p U. destruct (Q3 p U) as (q & Q). eexists. apply Pt. eauto.
  - intros i p' E. apply Pt in E. destruct E as (p & E & ->). cbn [ofaces]. rewrite (lists _ _ _ I _ _ E).
    split; [apply facelist_lt|]. intros j. rewrite facelist_In. cbn [om om_faces]. split.
    + intros (f & _ & Ef & U). rewrite Z.sub_0_r in Ef. destruct (Fi' _ _ Ef) as (g & Eg & O & _). exists g. rewrite O. auto.
    + intros (g & Eg & U). destruct (Fi _ _ Eg) as (f & Ef & O & _). exists f. rewrite Z.sub_0_r, <- O. pose proof (idx_Ok _ _ _ Ef) as [R _].
      repeat split; [lia|exact Ef|exact U].
  - intros j k f g Ef Eg S. cbn [om om_faces] in *. destruct (Fi _ _ Ef) as (f0 & Ef0 & O & _). destruct (Fi _ _ Eg) as (g0 & Eg0 & O' & _).
    rewrite O, O' in S. eapply (nodup _ _ _ I); eassumption.
  - intros i f k E Hk. cbn [om om_faces] in *. specialize (T i f E k Hk). rewrite Z.add_0_l in T. destruct T as [[T1 T2]|[T1 (g & Eg & U1 & U2)]].
    + left. split; [exact T1|]. intros j g Eg U1 U2. destruct (Fi _ _ Eg) as (g0 & Eg0 & O & _). rewrite O in U1, U2. eapply T2; eassumption.
    + right. split; [exact T1|]. destruct (Fi' _ _ Eg) as (g' & Eg' & O & _). exists g'. rewrite O. auto.
  - exact Eo.
  - assert (Ord : forall i j p q, i < j -> idx (st_points st) i = Ok p -> idx (st_points st) j = Ok q -> same_cell meld (opos p) (opos q) -> meld ^ 2 < dist3 (opos p) (opos q)).
    { intros i j p q Hij Ep Eq Sc.
      pose proof (sep _ _ _ (fv _ _ _ I) i j p q Hij Ep Eq) as S. cbv beta in S. rewrite Hu in S.
      specialize (S (hash_cell _ _ _ Hm (Pb _ _ Ep) (Pb _ _ Eq) Sc)).
      destruct (Z.lt_ge_cases (meld ^ 2) (dist3 (opos p) (opos q))) as [|G]; [assumption|].
      apply near_exact in G; [congruence|exact Hm|eapply Pb, Ep|eapply Pb, Eq]. }
    intros i j p' q' Nij Ep Eq. apply Pt in Ep, Eq. destruct Ep as (p & Ep & ->). destruct Eq as (q & Eq & ->). cbn [opos].
    destruct (Sh (opos p) (Pb _ _ Ep)) as [E1 E1']. destruct (Sh (opos q) (Pb _ _ Eq)) as [E2 E2']. rewrite E1, E2, E1', E2'.
    intros Sc. replace (dist3 {| vx := _; vy := _; vz := _ |} _) with (dist3 (opos p) (opos q)) by (clear; unfold dist3; cbn [vx vy vz]; ring).
    destruct (Z.lt_trichotomy i j) as [L|[->|L]]; [eapply Ord; eassumption|contradiction|].
    replace (dist3 (opos p) (opos q)) with (dist3 (opos q) (opos p)) by (unfold dist3; ring).
    eapply Ord; try eassumption. destruct Sc as (G1 & G2 & G3). repeat split; symmetry; assumption.
Qed.

Lemma optimize_inv meld center fs om open : good_meld meld -> good_model fs -> vec_bounded (2 ^ 60) center ->
  Optimize meld center fs = Ok (om, open) -> fs <> [] /\ exists num mn mx, optimized meld center fs om open num mn mx.
Proof.
  intros Hm Hg Hc E. destruct fs as [|f fs].
  - unfold Optimize in E. cbn in E. discriminate.
  - split; [discriminate|]. destruct (optimize_spec meld center (f :: fs) Hm Hg Hc ltac:(discriminate)) as (om' & open' & num & mn & mx & E' & O).
    rewrite E in E'. injection E' as <- <-. eauto.
Qed.

Lemma optimize_zero center fs : fs <> [] -> exists m, Optimize 0 center fs = Panic m.
Proof. destruct fs as [|[[a b] c] fs]; [contradiction|]. intros _. eexists. reflexivity. Qed.
Lemma optimize_empty meld center : exists m, Optimize meld center [] = Panic m.
Proof. eexists. reflexivity. Qed.

Lemma placement meld center fs om open : good_meld meld -> good_model fs -> vec_bounded (2 ^ 60) center ->
  Optimize meld center fs = Ok (om, open) ->
  (exists mn mx, tight_box3 (vertices fs) mn mx /\ om_size om = V3 (vx mx - vx mn) (vy mx - vy mn) (vz mx - vz mn)) /\
  (forall p, In p (om_points om) ->
     2 * Z.abs (vx (opos p) - vx center) <= vx (om_size om) + 1 /\
     2 * Z.abs (vy (opos p) - vy center) <= vy (om_size om) + 1 /\
     vz center <= vz (opos p) <= vz center + vz (om_size om)) /\
  (exists p, In p (om_points om) /\ vz (opos p) <= vz center + meld) /\
  (exists p, In p (om_points om) /\ vz center + vz (om_size om) - meld <= vz (opos p)).
Proof.
  intros Hm Hg Hc E. destruct (optimize_inv _ _ _ _ _ Hm Hg Hc E) as (Hne & num & mn & mx & O).
  pose proof (o_box _ _ _ _ _ _ _ _ O) as Box. pose proof (o_size _ _ _ _ _ _ _ _ O) as Sz.
  split; [eauto|]. rewrite Sz. cbn [vx vy vz].
  assert (Q : forall a b, - 1 <= 2 * Z.quot (a + b) 2 - (a + b) <= 1).
  { intros a b. pose proof (Z.quot_rem' (a + b) 2). pose proof (Z.rem_bound_abs (a + b) 2 ltac:(lia)). lia. }
  split; [|split].
  - intros p Hp. pose proof (o_src _ _ _ _ _ _ _ _ O p Hp) as S. destruct Box as [B _]. apply B in S.
    unfold shift3, plate_offset in S. cbn [vx vy vz] in S. pose proof (Q (vx mn) (vx mx)). pose proof (Q (vy mn) (vy mx)). lia.
  - destruct Box as (B & _ & _ & _ & _ & (v & Iv & Ev) & _). destruct (o_meld _ _ _ _ _ _ _ _ O v Iv) as (p & Ep & D).
    exists p. split; [eapply idx_In, Ep|]. unfold dist3, shift3, plate_offset in D. cbn [vx vy vz] in D.
    set (dx := _ - vx v) in D. set (dy := _ - vy v) in D. set (dz := _ - vz v) in D.
    assert (dz * dz <= meld * meld) by nia. assert (dz <= meld) by (apply (sq_le_inv dz meld); [unfold good_meld in Hm; lia|assumption]).
    unfold dz in *. lia.
  - destruct Box as (B & _ & _ & _ & _ & _ & (v & Iv & Ev)). destruct (o_meld _ _ _ _ _ _ _ _ O v Iv) as (p & Ep & D).
    exists p. split; [eapply idx_In, Ep|]. unfold dist3, shift3, plate_offset in D. cbn [vx vy vz] in D.
    set (dx := _ - vx v) in D. set (dy := _ - vy v) in D. set (dz := _ - vz v) in D.
    assert (dz * dz <= meld * meld) by nia. assert (- meld <= dz) by (apply (sq_le_inv dz meld); [unfold good_meld in Hm; lia|assumption]).
    unfold dz in *. lia.
Qed.

(** two points 1 um apart that are not melded with the default meld distance 30 *)
Definition near_faces : list face :=
  [(V3 14 0 0, V3 1000 0 0, V3 0 1000 0); (V3 15 0 0, V3 0 1000 0, V3 0 0 1000)].
Lemma near_not_melded : exists om open p q, Optimize 30 (V3 0 0 0) near_faces = Ok (om, open) /\
  In p (om_points om) /\ In q (om_points om) /\ dist3 (opos p) (opos q) = 1.
Proof.
  eexists _, _, (OPoint (V3 (-486) (-500) 0) [0]), (OPoint (V3 (-485) (-500) 0) [1]).
  split; [vm_compute; reflexivity|]. split; [vm_compute; auto|]. split; [vm_compute; auto 10|reflexivity].
Qed.
