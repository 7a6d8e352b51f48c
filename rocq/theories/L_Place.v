(** Lemmas: faces that add nothing, and moved models. *)
From Verif Require Import GoBase GoFloat M_Micrometer M_Model S_Geom S_Model S_Place L_Vec L_Model L_Optimize.
Local Open Scope list_scope.
Local Open Scope Z_scope.

Lemma vertices_in fs v : In v (vertices fs) <-> exists f, In f fs /\ In v (facePoints f).
Proof. apply in_flat_map. Qed.

(** *** faces that add nothing *)
Section Nothing.
Variable meld : Z.
Hypothesis Hm : good_meld meld.

Lemma meld_nz : uint64 meld <> 0.
Proof. rewrite good_uint by exact Hm. unfold good_meld in Hm. lia. Qed.

Lemma add_known st V v : VInv meld st V -> In v V -> add_vertex meld st v = Ok (loc meld st v, st).
Proof.
  intros I Iv. unfold add_vertex. destruct (Z.eqb_spec (uint64 meld) 0) as [C|_]; [destruct (meld_nz C)|]. cbv zeta.
  destruct (located _ _ _ I v Iv) as (i & L). unfold loc. rewrite L. unfold locate in L. rewrite L. reflexivity.
Qed.
Lemma loc_point st V v : VInv meld st V -> In v V -> exists p, idx (st_points st) (loc meld st v) = Ok p.
Proof.
  intros I Iv. destruct (located _ _ _ I v Iv) as (i & L). unfold loc. rewrite L. unfold locate in L.
  destruct (find_near_spec (st_points st) meld v (st_hash st (pointHash (uint64 meld) v))) as (r & Er & Hr).
  { intros m Hm'. destruct (hash_in _ _ _ I _ _ Hm') as (p & E & _). eauto. }
  rewrite L in Er. injection Er as <-. destruct Hr as (_ & p & E & _). eauto.
Qed.

Lemma add_nothing st done g : FInv meld st done -> adds_nothing done g -> add_face meld st g = Ok st.
Proof.
  intros I (Iv & D). destruct g as [[a b] c]. pose proof (fv _ _ _ I) as V. unfold add_face.
  assert (Ia : In a (vertices done)) by (apply Iv; left; reflexivity).
  assert (Ib : In b (vertices done)) by (apply Iv; right; left; reflexivity).
  assert (Ic : In c (vertices done)) by (apply Iv; right; right; left; reflexivity).
  rewrite (add_known st _ a V Ia). cbn [bind]. rewrite (add_known st _ b V Ib). cbn [bind]. rewrite (add_known st _ c V Ic). cbn [bind].
  destruct ((loc meld st a =? loc meld st b) || (loc meld st a =? loc meld st c) || (loc meld st b =? loc meld st c)) eqn:Deg; [reflexivity|].
  apply orb_false_elim in Deg. destruct Deg as [Deg Nbc]. apply orb_false_elim in Deg. destruct Deg as [Nab Nac]. apply Z.eqb_neq in Nab, Nac, Nbc.
  destruct (loc_point st _ a V Ia) as (pa & Pa). destruct (loc_point st _ b V Ib) as (pb & Pb). destruct (loc_point st _ c V Ic) as (pc & Pc).
  rewrite Pa, Pb, Pc. cbn [bind].
  assert (CF : common_face (ofaces pa) (ofaces pb) (ofaces pc) = true); [|rewrite CF; reflexivity].
  apply common_face_spec.
  destruct D as [<-|[<-|[<-|(f & If & S)]]]; [contradiction|contradiction|contradiction|].
  destruct f as [[x y] z].
  assert (Sa : a = x \/ a = y \/ a = z). { destruct (proj2 (S a) ltac:(left; reflexivity)) as [->|[->|[->|[]]]]; auto. }
  assert (Sb : b = x \/ b = y \/ b = z). { destruct (proj2 (S b) ltac:(right; left; reflexivity)) as [->|[->|[->|[]]]]; auto. }
  assert (Sc : c = x \/ c = y \/ c = z). { destruct (proj2 (S c) ltac:(right; right; left; reflexivity)) as [->|[->|[->|[]]]]; auto. }
  assert (Nd : ~ degenerate (loc3 meld st (x, y, z))).
  { unfold loc3, degenerate. destruct Sa as [<-|[<-|<-]], Sb as [<-|[<-|<-]], Sc as [<-|[<-|<-]]; intuition congruence. }
  destruct (all _ _ _ I _ If) as [Dg|(h & Ih & Sh)]; [contradiction|].
  destruct (In_idx _ _ Ih) as (j & Ej). exists j.
  rewrite (lists _ _ _ I _ _ Pa), (lists _ _ _ I _ _ Pb), (lists _ _ _ I _ _ Pc). pose proof (idx_Ok _ _ _ Ej) as [R _].
  assert (U : forall v, v = x \/ v = y \/ v = z -> uses (oi h) (loc meld st v)).
  { intros v Hv. apply Sh. unfold loc3, uses. destruct Hv as [->|[->| ->]]; auto. }
  repeat split; apply facelist_In; exists h; rewrite Z.sub_0_r; repeat split; try lia; try exact Ej; apply U; assumption.
Qed.
End Nothing.

Lemma add_faces_app meld a : forall st b, add_faces meld st (a ++ b) = (let* st' := add_faces meld st a in add_faces meld st' b).
Proof.
  induction a as [|f a IH]; intros st b; cbn [add_faces app]; [reflexivity|].
  destruct (add_face meld st f) as [st'| | |]; cbn [bind]; [apply IH|reflexivity..].
Qed.
Lemma bounds_same fs fs' : fs <> [] -> (forall v, In v (vertices fs) <-> In v (vertices fs')) -> ModelMin fs = ModelMin fs' /\ ModelMax fs = ModelMax fs'.
Proof.
  intros N S. assert (N' : fs' <> []).
  { intros ->. destruct fs as [|[[a b] c] fs]; [contradiction|]. exact (proj1 (S a) ltac:(left; reflexivity)). }
  destruct (model_bounds fs N) as (mn & mx & E1 & E2 & T). destruct (model_bounds fs' N') as (mn' & mx' & E1' & E2' & T').
  assert (T2 : tight_box3 (vertices fs) mn' mx').
  { destruct T' as (B & (a & Ia & Ea) & (b & Ib & Eb) & (c & Ic & Ec) & (d & Id & Ed) & (e & Ie & Ee) & (f & If & Ef)).
    split; [intros v Iv; apply B, S, Iv|].
    split; [exists a; split; [apply S|]; assumption|]. split; [exists b; split; [apply S|]; assumption|]. split; [exists c; split; [apply S|]; assumption|].
    split; [exists d; split; [apply S|]; assumption|]. split; [exists e; split; [apply S|]; assumption|]. exists f; split; [apply S|]; assumption. }
  destruct (tight_unique _ _ _ _ _ T T2) as [-> ->]. rewrite E1, E2, E1', E2'. auto.
Qed.

Lemma optimize_drop meld center before g after : good_meld meld -> adds_nothing before g ->
  Optimize meld center (before ++ g :: after) = Optimize meld center (before ++ after).
Proof.
  intros Hm A. unfold Optimize.
  destruct (add_faces_spec meld (meld_nz meld Hm) (good_self _ Hm) before (OSt [] [] (fun _ => [])) [] (FInv_init meld)) as (st & Es & I). cbn [app] in I.
  rewrite !add_faces_app, Es. cbn [bind add_faces]. rewrite (add_nothing meld Hm st before g I A). cbn [bind].
  destruct (bounds_same (before ++ g :: after) (before ++ after)) as [-> ->].
  - destruct before; discriminate.
  - intros v. rewrite !vertices_app. change (vertices (g :: after)) with (facePoints g ++ vertices after)%list. rewrite !in_app_iff.
    destruct A as [A _]. specialize (A v). tauto.
  - reflexivity.
Qed.
Lemma optimize_without meld center full short : good_meld meld -> without_repeats full short -> Optimize meld center full = Optimize meld center short.
Proof.
  intros Hm. induction 1 as [fs|before g after short A _ IH]; [reflexivity|]. rewrite optimize_drop by assumption. exact IH.
Qed.

(** *** moved models *)
Lemma vertices_moved d fs : vertices (moved d fs) = map (fun v => shift3 v d) (vertices fs).
Proof.
  induction fs as [|[[a b] c] fs IH]; [reflexivity|]. change (vertices (moved d ((a, b, c) :: fs))) with (facePoints (move d (a, b, c)) ++ vertices (moved d fs))%list.
  rewrite IH. reflexivity.
Qed.
Lemma shift3_inj v w d : shift3 v d = shift3 w d -> v = w.
Proof. destruct v, w. unfold shift3. cbn. intros [= A B C]. f_equal; lia. Qed.

Section Moved.
Variable meld : Z.
Hypothesis Hm : good_meld meld.
Variable d : vec3.
Variable all_v : list vec3.
Hypothesis Bv : forall v, In v all_v -> vec_bounded (2 ^ 29) v /\ vec_bounded (2 ^ 29) (shift3 v d).
Hypothesis Ap : forall v w, In v all_v -> In w all_v -> v <> w -> meld ^ 2 < dist3 v w.

Definition opoint_moved (p : opoint) : opoint := OPoint (shift3 (opos p) d) (ofaces p).
Definition state_moved (st st' : ost) : Prop := st_points st' = map opoint_moved (st_points st) /\ st_faces st' = st_faces st.

Lemma vec_dec (v w : vec3) : {v = w} + {v <> w}.
Proof. decide equality; apply Z.eq_dec. Defined.
Lemma dist3_shift v w : dist3 (shift3 v d) (shift3 w d) = dist3 v w.
Proof. unfold dist3, shift3. cbn [vx vy vz]. ring. Qed.

(** under separation the lookup finds a vertex exactly if it is there already *)
Lemma near_same v w : In v all_v -> In w all_v -> (v3ShorterThanOrEqual (v3Sub v w) meld = true <-> v = w) /\
  (v3ShorterThanOrEqual (v3Sub (shift3 v d) (shift3 w d)) meld = true <-> v = w).
Proof.
  intros Iv Iw. destruct (Bv v Iv) as [B1 B2]. destruct (Bv w Iw) as [B3 B4].
  rewrite !near_exact by assumption. rewrite dist3_shift.
  assert (Q : dist3 v w <= meld ^ 2 <-> v = w); [|split; exact Q]. split.
  - intros D. destruct (vec_dec v w) as [|N]; [assumption|]. pose proof (Ap v w Iv Iw N). lia.
  - intros ->. replace (dist3 w w) with 0 by (unfold dist3; ring). nia.
Qed.

Lemma moved_idx st st' i p : state_moved st st' -> idx (st_points st) i = Ok p -> idx (st_points st') i = Ok (opoint_moved p).
Proof. intros [-> _] E. rewrite idx_map, E. reflexivity. Qed.
Lemma moved_idx_inv st st' i p : state_moved st st' -> idx (st_points st') i = Ok p -> exists q, idx (st_points st) i = Ok q /\ p = opoint_moved q.
Proof. intros [-> _] E. rewrite idx_map in E. destruct (idx (st_points st) i) as [q| | |]; try discriminate. injection E as <-. eauto. Qed.

Lemma add_vertex_moved st st' V v : incl V all_v -> In v all_v -> VInv meld st V -> VInv meld st' (map (fun w => shift3 w d) V) -> state_moved st st' ->
  exists i st1 st1', add_vertex meld st v = Ok (i, st1) /\ add_vertex meld st' (shift3 v d) = Ok (i, st1') /\ state_moved st1 st1'.
Proof.
  intros IV Iv I I' S. unfold add_vertex. destruct (Z.eqb_spec (uint64 meld) 0) as [C|_]; [destruct (meld_nz meld Hm C)|]. cbv zeta.
  destruct (find_near_spec (st_points st) meld v (st_hash st (pointHash (uint64 meld) v))) as (r & Er & Hr).
  { intros i Hi. destruct (hash_in _ _ _ I _ _ Hi) as (p & E & _). eauto. }
  destruct (find_near_spec (st_points st') meld (shift3 v d) (st_hash st' (pointHash (uint64 meld) (shift3 v d)))) as (r' & Er' & Hr').
  { intros i Hi. destruct (hash_in _ _ _ I' _ _ Hi) as (p & E & _). eauto. }
  rewrite Er, Er'. cbn [bind].
  assert (Src : forall i p, idx (st_points st) i = Ok p -> In (opos p) all_v).
  { intros i p E. apply IV. exact (src _ _ _ I i p E). }
  destruct r as [i|], r' as [j|].
  - destruct Hr as (Hi & p & Ep & Sp). destruct Hr' as (Hj & q' & Eq' & Sq). destruct (moved_idx_inv _ _ _ _ S Eq') as (q & Eq & ->). cbn [opoint_moved opos] in Sq.
    apply (proj1 (near_same _ _ (Src _ _ Ep) Iv)) in Sp. apply (proj2 (near_same _ _ (Src _ _ Eq) Iv)) in Sq.
    assert (i = j).
    { destruct (Z.lt_trichotomy i j) as [L|[L|L]]; [|exact L|].
      - pose proof (sep _ _ _ I i j p q L Ep Eq ltac:(cbv zeta; rewrite Sp, Sq; reflexivity)) as F. rewrite Sp, Sq, good_self in F by exact Hm. discriminate.
      - pose proof (sep _ _ _ I j i q p L Eq Ep ltac:(cbv zeta; rewrite Sp, Sq; reflexivity)) as F. rewrite Sp, Sq, good_self in F by exact Hm. discriminate. }
    subst j. exists i, st, st'. auto.
  - exfalso. destruct Hr as (Hi & p & Ep & Sp). apply (proj1 (near_same _ _ (Src _ _ Ep) Iv)) in Sp.
    pose proof (moved_idx _ _ _ _ S Ep) as Ep'. pose proof (hash_all _ _ _ I' _ _ Ep') as Hh. cbn [opoint_moved opos] in Hh. cbv zeta in Hh. rewrite Sp in Hh.
    pose proof (Hr' i _ Hh Ep') as F. cbn [opoint_moved opos] in F. rewrite Sp, good_self in F by exact Hm. discriminate.
  - exfalso. destruct Hr' as (Hj & q' & Eq' & Sq). destruct (moved_idx_inv _ _ _ _ S Eq') as (q & Eq & ->). cbn [opoint_moved opos] in Sq.
    apply (proj2 (near_same _ _ (Src _ _ Eq) Iv)) in Sq. pose proof (hash_all _ _ _ I _ _ Eq) as Hh. cbv zeta in Hh. rewrite Sq in Hh.
    pose proof (Hr j _ Hh Eq) as F. rewrite Sq, good_self in F by exact Hm. discriminate.
  - destruct S as [S1 S2]. assert (L : List.length (st_points st') = List.length (st_points st)) by (rewrite S1, map_length; reflexivity). rewrite L.
    eexists _, _, _. split; [reflexivity|]. split; [reflexivity|]. split; cbn [st_points st_faces]; [|exact S2]. rewrite S1, map_app. reflexivity.
Qed.

Lemma add_face_index_moved pts i n : add_face_index (map opoint_moved pts) i n = (let* q := add_face_index pts i n in Ok (map opoint_moved q)).
Proof.
  unfold add_face_index. rewrite idx_map. destruct (idx pts i) as [p| | |]; cbn [bind]; [|reflexivity..]. rewrite set_nth_map. reflexivity.
Qed.

Lemma add_face_moved st st' done f : incl (vertices done) all_v -> incl (facePoints f) all_v -> FInv meld st done -> FInv meld st' (moved d done) -> state_moved st st' ->
  exists st1 st1', add_face meld st f = Ok st1 /\ add_face meld st' (move d f) = Ok st1' /\ state_moved st1 st1'.
Proof.
  intros ID If I I' S. destruct f as [[a b] c]. cbn [move].
  pose proof (fv _ _ _ I) as V0. pose proof (fv _ _ _ I') as V0'. rewrite vertices_moved in V0'.
  assert (Ia : In a all_v) by (apply If; left; reflexivity).
  assert (Ib : In b all_v) by (apply If; right; left; reflexivity).
  assert (Ic : In c all_v) by (apply If; right; right; left; reflexivity).
  assert (Step : forall V s s' v, incl V all_v -> In v all_v -> VInv meld s V -> VInv meld s' (map (fun w => shift3 w d) V) -> state_moved s s' ->
    exists i s1 s1', add_vertex meld s v = Ok (i, s1) /\ add_vertex meld s' (shift3 v d) = Ok (i, s1') /\ state_moved s1 s1' /\
      VInv meld s1 (V ++ [v]) /\ VInv meld s1' (map (fun w => shift3 w d) (V ++ [v])) /\ incl (V ++ [v]) all_v).
  { intros V s s' v IV Iv VI VI' Sm. destruct (add_vertex_moved s s' V v IV Iv VI VI' Sm) as (i & s1 & s1' & E & E' & Sm').
    destruct (add_vertex_spec meld (meld_nz meld Hm) (good_self _ Hm) s V v VI) as (i0 & s0 & E0 & VI0 & _). rewrite E in E0. injection E0 as <- <-.
    destruct (add_vertex_spec meld (meld_nz meld Hm) (good_self _ Hm) s' _ (shift3 v d) VI') as (i0' & s0' & E0' & VI0' & _). rewrite E' in E0'. injection E0' as <- <-.
    exists i, s1, s1'. split; [exact E|]. split; [exact E'|]. split; [exact Sm'|]. split; [exact VI0|]. split; [rewrite map_app; exact VI0'|].
    apply incl_app; [exact IV|]. intros w [<-|[]]. exact Iv. }
  unfold add_face.
  destruct (Step _ _ _ a ID Ia V0 V0' S) as (i & s1 & s1' & E1 & E1' & S1 & V1 & V1' & I1). rewrite E1, E1'. cbn [bind].
  destruct (Step _ _ _ b I1 Ib V1 V1' S1) as (j & s2 & s2' & E2 & E2' & S2 & V2 & V2' & I2). rewrite E2, E2'. cbn [bind].
  destruct (Step _ _ _ c I2 Ic V2 V2' S2) as (k & s3 & s3' & E3 & E3' & S3 & V3' & V3'' & I3). rewrite E3, E3'. cbn [bind].
  destruct ((i =? j) || (i =? k) || (j =? k)) eqn:Deg; [eauto|].
  destruct (add_face_spec meld (meld_nz meld Hm) (good_self _ Hm) st done (a, b, c) I) as (st1 & Es & _).
  unfold add_face in Es. rewrite E1 in Es. cbn [bind] in Es. rewrite E2 in Es. cbn [bind] in Es. rewrite E3 in Es. cbn [bind] in Es.
  rewrite Deg in Es. destruct S3 as [P3 F3]. rewrite P3, F3, !idx_map.
  destruct (idx (st_points s3) i) as [pi| | |] eqn:Pi; try discriminate Es. cbn [bind] in Es |- *.
  destruct (idx (st_points s3) j) as [pj| | |] eqn:Pj; try discriminate Es. cbn [bind] in Es |- *.
  destruct (idx (st_points s3) k) as [pk| | |] eqn:Pk; try discriminate Es. cbn [bind] in Es |- *.
  cbn [opoint_moved ofaces].
  destruct (common_face (ofaces pi) (ofaces pj) (ofaces pk)).
  { exists s3, s3'. repeat split; assumption. }
  rewrite add_face_index_moved. destruct (add_face_index (st_points s3) i _) as [p1| | |]; try discriminate Es. cbn [bind] in Es |- *.
  rewrite add_face_index_moved. destruct (add_face_index p1 j _) as [p2| | |]; try discriminate Es. cbn [bind] in Es |- *.
  rewrite add_face_index_moved. destruct (add_face_index p2 k _) as [p3| | |]; try discriminate Es. cbn [bind] in Es |- *.
  eexists _, _. split; [reflexivity|]. split; [reflexivity|]. split; reflexivity.
Qed.

Lemma add_faces_moved fs : forall st st' done, incl (vertices (done ++ fs)) all_v -> FInv meld st done -> FInv meld st' (moved d done) -> state_moved st st' ->
  exists st1 st1', add_faces meld st fs = Ok st1 /\ add_faces meld st' (moved d fs) = Ok st1' /\ state_moved st1 st1'.
Proof.
  induction fs as [|f fs IH]; intros st st' done ID I I' S; cbn [add_faces moved map]; [eauto|].
  rewrite vertices_app in ID. change (vertices (f :: fs)) with (facePoints f ++ vertices fs)%list in ID.
  destruct (add_face_moved st st' done f) as (s1 & s1' & E & E' & S1); try assumption.
  { intros v Hv. apply ID, in_or_app. left. exact Hv. }
  { intros v Hv. apply ID, in_or_app. right. apply in_or_app. left. exact Hv. }
  rewrite E, E'. cbn [bind].
  destruct (add_face_spec meld (meld_nz meld Hm) (good_self _ Hm) st done f I) as (t1 & Et & I1). rewrite E in Et. injection Et as <-.
  destruct (add_face_spec meld (meld_nz meld Hm) (good_self _ Hm) st' (moved d done) (move d f) I') as (t1' & Et' & I1'). rewrite E' in Et'. injection Et' as <-.
  apply (IH s1 s1' (done ++ [f])%list); [|exact I1| |exact S1].
  - rewrite <- app_assoc, vertices_app. exact ID.
  - unfold moved. rewrite map_app. exact I1'.
Qed.
End Moved.

Lemma touch_loop_moved d pts i n : forall l, touch_loop (map (opoint_moved d) pts) i n l = touch_loop pts i n l.
Proof.
  induction l as [|f l IH]; cbn [touch_loop]; [reflexivity|]. rewrite IH, idx_map. destruct (f =? n); [reflexivity|]. destruct (idx pts i); reflexivity.
Qed.
Lemma touch_faces_moved d pts : forall fs i, touch_faces (map (opoint_moved d) pts) i fs = touch_faces pts i fs.
Proof.
  assert (G : forall a b n, getFaceIdxWithPoints (map (opoint_moved d) pts) a b n = getFaceIdxWithPoints pts a b n).
  { intros a b n. unfold getFaceIdxWithPoints. rewrite idx_map. destruct (idx pts a); cbn [bind]; [apply touch_loop_moved|reflexivity..]. }
  induction fs as [|f fs IH]; intros i; cbn [touch_faces]; [reflexivity|]. destruct (oi f) as [[a b] c]. rewrite !G, IH. reflexivity.
Qed.

Lemma box_moved fs mn mx d : tight_box3 (vertices fs) mn mx -> tight_box3 (vertices (moved d fs)) (shift3 mn d) (shift3 mx d).
Proof.
  rewrite vertices_moved.
  intros (B & (x1 & I1 & E1) & (x2 & I2 & E2) & (x3 & I3 & E3) & (x4 & I4 & E4) & (x5 & I5 & E5) & (x6 & I6 & E6)).
  assert (K : forall v, In v (vertices fs) -> In (shift3 v d) (map (fun v => shift3 v d) (vertices fs))) by (intros v Iv; apply (in_map (fun v => shift3 v d)), Iv).
  split.
  { intros v Iv. apply in_map_iff in Iv. destruct Iv as (w & <- & Iw). specialize (B w Iw). unfold shift3. cbn [vx vy vz]. lia. }
  repeat split; [exists (shift3 x1 d)|exists (shift3 x2 d)|exists (shift3 x3 d)|exists (shift3 x4 d)|exists (shift3 x5 d)|exists (shift3 x6 d)];
    (split; [apply K; assumption|unfold shift3; cbn [vx vy vz]; lia]).
Qed.
Lemma box_bounded fs mn mx : good_model fs -> tight_box3 (vertices fs) mn mx -> vec_bounded (2 ^ 29) mn /\ vec_bounded (2 ^ 29) mx.
Proof.
  unfold good_model. rewrite Forall_forall.
  intros Hg (_ & (a & Ia & Ea) & (b & Ib & Eb) & (c & Ic & Ec) & (d & Id & Ed) & (e & Ie & Ee) & (f & If & Ef)).
  unfold vec_bounded. rewrite <- Ea, <- Eb, <- Ec, <- Ed, <- Ee, <- Ef.
  repeat split; match goal with |- Z.abs (_ ?a) <= _ => assert (K : In a (vertices fs)) by assumption; destruct (Hg a K) as (K1 & K2 & K3); assumption end.
Qed.

(** by how much the middle of a..b, rounded toward zero, lags behind when a and b grow by d *)
Definition lag (a b d : Z) : Z := Z.quot (a + b) 2 + d - Z.quot (a + d + (b + d)) 2.
Lemma lag_small a b d : Z.abs (lag a b d) <= 1.
Proof.
  unfold lag. pose proof (Z.quot_rem' (a + b) 2). pose proof (Z.quot_rem' (a + d + (b + d)) 2).
  pose proof (Z.rem_bound_abs (a + b) 2 ltac:(lia)). pose proof (Z.rem_bound_abs (a + d + (b + d)) 2 ltac:(lia)). lia.
Qed.
Lemma lag_even a b d : Z.Even (a + b) -> lag a b d = 0.
Proof.
  intros (k & E). unfold lag. rewrite E. replace (a + d + (b + d)) with (2 * (k + d)) by lia.
  rewrite !(Z.mul_comm 2), !Z.quot_mul by lia. lia.
Qed.
Lemma lag_sign a b d : 0 <= a + b /\ 0 <= a + b + 2 * d \/ a + b <= 0 /\ a + b + 2 * d <= 0 -> lag a b d = 0.
Proof.
  unfold lag. intros S. replace (a + d + (b + d)) with (a + b + 2 * d) by lia. generalize dependent (a + b). intros s S.
  pose proof (Z.quot_rem' s 2). pose proof (Z.quot_rem' (s + 2 * d) 2). destruct S as [[S1 S2]|[S1 S2]].
  - pose proof (Z.rem_bound_pos_pos s 2 ltac:(lia) S1). pose proof (Z.rem_bound_pos_pos (s + 2 * d) 2 ltac:(lia) S2). lia.
  - pose proof (Z.rem_bound_pos_neg s 2 ltac:(lia) S1). pose proof (Z.rem_bound_pos_neg (s + 2 * d) 2 ltac:(lia) S2). lia.
Qed.

Lemma moved_coordinate p q c d l q' : Z.abs p <= 2 ^ 29 -> Z.abs (p + d) <= 2 ^ 29 -> Z.abs q <= 2 ^ 29 -> Z.abs q' <= 2 ^ 29 -> Z.abs c <= 2 ^ 60 -> Z.abs l <= 1 ->
  q' = q + d - l -> sub64 (p + d) (sub64 q' c) = sub64 p (sub64 q (c + l)).
Proof.
  intros P P' Q Q' C L E. rewrite (sub64_id q' c) by (unfold int64; lia). rewrite (sub64_id q (c + l)) by (unfold int64; lia).
  rewrite !sub64_id by (unfold int64; lia). lia.
Qed.

Lemma optimize_moved meld center fs d mn mx : good_meld meld -> good_model fs -> good_model (moved d fs) -> vec_bounded (2 ^ 60) center ->
  apart meld fs -> tight_box3 (vertices fs) mn mx ->
  Optimize meld center (moved d fs) =
  Optimize meld (V3 (vx center + lag (vx mn) (vx mx) (vx d)) (vy center + lag (vy mn) (vy mx) (vy d)) (vz center)) fs.
Proof.
  intros Hm Hg Hg' (C1 & C2 & C3) Ap Box. unfold Optimize.
  assert (Bv : forall v, In v (vertices fs) -> vec_bounded (2 ^ 29) v /\ vec_bounded (2 ^ 29) (shift3 v d)).
  { intros v Iv. unfold good_model in Hg, Hg'. rewrite Forall_forall in Hg, Hg'. split; [apply Hg, Iv|]. apply Hg'. rewrite vertices_moved. apply (in_map (fun v => shift3 v d)), Iv. }
  destruct (add_faces_moved meld Hm d (vertices fs) Bv Ap fs (OSt [] [] (fun _ => [])) (OSt [] [] (fun _ => [])) []) as (st & st' & E & E' & S1 & S2);
    [apply incl_refl|apply FInv_init|apply FInv_init|split; reflexivity|].
  rewrite E, E'. cbn [bind]. rewrite S1, S2, touch_faces_moved.
  destruct (touch_faces (st_points st) 0 (st_faces st)) as [[faces open]| | |]; cbn [bind]; [|reflexivity..].
  assert (N : fs <> []). { intros ->. destruct Box as (_ & (a & [] & _) & _). }
  assert (N' : moved d fs <> []) by (destruct fs; [contradiction|discriminate]).
  destruct (model_bounds fs N) as (mn1 & mx1 & En & Ex & T). destruct (tight_unique _ _ _ _ _ Box T) as [<- <-].
  destruct (model_bounds (moved d fs) N') as (mn2 & mx2 & En' & Ex' & T'). destruct (tight_unique _ _ _ _ _ (box_moved _ _ _ d Box) T') as [<- <-].
  rewrite En, Ex, En', Ex'. cbn [bind].
  destruct (box_bounded _ _ _ Hg Box) as [(N1 & N2 & N3) (X1 & X2 & X3)].
  destruct (box_bounded _ _ _ Hg' (box_moved _ _ _ d Box)) as [(N1' & N2' & N3') (X1' & X2' & X3')].
  assert (Qb : forall a b, Z.abs a <= 2 ^ 29 -> Z.abs b <= 2 ^ 29 -> Z.abs (Z.quot (a + b) 2) <= 2 ^ 29).
  { clear. intros a b Ha Hb. pose proof (Z.quot_rem' (a + b) 2). pose proof (Z.rem_bound_abs (a + b) 2 ltac:(lia)). lia. }
  assert (Q64 : forall a b, Z.abs a <= 2 ^ 29 -> Z.abs b <= 2 ^ 29 -> quot64 (add64 a b) 2 = Z.quot (a + b) 2).
  { clear - Qb. intros a b Ha Hb. unfold quot64. pose proof (Qb a b Ha Hb). clear Qb. rewrite add64_id by (unfold int64; lia). apply wrap_id. unfold int64; lia. }
  pose proof (lag_small (vx mn) (vx mx) (vx d)) as L1. pose proof (lag_small (vy mn) (vy mx) (vy d)) as L2.
  assert (Sb : forall a b, Z.abs a <= 2 ^ 61 -> Z.abs b <= 2 ^ 61 -> sub64 a b = a - b). { clear. intros. apply sub64_id. unfold int64; lia. }
  assert (Dr : forall a b e c, lag a b e = c -> Z.quot (a + e + (b + e)) 2 = Z.quot (a + b) 2 + e - c) by (clear; unfold lag; intros; lia).
  unfold shift3 in N1', N2', N3', X1', X2', X3'. cbn [vx vy vz] in N1', N2', N3', X1', X2', X3'.
  unfold v3Sub, shift3. cbn [vx vy vz].
  rewrite !Q64 by assumption. cbn [vx vy vz].
  pose proof (Qb _ _ N1 X1) as Q1. pose proof (Qb _ _ N2 X2) as Q2. pose proof (Qb _ _ N1' X1') as Q3. pose proof (Qb _ _ N2' X2') as Q4.
  do 3 f_equal.
  - rewrite map_map. apply map_ext_in. intros p Ip. cbn [opoint_moved opos ofaces]. f_equal.
    assert (Bp : vec_bounded (2 ^ 29) (opos p) /\ vec_bounded (2 ^ 29) (shift3 (opos p) d)).
    { apply Bv. destruct (In_idx _ _ Ip) as (i & Ei).
      destruct (add_faces_spec meld (meld_nz meld Hm) (good_self _ Hm) fs (OSt [] [] (fun _ => [])) [] (FInv_init meld)) as (st0 & Es & I). rewrite E in Es. injection Es as <-.
      exact (src _ _ _ (fv _ _ _ I) i p Ei). }
    destruct Bp as [(P1 & P2 & P3) (P1' & P2' & P3')]. unfold shift3 in *. cbn [vx vy vz] in *.
    assert (D1 := Dr _ _ _ _ (eq_refl (lag (vx mn) (vx mx) (vx d)))). assert (D2 := Dr _ _ _ _ (eq_refl (lag (vy mn) (vy mx) (vy d)))).
    revert L1 L2 D1 D2 Q1 Q2 Q3 Q4. generalize (lag (vx mn) (vx mx) (vx d)) (lag (vy mn) (vy mx) (vy d)) (Z.quot (vx mn + vx mx) 2) (Z.quot (vy mn + vy mx) 2)
      (Z.quot (vx mn + vx d + (vx mx + vx d)) 2) (Z.quot (vy mn + vy d + (vy mx + vy d)) 2).
    clear - N3 N3' C1 C2 C3 P1 P2 P3 P1' P2' P3' Sb. intros l1 l2 q1 q2 q3 q4 L1 L2 D1 D2 Q1 Q2 Q3 Q4.
    f_equal; [apply (moved_coordinate _ _ _ _ l1)|apply (moved_coordinate _ _ _ _ l2)|rewrite <- (Z.add_0_r (vz center)) at 2; apply (moved_coordinate _ _ _ _ 0)]; clear Sb; assumption || lia.
  - rewrite !Sb by (clear -N1 N2 N3 X1 X2 X3 N1' N2' N3' X1' X2' X3'; lia). f_equal; lia.
Qed.
