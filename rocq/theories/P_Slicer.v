(** Properties C23-C30: slicing and polygon building. *)
From Coq Require Import Permutation Sorted.
From Verif Require Import GoBase GoFloat M_Micrometer M_Geom2D M_Model M_Slicer S_Geom S_Model S_Slicer L_Vec L_Model L_Slicer L_SliceLoop L_Chains L_Join L_Polygons L_Closed L_Optimize L_SliceAll P_Model.
Local Open Scope Z_scope.

Definition layer_count (init thick : Z) (om : omodel) : Z := Z.quot (vz (om_size om) - init) thick + 1.
(** settings and models in the modelled range (16.7 m, thicknesses up to 1 km) *)
Definition sliceable (init thick : Z) (om : omodel) (fs : list face) : Prop :=
  Z.abs init <= 2 ^ 30 /\ 0 < thick <= 2 ^ 30 /\ Z.abs (vz (om_size om)) <= 2 ^ 30 /\
  omFaces om (om_faces om) = Ok fs /\ small_faces fs /\ forall f, In f fs -> MaxZ f <= vz (om_size om).

(** *** C23 *)
(** A sliceable model with a face at every layer height gives the stated number of layers; the segments of
    layer k are the cuts of the crossed faces at height init + k * thick. *)
Theorem slicing_layers : forall init thick meld join finish om fs, sliceable init thick om fs -> 0 <= layer_count init thick om ->
  (forall k, 0 <= k < layer_count init thick om -> exists f, In f fs /\ visited init thick k f) ->
  exists lps, SlicePolygons init thick meld join finish om = Ok lps /\ Z.of_nat (List.length lps) = layer_count init thick om /\
    forall k p, idx lps k = Ok p -> exists l, layer_of (height init thick k) fs l /\ makePolygons (touch_of om) meld join finish l = Ok p.
Proof. intros init thick meld join finish om fs (Hi & Ht & Hz & Ef & Sm & Top). apply slice_ok; assumption. Qed.
Print Assumptions slicing_layers.
Theorem slicing_panics : forall init thick meld join finish om fs, sliceable init thick om fs ->
  (layer_count init thick om < 0 -> exists m, SlicePolygons init thick meld join finish om = Panic m) /\
  (forall k, 0 <= k < layer_count init thick om -> (forall f, In f fs -> ~ visited init thick k f) ->
     exists m, SlicePolygons init thick meld join finish om = Panic m).
Proof.
  intros init thick meld join finish om fs (Hi & Ht & Hz & Ef & Sm & Top). split.
  - apply slice_too_low; assumption.
  - intros k. apply (slice_gap init thick meld join finish om fs); assumption.
Qed.
Print Assumptions slicing_panics.
Theorem slicing_zero_thickness_panics : forall init meld join finish om, exists m, SlicePolygons init 0 meld join finish om = Panic m.
Proof. intros. eexists. reflexivity. Qed.
Print Assumptions slicing_zero_thickness_panics.
(** Optimized models that are not raised are sliceable. *)
Theorem optimized_sliceable : forall meld center fs0 om open init thick, usable meld center fs0 -> Optimize meld center fs0 = Ok (om, open) ->
  vz center <= 0 -> (forall p, In p (om_points om) -> vec_bounded (2 ^ 24) (opos p)) -> Z.abs init <= 2 ^ 30 -> 0 < thick <= 2 ^ 30 ->
  exists fs, sliceable init thick om fs.
Proof.
  intros meld center fs0 om open init thick Us Eo Cz Bp Hi Ht.
  pose proof (proj1 (optimizer_faces_proper _ _ _ _ _ Us Eo)) as FP.
  assert (EF : exists fs, omFaces om (om_faces om) = Ok fs).
  { assert (G : forall l, (forall f, In f l -> In f (om_faces om)) -> exists fs, omFaces om l = Ok fs).
    { induction l as [|o l IH]; intros Hl; [eexists; reflexivity|]. cbn [omFaces].
      destruct (In_idx _ _ (Hl o (or_introl eq_refl))) as (j & Ij). destruct (FP j o Ij) as (_ & U).
      unfold oPoints. destruct (oi o) as [[a b] c]. destruct (U a) as (p & ->); [cbn; auto|]. destruct (U b) as (q & ->); [cbn; auto|].
      destruct (U c) as (r & ->); [cbn; auto|]. cbn [bind]. destruct IH as (fs & ->); [intros f Hf; apply Hl; right; exact Hf|]. cbn [bind]. eauto. }
    apply G. auto. }
  destruct EF as (fs & Ef). exists fs. split; [exact Hi|]. split; [exact Ht|].
  pose proof (omFaces_forall2 _ _ _ Ef) as F2.
  destruct (optimizer_placement _ _ _ _ _ Us Eo) as ((mn & mx & _ & Es) & Pl & _).
  assert (PV : forall f v, In f fs -> In v (facePoints f) -> exists p, In p (om_points om) /\ v = opos p).
  { intros f v If Iv. destruct (In_idx _ _ If) as (j & Ij). destruct (forall2_idx _ _ _ F2 _ _ Ij) as (o & _ & E).
    unfold oPoints in E. destruct (oi o) as [[a b] c]. apply bind_Ok in E. destruct E as (p & Ep & E).
    apply bind_Ok in E. destruct E as (q & Eq & E). apply bind_Ok in E. destruct E as (r & Er & E). injection E as <-.
    destruct Iv as [<-|[<-|[<-|[]]]]; eauto using idx_In. }
  assert (Hz : vz (om_size om) <= 2 ^ 30 /\ 0 <= vz (om_size om)).
  { destruct (optimizer_placement _ _ _ _ _ Us Eo) as ((mn' & mx' & T & Es') & _). rewrite Es'. cbn [vz].
    destruct Us as (_ & Fb & _). rewrite Forall_forall in Fb. destruct T as (T & _ & _ & _ & _ & (v & Iv & Ev) & (w & Iw & Ew)).
    destruct (Fb v Iv) as (_ & _ & Bv). destruct (Fb w Iw) as (_ & _ & Bw). specialize (T v Iv). lia. }
  split; [lia|]. split; [exact Ef|]. split.
  - intros f v If Iv. destruct (PV f v If Iv) as (p & Ip & ->). apply Bp, Ip.
  - intros f If. destruct (minmax_in f) as (a & b & Ia & Ib & _ & -> & _). destruct (PV f b If Ib) as (p & Ip & ->).
    destruct (Pl p Ip) as (_ & _ & Z1). lia.
Qed.
Print Assumptions optimized_sliceable.

(** a tetrahedron, 1 mm high, cut at 200, 400, ..., 1000 *)
Definition tetra_om : omodel := Eval vm_compute in match Optimize 30 (V3 100000 100000 0) tetra with Ok (om, _) => om | _ => OModel [] [] (V3 0 0 0) end.
Definition tetra_fs : list face := Eval vm_compute in match omFaces tetra_om (om_faces tetra_om) with Ok fs => fs | _ => [] end.
Example tetra_optimized : Optimize 30 (V3 100000 100000 0) tetra = Ok (tetra_om, 0).
Proof. vm_compute. reflexivity. Qed.
Example tetra_slices : SlicePolygons 200 200 30 160 1000 tetra_om = Ok
  [[[Pt 99500 99500; Pt 100300 99500; Pt 99500 100300; Pt 99500 99500]];
   [[Pt 99500 99500; Pt 100100 99500; Pt 99500 100100; Pt 99500 99500]];
   [[Pt 99500 99500; Pt 99900 99500; Pt 99500 99900; Pt 99500 99500]]; []; []].
Proof. vm_compute. reflexivity. Qed.
Example tetra_sliceable : sliceable 200 200 tetra_om tetra_fs /\ layer_count 200 200 tetra_om = 5 /\
  forall k, 0 <= k < layer_count 200 200 tetra_om -> exists f, In f tetra_fs /\ visited 200 200 k f.
Proof.
  split; [|split; [vm_compute; reflexivity|]].
  - split; [vm_compute; discriminate|]. split; [split; [reflexivity|vm_compute; discriminate]|]. split; [vm_compute; discriminate|].
    split; [vm_compute; reflexivity|]. split.
    + intros f v If Iv. repeat (destruct If as [<-|If]; [repeat (destruct Iv as [<-|Iv]; [repeat split; vm_compute; discriminate|]); destruct Iv|]). destruct If.
    + intros f If. repeat (destruct If as [<-|If]; [vm_compute; discriminate|]). destruct If.
  - intros k Hk. exists (nth 1 tetra_fs (V3 0 0 0, V3 0 0 0, V3 0 0 0)). split; [vm_compute; auto|].
    assert (E : layer_count 200 200 tetra_om = 5) by (vm_compute; reflexivity). rewrite E in Hk.
    unfold visited, height.
    replace (MinZ (nth 1 tetra_fs (V3 0 0 0, V3 0 0 0, V3 0 0 0))) with 0 by (vm_compute; reflexivity).
    replace (MaxZ (nth 1 tetra_fs (V3 0 0 0, V3 0 0 0, V3 0 0 0))) with 1000 by (vm_compute; reflexivity). lia.
Qed.
(** a second tetrahedron 1 mm above the first, and a model thinner than the first layer *)
Example gap_panics : exists om o m, Optimize 30 (V3 100000 100000 0) (tetra ++ map (fun f => match f with (a, b, c) =>
    let up v := V3 (vx v) (vy v) (vz v + 2000) in (up a, up b, up c) end) tetra) = Ok (om, o) /\
  SlicePolygons 200 200 30 160 1000 om = Panic m.
Proof. do 3 eexists. split; [vm_compute; reflexivity|vm_compute; reflexivity]. Qed.
Example thin_panics : layer_count 5000 200 tetra_om = -18 /\ exists m, SlicePolygons 5000 200 30 160 1000 tetra_om = Panic m.
Proof. split; [|eexists]; vm_compute; reflexivity. Qed.
(** A raised model is not sliceable: the same tetrahedron at Center.Z = 1 mm. *)
Theorem slicing_raised_refuted : exists om open m, usable 30 (V3 100000 100000 1000) tetra /\
  Optimize 30 (V3 100000 100000 1000) tetra = Ok (om, open) /\ SlicePolygons 200 200 30 160 1000 om = Panic m.
Proof.
  do 3 eexists. split; [|split; [vm_compute; reflexivity|vm_compute; reflexivity]].
  split; [lia|]. split; [repeat constructor; vm_compute; discriminate|]. repeat split; vm_compute; discriminate.
Qed.
Print Assumptions slicing_raised_refuted.

(** *** C24 *)
(** The slicer's case distinction selects exactly the properly crossed faces, and cutting them does not panic. *)
Theorem face_cut_exactly : forall z f, near_face f ->
  (crosses z f <-> slice_case z f <> None) /\
  (forall a b c, slice_case z f = Some (a, b, c) -> exists s e, SliceFace z a b c = Ok (s, e)).
Proof.
  intros z f Hf. pose proof (slice_one z f Hf) as H. split.
  - destruct (slice_case z f) as [[[a b] c]|]; [split; [discriminate|tauto]|split; [contradiction|congruence]].
  - intros a b c E. rewrite E in H. destruct H as (_ & s & e & Es & _). eauto.
Qed.
Print Assumptions face_cut_exactly.
(** In the layers the slicer builds, a face has exactly one segment if it is crossed and none otherwise. *)
Theorem one_segment_per_crossed_face : forall z fs l, layer_of z fs l -> forall i f, idx fs i = Ok f ->
  List.length (filter (fun s => sface s =? i) (lsegs l)) = (if crossesb z f then 1 else 0)%nat.
Proof.
  intros z fs l (F & _) i f If.
  assert (E : List.length (filter (fun s => sface s =? i) (lsegs l)) =
              List.length (filter (fun nf : Z * face => fst nf =? i) (filter (fun nf => crossesb z (snd nf)) (number 0 fs)))).
  { induction F as [|s nf ls ns (E & _) F IH]; [reflexivity|]. cbn [filter]. rewrite E. destruct (fst nf =? i); cbn [List.length]; congruence. }
  rewrite E. clear E F.
  assert (G : forall k, List.length (filter (fun nf : Z * face => fst nf =? i) (filter (fun nf => crossesb z (snd nf)) (number k fs))) =
     (match idx fs (i - k) with Ok g => if crossesb z g then 1 else 0 | _ => 0 end)%nat).
  { clear If. induction fs as [|g fs IH]; intros k; cbn [number filter].
    - destruct (idx (@nil face) (i - k)) eqn:X; [apply idx_range in X; cbn in X; lia|reflexivity..].
    - specialize (IH (k + 1)). rewrite idx_cons. cbn [snd]. destruct (Z.eqb_spec (i - k) 0) as [Z0|Z0].
      + assert (N : idx fs (i - (k + 1)) = Panic "index out of range"%string \/ exists m, idx fs (i - (k + 1)) = Panic m).
        { right. unfold idx. destruct (Z.ltb_spec (i - (k + 1)) 0); [eauto|lia]. }
        assert (IH0 : List.length (filter (fun nf : Z * face => fst nf =? i) (filter (fun nf => crossesb z (snd nf)) (number (k + 1) fs))) = O).
        { destruct N as [N|(m & N)]; rewrite N in IH; exact IH. }
        destruct (crossesb z g); [|exact IH0]. cbn [filter fst]. destruct (Z.eqb_spec k i); [|lia]. cbn [List.length]. rewrite IH0. reflexivity.
      + replace (i - k - 1) with (i - (k + 1)) by lia. destruct (crossesb z g); [|exact IH]. cbn [filter fst].
        destruct (Z.eqb_spec k i); [lia|exact IH]. }
  rewrite G, Z.sub_0_r, If. reflexivity.
Qed.
Print Assumptions one_segment_per_crossed_face.
Example crosses_ex : crosses 5 (V3 0 0 0, V3 9 0 5, V3 0 9 5) /\ ~ crosses 5 (V3 0 0 0, V3 9 0 0, V3 0 9 5) /\ crosses 5 (V3 0 0 0, V3 9 0 0, V3 0 9 6).
Proof. unfold crosses. cbn. intuition discriminate. Qed.

(** *** C25 *)
Theorem segment_on_edges : forall z f a b c s e, near_face f -> slice_case z f = Some (a, b, c) -> SliceFace z a b c = Ok (s, e) -> cuts z f s e.
Proof.
  intros z f a b c s e Hf E Es. pose proof (slice_one z f Hf) as H. rewrite E in H. destruct H as (_ & s' & e' & Es' & C).
  assert (s' = s /\ e' = e) as (-> & ->) by (split; congruence). exact C.
Qed.
Print Assumptions segment_on_edges.
Example segment_ex : slice_case 5 (V3 0 0 0, V3 9 0 9, V3 0 9 7) = Some (V3 0 0 0, V3 0 9 7, V3 9 0 9) /\
  SliceFace 5 (V3 0 0 0) (V3 0 9 7) (V3 9 0 9) = Ok (Pt 0 6, Pt 5 0).
Proof. split; vm_compute; reflexivity. Qed.

(** *** C26 *)
Theorem neighbours_meet : forall z f g a b s e s' e', In (a, b) (fedges f) -> In (b, a) (fedges g) -> vz a < z <= vz b ->
  cuts z f s e -> cuts z g s' e' -> Z.abs (px e - px s') <= 1 /\ Z.abs (py e - py s') <= 1.
Proof.
  intros z f g a b s e s' e' If Ig Hz (_ & _ & _ & E) (_ & _ & S & _).
  apply (on_edge_close z a b); [apply E; auto|apply on_edge_sym, S; auto].
Qed.
Print Assumptions neighbours_meet.
Example neighbours_ex : exists s e s' e', cuts 5 (V3 0 0 0, V3 9 0 9, V3 0 9 7) s e /\ cuts 5 (V3 9 0 9, V3 0 0 0, V3 3 (-8) 4) s' e' /\
  e = Pt 5 0 /\ s' = Pt 5 0.
Proof.
  assert (N : forall f, (forall v, In v (facePoints f) -> near v) -> near_face f) by (intros f H; apply Forall_forall; exact H).
  assert (N1 : near_face (V3 0 0 0, V3 9 0 9, V3 0 9 7)).
  { apply N. cbn. intros v [<-|[<-|[<-|[]]]]; repeat split; cbn; lia. }
  assert (N2 : near_face (V3 9 0 9, V3 0 0 0, V3 3 (-8) 4)).
  { apply N. cbn. intros v [<-|[<-|[<-|[]]]]; repeat split; cbn; lia. }
  exists (Pt 0 6), (Pt 5 0), (Pt 5 0), (Pt 5 (-6)). split; [|split; [|split; reflexivity]].
  - apply (segment_on_edges 5 _ (V3 0 0 0) (V3 0 9 7) (V3 9 0 9)); [exact N1|vm_compute; reflexivity..].
  - apply (segment_on_edges 5 _ (V3 9 0 9) (V3 0 0 0) (V3 3 (-8) 4)); [exact N2|vm_compute; reflexivity..].
Qed.

(** *** C27 *)
Theorem polygons_total : forall touch l meld join finish, wf_layer touch l -> exists ps, makePolygons touch meld join finish l = Ok ps.
Proof. exact make_total. Qed.
Print Assumptions polygons_total.

(** layers and snap distances in the modelled range *)
Definition layer_usable (touch : Z -> res (Z * Z * Z)) (l : slayer) (meld join finish : Z) : Prop :=
  wf_layer touch l /\ segs_bounded (2 ^ 24) l /\ Z.of_nat (List.length (lsegs l)) < 2 ^ 56 /\
  0 <= meld <= 2 ^ 30 /\ 0 <= join <= 2 ^ 30 /\ 0 <= finish <= 2 ^ 30.
(** The chains partition the segments; the pieces partition the chains; the polygons are the kept pieces.  No
    two open pieces are left that could still be joined. *)
Theorem polygons_exact : forall touch l meld join finish, layer_usable touch l meld join finish ->
  exists pbs cs pieces,
    chained (follows touch l meld) (idx (lsegs l)) [] pbs cs /\
    Permutation (concat cs) (zseq (List.length (lsegs l))) /\
    (forall g, In g pieces -> piece_ok pbs join g) /\
    Permutation (flat_map pc_chains pieces) (zseq (List.length pbs)) /\
    (forall i j a b, i <> j -> nth_error pieces i = Some a -> nth_error pieces j = Some b -> pc_closed a = false -> pc_closed b = false ->
       ~ joins join (pc_path a) (pc_path b)) /\
    makePolygons touch meld join finish l = Ok (map pc_path (filter (keep finish) pieces)).
Proof.
  intros touch l meld join finish (W & B & N & Hm & Hj & Hf).
  destruct (make_spec touch l meld join finish W B Hm Hj Hf N) as (pbs & cs & pieces & H1 & H2 & H3 & H4 & H5 & _ & H6).
  exists pbs, cs, pieces. auto 10.
Qed.
Print Assumptions polygons_exact.

(** an open square outline of four segments with one gap of 100 um *)
Definition square_layer : slayer := SLayer
  [Seg (Pt 0 0) (Pt 1000 0) 0; Seg (Pt 1000 0) (Pt 1000 1000) 1; Seg (Pt 1000 1100) (Pt 0 1100) 2; Seg (Pt 0 1100) (Pt 0 0) 3]
  (fun i => if (0 <=? i) && (i <? 4) then Some i else None).
Definition square_touch (i : Z) : res (Z * Z * Z) := Ok ((i + 1) mod 4, (i + 3) mod 4, -1).
Example square_ex : layer_usable square_touch square_layer 30 160 1000 /\
  makePolygons square_touch 30 160 1000 square_layer =
    Ok [[Pt 0 0; Pt 1000 0; Pt 1000 1000; Pt 1000 1100; Pt 0 1100; Pt 0 0]] /\
  makePolygons square_touch 30 50 99 square_layer = Ok [] /\
  follows square_touch square_layer 30 0 1.
Proof.
  split; [|split; [vm_compute; reflexivity|split; [vm_compute; reflexivity|]]].
  - split; [split|split; [|split; [vm_compute; reflexivity|lia]]].
    + cbn. intros i j. destruct (Z.leb_spec 0 i), (Z.ltb_spec i 4); cbn; try discriminate. intros E. injection E as <-. lia.
    + intros s _. eexists. reflexivity.
    + intros s [<-|[<-|[<-|[<-|[]]]]]; repeat split; vm_compute; discriminate.
  - exists (Seg (Pt 0 0) (Pt 1000 0) 0), (Seg (Pt 1000 0) (Pt 1000 1000) 1), (1, 3, -1), 1. cbn. repeat split; auto; try lia.
Qed.

(** *** C28 *)
Theorem polygons_closed_long : forall touch l meld join finish ps, layer_usable touch l meld join finish ->
  makePolygons touch meld join finish l = Ok ps -> forall p, In p ps ->
  closes (Z.max meld (Z.max join finish)) p /\ finish < path_len p /\
  (forall q, In q p -> exists s, In s (lsegs l) /\ (q = sstart s \/ q = send s)).
Proof.
  intros touch l meld join finish ps U E p Ip. destruct (polygons_exact _ _ _ _ _ U) as (pbs & cs & pieces & C & _ & PO & _ & _ & E').
  rewrite E in E'. injection E' as ->. apply in_map_iff in Ip. destruct Ip as (g & <- & Ig). apply filter_In in Ig. destruct Ig as (Ig & K).
  apply andb_true_iff in K. destruct K as (K & L). apply Z.ltb_lt in L.
  destruct U as (_ & _ & _ & Hm & Hj & Hf).
  destruct (pieces_facts touch l meld join ltac:(lia) pbs cs g C (PO g Ig)) as (_ & Cl & Pt).
  split; [|split; [exact L|exact Pt]]. unfold closes in *. 
  assert (M : forall a, a = meld \/ a = join \/ a = finish -> a ^ 2 <= Z.max meld (Z.max join finish) ^ 2).
  { intros a Ha. apply Z.pow_le_mono_l. lia. }
  apply orb_true_iff in K. destruct K as [K|K].
  - destruct (Cl K) as [X|X]; (etransitivity; [exact X|apply M; auto]).
  - unfold closesb in K. apply Z.leb_le in K. etransitivity; [exact K|apply M; auto].
Qed.
Print Assumptions polygons_closed_long.

(** *** C29 *)
Theorem polygons_bridged : forall touch l meld join finish ps, layer_usable touch l meld join finish ->
  makePolygons touch meld join finish l = Ok ps -> forall p, In p ps -> Sorted (bridged l meld join) p.
Proof.
  intros touch l meld join finish ps U E p Ip. destruct (polygons_exact _ _ _ _ _ U) as (pbs & cs & pieces & C & _ & PO & _ & _ & E').
  rewrite E in E'. injection E' as ->. apply in_map_iff in Ip. destruct Ip as (g & <- & Ig). apply filter_In in Ig. destruct Ig as (Ig & K).
  destruct U as (_ & _ & _ & Hm & Hj & Hf).
  apply (pieces_facts touch l meld join ltac:(lia) pbs cs g C (PO g Ig)).
Qed.
Print Assumptions polygons_bridged.

(** *** C30 *)
(** the segments of a layer are cut far enough from each other *)
Definition spread (l : slayer) (d : Z) : Prop :=
  forall i j a b, idx (lsegs l) i = Ok a -> idx (lsegs l) j = Ok b -> i <> j -> d ^ 2 < dist2 (sstart a) (sstart b).
(** All chains of a closed surface are closed, and the polygons are exactly the ones longer than [finish]. *)
Theorem closed_surface_closed_outlines : forall z fs touch l meld join finish, closed_surface fs touch -> layer_of z fs l ->
  layer_usable touch l meld join finish -> small_faces fs -> Z.of_nat (List.length fs) < 2 ^ 56 ->
  (forall f v, In f fs -> In v (facePoints f) -> vz v <> z) -> 2 <= meld -> spread l (2 * meld) ->
  exists pbs cs ps, makePolygons touch meld join finish l = Ok ps /\
    chained (follows touch l meld) (idx (lsegs l)) [] pbs cs /\ Permutation (concat cs) (zseq (List.length (lsegs l))) /\
    (forall p b, In (p, b) pbs -> b = true) /\
    (forall p, In p ps <-> In (p, true) pbs /\ finish < path_len p).
Proof.
  intros z fs touch l meld join finish CS L (W & B & _ & Hm & Hj & Hf) Sm N NV H2 Sp.
  apply (closed_layer z fs); auto. lia.
Qed.
Print Assumptions closed_surface_closed_outlines.
(** From the input model on: a model whose optimization is closed and consistently oriented. *)
Theorem closed_model_closed_outlines : forall meld0 center fs0 om open fs init thick meld join finish k,
  usable meld0 center fs0 -> Optimize meld0 center fs0 = Ok (om, open) -> closed_model om -> sliceable init thick om fs ->
  0 <= k < layer_count init thick om -> (forall j, 0 <= j < layer_count init thick om -> exists f, In f fs /\ visited init thick j f) ->
  Z.of_nat (List.length fs) < 2 ^ 56 -> 2 <= meld <= 2 ^ 30 -> 0 <= join <= 2 ^ 30 -> 0 <= finish <= 2 ^ 30 ->
  (forall f v, In f fs -> In v (facePoints f) -> vz v <> height init thick k) ->
  (forall l, layer_of (height init thick k) fs l -> spread l (2 * meld)) ->
  exists lps l ps pbs cs, SlicePolygons init thick meld join finish om = Ok lps /\ idx lps k = Ok ps /\
    layer_of (height init thick k) fs l /\
    chained (follows (touch_of om) l meld) (idx (lsegs l)) [] pbs cs /\ Permutation (concat cs) (zseq (List.length (lsegs l))) /\
    (forall p b, In (p, b) pbs -> b = true) /\
    (forall p, In p ps <-> In (p, true) pbs /\ finish < path_len p).
Proof.
  intros meld0 center fs0 om open fs init thick meld join finish k Us Eo CM SL Hk V N Hm Hj Hf NV Sp.
  destruct (slicing_layers init thick meld join finish om fs SL ltac:(lia) V) as (lps & E & Ln & G).
  destruct SL as (_ & _ & _ & Ef & Sm & _).
  destruct (idx_in_range lps k) as (ps & Ik & _); [lia|]. destruct (G k ps Ik) as (l & L & Mk).
  pose proof (closed_model_surface _ _ _ _ _ _ Us Eo Ef CM) as CS.
  destruct (closed_layer _ _ _ _ meld join finish CS L (layer_wf _ _ _ _ Ef L) Sm NV N Hm Hj Hf (Sp l L)) as (pbs & cs & ps' & E' & R).
  rewrite Mk in E'. injection E' as <-. exists lps, l, ps, pbs, cs. auto.
Qed.
Print Assumptions closed_model_closed_outlines.

Example tetra_closed : closed_model tetra_om.
Proof.
  assert (R : forall i f, idx (om_faces tetra_om) i = Ok f -> i = 0 /\ oi f = (0, 1, 2) \/ i = 1 /\ oi f = (0, 2, 3) \/ i = 2 /\ oi f = (0, 3, 1) \/ i = 3 /\ oi f = (2, 1, 3)).
  { intros i f I. pose proof (idx_range _ _ _ I) as Rg. change (Z.of_nat (List.length (om_faces tetra_om))) with 4 in Rg.
    assert (i = 0 \/ i = 1 \/ i = 2 \/ i = 3) as [-> | [-> | [-> | ->]]] by lia; vm_compute in I; injection I as <-; cbn; tauto. }
  split.
  - intros i f k I Hk. destruct (R i f I) as [(-> & ->)|[(-> & ->)|[(-> & ->)|(-> & ->)]]]; destruct k as [|[|[|k]]]; try lia; cbn [edge fst snd].
    all: first
      [ exists 0; eexists; exists 0%nat; split; [vm_compute; reflexivity|split; [lia|reflexivity]]
      | exists 0; eexists; exists 1%nat; split; [vm_compute; reflexivity|split; [lia|reflexivity]]
      | exists 0; eexists; exists 2%nat; split; [vm_compute; reflexivity|split; [lia|reflexivity]]
      | exists 1; eexists; exists 0%nat; split; [vm_compute; reflexivity|split; [lia|reflexivity]]
      | exists 1; eexists; exists 1%nat; split; [vm_compute; reflexivity|split; [lia|reflexivity]]
      | exists 1; eexists; exists 2%nat; split; [vm_compute; reflexivity|split; [lia|reflexivity]]
      | exists 2; eexists; exists 0%nat; split; [vm_compute; reflexivity|split; [lia|reflexivity]]
      | exists 2; eexists; exists 1%nat; split; [vm_compute; reflexivity|split; [lia|reflexivity]]
      | exists 2; eexists; exists 2%nat; split; [vm_compute; reflexivity|split; [lia|reflexivity]]
      | exists 3; eexists; exists 0%nat; split; [vm_compute; reflexivity|split; [lia|reflexivity]]
      | exists 3; eexists; exists 1%nat; split; [vm_compute; reflexivity|split; [lia|reflexivity]]
      | exists 3; eexists; exists 2%nat; split; [vm_compute; reflexivity|split; [lia|reflexivity]] ].
  - intros i j f g k m I J Hk Hm. destruct (R i f I) as [(-> & ->)|[(-> & ->)|[(-> & ->)|(-> & ->)]]]; destruct (R j g J) as [(-> & ->)|[(-> & ->)|[(-> & ->)|(-> & ->)]]];
    try (intros; reflexivity); destruct k as [|[|[|k]]]; try lia; destruct m as [|[|[|m]]]; try lia; cbn; intros E; discriminate.
Qed.
(** the cut at 400 um meets the remaining hypotheses of the theorem *)
Example tetra_generic : (forall f v, In f tetra_fs -> In v (facePoints f) -> vz v <> height 200 200 1) /\
  (forall l, layer_of (height 200 200 1) tetra_fs l -> spread l (2 * 30)).
Proof.
  split.
  - intros f v If Iv. repeat (destruct If as [<-|If]; [repeat (destruct Iv as [<-|Iv]; [vm_compute; discriminate|]); destruct Iv|]). destruct If.
  - intros [ls lf] (F & _). change (height 200 200 1) with 400 in F. cbn [lsegs] in F.
    change (filter (fun nf : Z * face => crossesb 400 (snd nf)) (number 0 tetra_fs)) with (tl (number 0 tetra_fs)) in F.
    change (tl (number 0 tetra_fs)) with
      [(1, (V3 99500 99500 0, V3 100500 99500 0, V3 99500 99500 1000)); (2, (V3 99500 99500 0, V3 99500 99500 1000, V3 99500 100500 0));
       (3, (V3 100500 99500 0, V3 99500 100500 0, V3 99500 99500 1000))] in F.
    inversion F as [|s1 x1 r1 y1 (_ & C1) F1 E1]; subst. inversion F1 as [|s2 x2 r2 y2 (_ & C2) F2 E2]; subst. inversion F2 as [|s3 x3 r3 y3 (_ & C3) F3 E3]; subst.
    inversion F3; subst. cbn [snd fst] in *.
    destruct C1 as (_ & _ & S1 & _). destruct C2 as (_ & _ & S2 & _). destruct C3 as (_ & _ & S3 & _).
    specialize (S1 (V3 99500 99500 1000) (V3 99500 99500 0)). 
    specialize (S1 ltac:(cbn; auto) ltac:(unfold falls; cbn; lia)).
    specialize (S2 (V3 99500 99500 1000) (V3 99500 100500 0) ltac:(cbn; auto) ltac:(unfold falls; cbn; lia)).
    specialize (S3 (V3 99500 99500 1000) (V3 100500 99500 0) ltac:(cbn; auto) ltac:(unfold falls; cbn; lia)).
    unfold on_edge, between in *. cbn [vx vy vz] in *.
    assert (D : forall a b, (2 * 30) < Z.abs (px a - px b) \/ (2 * 30) < Z.abs (py a - py b) -> (2 * 30) ^ 2 < dist2 a b).
    { intros a b [H|H]; unfold dist2; nia. }
    intros i j a b Ia Ib N. cbn [lsegs] in *.
    pose proof (idx_range _ _ _ Ia) as Ri. pose proof (idx_range _ _ _ Ib) as Rj. cbn [List.length] in *.
    assert (i = 0 \/ i = 1 \/ i = 2) as [->|[->| ->]] by lia; assert (j = 0 \/ j = 1 \/ j = 2) as [->|[->| ->]] by lia; try lia;
    vm_compute in Ia, Ib; injection Ia as <-; injection Ib as <-; apply D; lia.
Qed.
