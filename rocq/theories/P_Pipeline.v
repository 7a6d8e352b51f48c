(** Properties C72-C74: the built in stages together. *)
From Verif Require Import GoBase GoFloat GoStr M_Micrometer M_Geom2D M_Model M_Slicer M_Clip M_Builder M_Option M_Layer M_Render M_Modifier M_Process
  S_Geom S_Model S_Slicer S_Clip S_Area S_Modifier S_Process L_Model L_Slicer L_SliceLoop L_Area L_Clip L_Strip L_Process P_Model P_Slicer P_Process.
Local Open Scope string_scope.
Local Open Scope list_scope.
Local Open Scope Z_scope.

(** *** C72: the parts of a layer *)
Lemma partition_all_spec lib touch meld join finish : forall ls i layers, partition_all lib touch meld join finish i ls = Ok layers ->
  exists lps, make_all touch meld join finish ls = Ok lps /\
  Forall2 (fun ps l => exists parts, GenerateLayerParts lib ps = Ok (Some parts) /\ l = Layer (Some parts) None) lps layers.
Proof.
  induction ls as [|[l|] ls IH]; intros i layers E; cbn [partition_all] in E; try discriminate.
  - injection E as <-. exists []. split; [reflexivity|constructor].
  - apply bind_Ok in E. destruct E as (p & Ep & E). apply bind_Ok in E. destruct E as ([parts|] & Eg & E); [|discriminate].
    apply bind_Ok in E. destruct E as (r & Er & E). injection E as <-. destruct (IH _ _ Er) as (lps & Em & F).
    exists (p :: lps). cbn [make_all]. rewrite Ep. cbn [bind]. rewrite Em. cbn [bind]. split; [reflexivity|]. constructor; eauto.
Qed.
Lemma partition_all_total lib touch meld join finish : (forall ps, exists parts, GenerateLayerParts lib ps = Ok (Some parts)) ->
  forall ls i lps, make_all touch meld join finish ls = Ok lps -> exists layers, partition_all lib touch meld join finish i ls = Ok layers.
Proof.
  intros T. induction ls as [|[l|] ls IH]; intros i lps E; cbn [make_all] in E; try discriminate.
  - exists []. reflexivity.
  - apply bind_Ok in E. destruct E as (p & Ep & E). apply bind_Ok in E. destruct E as (r & Er & E). cbn [partition_all]. rewrite Ep. cbn [bind].
    destruct (T p) as (parts & ->). cbn [bind]. destruct (IH (i + 1) r Er) as (layers & ->). cbn [bind]. eauto.
Qed.
Definition polygons_at (o : options) (om : omodel) : res (list paths) :=
  SlicePolygons (InitialLayerThickness (Print o)) (LayerThickness (Print o)) (MeldDistance (Slicing o)) (JoinPolygonSnapDistance (Slicing o)) (FinishPolygonSnapDistance (Slicing o)) om.
Lemma slice_spec lib o om layers : Slice lib o om = Ok layers -> exists lps, polygons_at o om = Ok lps /\
  Forall2 (fun ps l => exists parts, GenerateLayerParts lib ps = Ok (Some parts) /\ l = Layer (Some parts) None) lps layers.
Proof.
  unfold Slice, polygons_at, SlicePolygons. destruct (_ =? 0); [discriminate|]. destruct (_ <? 0); [discriminate|]. intros E.
  apply bind_Ok in E. destruct E as (fs & Ef & E). apply bind_Ok in E. destruct E as (ls & El & E). rewrite Ef. cbn [bind]. rewrite El. cbn [bind]. exact (partition_all_spec _ _ _ _ _ _ _ _ E).
Qed.
Lemma slice_total lib o om lps : (forall ps, exists parts, GenerateLayerParts lib ps = Ok (Some parts)) -> polygons_at o om = Ok lps -> exists layers, Slice lib o om = Ok layers.
Proof.
  intros T. unfold Slice, polygons_at, SlicePolygons. destruct (_ =? 0); [discriminate|]. destruct (_ <? 0); [discriminate|]. intros E.
  apply bind_Ok in E. destruct E as (fs & Ef & E). apply bind_Ok in E. destruct E as (ls & El & E). rewrite Ef. cbn [bind]. rewrite El. cbn [bind]. exact (partition_all_total _ _ _ _ _ T _ _ _ E).
Qed.
Section Exact.
Context {P : Type} (inside : path -> P -> bool).
Variable lib : clib.
Hypothesis E : exact inside lib.
Lemma generate_parts ps : exists parts, GenerateLayerParts lib ps = Ok (Some parts) /\ proper inside parts /\
  forall x, covered inside parts x <-> parity inside (map (fun p => Simplify p (-1) (-1)) ps) x = true.
Proof.
  unfold GenerateLayerParts. set (qs := map _ ps). destruct qs as [|q qs'] eqn:Q.
  - exists []. split; [reflexivity|]. split; [apply proper_nil|]. intros x. split; [intros C; destruct (covered_nil inside x C)|discriminate].
  - destruct (exact_clip inside lib E CtUnion (q :: qs') []) as (tree & n & Ex & N & H). cbn [closed_as map] in Ex. rewrite app_nil_r in Ex. unfold closed_as. cbn [map]. rewrite Ex.
    destruct (tree_spec tree) as (parts & Et & _). rewrite Et. cbn [bind]. exists parts. split; [reflexivity|]. destruct (tree_parts inside tree parts N Et) as [Pr C]. split; [exact Pr|].
    intros x. rewrite C, H. cbn [op]. change (parity inside [] x) with false. rewrite orb_false_r. reflexivity.
Qed.
(** The slicer gives one layer per list of polygons; its parts are proper and cover exactly what the simplified polygons
    surround an odd number of times. *)
Theorem layer_parts_exact : forall o om layers, Slice lib o om = Ok layers -> exists lps, polygons_at o om = Ok lps /\ List.length layers = List.length lps /\
  forall k l, nth_error layers k = Some l -> exists ps, nth_error lps k = Some ps /\ proper inside (LayerParts l) /\ lattrs l = None /\
    forall x, covered inside (LayerParts l) x <-> parity inside (map (fun p => Simplify p (-1) (-1)) ps) x = true.
Proof.
  intros o om layers S. destruct (slice_spec lib o om layers S) as (lps & Ep & F). exists lps. split; [exact Ep|]. split; [symmetry; clear -F; induction F; cbn; congruence|].
  clear S Ep. intros k l El. revert k El. induction F as [|ps l' lps layers (parts & Eg & ->) F IH]; intros [|k] El; try discriminate.
  - injection El as <-. exists ps. split; [reflexivity|]. destruct (generate_parts ps) as (parts' & Eg' & Pr & C). rewrite Eg in Eg'. injection Eg' as <-. auto.
  - exact (IH k El).
Qed.
(** With an exact library slicing fails only if building the polygons does. *)
Theorem slicing_fails_only_without_polygons : forall o om lps, polygons_at o om = Ok lps -> exists layers, Slice lib o om = Ok layers.
Proof. intros o om lps H. apply (slice_total lib o om lps); [|exact H]. intros ps. destruct (generate_parts ps) as (parts & Eg & _). eauto. Qed.
End Exact.
Print Assumptions layer_parts_exact.
Print Assumptions slicing_fails_only_without_polygons.

(** *** C73: models without gaps *)
(** from face to face over common corners *)
Inductive linked (fs : list face) : face -> face -> Prop :=
| Linked_refl f : In f fs -> linked fs f f
| Linked_step f g h v : linked fs f g -> In h fs -> In v (facePoints g) -> In v (facePoints h) -> linked fs f h.
Definition connected (fs : list face) : Prop := forall f g, In f fs -> In g fs -> linked fs f g.
Lemma between f v : In v (facePoints f) -> MinZ f <= vz v <= MaxZ f.
Proof.
  intros I. destruct (minmax_in f) as (a & b & Ia & Ib & -> & -> & L). exact (L v I).
Qed.
Theorem no_gaps : forall fs z, connected fs -> (exists f, In f fs /\ MinZ f <= z) -> (exists f, In f fs /\ z <= MaxZ f) -> exists f, In f fs /\ MinZ f <= z <= MaxZ f.
Proof.
  intros fs z C (f & If & Hf) (g & Ig & Hg).
  assert (A : forall h, linked fs f h -> (exists k, In k fs /\ MinZ k <= z <= MaxZ k) \/ MaxZ h < z).
  { induction 1 as [h Ih|h0 k h v L IH Ih V1 V2].
    - destruct (Z_lt_ge_dec (MaxZ h) z); [auto|]. left. exists h. split; [exact Ih|lia].
    - destruct (IH If Hf) as [D|D]; [left; exact D|]. pose proof (between k v V1). pose proof (between h v V2). destruct (Z_lt_ge_dec (MaxZ h) z); [auto|]. left. exists h. split; [exact Ih|lia]. }
  destruct (A g (C f g If Ig)) as [D|D]; [exact D|lia].
Qed.
Print Assumptions no_gaps.
(** A model with a face at the height of every layer is sliced into the stated number of layers. *)
Definition met (init thick n : Z) (fs : list face) : Prop := forall k, 0 <= k < n -> exists f, In f fs /\ MinZ f <= height init thick k <= MaxZ f.
Theorem met_model_sliced : forall (P : Type) (inside : path -> P -> bool) lib o om fs, exact inside lib -> let init := InitialLayerThickness (Print o) in let thick := LayerThickness (Print o) in
  sliceable init thick om fs -> 0 <= layer_count init thick om -> met init thick (layer_count init thick om) fs ->
  exists layers, Slice lib o om = Ok layers /\ Z.of_nat (List.length layers) = layer_count init thick om.
Proof.
  intros P inside lib o om fs E init thick Sl N M.
  destruct (slicing_layers init thick (MeldDistance (Slicing o)) (JoinPolygonSnapDistance (Slicing o)) (FinishPolygonSnapDistance (Slicing o)) om fs Sl N) as (lps & El & Ln & _).
  - intros k Hk. destruct (M k Hk) as (f & If & Hf). exists f. split; [exact If|]. split; [apply Hf|left; apply Hf].
  - destruct (slicing_fails_only_without_polygons inside lib E o om lps El) as (layers & Hs). exists layers. split; [exact Hs|].
    destruct (layer_parts_exact inside lib E o om layers Hs) as (lps' & El' & Len & _). unfold polygons_at in El'. fold init thick in El'. rewrite El in El'. injection El' as <-. lia.
Qed.
Print Assumptions met_model_sliced.
(** So is a connected model, whose faces reach from the first layer to the last one. *)
Lemma connected_met init thick n fs : 0 < thick -> connected fs -> (exists f, In f fs /\ MinZ f <= init) -> (exists f, In f fs /\ height init thick (n - 1) <= MaxZ f) -> met init thick n fs.
Proof.
  intros Ht C (lo & Il & Hl) (hi & Ih & Hh) k Hk. apply no_gaps; [exact C| |].
  - exists lo. split; [exact Il|]. unfold height. nia.
  - exists hi. split; [exact Ih|]. unfold height in *. nia.
Qed.
Theorem connected_model_sliced : forall (P : Type) (inside : path -> P -> bool) lib o om fs, exact inside lib -> let init := InitialLayerThickness (Print o) in let thick := LayerThickness (Print o) in
  sliceable init thick om fs -> 0 <= layer_count init thick om -> connected fs ->
  (exists f, In f fs /\ MinZ f <= init) -> (exists f, In f fs /\ height init thick (layer_count init thick om - 1) <= MaxZ f) ->
  exists layers, Slice lib o om = Ok layers /\ Z.of_nat (List.length layers) = layer_count init thick om.
Proof.
  intros P inside lib o om fs E init thick Sl N C Lo Hi. apply (met_model_sliced P inside lib o om fs E Sl N). apply connected_met; [apply Sl|assumption..].
Qed.
Print Assumptions connected_model_sliced.
(** a closed, connected body: a triangle of 1 mm and a tiny one above it, whose corners are melded *)
Definition spike : list face :=
  let p0 := V3 0 0 0 in let p1 := V3 1000 0 0 in let p2 := V3 0 1000 0 in let t0 := V3 10 10 990 in let t1 := V3 12 10 1000 in let t2 := V3 10 12 1000 in
  [(t0, p0, t1); (p0, p2, p1); (p0, p1, t1); (p1, p2, t2); (p1, t2, t1); (p2, p0, t0); (p2, t0, t2); (t0, t1, t2)].
Definition closed_faces (fs : list face) : Prop := forall f a b, In f fs -> In (a, b) (fedges f) -> exists g, In g fs /\ In (b, a) (fedges g).
Definition veqb (a b : vec3) : bool := (vx a =? vx b) && (vy a =? vy b) && (vz a =? vz b).
Lemma veqb_eq a b : veqb a b = true -> a = b.
Proof. unfold veqb. rewrite !andb_true_iff, !Z.eqb_eq. destruct a, b. cbn. intuition congruence. Qed.
Definition closedb (fs : list face) : bool :=
  forallb (fun f => forallb (fun e => existsb (fun g => existsb (fun e' => veqb (fst e') (snd e) && veqb (snd e') (fst e)) (fedges g)) fs) (fedges f)) fs.
Lemma closedb_ok fs : closedb fs = true -> closed_faces fs.
Proof.
  intros H f a b If Ie. unfold closedb in H. rewrite forallb_forall in H. specialize (H f If). cbn beta in H. rewrite forallb_forall in H. specialize (H _ Ie). cbn [fst snd] in H.
  apply existsb_exists in H. destruct H as (g & Ig & H). apply existsb_exists in H. destruct H as ([c d] & Ic & H). apply andb_true_iff in H. destruct H as [H1 H2]. apply veqb_eq in H1, H2. cbn [fst snd] in *. subst. eauto.
Qed.
Definition share (f g : face) : bool := existsb (fun v => existsb (veqb v) (facePoints g)) (facePoints f).
Lemma share_ok f g : share f g = true -> exists v, In v (facePoints f) /\ In v (facePoints g).
Proof. intros H. apply existsb_exists in H. destruct H as (v & Iv & H). apply existsb_exists in H. destruct H as (w & Iw & H). apply veqb_eq in H. subst. eauto. Qed.
Lemma connected_via fs : forallb (fun f => forallb (fun g => existsb (fun m => share f m && share m g) fs) fs) fs = true -> connected fs.
Proof.
  intros H f g If Ig. rewrite forallb_forall in H. specialize (H f If). cbn beta in H. rewrite forallb_forall in H. specialize (H g Ig). apply existsb_exists in H. destruct H as (m & Im & H).
  apply andb_true_iff in H. destruct H as [H1 H2]. destruct (share_ok _ _ H1) as (v & A1 & A2). destruct (share_ok _ _ H2) as (w & B1 & B2).
  apply (Linked_step fs f m g w); try assumption. apply (Linked_step fs f f m v); try assumption. apply Linked_refl, If.
Qed.
(** The condition about the last layer is needed: a closed, connected model, 5 layers high, whose top is lowered by melding
    its corners, makes the slicer panic with the default options. *)
Theorem melded_top_refuted : exists fs om open m, closed_faces fs /\ connected fs /\ usable (MeldDistance (Slicing DefaultOptions)) (Center (Printer DefaultOptions)) fs /\
  Optimize (MeldDistance (Slicing DefaultOptions)) (Center (Printer DefaultOptions)) fs = Ok (om, open) /\ Slice strip_lib DefaultOptions om = Panic m.
Proof.
  exists spike. eexists _, _, _. split; [apply closedb_ok; vm_compute; reflexivity|]. split; [apply connected_via; vm_compute; reflexivity|]. split.
  - split; [vm_compute; intuition discriminate|]. split; [repeat constructor; vm_compute; discriminate|]. repeat split; vm_compute; discriminate.
  - split; [vm_compute; reflexivity|vm_compute; reflexivity].
Qed.
Print Assumptions melded_top_refuted.
Example connected_ex : let o := DefaultOptions in sliceable (InitialLayerThickness (Print o)) (LayerThickness (Print o)) tetra_om tetra_fs /\
  connected tetra_fs /\ (exists f, In f tetra_fs /\ MinZ f <= 200) /\ (exists f, In f tetra_fs /\ 1000 <= MaxZ f) /\
  exists layers, Slice strip_lib o tetra_om = Ok layers /\ List.length layers = 5%nat.
Proof.
  split; [exact (proj1 tetra_sliceable)|]. split; [apply connected_via; vm_compute; reflexivity|]. split; [exists (nth 0 tetra_fs (V3 0 0 0, V3 0 0 0, V3 0 0 0)); split; [left; reflexivity|vm_compute; discriminate]|].
  split; [exists (nth 1 tetra_fs (V3 0 0 0, V3 0 0 0, V3 0 0 0)); split; [right; left; reflexivity|vm_compute; discriminate]|]. eexists. split; [vm_compute; reflexivity|vm_compute; reflexivity].
Qed.

(** *** C74: the built in stages one after the other *)
(** all intermediate results of a run *)
Record finished (lib : clib) (tangent : f64 -> f64) (fuel : nat) (env : files) (o : options) (input text : string) := Finished {
  f_faces : list face; f_model : omodel; f_open : Z; f_sliced : list layer;
  f_walls : list layer; f_solid : list layer; f_filled : list layer; f_brim : list layer; f_detected : list layer; f_layers : list layer;
  f_min : vec3; f_max : vec3; f_renderers : list (Renderer unit);
  f_read : Read env input = Ok f_faces;
  f_optimize : Optimize (MeldDistance (Slicing o)) (Center (Printer o)) f_faces = Ok (f_model, f_open);
  f_slice : Slice lib o f_model = Ok f_sliced;
  f_perimeter : PerimeterModify lib o f_sliced = Ok f_walls;
  f_infill : InfillModify lib o f_walls = Ok f_solid;
  f_internal : InternalInfillModify lib o f_solid = Ok f_filled;
  f_brims : BrimModify lib o f_filled = Ok f_brim;
  f_detect : SupportDetectorModify lib o tangent f_brim = Ok f_detected;
  f_support : SupportGeneratorModify lib o f_detected = Ok f_layers;
  f_bounds : omMin f_model = Ok f_min /\ omMax f_model = Ok f_max;
  f_setup : goslice_renderers lib fuel o (PointXY f_min) (PointXY f_max) = Ok f_renderers;
  f_generate : snd (Generate o f_renderers f_layers tt) = Ok text }.
Lemma andThen_ok {M OM L G A B} (x : list (step M OM L G) * res A) (f : A -> list (step M OM L G) -> list (step M OM L G) * res B) h b :
  andThen x f = (h, Ok b) -> exists a h', x = (h', Ok a) /\ f a h' = (h, Ok b).
Proof. destruct x as [h' [a| | |]]; cbn [andThen]; intros E; try discriminate. eauto. Qed.
Lemma call_ok {M OM L G A} (name : res A -> step M OM L G) f h h' a : call name f h = (h', Ok a) -> f h = Ok a /\ h' = h ++ [name (Ok a)].
Proof. unfold call. intros [= <- E]. rewrite E. auto. Qed.
(** A run ends well exactly if every stage does, each one working on the result of the one before, and the file can be
    written. *)
Theorem built_in_run : forall lib tangent fuel env sys d o input output,
  (exists steps, Process (NewGoSlice lib tangent fuel env sys d o) input output = (steps, Ok tt)) <->
  (exists text, inhabited (finished lib tangent fuel env o input text) /\ snd (Write sys d text (if String.eqb output "" then (input ++ ".gcode")%string else output)) = Ok tt).
Proof.
  intros lib tangent fuel env sys d o input output. split.
  - intros (steps & E). unfold Process in E.
    apply andThen_ok in E. destruct E as (fs & h1 & E1 & E). apply call_ok in E1. destruct E1 as [E1 _]. cbn [h_read NewGoSlice] in E1.
    apply andThen_ok in E. destruct E as (mn0 & h2 & _ & E). apply andThen_ok in E. destruct E as (mx0 & h3 & _ & E).
    apply andThen_ok in E. destruct E as (om & h4 & E4 & E). apply call_ok in E4. destruct E4 as [E4 _]. cbn [h_optimize NewGoSlice] in E4. apply bind_Ok in E4. destruct E4 as ([om' open] & E4 & [= ->]).
    apply andThen_ok in E. destruct E as (l0 & h5 & E5 & E). apply call_ok in E5. destruct E5 as [E5 _]. cbn [h_slice NewGoSlice] in E5.
    apply andThen_ok in E. destruct E as (l6 & h6 & E6 & E). cbn [h_modifiers NewGoSlice modify_all] in E6.
    apply andThen_ok in E6. destruct E6 as (u & ? & _ & E6). apply andThen_ok in E6. destruct E6 as (l1 & ? & M1 & E6). apply call_ok in M1. destruct M1 as [M1 _].
    apply andThen_ok in E6. destruct E6 as (? & ? & _ & E6). apply andThen_ok in E6. destruct E6 as (l2 & ? & M2 & E6). apply call_ok in M2. destruct M2 as [M2 _].
    apply andThen_ok in E6. destruct E6 as (? & ? & _ & E6). apply andThen_ok in E6. destruct E6 as (l3 & ? & M3 & E6). apply call_ok in M3. destruct M3 as [M3 _].
    apply andThen_ok in E6. destruct E6 as (? & ? & _ & E6). apply andThen_ok in E6. destruct E6 as (l4 & ? & M4 & E6). apply call_ok in M4. destruct M4 as [M4 _].
    apply andThen_ok in E6. destruct E6 as (? & ? & _ & E6). apply andThen_ok in E6. destruct E6 as (l5 & ? & M5 & E6). apply call_ok in M5. destruct M5 as [M5 _].
    apply andThen_ok in E6. destruct E6 as (? & ? & _ & E6). apply andThen_ok in E6. destruct E6 as (l6' & ? & M6 & E6). apply call_ok in M6. destruct M6 as [M6 _]. injection E6 as _ ->.
    apply andThen_ok in E. destruct E as (rs & h7 & E7 & E). apply call_ok in E7. destruct E7 as [E7 _]. cbn [h_ginit NewGoSlice] in E7. apply bind_Ok in E7. destruct E7 as (mn & Emn & E7). apply bind_Ok in E7. destruct E7 as (mx & Emx & E7).
    apply andThen_ok in E. destruct E as (text & h8 & E8 & E). apply call_ok in E8. destruct E8 as [E8 _]. cbn [h_generate NewGoSlice] in E8.
    apply call_ok in E. destruct E as [E _]. cbn [h_write NewGoSlice] in E. exists text. split; [|exact E]. constructor.
    exact (Finished lib tangent fuel env o input text fs om open l0 l1 l2 l3 l4 l5 l6 mn mx rs E1 E4 E5 M1 M2 M3 M4 M5 M6 (conj Emn Emx) E7 E8).
  - intros (text & [[fs om open l0 l1 l2 l3 l4 l5 l6 mn mx rs E1 E4 E5 M1 M2 M3 M4 M5 M6 [Emn Emx] E7 E8]] & W).
    assert (Nf : fs <> []). { intros ->. unfold Optimize in E4. cbn in E4. discriminate. }
    destruct fs as [|f fs]; [contradiction|]. assert (B : exists a b, ModelMin (f :: fs) = Ok a /\ ModelMax (f :: fs) = Ok b) by (unfold ModelMin, ModelMax; destruct f as [[p q] r]; cbn; eauto).
    destruct B as (a & b & Ba & Bb). eexists. unfold Process, call. cbn [h_read h_min h_max h_optimize h_slice h_modifiers h_ginit h_generate h_write NewGoSlice modify_all builtin m_init m_modify call].
    rewrite E1. cbn [andThen]. rewrite Ba. cbn [andThen]. rewrite Bb. cbn [andThen]. rewrite E4. cbn [bind andThen]. rewrite E5. cbn [andThen]. unfold call. cbn [andThen builtin m_init m_modify].
    rewrite M1. cbn [andThen]. rewrite M2. cbn [andThen]. rewrite M3. cbn [andThen]. rewrite M4. cbn [andThen]. rewrite M5. cbn [andThen]. rewrite M6. cbn [andThen]. rewrite Emn. cbn [bind]. rewrite Emx. cbn [bind].
    rewrite E7. cbn [andThen]. rewrite E8. cbn [andThen]. rewrite W. reflexivity.
Qed.
Print Assumptions built_in_run.
