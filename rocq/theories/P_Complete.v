(** Properties C76 and C77: filling never fails, and when a whole run succeeds. *)
From Coq Require Import Reals.
From Verif Require Import GoBase GoFloat GoStr M_Micrometer M_Geom2D M_Model M_Slicer M_Clip M_Builder M_Option M_Layer M_Render M_Modifier M_Process
  S_Geom S_Model S_Slicer S_Clip S_Area S_Calls S_Render S_Modifier S_Process S_Fill L_Float L_Model L_Slicer L_SliceLoop L_SliceAll L_Area L_Clip L_Strip L_LineLib L_Fill L_Process L_Complete
  P_Model P_Slicer P_Modifier P_Support P_Render P_Infill P_Process P_Pipeline.
Local Open Scope string_scope.
Local Open Scope list_scope.
Local Open Scope Z_scope.

(** *** C76 *)
(** Filling any part with lines at a positive distance succeeds, and gives lines of two points. *)
Theorem fill_succeeds : forall lib fuel p nr q, capable lib -> Z.abs (degree p) <= 2 ^ 52 -> pt_bounded (2 ^ 22) (lmin p) -> pt_bounded (2 ^ 22) (lmax p) ->
  0 < lineDistance p <= 2 ^ 28 -> 0 <= lineWidth p <= 2 ^ 28 -> 2 ^ 24 < Z.of_nat fuel * lineDistance p ->
  exists ls, Fill lib fuel p nr q = Ok ls /\ Forall (fun l => List.length l = 2%nat) ls.
Proof. intros lib fuel p nr q C. exact (fill_total lib C fuel p nr q). Qed.
Print Assumptions fill_succeeds.

(** *** C77 *)
(** settings a run works with *)
Record workable (o : options) : Prop := Workable {
  w_width : 0 < ExtrusionWidth (Printer o) <= 10000;
  w_center : vz (Center (Printer o)) <= 0;
  w_insets : 1 <= InsetCount (Print o);
  w_overlap : amount_ok (ExtrusionWidth (Printer o)) (add64 (InfillOverlapPercent (Print o)) (AdditionalInternalInfillOverlapPercent (Print o)));
  w_infill : 0 <= InfillPercent (Print o) <= 100;
  w_degree : Z.abs (InfillRotationDegree (Print o)) <= 2 ^ 52;
  w_spacing : 0 < ToMicrometer (s_PatternSpacing (Support (Print o))) <= 2 ^ 20;
  w_gaps : 0 <= s_TopGapLayers (Support (Print o));
  w_interface : 0 <= s_InterfaceLayers (Support (Print o));
  w_init : Z.abs (InitialLayerThickness (Print o)) <= 2 ^ 30;
  w_thick : 0 < LayerThickness (Print o) <= 2 ^ 30 }.
Example default_workable : workable DefaultOptions.
Proof.
  split; vm_compute; intuition discriminate.
Qed.
Section Plan.
Variables (lib : clib) (o : options) (fuel : nat) (mn mx : pt).
Hypothesis Cap : capable lib.
Hypothesis W : workable o.
Hypothesis Bn : pt_bounded (2 ^ 21) mn.
Hypothesis Bx : pt_bounded (2 ^ 21) mx.
Hypothesis Fuel : 2 ^ 24 < Z.of_nat fuel.
Lemma infill_plan_total pattern name comments nr l z : (exists ps, PartsAttribute l name = Ok ps) ->
  (forall p, pattern = Some p -> Z.abs (degree p) <= 2 ^ 52 /\ pt_bounded (2 ^ 22) (lmin p) /\ pt_bounded (2 ^ 22) (lmax p) /\ 0 < lineDistance p <= 2 ^ 28 /\ 0 <= lineWidth p <= 2 ^ 28) ->
  exists cs, infill_plan lib fuel pattern name comments nr l z = Ok cs.
Proof.
  intros (ps & Ep) H. unfold infill_plan. destruct pattern as [p|]; [|eauto]. destruct (H p eq_refl) as (H1 & H2 & H3 & H4 & H5). rewrite Ep. cbn [bind].
  destruct (map_res_total (Fill lib fuel p nr) (fun _ => True) ps) as (filled & -> & _); [|cbn [bind]; eauto].
  intros q _. destruct (fill_total lib Cap fuel p nr q H1 H2 H3 H4 H5) as (ls & -> & _); [nia|eauto].
Qed.
Lemma enlarged_box : let '(a, b) := enlarge (ToMicrometer (s_PatternSpacing (Support (Print o)))) mn mx in pt_bounded (2 ^ 22) a /\ pt_bounded (2 ^ 22) b.
Proof.
  pose proof (w_spacing o W) as S. unfold enlarge. set (s := ToMicrometer _) in *. clearbody s. destruct Bn as (N1 & N2), Bx as (X1 & X2). unfold pt_bounded. cbn [px py]. unfold sub64, add64. rewrite !wrap_id by (unfold int64; lia). lia.
Qed.
Lemma infill_pattern_ok : exists inf, infillPattern o mn mx = Ok inf /\
  (forall p, inf = Some p -> Z.abs (degree p) <= 2 ^ 52 /\ pt_bounded (2 ^ 22) (lmin p) /\ pt_bounded (2 ^ 22) (lmax p) /\ 0 < lineDistance p <= 2 ^ 28 /\ 0 <= lineWidth p <= 2 ^ 28).
Proof.
  unfold infillPattern. pose proof (w_infill o W) as I. pose proof (w_width o W) as Wd. destruct (Z.eqb_spec (InfillPercent (Print o)) 0) as [Z0|N]; cbn [negb]; [exists None; split; [reflexivity|discriminate]|].
  rewrite infill_distance by lia. cbn [bind]. eexists. split; [reflexivity|]. intros p [= <-]. cbn [degree lmin lmax lineDistance lineWidth].
  split; [apply (w_degree o W)|]. unfold pt_bounded in *. repeat (split; [lia|]). split; [|lia]. unfold lines_per_cm.
  assert (L : 1 <= 10000 / ExtrusionWidth (Printer o) <= 10000) by (split; [apply Z.div_le_lower_bound; lia|apply Z.div_le_upper_bound; nia]). set (w := 10000 / ExtrusionWidth (Printer o)) in *. clearbody w.
  split; [enough (1 <= 1000000 / (w * InfillPercent (Print o))) by lia; apply Z.div_le_lower_bound; nia|apply Z.div_le_upper_bound; nia].
Qed.
Lemma plan_total inf nr l z : infillPattern o mn mx = Ok inf -> readable l -> exists p, plan_layer lib o fuel mn mx inf nr l z = Ok p.
Proof.
  intros Ei ((pe & Ep) & (br & Eb) & (fs & Ef) & R). destruct infill_pattern_ok as (inf' & Ei' & Pi). rewrite Ei in Ei'. injection Ei' as <-. unfold plan_layer.
  assert (S : exists s, skirt_plan lib o nr l z = Ok s).
  { unfold skirt_plan. destruct (_ || _); [eauto|]. rewrite Ep. cbn [bind]. rewrite Ef. cbn [bind].
    destruct fs as [|f0 fs]; [destruct pe as [|p0 pe]; [eauto|]|]; cbv zeta;
      match goal with |- context [Inset lib ?a ?b ?c ?d] => destruct (L_Infill.inset_total lib a b c d) as (x & -> & _) end; cbn [bind]; eauto. }
  destruct S as (s & ->). cbn [bind]. unfold brim_plan. rewrite Eb. cbn [bind].
  assert (B : exists b, match br with [] => Ok [] | _ => Ok (CComment "TYPE:SKIRT" :: map (fun p => CPolygon None (outline p) z false) (ToOneDimension br)) end = Ok b) by (destruct br; eauto). destruct B as (b & ->). cbn [bind].
  unfold perimeter_plan. rewrite Ep. cbn [bind]. pose proof enlarged_box as Bx'. pose proof (w_width o W) as Wd. pose proof (w_spacing o W) as Sp. pose proof (w_degree o W) as Dg.
  assert (Tb : forall p, Some (topBottomPattern o mn mx) = Some p -> Z.abs (degree p) <= 2 ^ 52 /\ pt_bounded (2 ^ 22) (lmin p) /\ pt_bounded (2 ^ 22) (lmax p) /\ 0 < lineDistance p <= 2 ^ 28 /\ 0 <= lineWidth p <= 2 ^ 28).
  { intros p [= <-]. unfold topBottomPattern. cbn [degree lmin lmax lineDistance lineWidth]. unfold pt_bounded in *. repeat (split; [lia|]). lia. }
  assert (Su : forall p, Some (supportPattern o mn mx) = Some p -> Z.abs (degree p) <= 2 ^ 52 /\ pt_bounded (2 ^ 22) (lmin p) /\ pt_bounded (2 ^ 22) (lmax p) /\ 0 < lineDistance p <= 2 ^ 28 /\ 0 <= lineWidth p <= 2 ^ 28).
  { intros p [= <-]. unfold supportPattern. destruct (enlarge _ mn mx) as [a c]. destruct Bx'. cbn [degree lmin lmax lineDistance lineWidth]. split; [lia|]. split; [assumption|]. split; [assumption|]. lia. }
  assert (In_ : forall p, Some (interfacePattern o mn mx) = Some p -> Z.abs (degree p) <= 2 ^ 52 /\ pt_bounded (2 ^ 22) (lmin p) /\ pt_bounded (2 ^ 22) (lmax p) /\ 0 < lineDistance p <= 2 ^ 28 /\ 0 <= lineWidth p <= 2 ^ 28).
  { intros p [= <-]. unfold interfacePattern. destruct (enlarge _ mn mx) as [a c]. destruct Bx'. cbn [degree lmin lmax lineDistance lineWidth]. split; [lia|]. split; [assumption|]. split; [assumption|]. lia. }
  unfold fill_plan.
  destruct (infill_plan_total _ "support" ["TYPE:SUPPORT"] nr l z (R "support" ltac:(cbn; tauto)) Su) as (c1 & ->). cbn [bind].
  destruct (infill_plan_total _ "supportInterface" ["TYPE:SUPPORT"] nr l z (R "supportInterface" ltac:(cbn; tauto)) In_) as (c2 & ->). cbn [bind].
  destruct (infill_plan_total _ "bottom" ["TYPE:FILL"; "BOTTOM-FILL"] nr l z (R "bottom" ltac:(cbn; tauto)) Tb) as (c3 & ->). cbn [bind].
  destruct (infill_plan_total _ "top" ["TYPE:FILL"; "TOP-FILL"] nr l z (R "top" ltac:(cbn; tauto)) Tb) as (c4 & ->). cbn [bind].
  destruct (infill_plan_total _ "infill" ["TYPE:FILL"; "INTERNAL-FILL"] nr l z (R "infill" ltac:(cbn; tauto)) Pi) as (c5 & ->). cbn [bind]. eauto.
Qed.
Lemma planned_total inf layers : infillPattern o mn mx = Ok inf -> (forall l, In l layers -> readable l) -> exists ps, planned lib o fuel mn mx inf layers ps.
Proof.
  intros Ei R. unfold planned. set (h := S_Render.height o). clearbody h.
  enough (G : forall n, exists ps, List.length ps = List.length layers /\ forall nr l p, nth_error layers nr = Some l -> nth_error ps nr = Some p -> plan_layer lib o fuel mn mx inf (Z.of_nat (n + nr)) l (h (n + nr)%nat) = Ok p) by exact (G O).
  induction layers as [|l layers IH]; intros n; [exists []; split; [reflexivity|intros [|nr]; discriminate]|].
  destruct (plan_total inf (Z.of_nat n) l (h n) Ei (R l (or_introl eq_refl))) as (p & Ep). destruct (IH (fun l' Il => R l' (or_intror Il)) (S n)) as (ps & L & H).
  exists (p :: ps). split; [cbn; congruence|]. intros [|nr] l' p' El Ep'; cbn [nth_error] in *.
  - injection El as <-. injection Ep' as <-. rewrite Nat.add_0_r. exact Ep.
  - rewrite Nat.add_succ_r. exact (H nr l' p' El Ep').
Qed.
End Plan.

(** A model that after optimizing lies within 2 m of the origin and has a face at the height of every layer is turned into G-code and written, with workable settings, an exact and capable clipping library and a file system that
    takes the file. *)
Theorem met_run_succeeds : forall (P : Type) (inside : path -> P -> bool) lib tangent fuel env sys d o input output fs om open ofs,
  exact inside lib -> capable lib -> 2 ^ 24 < Z.of_nat fuel -> workable o ->
  Read env input = Ok fs -> usable (MeldDistance (Slicing o)) (Center (Printer o)) fs ->
  Optimize (MeldDistance (Slicing o)) (Center (Printer o)) fs = Ok (om, open) ->
  (forall p, In p (om_points om) -> vec_bounded (2 ^ 21) (opos p)) ->
  omFaces om (om_faces om) = Ok ofs ->
  let init := InitialLayerThickness (Print o) in let thick := LayerThickness (Print o) in
  1 <= layer_count init thick om -> met init thick (layer_count init thick om) ofs ->
  create_error sys = None -> (forall k, snd (write_answer sys k) = None /\ fst (write_answer sys k) <> O) ->
  exists steps, Process (NewGoSlice lib tangent fuel env sys d o) input output = (steps, Ok tt).
Proof.
  intros P inside lib tangent fuel env sys d o input output fs om open ofs E Cap Fuel W Er Us Eo Bp Ef init thick Lc Mt Ce Wa.
  apply built_in_run. 
  destruct (optimized_sliceable _ _ _ _ _ init thick Us Eo (w_center o W)) as (ofs' & Sl); [intros p Ip; destruct (Bp p Ip) as (A & B & C); repeat split; lia|apply (w_init o W)|apply (w_thick o W)|].
  assert (ofs' = ofs) by (destruct Sl as (_ & _ & _ & Ef' & _); congruence). subst ofs'.
  destruct (met_model_sliced P inside lib o om ofs E Sl ltac:(fold init thick; lia) Mt) as (layers & Es & Ln).
  destruct (layer_parts_exact inside lib E o om layers Es) as (lps & _ & _ & Lp).
  destruct (modifiers_succeed inside lib o tangent layers E) as (l1 & l2 & l3 & l4 & l5 & l6 & H1 & H2 & H3 & H4 & H5 & H6 & R); try apply W.
  { apply Forall_forall. intros l Il name. apply In_nth_error in Il. destruct Il as (k & Ek). destruct (Lp k l Ek) as (_ & _ & _ & N & _). unfold attribute. rewrite N. reflexivity. }
  { intros ->. cbn in Ln. fold init thick in Ln. lia. }
  assert (No : ofs <> []) by (destruct (Mt 0 ltac:(lia)) as (f & If & _); intros ->; destruct If).
  destruct (model_bounds ofs No) as (mn & mx & En & Ex & T).
  assert (Bv : forall v, In v (vertices ofs) -> vec_bounded (2 ^ 21) v).
  { intros v Iv. unfold vertices in Iv. apply in_flat_map in Iv. destruct Iv as (f & If & Iv). pose proof (omFaces_forall2 _ _ _ Ef) as F2. apply In_nth_error in If. destruct If as (k & Ek).
    destruct (L_Infill.f2_nth_r _ _ _ _ _ F2 Ek) as (of_ & _ & Ho). unfold oPoints in Ho. destruct (oi of_) as [[a b] c]. apply bind_Ok in Ho. destruct Ho as (p & Ep & Ho). apply bind_Ok in Ho. destruct Ho as (q & Eq & Ho). apply bind_Ok in Ho. destruct Ho as (r & Er' & Ho). injection Ho as <-.
    apply idx_In in Ep, Eq, Er'. destruct Iv as [<-|[<-|[<-|[]]]]; auto. }
  assert (Bm : pt_bounded (2 ^ 21) (PointXY mn) /\ pt_bounded (2 ^ 21) (PointXY mx)).
  { destruct T as (_ & (a & Ia & Ea) & (b & Ib & Eb) & (c & Ic & Ec) & (e & Ie & Ee) & _). unfold pt_bounded, PointXY. cbn [px py]. rewrite <- Ea, <- Eb, <- Ec, <- Ee.
    destruct (Bv a Ia) as (? & _), (Bv b Ib) as (? & _), (Bv c Ic) as (_ & ? & _), (Bv e Ie) as (_ & ? & _). auto. }
  destruct Bm as (Bn & Bx). destruct (infill_pattern_ok o fuel (PointXY mn) (PointXY mx) W Bn Bx Fuel) as (inf & Ei & _).
  destruct (planned_total lib o fuel (PointXY mn) (PointXY mx) Cap W Bn Bx Fuel inf l6 Ei R) as (ps & Pl).
  assert (Rs : exists rs, goslice_renderers lib fuel o (PointXY mn) (PointXY mx) = Ok rs) by (unfold goslice_renderers; rewrite Ei; cbn [bind]; eauto). destruct Rs as (rs & Rs).
  destruct (print_succeeds o lib fuel (PointXY mn) (PointXY mx) rs l6 inf ps Rs Ei Pl (crossing_total lib Cap)) as (text & Et).
  exists text. split; [|apply write_works; assumption]. constructor.
  refine (Finished lib tangent fuel env o input text fs om open layers l1 l2 l3 l4 l5 l6 mn mx rs Er Eo Es H1 H2 H3 H4 H5 H6 _ Rs Et). unfold omMin, omMax. rewrite Ef. cbn [bind]. auto.
Qed.
Print Assumptions met_run_succeeds.
(** A model that is connected after optimizing, lies within 2 m of the origin and reaches from the first layer to the last one
    is turned into G-code and written, with workable settings, an exact and capable clipping library and a file system that
    takes the file. *)
Theorem run_succeeds : forall (P : Type) (inside : path -> P -> bool) lib tangent fuel env sys d o input output fs om open ofs,
  exact inside lib -> capable lib -> 2 ^ 24 < Z.of_nat fuel -> workable o ->
  Read env input = Ok fs -> usable (MeldDistance (Slicing o)) (Center (Printer o)) fs ->
  Optimize (MeldDistance (Slicing o)) (Center (Printer o)) fs = Ok (om, open) ->
  (forall p, In p (om_points om) -> vec_bounded (2 ^ 21) (opos p)) ->
  omFaces om (om_faces om) = Ok ofs -> connected ofs ->
  let init := InitialLayerThickness (Print o) in let thick := LayerThickness (Print o) in
  1 <= layer_count init thick om -> (exists f, In f ofs /\ MinZ f <= init) -> (exists f, In f ofs /\ S_Slicer.height init thick (layer_count init thick om - 1) <= MaxZ f) ->
  create_error sys = None -> (forall k, snd (write_answer sys k) = None /\ fst (write_answer sys k) <> O) ->
  exists steps, Process (NewGoSlice lib tangent fuel env sys d o) input output = (steps, Ok tt).
Proof.
  intros P inside lib tangent fuel env sys d o input output fs om open ofs E Cap Fuel W Er Us Eo Bp Ef Cn init thick Lc Lo Hi Ce Wa.
  apply (met_run_succeeds P inside lib tangent fuel env sys d o input output fs om open ofs); try assumption. apply connected_met; [apply (w_thick o W)|assumption..].
Qed.
Print Assumptions run_succeeds.

(** a run with the default options: a tetrahedron of 1 mm *)
Definition corner_file : files := Files (fun _ => StatOk)
  (fun _ => (let n := f32_of_Z 0 in let i := f32_of_Z 1 in let o := (n, n, n) in let x := (i, n, n) in let y := (n, i, n) in let z := (n, n, i) in
    [(o, y, x); (o, x, z); (o, z, y); (x, y, z)], None)).
Definition corner_fs : list face := Eval vm_compute in match Read corner_file "" with Ok fs => fs | _ => [] end.
Definition corner_om : omodel := Eval vm_compute in match Optimize 30 (V3 100000 100000 0) corner_fs with Ok (om, _) => om | _ => OModel [] [] (V3 0 0 0) end.
Definition corner_ofs : list face := Eval vm_compute in match omFaces corner_om (om_faces corner_om) with Ok fs => fs | _ => [] end.
Example run_succeeds_ex : exists steps, Process (NewGoSlice line_lib (fun _ => f64_of_Z 1) (Z.to_nat (2 ^ 24 + 1)) corner_file (OS None (fun _ => (3%nat, None))) (fun _ => None) DefaultOptions) "part.stl" "" = (steps, Ok tt).
Proof.
  apply (run_succeeds Z in_strips) with (fs := corner_fs) (om := corner_om) (open := 0) (ofs := corner_ofs).
  - exact line_exact.
  - exact line_capable.
  - rewrite Z2Nat.id; [reflexivity|vm_compute; discriminate].
  - exact default_workable.
  - vm_compute. reflexivity.
  - split; [vm_compute; intuition discriminate|]. split; [repeat constructor; vm_compute; discriminate|]. repeat split; vm_compute; discriminate.
  - vm_compute. reflexivity.
  - intros p Ip. repeat (destruct Ip as [<-|Ip]; [repeat split; vm_compute; discriminate|]). destruct Ip.
  - vm_compute. reflexivity.
  - apply connected_via. vm_compute. reflexivity.
  - vm_compute. discriminate.
  - exists (nth 0 corner_ofs (V3 0 0 0, V3 0 0 0, V3 0 0 0)). split; [left; reflexivity|vm_compute; discriminate].
  - exists (nth 1 corner_ofs (V3 0 0 0, V3 0 0 0, V3 0 0 0)). split; [right; left; reflexivity|vm_compute; discriminate].
  - reflexivity.
  - intros k. split; [reflexivity|discriminate].
Qed.
