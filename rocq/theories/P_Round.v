(** Property C109: what is printed is the body in the file, also with a clipping library that rounds. *)
From Coq Require Import Reals Lra.
From Verif Require Import GoBase GoFloat GoStr M_Micrometer M_Geom2D M_Model M_Slicer M_Clip M_Builder M_Option M_Layer M_Render M_Modifier M_Process M_Flags
  S_Geom S_Model S_Slicer S_Clip S_Area S_Calls S_Machine S_Render S_Modifier S_Process S_Fill S_Flags S_Place S_Print S_Solid S_Body S_Round L_Float L_Model L_Slicer L_SliceLoop L_SliceAll L_Area L_Clip L_Strip L_LineLib L_Modifier L_Infill L_Process L_Ray L_Solid L_Sliver L_Grid L_Round
  P_Model P_Slicer P_Modifier P_Render P_Process P_Pipeline P_Complete P_Flags P_EndToEnd P_Solid P_Print P_Body P_Grid.
Local Open Scope string_scope.
Local Open Scope list_scope.
Local Open Scope Z_scope.

Definition simplified (ps : paths) : paths := map (fun p => Simplify p (-1) (-1)) ps.
Lemma generate_parts_within e lib ps : clips_within e lib -> exists parts, GenerateLayerParts lib ps = Ok (Some parts) /\
  forall p, clear_of e (simplified ps) p -> (covered surrounded parts p <-> parity surrounded (simplified ps) p = true).
Proof.
  intros W. unfold GenerateLayerParts, simplified. set (qs := map _ ps). destruct qs as [|q qs'] eqn:Q.
  - exists []. split; [reflexivity|]. intros x _. split; [intros C; destruct (covered_nil surrounded x C)|discriminate].
  - destruct (W CtUnion (q :: qs') []) as (tree & n & Ex & N & H). cbn [closed_as map] in Ex. rewrite app_nil_r in Ex. unfold closed_as. cbn [map]. rewrite Ex.
    destruct (tree_spec tree) as (parts & Et & _). rewrite Et. cbn [bind]. exists parts. split; [reflexivity|].
    intros p Cp. rewrite app_nil_r in N, H. destruct (tree_parts _ tree parts N Et) as (_ & C). specialize (C (exist _ p Cp)). specialize (H p Cp).
    change (covered (fun c (x : {p : rpt | clear_of e (q :: qs') p}) => surrounded c (proj1_sig x)) parts (exist _ p Cp)) with (covered surrounded parts p) in C. rewrite C.
    rewrite (parity_at (fun x : {p : rpt | clear_of e (q :: qs') p} => proj1_sig x)). cbn [proj1_sig]. rewrite H. cbn [op]. change (parity surrounded [] p) with false. rewrite orb_false_r. reflexivity.
Qed.
(** The slicer with such a library fails only if building the polygons does, and its layers cover what the polygons surround
    an odd number of times. *)
Theorem layer_parts_within : forall e lib o om layers, clips_within e lib -> Slice lib o om = Ok layers -> exists lps, polygons_at o om = Ok lps /\ List.length layers = List.length lps /\
  forall k l, nth_error layers k = Some l -> exists ps, nth_error lps k = Some ps /\
    forall p, clear_of e (simplified ps) p -> (covered surrounded (LayerParts l) p <-> parity surrounded (simplified ps) p = true).
Proof.
  intros e lib o om layers W S. destruct (slice_spec lib o om layers S) as (lps & Ep & F). exists lps. split; [exact Ep|]. split; [symmetry; clear -F; induction F; cbn; congruence|].
  clear S Ep. intros k l El. revert k El. induction F as [|ps l' lps layers (parts & Eg & ->) F IH]; intros [|k] El; try discriminate.
  - injection El as <-. exists ps. split; [reflexivity|]. destruct (generate_parts_within e lib ps W) as (parts' & Eg' & C). rewrite Eg in Eg'. injection Eg' as <-. exact C.
  - exact (IH k El).
Qed.
(** *** C109 *)
(** As C102, for a library that is right only at the points further than e from the contours it is given. *)
Theorem printed_body_within : forall e lib tangent fuel env o input text (r : finished lib tangent fuel env o input text) mn mx k l,
  clips_within e lib ->
  let fs := f_faces _ _ _ _ _ _ _ r in let d := back (plate_offset mn mx (Center (Printer o))) in
  let init := InitialLayerThickness (Print o) in let thick := LayerThickness (Print o) in let meld := MeldDistance (Slicing o) in
  let join := JoinPolygonSnapDistance (Slicing o) in let finish := FinishPolygonSnapDistance (Slicing o) in let center := Center (Printer o) in
  0 <= init <= 2 ^ 30 -> 0 < thick <= 2 ^ 30 -> 2 <= meld <= 2 ^ 30 -> 0 <= join <= 2 ^ 30 -> 0 <= finish <= 2 ^ 30 ->
  Z.abs (vx center) <= 2 ^ 19 -> Z.abs (vy center) <= 2 ^ 19 -> vz center = 0 -> Z.of_nat (List.length fs) < 2 ^ 56 ->
  printable meld init fs -> watertight fs -> tight_box3 (vertices fs) mn mx ->
  nth_error (f_layers _ _ _ _ _ _ _ r) k = Some l -> let z := vz mn + init + Z.of_nat k * thick in
  (forall v, In v (vertices fs) -> vz v <> z) -> edges_apart z (meld + 3) fs ->
  exists lps ps dropped slivers, polygons_at o (f_model _ _ _ _ _ _ _ r) = Ok lps /\ nth_error lps k = Some ps /\
    (forall c, In c dropped -> path_len c <= finish) /\ (forall t, In t slivers -> sliver t) /\
    forall y, away fs z y -> clear_of e (simplified ps) (placed d y) -> (covered surrounded (LayerParts l) (placed d y) <->
      xorb (in_solid fs z y) (parity surrounded (dropped ++ map triangle_of slivers) (placed d y)) = true).
Proof.
  intros e lib tangent fuel env o input text r mn mx k l X fs d init thick meld join finish center Hi Ht Hm Hj Hf Cx Cy Cz N Pr W Tb El z NV Ap.
  destruct (all_keeps _ _ _ _ _ _ _ r) as (names & K). destruct (keeps_nth _ _ _ _ _ K El) as (l0 & El0 & Lp & _). clear K El.
  assert (Eo := f_optimize _ _ _ _ _ _ _ r). assert (Es := f_slice _ _ _ _ _ _ _ r). fold fs meld center in Eo. set (om := f_model _ _ _ _ _ _ _ r) in *. set (open := f_open _ _ _ _ _ _ _ r) in *.
  destruct (printable_sliced meld center init thick fs om open mn mx Hi Ht ltac:(lia) Cx Cy Cz Pr W Tb Eo) as (U & CM & SL & V). fold d in SL, V.
  assert (Dz : vz d = - vz mn) by (unfold d, back, plate_offset; fold center; cbn; lia).
  assert (Ez : S_Slicer.height init thick (Z.of_nat k) = z + vz d) by (unfold S_Slicer.height, z; lia).
  destruct (layer_parts_within e lib o om _ X Es) as (lps & Ep & Len & Pa). destruct (Pa k l0 El0) as (ps & Eps & Cov).
  assert (Hk : 0 <= Z.of_nat k < layer_count init thick om).
  { assert (Lc : 0 <= layer_count init thick om).
    { destruct (Z_lt_le_dec (layer_count init thick om) 0) as [Neg|]; [|assumption]. exfalso. unfold polygons_at in Ep. destruct (proj1 (slicing_panics init thick meld join finish om _ SL) Neg) as (m & Pm). unfold init, thick, meld, join, finish in Pm. congruence. }
    destruct (slicing_layers init thick meld join finish om _ SL Lc V) as (lps' & E' & Ln & _). unfold polygons_at in Ep. unfold init, thick, meld, join, finish in E', Ln. rewrite E' in Ep. injection Ep as ->.
    assert (k < List.length lps)%nat by (apply nth_error_Some; congruence). fold init thick in Ln. lia. }
  assert (NV' : forall f v, In f (moved d fs) -> In v (facePoints f) -> vz v <> S_Slicer.height init thick (Z.of_nat k)).
  { rewrite Ez. intros f v If Iv. unfold moved in If. apply in_map_iff in If. destruct If as (g & <- & Ig). apply move_points in Iv. destruct Iv as (w & Iw & ->). change (vz (shift3 w d)) with (vz w + vz d).
    intros E. apply (NV w); [apply in_flat_map; eauto|lia]. }
  assert (Un : forall sl, layer_of (S_Slicer.height init thick (Z.of_nat k)) (moved d fs) sl -> unambiguous (S_Slicer.height init thick (Z.of_nat k)) (moved d fs) (touch_of om) sl meld).
  { rewrite Ez. intros sl Ll. apply apart_unambiguous; [apply watertight_moved; exact W|lia| |exact Ll]. apply edges_apart_moved. exact Ap. }
  assert (N' : Z.of_nat (List.length (moved d fs)) < 2 ^ 56) by (unfold moved; rewrite map_length; exact N).
  destruct (model_outlines_surround_solid meld center fs om open _ init thick meld join finish (Z.of_nat k) U Eo CM SL Hk V N' Hm Hj Hf NV' Un) as (lps' & outlines & ps' & E' & Ik & Pm & B & In_).
  assert (lps' = lps) by (unfold polygons_at in Ep; fold init thick meld join finish in Ep; congruence). subst lps'.
  assert (ps' = ps). { unfold idx in Ik. destruct (Z.ltb_spec (Z.of_nat k) 0); [lia|]. rewrite Nat2Z.id, Eps in Ik. congruence. } subst ps'.
  destruct (simplify_all ps) as (slivers & Is & Ess).
  { intros p a b Ip Ia Ib. eapply Permutation.Permutation_in in Ip; [|exact Pm]. apply filter_In in Ip. destruct Ip as (Ip & _). pose proof (B p a Ip Ia) as Ba. pose proof (B p b Ip Ib) as Bb.
    clear - Ba Bb. unfold pt_bounded in *. unfold dist2.
    assert (Q : forall u, - 2 ^ 25 <= u <= 2 ^ 25 -> u ^ 2 <= 2 ^ 50) by (intros u Hu; rewrite Z.pow_2_r; change (2 ^ 50) with (2 ^ 25 * 2 ^ 25); set (m := 2 ^ 25) in *; clearbody m; nia).
    pose proof (Q (px b - px a) ltac:(lia)). pose proof (Q (py b - py a) ltac:(lia)). lia. }
  exists lps, ps, (filter (fun c => negb (finish <? path_len c)) outlines), slivers. split; [exact Ep|]. split; [exact Eps|]. split; [|split; [exact Is|]].
  - intros c Ic. apply filter_In in Ic. destruct Ic as (_ & Ic). destruct (Z.ltb_spec finish (path_len c)); [discriminate|assumption].
  - fold d in SL. change (back (plate_offset mn mx center)) with d in In_. intros y Aw Cl. assert (A : away (moved d fs) (S_Slicer.height init thick (Z.of_nat k)) (placed d y)) by (rewrite Ez; apply away_move; exact Aw).
    replace (in_solid fs z y) with (in_solid (moved d fs) (S_Slicer.height init thick (Z.of_nat k)) (placed d y)) by (rewrite Ez; apply in_solid_move).
    unfold LayerParts in *. rewrite Lp, (Cov _ Cl). unfold simplified. rewrite Ess, (parity_perm _ _ _ _ Pm), parity_app, <- (In_ _ A), (parity_filter surrounded (fun c => finish <? path_len c) outlines).
    destruct (parity surrounded (filter (fun c => finish <? path_len c) outlines) (placed d y)), (parity surrounded (filter (fun c => negb (finish <? path_len c)) outlines) (placed d y)), (parity surrounded (map triangle_of slivers) (placed d y)); cbn; tauto.
Qed.
Print Assumptions layer_parts_within.
Print Assumptions printed_body_within.
(** The library of the plane is right at all real points further than the diagonal of 1 um from its input. *)
Theorem plane_within : clips_within (sqrt 2) plane_lib.
Proof. apply grid_within. Qed.
Print Assumptions plane_within.

(** the tetrahedron of 1 mm and the library of the plane, at the point 0.1 mm from two of the sides of the triangle that the
    tetrahedron has 0.4 mm above the plate *)
Lemma spot_clear : clear_of (sqrt 2) [[Pt 99500 99500; Pt 100100 99500; Pt 99500 100100]] (placed (V3 99500 99500 0) (100, 100)%R).
Proof.
  intros c a b t [<-|[]] I Ht. replace (sqrt 2 ^ 2)%R with 2%R by (simpl; rewrite Rmult_1_r, sqrt_sqrt; lra).
  unfold sides in I. cbn [app firstn between In] in I. destruct I as [I|[I|[I|[]]]]; injection I as <- <-; unfold exactly, placed; cbn [fst snd px py vx vy]; pose proof (pow2_ge_0 (t - / 2)%R); nra.
Qed.
Example printed_body_within_ex : forall fuel, 2 ^ 24 < Z.of_nat fuel ->
  exists text (r : finished plane_lib (fun _ => f64_of_Z 1) fuel corner_file DefaultOptions "part.stl" text) l dropped slivers,
    nth_error (f_layers _ _ _ _ _ _ _ r) 1 = Some l /\ (forall c, In c dropped -> path_len c <= 1000) /\ (forall t, In t slivers -> sliver t) /\
    let spot := placed (V3 99500 99500 0) (100, 100)%R in
    (covered surrounded (LayerParts l) spot <-> xorb true (parity surrounded (dropped ++ map triangle_of slivers) spot) = true).
Proof.
  intros fuel Fuel.
  destruct (model_printed _ in_cells plane_lib (fun _ => f64_of_Z 1) fuel corner_file corner_os (fun _ => None) DefaultOptions "part.stl" "" corner_fs (V3 0 0 0) (V3 1000 1000 1000)
    (proj1 plane_library) (proj1 (proj2 plane_library)) Fuel default_workable) as (_ & text & n & ks & [r] & _);
    [vm_compute; intuition discriminate..|repeat constructor|repeat constructor|vm_compute; reflexivity|apply corner_printable; left; reflexivity|apply corner_box; left; reflexivity|reflexivity|intros k; split; [reflexivity|discriminate]|].
  exists text, r. assert (Er := f_read _ _ _ _ _ _ _ r). assert (Er' : Read corner_file "part.stl" = Ok corner_fs) by (vm_compute; reflexivity). assert (Ff : f_faces _ _ _ _ _ _ _ r = corner_fs) by congruence. clear Er Er'.
  assert (Eo := f_optimize _ _ _ _ _ _ _ r). assert (Es := f_slice _ _ _ _ _ _ _ r). rewrite Ff in Eo. destruct (all_keeps _ _ _ _ _ _ _ r) as (names & K).
  assert (W := plane_within).
  assert (Ep : exists lps, polygons_at DefaultOptions (f_model _ _ _ _ _ _ _ r) = Ok lps /\ nth_error lps 1 = Some [[Pt 99500 99500; Pt 100100 99500; Pt 99500 100100; Pt 99500 99500]]).
  { set (om := f_model _ _ _ _ _ _ _ r) in *. set (open := f_open _ _ _ _ _ _ _ r) in *. clearbody om open.
    assert (E' : match Optimize 30 (V3 100000 100000 0) corner_fs with Ok (om, _) => match polygons_at DefaultOptions om with Ok lps => nth_error lps 1 | _ => None end | _ => None end = Some
      [[Pt 99500 99500; Pt 100100 99500; Pt 99500 100100; Pt 99500 99500]]) by (vm_compute; reflexivity).
    change (MeldDistance (Slicing DefaultOptions)) with 30 in Eo. change (Center (Printer DefaultOptions)) with (V3 100000 100000 0) in Eo. rewrite Eo in E'.
    destruct (polygons_at DefaultOptions om) as [lps| | |]; [exists lps; split; [reflexivity|exact E']|discriminate..]. }
  destruct Ep as (lps & Ep & E1). destruct (layer_parts_within _ _ _ _ _ W Es) as (lps' & Ep' & Len & _). rewrite Ep in Ep'. injection Ep' as <-.
  destruct (nth_error (f_sliced _ _ _ _ _ _ _ r) 1) as [l0|] eqn:E0. 2: { apply nth_error_None in E0. rewrite Len in E0. apply nth_error_None in E0. congruence. }
  destruct (keeps_nth_l _ _ _ _ _ K E0) as (l & El & _).
  destruct (printed_body_within (sqrt 2) plane_lib (fun _ => f64_of_Z 1) fuel corner_file DefaultOptions "part.stl" text r (V3 0 0 0) (V3 1000 1000 1000) 1 l W) as (lps' & ps & dropped & slivers & Ep' & Eps & Hd & Hs & Hc).
  1-8: vm_compute; intuition discriminate.
  - rewrite Ff. vm_compute. reflexivity.
  - rewrite Ff. apply corner_printable. left. reflexivity.
  - rewrite Ff. exact corner_watertight.
  - rewrite Ff. apply corner_box. left. reflexivity.
  - exact El.
  - rewrite Ff. intros v Iv. repeat (destruct Iv as [<-|Iv]; [vm_compute; discriminate|]). destruct Iv.
  - rewrite Ff. exact corner_apart.
  - rewrite Ep in Ep'. injection Ep' as <-. rewrite E1 in Eps. injection Eps as <-.
    exists l, dropped, slivers. split; [exact El|]. split; [exact Hd|]. split; [exact Hs|]. specialize (Hc (100, 100)%R). rewrite Ff in Hc.
    change (vz (V3 0 0 0) + InitialLayerThickness (Print DefaultOptions) + Z.of_nat 1 * LayerThickness (Print DefaultOptions)) with 400 in Hc. rewrite corner_spot_inside in Hc.
    change (back (plate_offset (V3 0 0 0) (V3 1000 1000 1000) (Center (Printer DefaultOptions)))) with (V3 99500 99500 0) in Hc. apply Hc; [exact corner_spot_away|].
    change (simplified [[Pt 99500 99500; Pt 100100 99500; Pt 99500 100100; Pt 99500 99500]]) with [[Pt 99500 99500; Pt 100100 99500; Pt 99500 100100]]. exact spot_clear.
Qed.
