(** The library of L_Grid.v with the true sine and cosine meets everything the theorems ask of a library, for the whole
    plane; what goslice prints with it. *)
From Coq Require Import Reals Lra.
From Flocq Require Import Core BinarySingleNaN.
From Verif Require Import GoBase GoFloat GoStr M_Micrometer M_Geom2D M_Model M_Slicer M_Clip M_Builder M_Option M_Layer M_Render M_Modifier M_Process M_Flags
  S_Geom S_Model S_Slicer S_Clip S_Area S_Calls S_Machine S_Render S_Modifier S_Process S_Fill S_Flags S_Place S_Print S_Solid S_Body S_Lines S_Brim S_Rotate L_Float L_Model L_Slicer L_SliceLoop L_SliceAll L_Area L_Clip L_Strip L_LineLib L_Modifier L_Infill L_Process L_Ray L_Solid L_Sliver L_Grid
  P_Model P_Slicer P_Modifier P_Render P_Process P_Pipeline P_Complete P_Flags P_EndToEnd P_Solid P_Rotate P_Print P_Body.
Local Open Scope string_scope.
Local Open Scope list_scope.
Local Open Scope Z_scope.

Definition plane_lib : clib := grid_lib (fun a => f64_of_R (sin (SF2R radix2 a))) (fun a => f64_of_R (cos (SF2R radix2 a))).
Theorem plane_library : exact in_cells plane_lib /\ capable plane_lib /\ accurate plane_lib /\ straight on_line /\ cuts_exactly in_cells on_line plane_lib /\
  (forall strictly, outermost in_cells strictly plane_lib) /\ hulls in_cells plane_lib /\ grows_evenly in_cells plane_lib.
Proof.
  split; [apply grid_exact|]. split; [apply grid_capable; exact (turns turning_lib turning_capable)|]. split; [exact turning_accurate|]. split; [exact grid_straight|]. split; [apply grid_cuts|].
  split; [intros strictly; apply grid_outermost|]. split; [apply grid_hulls|apply grid_grows].
Qed.
Print Assumptions plane_library.
Lemma plane_exact : exact (fun c x => surrounded c (center x)) plane_lib.
Proof. exact (proj1 plane_library). Qed.
Lemma corner_center u s i j : 0 <= s -> in_cells [Pt u u; Pt (u + s) u; Pt u (u + s)] (i, j) = true <-> u <= i /\ u <= j /\ i + j + 1 < u + u + s.
Proof.
  intros S. unfold in_cells, surrounded. cbn [app firstn map crossings]. unfold exactly. cbn [px py]. rewrite crossed_level, crossed_upright. unfold crossed. rewrite !lower_center.
  destruct (Z.leb_spec u j) as [A|A], (Z.leb_spec (u + s) j) as [B|B]; cbn [xorb andb]; [split; [discriminate|lia]| |lia|split; [discriminate|lia]].
  assert (Q : (if Rlt_dec (fst (center (i, j))) (IZR (u + s) + (snd (center (i, j)) - IZR u) / (IZR (u + s) - IZR u) * (IZR u - IZR (u + s)))%R then true else false) = (i + j + 1 <? u + u + s)).
  { unfold center. cbn [fst snd]. rewrite plus_IZR. assert (P : (IZR s <> 0)%R) by (apply IZR_neq; lia).
    replace (IZR u + IZR s + (IZR j + / 2 - IZR u) / (IZR u + IZR s - IZR u) * (IZR u - (IZR u + IZR s)))%R with (IZR u + IZR s - (IZR j + / 2 - IZR u))%R by (field; lra).
    destruct (Rlt_dec _ _) as [L|L], (Z.ltb_spec (i + j + 1) (u + u + s)) as [H|H]; try reflexivity; exfalso.
    - apply IZR_le in H. rewrite !plus_IZR in H. lra.
    - apply IZR_lt in H. rewrite !plus_IZR in H. lra. }
  cbn [fst snd] in *. rewrite Q. destruct (Z.ltb_spec (i + j + 1) (u + u + s)), (Z.ltb_spec i u); cbn; split; intros; try discriminate; try reflexivity; lia.
Qed.
(** goslice prints the tetrahedron of 1 mm: its second layer covers exactly the squares whose centre is in the triangle
    that the tetrahedron has 0.4 mm above the plate *)
Example plane_prints : forall fuel, 2 ^ 24 < Z.of_nat fuel ->
  exists text (r : finished plane_lib (fun _ => f64_of_Z 1) fuel corner_file DefaultOptions "part.stl" text) l,
    nth_error (f_layers _ _ _ _ _ _ _ r) 1 = Some l /\
    forall i j, covered in_cells (LayerParts l) (i, j) <-> 99500 <= i /\ 99500 <= j /\ i + j + 1 < 199600.
Proof.
  intros fuel Fuel.
  destruct (model_printed _ in_cells plane_lib (fun _ => f64_of_Z 1) fuel corner_file corner_os (fun _ => None) DefaultOptions "part.stl" "" corner_fs (V3 0 0 0) (V3 1000 1000 1000)
    (proj1 plane_library) (proj1 (proj2 plane_library)) Fuel default_workable) as (_ & text & n & ks & [r] & _);
    [vm_compute; intuition discriminate..|repeat constructor|repeat constructor|vm_compute; reflexivity|apply corner_printable; left; reflexivity|apply corner_box; left; reflexivity|reflexivity|intros k; split; [reflexivity|discriminate]|].
  exists text, r. assert (Er := f_read _ _ _ _ _ _ _ r). assert (Er' : Read corner_file "part.stl" = Ok corner_fs) by (vm_compute; reflexivity). assert (Ff : f_faces _ _ _ _ _ _ _ r = corner_fs) by congruence. clear Er Er'.
  assert (Eo := f_optimize _ _ _ _ _ _ _ r). assert (Es := f_slice _ _ _ _ _ _ _ r). rewrite Ff in Eo. destruct (all_keeps _ _ _ _ _ _ _ r) as (names & K).
  set (om := f_model _ _ _ _ _ _ _ r) in *. set (open := f_open _ _ _ _ _ _ _ r) in *. clearbody om open.
  assert (Ep : exists lps, polygons_at DefaultOptions om = Ok lps /\ nth_error lps 1 = Some [[Pt 99500 99500; Pt 100100 99500; Pt 99500 100100; Pt 99500 99500]]).
  { assert (E' : match Optimize 30 (V3 100000 100000 0) corner_fs with Ok (om, _) => match polygons_at DefaultOptions om with Ok lps => nth_error lps 1 | _ => None end | _ => None end = Some
      [[Pt 99500 99500; Pt 100100 99500; Pt 99500 100100; Pt 99500 99500]]) by (vm_compute; reflexivity).
    change (MeldDistance (Slicing DefaultOptions)) with 30 in Eo. change (Center (Printer DefaultOptions)) with (V3 100000 100000 0) in Eo. rewrite Eo in E'.
    destruct (polygons_at DefaultOptions om) as [lps| | |]; [exists lps; split; [reflexivity|exact E']|discriminate..]. }
  destruct Ep as (lps & Ep & E1). destruct (layer_parts_exact _ _ plane_exact _ _ _ Es) as (lps' & Ep' & Len & Lx). rewrite Ep in Ep'. injection Ep' as <-.
  destruct (nth_error (f_sliced _ _ _ _ _ _ _ r) 1) as [l0|] eqn:E0. 2: { apply nth_error_None in E0. rewrite Len in E0. apply nth_error_None in E0. congruence. }
  destruct (keeps_nth_l _ _ _ _ _ K E0) as (l & El & Lp & _). exists l. split; [exact El|]. intros i j.
  destruct (Lx 1%nat l0 E0) as (ps & Eps & _ & _ & Cov). rewrite E1 in Eps. injection Eps as <-. specialize (Cov (i, j)). cbn [map] in Cov. unfold LayerParts in *. rewrite Lp.
  etransitivity; [exact Cov|]. change (Simplify [Pt 99500 99500; Pt 100100 99500; Pt 99500 100100; Pt 99500 99500] (-1) (-1)) with [Pt 99500 99500; Pt (99500 + 600) 99500; Pt 99500 (99500 + 600)].
  cbn [parity]. rewrite xorb_false_r. etransitivity; [exact (corner_center 99500 600 i j ltac:(lia))|]. lia.
Qed.
