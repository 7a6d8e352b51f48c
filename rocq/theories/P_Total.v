(** Property C110: a run succeeds whatever the clipping library computes, as long as the library itself does not fail. *)
From Coq Require Import Reals Lra.
From Verif Require Import GoBase GoFloat GoStr M_Micrometer M_Geom2D M_Model M_Slicer M_Clip M_Builder M_Option M_Layer M_Render M_Modifier M_Process M_Flags
  S_Geom S_Model S_Slicer S_Clip S_Area S_Calls S_Machine S_Render S_Modifier S_Process S_Fill S_Flags S_Place S_Print S_Solid S_Body S_Round L_Float L_Model L_Slicer L_SliceLoop L_SliceAll L_Area L_Clip L_Strip L_LineLib L_Modifier L_Infill L_Process L_Complete L_Grid
  P_Model P_Slicer P_Modifier P_Render P_Process P_Pipeline P_Complete P_Flags P_EndToEnd P_Solid P_Print P_Body P_Grid P_Round.
Local Open Scope string_scope.
Local Open Scope list_scope.
Local Open Scope Z_scope.

(** Without points to be wrong at, every library that does not fail is exact. *)
Definition nowhere (_ : path) (x : Empty_set) : bool := match x with end.
Lemma nested_nowhere : forall n, nested nowhere n.
Proof. fix IH 1. intros [c l]. constructor; [|intros n []|intros []]. induction l as [|a l IHl]; [intros n []|]. intros n [<-|I]; [apply IH|exact (IHl n I)]. Qed.
Lemma total_exact lib : (forall t l, execute lib false t l <> None) -> exact nowhere lib.
Proof.
  intros T. split.
  - intros t s c. specialize (T t (closed_as PtSubject s ++ closed_as PtClip c)). destruct (execute lib false t _) as [[tree n]|]; [|congruence].
    exists tree, n. split; [reflexivity|]. split; [split; [intros m _; apply nested_nowhere|intros []]|intros []].
  - intros d cs. split; [intros m _; apply nested_nowhere|intros []].
  - intros d cs [].
  - intros d cs [].
Qed.
Lemma capable_exact lib : capable lib -> exact nowhere lib.
Proof. intros C. apply total_exact. intros t l. exact (never_fails lib C false t l). Qed.

(** Slicing fails only if the polygons cannot be built. *)
Theorem slicing_total : forall lib o om lps, (forall t l, execute lib false t l <> None) -> polygons_at o om = Ok lps -> exists layers, Slice lib o om = Ok layers.
Proof. intros lib o om lps T H. exact (slicing_fails_only_without_polygons nowhere lib (total_exact lib T) o om lps H). Qed.
Print Assumptions slicing_total.
(** Perimeters, infill areas and support never fail. *)
Theorem modifiers_total : forall lib o tangent layers, (forall t l, execute lib false t l <> None) -> workable o -> layers <> [] -> Forall (fun l => lattrs l = None) layers ->
  exists l1 l2 l3 l4 l5 l6, PerimeterModify lib o layers = Ok l1 /\ InfillModify lib o l1 = Ok l2 /\ InternalInfillModify lib o l2 = Ok l3 /\
    BrimModify lib o l3 = Ok l4 /\ SupportDetectorModify lib o tangent l4 = Ok l5 /\ SupportGeneratorModify lib o l5 = Ok l6.
Proof.
  intros lib o tangent layers T W Ne F. destruct (modifiers_succeed nowhere lib o tangent layers (total_exact lib T)) as (l1 & l2 & l3 & l4 & l5 & l6 & H1 & H2 & H3 & H4 & H5 & H6 & _); try apply W; try assumption.
  - eapply Forall_impl; [|exact F]. intros l N name. unfold attribute. cbn beta in N. rewrite N. reflexivity.
  - exists l1, l2, l3, l4, l5, l6. auto 10.
Qed.
Print Assumptions modifiers_total.
(** As [run_succeeds], for a library of which nothing is known but that it does not fail and that it cuts lines into pieces of them. *)
Theorem run_total : forall lib tangent fuel env sys d o input output fs om open ofs,
  capable lib -> 2 ^ 24 < Z.of_nat fuel -> workable o ->
  Read env input = Ok fs -> usable (MeldDistance (Slicing o)) (Center (Printer o)) fs ->
  Optimize (MeldDistance (Slicing o)) (Center (Printer o)) fs = Ok (om, open) ->
  (forall p, In p (om_points om) -> vec_bounded (2 ^ 21) (opos p)) ->
  omFaces om (om_faces om) = Ok ofs ->
  let init := InitialLayerThickness (Print o) in let thick := LayerThickness (Print o) in
  1 <= layer_count init thick om -> met init thick (layer_count init thick om) ofs ->
  create_error sys = None -> (forall k, snd (write_answer sys k) = None /\ fst (write_answer sys k) <> O) ->
  exists steps, Process (NewGoSlice lib tangent fuel env sys d o) input output = (steps, Ok tt).
Proof. intros lib tangent fuel env sys d o input output fs om open ofs C. exact (met_run_succeeds _ nowhere lib tangent fuel env sys d o input output fs om open ofs (capable_exact lib C) C). Qed.
Print Assumptions run_total.
(** As [model_printed], for such a library. *)
Theorem model_printed_total : forall lib tangent fuel env sys d o input output fs mn mx,
  capable lib -> 2 ^ 24 < Z.of_nat fuel -> workable o ->
  let init := InitialLayerThickness (Print o) in let thick := LayerThickness (Print o) in let meld := MeldDistance (Slicing o) in let center := Center (Printer o) in
  0 <= init -> 0 < meld < 2 ^ 31 -> Z.abs (vx center) <= 2 ^ 19 -> Z.abs (vy center) <= 2 ^ 19 -> vz center = 0 -> plain (StartGCode (Printer o)) -> plain (EndGCode (Printer o)) ->
  Read env input = Ok fs -> printable meld init fs -> tight_box3 (vertices fs) mn mx ->
  create_error sys = None -> (forall k, snd (write_answer sys k) = None /\ fst (write_answer sys k) <> O) ->
  let file := if String.eqb output "" then (input ++ ".gcode")%string else output in
  (exists steps, Process (NewGoSlice lib tangent fuel env sys d o) input output = (steps, Ok tt)) /\
  exists text n ks, inhabited (finished lib tangent fuel env o input text) /\
    last (fst (Write sys d text file)) d file = Some text /\ (forall other, other <> file -> last (fst (Write sys d text file)) d other = d other) /\
    init + (Z.of_nat n - 1) * thick <= vz mx - vz mn < init + Z.of_nat n * thick /\ List.length ks = n /\
    events text = safe_start o ++ custom (map (fill_template o) (StartGCode (Printer o))) ++ marked o 0 ks ++ safe_stop o ++ custom (EndGCode (Printer o)).
Proof. intros lib tangent fuel env sys d o input output fs mn mx C. exact (model_printed _ nowhere lib tangent fuel env sys d o input output fs mn mx (capable_exact lib C) C). Qed.
Print Assumptions model_printed_total.
(** The program called with the name of the file of a printable, watertight model, with a library that is right within e: it
    exits with code 0, the file with .gcode appended holds the G-code of a print whose layers are the cuts through the body. *)
Theorem goslice_prints_body : forall e lib tangent fuel env sys d name fs mn mx,
  clips_within e lib -> capable lib -> 2 ^ 24 < Z.of_nat fuel -> name <> "" -> (forall t, name <> ("-" ++ t)%string) ->
  Read env name = Ok fs -> printable 30 200 fs -> watertight fs -> tight_box3 (vertices fs) mn mx -> Z.of_nat (List.length fs) < 2 ^ 56 ->
  create_error sys = None -> (forall k, snd (write_answer sys k) = None /\ fst (write_answer sys k) <> O) ->
  program lib tangent fuel env sys d [name] = Some 0 /\
  exists o text (r : finished lib tangent fuel env o name text), ParseFlags [name] = Some (o, false) /\
    last (fst (Write sys d text (name ++ ".gcode"))) d (name ++ ".gcode")%string = Some text /\
    Z.of_nat (List.length (f_layers _ _ _ _ _ _ _ r)) = (vz mx - vz mn) / 200 /\
    let m := back (plate_offset mn mx (V3 100000 100000 0)) in
    forall k l, nth_error (f_layers _ _ _ _ _ _ _ r) k = Some l -> let z := vz mn + 200 + Z.of_nat k * 200 in
      (forall v, In v (vertices fs) -> vz v <> z) -> edges_apart z 33 fs ->
      exists lps ps dropped slivers, polygons_at o (f_model _ _ _ _ _ _ _ r) = Ok lps /\ nth_error lps k = Some ps /\
        (forall c, In c dropped -> path_len c <= 1000) /\ (forall t, In t slivers -> sliver t) /\
        forall y, away fs z y -> clear_of e (simplified ps) (placed m y) -> (covered surrounded (LayerParts l) (placed m y) <->
          xorb (in_solid fs z y) (parity surrounded (dropped ++ map triangle_of slivers) (placed m y)) = true).
Proof.
  intros e lib tangent fuel env sys d name fs mn mx X C Fuel Ne Nd Er Pr W Tb N Ce Wa.
  destruct (goslice_file _ nowhere lib tangent fuel env sys d name fs mn mx (capable_exact lib C) C Fuel Ne Nd Er Pr Tb Ce Wa) as (Ex & o & text & ks & Po & [r] & La & _ & Lk & Ev).
  split; [exact Ex|]. exists o, text, r. split; [exact Po|]. split; [exact La|].
  assert (Eo : o = upd_goslice (fun r => GoSliceOptions name (OutputFilePath r)) DefaultOptions).
  { revert Po. clear - Ne Nd. destruct name as [|c t]; [destruct (Ne eq_refl)|]. assert (Nc : Ascii.eqb c "-" = false) by (apply Ascii.eqb_neq; intros ->; exact (Nd t eq_refl)).
    unfold ParseFlags. cbn [List.length parse_args]. destruct t as [|c' t']; [|rewrite Nc]; intros [= <-]; reflexivity. }
  assert (Ff : f_faces _ _ _ _ _ _ _ r = fs) by (assert (Er' := f_read _ _ _ _ _ _ _ r); congruence).
  assert (Ei : InitialLayerThickness (Print o) = 200) by (rewrite Eo; reflexivity). assert (Et : LayerThickness (Print o) = 200) by (rewrite Eo; reflexivity).
  assert (Em : MeldDistance (Slicing o) = 30) by (rewrite Eo; reflexivity). assert (Ej : JoinPolygonSnapDistance (Slicing o) = JoinPolygonSnapDistance (Slicing DefaultOptions)) by (rewrite Eo; reflexivity).
  assert (Efi : FinishPolygonSnapDistance (Slicing o) = 1000) by (rewrite Eo; reflexivity). assert (Ec : Center (Printer o) = V3 100000 100000 0) by (rewrite Eo; reflexivity). clear Eo.
  split.
  - destruct (all_keeps _ _ _ _ _ _ _ r) as (names & K). rewrite (keeps_length _ _ _ K).
    destruct (layer_parts_within e lib o _ _ X (f_slice _ _ _ _ _ _ _ r)) as (lps & Ep & Len & _). rewrite Len.
    assert (Eop := f_optimize _ _ _ _ _ _ _ r). rewrite Ff in Eop.
    assert (U : usable (MeldDistance (Slicing o)) (Center (Printer o)) fs).
    { rewrite Em, Ec. split; [split; reflexivity|]. split; [|repeat split; vm_compute; discriminate]. eapply Forall_impl; [|exact (p_near _ _ _ Pr)]. intros v (A & B & D). repeat split; lia. }
    assert (Sl : sliceable 200 200 (f_model _ _ _ _ _ _ _ r) (moved (back (plate_offset mn mx (V3 100000 100000 0))) fs) /\ layer_count 200 200 (f_model _ _ _ _ _ _ _ r) = (vz mx - vz mn) / 200 /\ 0 <= (vz mx - vz mn) / 200 /\
      (forall j, 0 <= j < layer_count 200 200 (f_model _ _ _ _ _ _ _ r) -> exists f, In f (moved (back (plate_offset mn mx (V3 100000 100000 0))) fs) /\ visited 200 200 j f)).
    { rewrite Ec, Em in Eop, U.
      destruct (printable_sliced 30 (V3 100000 100000 0) 200 200 fs _ _ mn mx ltac:(lia) ltac:(lia) ltac:(lia) ltac:(vm_compute; discriminate) ltac:(vm_compute; discriminate) eq_refl Pr W Tb Eop) as (_ & _ & SL & V).
      split; [exact SL|]. destruct (optimizer_placement _ _ _ _ _ U Eop) as ((mn' & mx' & Tb' & Sz) & _). destruct (box_unique _ _ _ _ _ Tb Tb') as (<- & <-).
      assert (High : 200 <= vz mx - vz mn). { destruct (p_high _ _ _ Pr) as (v & w & Iv & Iw & H). destruct (proj1 Tb v Iv) as (_ & _ & H1). destruct (proj1 Tb w Iw) as (_ & _ & H2). lia. }
      split; [|split; [apply Z.div_pos; lia|exact V]]. unfold layer_count. rewrite Sz. cbn [vz]. rewrite Z.quot_div_nonneg by lia. replace (vz mx - vz mn) with (vz mx - vz mn - 200 + 1 * 200) at 2 by lia. rewrite Z.div_add by lia. reflexivity. }
    destruct Sl as (SL & Lc & L0 & V). rewrite <- Lc in L0. destruct (slicing_layers 200 200 (MeldDistance (Slicing o)) (JoinPolygonSnapDistance (Slicing o)) (FinishPolygonSnapDistance (Slicing o)) _ _ SL L0 V) as (lps' & E' & Ln & _).
    assert (Ep' : polygons_at o (f_model _ _ _ _ _ _ _ r) = Ok lps') by (rewrite <- E'; unfold polygons_at; rewrite Ei, Et; reflexivity). rewrite Ep in Ep'. injection Ep' as <-. lia.
  - intros m k l El z NV Ap.
    pose proof (printed_body_within e lib tangent fuel env o name text r mn mx k l X) as H. cbv zeta in H. rewrite Ff, Ei, Et, Em, Ej, Ec, Efi in H. cbn [vx vy vz] in H.
    exact (H ltac:(lia) ltac:(lia) ltac:(lia) ltac:(vm_compute; split; discriminate) ltac:(lia) ltac:(vm_compute; discriminate) ltac:(vm_compute; discriminate) eq_refl N Pr W Tb El NV Ap).
Qed.
Print Assumptions goslice_prints_body.

(** a library that is far from exact: all that is clipped or offset is lost *)
Definition losing_lib : clib := CLib (fun _ _ _ => Some ([], 0)) (fun _ _ => []) (fun p => p) (fun _ => f64_of_Z 0) (fun _ => f64_of_Z 1).
Lemma losing_capable : capable losing_lib.
Proof.
  split.
  - intros r t l. discriminate.
  - intros clip lines tree n _ E c Ic. injection E as <- _. destruct Ic.
  - intros a r _. exists 0%R, 1%R. split; [exact (fin64_of_Z 0 ltac:(vm_compute; discriminate))|]. split; [exact (fin64_of_Z 1 ltac:(vm_compute; discriminate))|]. rewrite Rabs_R0, Rabs_R1. lra.
Qed.
Lemma losing_not_exact : ~ exact in_cells losing_lib.
Proof.
  intros E. destruct (exact_clip in_cells losing_lib E CtUnion [square (0, 0)] []) as (tree & n & Ex & _ & H). injection Ex as <- _. specialize (H (0, 0)).
  cbn [flat_map parity op] in H. rewrite (proj2 (square_inside (0, 0) (0, 0)) eq_refl) in H. discriminate H.
Qed.
Example model_printed_total_ex : forall fuel, 2 ^ 24 < Z.of_nat fuel -> exists steps, Process (NewGoSlice losing_lib (fun _ => f64_of_Z 1) fuel corner_file corner_os (fun _ => None) DefaultOptions) "part.stl" "" = (steps, Ok tt).
Proof.
  intros fuel Fuel. destruct (model_printed_total losing_lib (fun _ => f64_of_Z 1) fuel corner_file corner_os (fun _ => None) DefaultOptions "part.stl" "" corner_fs (V3 0 0 0) (V3 1000 1000 1000)
    losing_capable Fuel default_workable) as (H & _);
    [vm_compute; intuition discriminate..|repeat constructor|repeat constructor|vm_compute; reflexivity|apply corner_printable; left; reflexivity|apply corner_box; left; reflexivity|reflexivity|intros k; split; [reflexivity|discriminate]|exact H].
Qed.
(** the tetrahedron of 1 mm and the library of the plane: five layers are printed, and of the second one the theorem speaks *)
Example goslice_prints_body_ex : forall fuel, 2 ^ 24 < Z.of_nat fuel ->
  program plane_lib (fun _ => f64_of_Z 1) fuel corner_file corner_os (fun _ => None) ["part.stl"] = Some 0 /\
  exists o text (r : finished plane_lib (fun _ => f64_of_Z 1) fuel corner_file o "part.stl" text) l dropped slivers,
    List.length (f_layers _ _ _ _ _ _ _ r) = 5%nat /\ nth_error (f_layers _ _ _ _ _ _ _ r) 1 = Some l /\ (forall c, In c dropped -> path_len c <= 1000) /\ (forall t, In t slivers -> sliver t) /\
    let spot := placed (V3 99500 99500 0) (100, 100)%R in
    (covered surrounded (LayerParts l) spot <-> xorb true (parity surrounded (dropped ++ map triangle_of slivers) spot) = true).
Proof.
  intros fuel Fuel.
  destruct (goslice_prints_body (sqrt 2) plane_lib (fun _ => f64_of_Z 1) fuel corner_file corner_os (fun _ => None) "part.stl" corner_fs (V3 0 0 0) (V3 1000 1000 1000) plane_within (proj1 (proj2 plane_library)) Fuel)
    as (Ex & o & text & r & Po & _ & Ln & H); [discriminate|discriminate|vm_compute; reflexivity|apply corner_printable; left; reflexivity|exact corner_watertight|apply corner_box; left; reflexivity|vm_compute; reflexivity|reflexivity|intros k; split; [reflexivity|discriminate]|].
  split; [exact Ex|]. exists o, text, r. change ((vz (V3 1000 1000 1000) - vz (V3 0 0 0)) / 200) with (Z.of_nat 5) in Ln. apply Nat2Z.inj in Ln.
  destruct (nth_error (f_layers _ _ _ _ _ _ _ r) 1) as [l|] eqn:El. 2: { apply nth_error_None in El. rewrite Ln in El. lia. }
  specialize (H 1%nat l El). cbv zeta in H. change (vz (V3 0 0 0) + 200 + Z.of_nat 1 * 200) with 400 in H.
  destruct H as (lps & ps & dropped & slivers & Ep & Eps & Hd & Hs & Hc); [intros v Iv; repeat (destruct Iv as [<-|Iv]; [vm_compute; discriminate|]); destruct Iv|exact corner_apart|].
  exists l, dropped, slivers. split; [exact Ln|]. split; [reflexivity|]. split; [exact Hd|]. split; [exact Hs|]. specialize (Hc (100, 100)%R). rewrite corner_spot_inside in Hc.
  change (back (plate_offset (V3 0 0 0) (V3 1000 1000 1000) (V3 100000 100000 0))) with (V3 99500 99500 0) in Hc. apply Hc; [exact corner_spot_away|].
  assert (Eo : o = upd_goslice (fun r => GoSliceOptions "part.stl" (OutputFilePath r)) DefaultOptions) by (vm_compute in Po; injection Po as <-; vm_compute; reflexivity).
  assert (Er := f_read _ _ _ _ _ _ _ r). assert (Er' : Read corner_file "part.stl" = Ok corner_fs) by (vm_compute; reflexivity).
  assert (Eop := f_optimize _ _ _ _ _ _ _ r). rewrite Er' in Er. assert (Ff : f_faces _ _ _ _ _ _ _ r = corner_fs) by congruence. rewrite Ff in Eop. clear Er Er' Ff Hc Hd Hs.
  set (om := f_model _ _ _ _ _ _ _ r) in *. set (open := f_open _ _ _ _ _ _ _ r) in *. clearbody om open. clear r Ln El. subst o.
  assert (E' : match Optimize 30 (V3 100000 100000 0) corner_fs with Ok (om, _) => match polygons_at DefaultOptions om with Ok lps => nth_error lps 1 | _ => None end | _ => None end = Some
    [[Pt 99500 99500; Pt 100100 99500; Pt 99500 100100; Pt 99500 99500]]) by (vm_compute; reflexivity).
  change (Optimize 30 (V3 100000 100000 0) corner_fs = Ok (om, open)) in Eop. rewrite Eop in E'. unfold polygons_at in E', Ep. cbn [Print Slicing upd_goslice] in Ep. rewrite Ep, Eps in E'. injection E' as ->.
  change (simplified [[Pt 99500 99500; Pt 100100 99500; Pt 99500 100100; Pt 99500 99500]]) with [[Pt 99500 99500; Pt 100100 99500; Pt 99500 100100]]. exact spot_clear.
Qed.
