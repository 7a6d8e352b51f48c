(** Properties C81-C83: whole runs of the program. *)
From Verif Require Import GoBase GoFloat GoStr M_Micrometer M_Geom2D M_Model M_Slicer M_Clip M_Builder M_Option M_Layer M_Render M_Modifier M_Process M_Flags
  S_Geom S_Model S_Slicer S_Clip S_Area S_Calls S_Machine S_Render S_Modifier S_Process S_Fill S_Flags L_Model L_Slicer L_SliceLoop L_Area L_Clip L_Strip L_LineLib L_Modifier L_Infill L_Process
  P_Model P_Slicer P_Modifier P_Render P_Process P_Pipeline P_Complete P_Flags.
Local Open Scope string_scope.
Local Open Scope list_scope.
Local Open Scope Z_scope.

(** the layers of a finished run, compared with the sliced and with the filled ones *)
Lemma late_keeps lib tangent fuel env o input text (r : finished lib tangent fuel env o input text) :
  keeps ["brim"; "outerBrim"; "support"; "support"; "supportInterface"; "fullSupport"] (f_filled _ _ _ _ _ _ _ r) (f_layers _ _ _ _ _ _ _ r).
Proof.
  destruct r as [fs om open l0 l1 l2 l3 l4 l5 l6 mn mx rs E1 E4 E5 M1 M2 M3 M4 M5 M6 B E7 E8]. cbn.
  exact (keeps_trans _ _ _ _ _ (proj1 (proj2 (proj2 (proj2 (modifiers_keep_layers lib o tangent l3 l4)))) M4)
    (keeps_trans _ _ _ _ _ (proj1 (proj2 (proj2 (proj2 (proj2 (modifiers_keep_layers lib o tangent l4 l5))))) M5) (proj2 (proj2 (proj2 (proj2 (proj2 (modifiers_keep_layers lib o tangent l5 l6))))) M6))).
Qed.
Lemma all_keeps lib tangent fuel env o input text (r : finished lib tangent fuel env o input text) : exists names,
  keeps names (f_sliced _ _ _ _ _ _ _ r) (f_layers _ _ _ _ _ _ _ r).
Proof.
  pose proof (late_keeps _ _ _ _ _ _ _ r) as K. destruct r as [fs om open l0 l1 l2 l3 l4 l5 l6 mn mx rs E1 E4 E5 M1 M2 M3 M4 M5 M6 B E7 E8]. cbn in *. eexists.
  exact (keeps_trans _ _ _ _ _ (proj1 (modifiers_keep_layers lib o tangent l0 l1) M1)
    (keeps_trans _ _ _ _ _ (proj1 (proj2 (modifiers_keep_layers lib o tangent l1 l2)) M2) (keeps_trans _ _ _ _ _ (proj1 (proj2 (proj2 (modifiers_keep_layers lib o tangent l2 l3))) M3) K))).
Qed.
Lemma same_attr l l' name : attribute l' name = attribute l name -> PartsAttribute l' name = PartsAttribute l name.
Proof. unfold PartsAttribute. intros ->. reflexivity. Qed.
Lemma same_perimeters l l' : attribute l' "perimeters" = attribute l "perimeters" -> Perimeters l' = Perimeters l.
Proof. unfold Perimeters. intros ->. reflexivity. Qed.

(** *** C81 *)
(** Whatever a finished run prints as wall or infill of layer n lies inside the outlines of the model at that layer: each wall
    is a contour of a part, and each line of infill is made for a part, that covers only points which the (simplified) polygons
    cut at that height surround an odd number of times. *)
Lemma polygon_of_plan fuel pat lib name comments nr l z cs layer line z' open : infill_plan lib fuel pat name comments nr l z = Ok cs -> In (CPolygon layer line z' open) cs ->
  exists pattern ps pt lines, PartsAttribute l name = Ok ps /\ In pt ps /\ Fill lib fuel pattern nr pt = Ok lines /\ In line lines /\ open = true.
Proof.
  unfold infill_plan. destruct pat as [pattern|]; [|intros [= <-] []]. intros E I. apply bind_Ok in E. destruct E as (ps & Ep & E). apply bind_Ok in E. destruct E as (filled & Ef & E). injection E as <-.
  apply in_flat_map in I. destruct I as (lines & Il & I). apply in_app_iff in I. destruct I as [I|I]; [apply in_map_iff in I; destruct I as (? & ? & _); discriminate|].
  apply in_map_iff in I. destruct I as (line' & [= _ -> _ <-] & I).
  assert (F : exists pt, In pt ps /\ Fill lib fuel pattern nr pt = Ok lines).
  { clear Ep. revert filled Ef Il. induction ps as [|q ps IH]; intros filled Ef Il; cbn [map_res] in Ef; [injection Ef as <-; destruct Il|].
    apply bind_Ok in Ef. destruct Ef as (b & Eb & Ef). apply bind_Ok in Ef. destruct Ef as (bs & Ebs & Ef). injection Ef as <-. destruct Il as [<-|Il]; [exists q; split; [left; reflexivity|exact Eb]|].
    destruct (IH bs Ebs Il) as (pt & Ipt & Hp). exists pt. split; [right; exact Ipt|exact Hp]. }
  destruct F as (pt & Ipt & Hp). exists pattern, ps, pt, lines. auto.
Qed.
Lemma wall_polygon o l z insets layer q z' open : In (CPolygon layer q z' open) (part_plan o l z insets) -> exists wall p, In wall insets /\ In p wall /\ In q (outline p :: holes p) /\ open = false.
Proof.
  assert (C : forall p, In (CPolygon layer q z' open) (closed_walls l z p) -> In q (outline p :: holes p) /\ open = false).
  { intros p I. unfold closed_walls in I. apply in_app_iff in I. destruct I as [I|[I|[]]].
    - apply in_map_iff in I. destruct I as (h & [= _ <- _ <-] & Ih). split; [right; exact Ih|reflexivity].
    - injection I as _ <- _ <-. split; [left; reflexivity|reflexivity]. }
  destruct insets as [|outer inner]; [intros []|]. cbn [part_plan]. intros I. apply in_app_iff in I. destruct I as [I|I]; apply in_flat_map in I; destruct I as (p & Ip & I).
  - apply in_concat in Ip. destruct Ip as (wall & Iw & Ip). unfold inner_wall in I. apply in_app_iff in I. destruct I as [[I|[I|[]]]|I]; try discriminate. destruct (C p I). exists wall, p. split; [right; exact Iw|auto].
  - unfold outer_wall in I. apply in_app_iff in I. destruct I as [[I|[I|[]]]|I]; try discriminate. destruct (C p I). exists outer, p. split; [left; reflexivity|auto].
Qed.
Theorem run_prints_inside_model : forall (P : Type) (inside : path -> P -> bool) lib tangent fuel env o input text (r : finished lib tangent fuel env o input text),
  exact inside lib ->
  let w := ExtrusionWidth (Printer o) in let overlap := InfillOverlapPercent (Print o) in let full := add64 overlap (AdditionalInternalInfillOverlapPercent (Print o)) in
  0 <= w -> InsetCount (Print o) <= 2 ^ 20 -> amount_ok w overlap -> 0 <= amount w overlap -> amount_ok w full ->
  exists lps infill ps b, polygons_at o (f_model _ _ _ _ _ _ _ r) = Ok lps /\ List.length ps = List.length lps /\
    planned lib o fuel (PointXY (f_min _ _ _ _ _ _ _ r)) (PointXY (f_max _ _ _ _ _ _ _ r)) infill (f_layers _ _ _ _ _ _ _ r) ps /\
    run_calls lib (concat (all_calls o ps)) (NewGCodeBuilder (FilamentDiameter (Filament o)) (ExtrusionMultiplier (Filament o))) = Ok b /\ text = BuilderString b /\
    forall n plan, nth_error ps n = Some plan -> exists polygons, nth_error lps n = Some polygons /\
      let in_model q := forall x, in_part inside q x -> parity inside (map (fun c => Simplify c (-1) (-1)) polygons) x = true in
      (forall layer q z open, In (CPolygon layer q z open) (p_walls plan) -> open = false /\ exists p, In q (outline p :: holes p) /\ in_model p) /\
      (forall layer line z open, In (CPolygon layer line z open) (p_fill plan) -> open = true /\
         exists l name pattern parts p lines, nth_error (f_layers _ _ _ _ _ _ _ r) n = Some l /\ In name ["support"; "supportInterface"; "bottom"; "top"; "infill"] /\
           PartsAttribute l name = Ok parts /\ In p parts /\ Fill lib fuel pattern (Z.of_nat n) p = Ok lines /\ In line lines /\
           (In name ["bottom"; "top"; "infill"] -> in_model p)).
Proof.
  intros P inside lib tangent fuel env o input text r E w overlap full Hw Hc A1 A2 A3.
  pose proof (late_keeps _ _ _ _ _ _ _ r) as K. destruct (all_keeps _ _ _ _ _ _ _ r) as (names & KA).
  destruct r as [fs om open l0 l1 l2 l3 l4 l5 l6 mn mx rs E1 E4 E5 M1 M2 M3 M4 M5 M6 B E7 E8]. cbn in *.
  destruct (layer_parts_exact inside lib E o om l0 E5) as (lps & El & Len & Lp).
  apply (print_is_planned lib fuel o (PointXY mn) (PointXY mx) l6 rs text E7) in E8. destruct E8 as (inf & ps & b & Ei & Pl & Er & Et).
  exists lps, inf, ps, b. split; [exact El|]. split; [rewrite (proj1 Pl), (keeps_length _ _ _ KA); exact Len|]. split; [exact Pl|]. split; [exact Er|]. split; [exact Et|].
  intros n plan En.
  assert (Il : exists l, nth_error l6 n = Some l).
  { destruct (nth_error l6 n) eqn:Q; [eauto|]. apply nth_error_None in Q. rewrite <- (proj1 Pl) in Q. apply nth_error_None in Q. congruence. }
  destruct Il as (l & Hl). destruct (keeps_nth _ _ _ _ _ K Hl) as (l'' & Hl'' & _ & At). destruct (keeps_nth _ _ _ _ _ KA Hl) as (l_0 & Hl0 & _ & _).
  destruct (Lp n l_0 Hl0) as (polygons & Hp & Pr & _ & Cov). exists polygons. split; [exact Hp|].
  assert (Fr : printed inside lib o l0 l1 l2 l3).
  { split; try assumption; [|split; assumption]. apply Forall_forall. intros k Ik name _. apply In_nth_error in Ik. destruct Ik as (j & Ej). destruct (Lp j k Ej) as (_ & _ & _ & N & _). unfold attribute. rewrite N. reflexivity. }
  assert (Prop0 : forall k, In k l0 -> S_Area.proper inside (LayerParts k)) by (intros k Ik; apply In_nth_error in Ik; destruct Ik as (j & Ej); destruct (Lp j k Ej) as (_ & _ & Q & _); exact Q).
  assert (Hw' : 0 <= w <= 2 ^ 30) by (destruct A1 as (A & _); unfold w in *; lia).
  destruct (print_inside_model inside lib o l0 l1 l2 l3 Fr Prop0 n l_0 l'' Hw' Hc Hl0 Hl'') as (Walls & Fills).
  pose proof (proj2 Pl n l plan Hl En) as Ep. unfold plan_layer in Ep. apply bind_Ok in Ep. destruct Ep as (sk & _ & Ep). apply bind_Ok in Ep. destruct Ep as (br & _ & Ep).
  apply bind_Ok in Ep. destruct Ep as (wl & Ew & Ep). apply bind_Ok in Ep. destruct Ep as (fl & Ef & Ep). injection Ep as <-. cbn [p_walls p_fill]. split.
  - intros layer q z op I. unfold perimeter_plan in Ew. apply bind_Ok in Ew. destruct Ew as (pe & Epe & Ew). injection Ew as <-. apply in_flat_map in I. destruct I as (e & Ie & I).
    destruct (wall_polygon _ _ _ _ _ _ _ _ I) as (wall & p & Iw & Ip & Iq & Op). split; [exact Op|]. exists p. split; [exact Iq|]. intros x Hx. apply Cov.
    rewrite (same_perimeters l'' l) in Epe by (apply At; cbn; intuition discriminate). exact (Walls pe e wall p x Epe Ie Iw Ip Hx).
  - intros layer line z op I. unfold fill_plan in Ef. 
    apply bind_Ok in Ef. destruct Ef as (c1 & C1 & Ef). apply bind_Ok in Ef. destruct Ef as (c2 & C2 & Ef). apply bind_Ok in Ef. destruct Ef as (c3 & C3 & Ef).
    apply bind_Ok in Ef. destruct Ef as (c4 & C4 & Ef). apply bind_Ok in Ef. destruct Ef as (c5 & C5 & Ef). injection Ef as <-. rewrite !in_app_iff in I.
    assert (G : forall pat name comments cs, In name ["support"; "supportInterface"; "bottom"; "top"; "infill"] -> infill_plan lib fuel pat name comments (Z.of_nat n) l (S_Render.height o n) = Ok cs -> In (CPolygon layer line z op) cs ->
      op = true /\ exists l name pattern parts p lines, nth_error l6 n = Some l /\ In name ["support"; "supportInterface"; "bottom"; "top"; "infill"] /\ PartsAttribute l name = Ok parts /\ In p parts /\ Fill lib fuel pattern (Z.of_nat n) p = Ok lines /\ In line lines /\
        (In name ["bottom"; "top"; "infill"] -> forall x, in_part inside p x -> parity inside (map (fun c => Simplify c (-1) (-1)) polygons) x = true)).
    { intros pat name comments cs Hn Ec Ic. destruct (polygon_of_plan _ _ _ _ _ _ _ _ _ _ _ _ _ Ec Ic) as (pattern & parts & p & lines & Ea & Ip & Hf & Iline & Ho). split; [exact Ho|].
      exists l, name, pattern, parts, p, lines. repeat (split; [assumption|]). intros Hb x Hx. apply Cov. apply (Fills name parts x Hb); [|exists p; auto].
      rewrite (same_attr l l'' name) by (symmetry; apply At; clear -Hb; cbn in *; intuition (subst; discriminate)). exact Ea. }
    destruct I as [I|[I|[I|[I|I]]]]; [apply (G _ "support" _ _ ltac:(cbn; tauto) C1 I)|apply (G _ "supportInterface" _ _ ltac:(cbn; tauto) C2 I)|apply (G _ "bottom" _ _ ltac:(cbn; tauto) C3 I)|apply (G _ "top" _ _ ltac:(cbn; tauto) C4 I)|apply (G _ "infill" _ _ ltac:(cbn; tauto) C5 I)].
Qed.
Print Assumptions run_prints_inside_model.

(** the run of [run_succeeds_ex]: the tetrahedron of 1 mm with the default options *)
Definition corner_os : os := OS None (fun _ => (3%nat, None)).
Definition corner_run (text : string) := finished line_lib (fun _ => f64_of_Z 1) (Z.to_nat (2 ^ 24 + 1)) corner_file DefaultOptions "part.stl" text.
Lemma corner_finished : exists text, inhabited (corner_run text).
Proof.
  assert (H := proj1 (built_in_run line_lib (fun _ => f64_of_Z 1) (Z.to_nat (2 ^ 24 + 1)) corner_file corner_os (fun _ => None) DefaultOptions "part.stl" "") run_succeeds_ex).
  destruct H as (text & r & _). exists text. exact r.
Qed.
Example run_prints_inside_model_ex : exists text (r : corner_run text), exists lps infill ps b, polygons_at DefaultOptions (f_model _ _ _ _ _ _ _ r) = Ok lps /\ List.length ps = List.length lps /\
    planned line_lib DefaultOptions (Z.to_nat (2 ^ 24 + 1)) (PointXY (f_min _ _ _ _ _ _ _ r)) (PointXY (f_max _ _ _ _ _ _ _ r)) infill (f_layers _ _ _ _ _ _ _ r) ps /\
    run_calls line_lib (concat (all_calls DefaultOptions ps)) (NewGCodeBuilder 1750 100) = Ok b /\ text = BuilderString b.
Proof.
  destruct corner_finished as (text & [r]). exists text, r.
  destruct (run_prints_inside_model Z in_strips _ _ _ _ _ _ _ r line_exact) as (lps & inf & ps & b & H1 & H2 & H3 & H4 & H5 & _).
  1-5: vm_compute; intuition discriminate.
  exists lps, inf, ps, b. repeat (split; [assumption|]). assumption.
Qed.

(** *** C82 *)
(** A finished run prints as many layers as fit into the height of the model, at the heights initial thickness + k * thickness,
    the last one at most one thickness below the top of the model. *)
Theorem run_layers : forall lib tangent fuel env o input text (r : finished lib tangent fuel env o input text),
  let init := InitialLayerThickness (Print o) in let thick := LayerThickness (Print o) in let om := f_model _ _ _ _ _ _ _ r in
  usable (MeldDistance (Slicing o)) (Center (Printer o)) (f_faces _ _ _ _ _ _ _ r) -> vz (Center (Printer o)) <= 0 ->
  (forall p, In p (om_points om) -> vec_bounded (2 ^ 24) (opos p)) -> 0 <= init <= vz (om_size om) -> init <= 2 ^ 30 -> 0 < thick <= 2 ^ 30 ->
  plain (StartGCode (Printer o)) -> plain (EndGCode (Printer o)) ->
  exists n ks, (0 < n)%nat /\ init + (Z.of_nat n - 1) * thick <= vz (om_size om) < init + Z.of_nat n * thick /\
    List.length ks = n /\ List.length (f_layers _ _ _ _ _ _ _ r) = n /\
    events text = safe_start o ++ custom (map (fill_template o) (StartGCode (Printer o))) ++ marked o 0 ks ++ safe_stop o ++ custom (EndGCode (Printer o)) /\
    exists infill ps, planned lib o fuel (PointXY (f_min _ _ _ _ _ _ _ r)) (PointXY (f_max _ _ _ _ _ _ _ r)) infill (f_layers _ _ _ _ _ _ _ r) ps /\ List.length ps = n /\
      forall nr p layer polygon z open, nth_error ps nr = Some p -> In (CPolygon layer polygon z open) (layer_calls o (Z.of_nat n - 1) (Z.of_nat nr) p) ->
        z = init + Z.of_nat nr * thick /\ z <= vz (om_size om).
Proof.
  intros lib tangent fuel env o input text r init thick om Us Cz Bp Hi Hi' Ht Ps Pe.
  destruct (all_keeps _ _ _ _ _ _ _ r) as (names & KA). subst om.
  destruct r as [fs om open l0 l1 l2 l3 l4 l5 l6 mn mx rs E1 E4 E5 M1 M2 M3 M4 M5 M6 B E7 E8]. cbn in *.
  destruct (optimized_sliceable _ _ _ _ _ init thick Us E4 Cz Bp ltac:(lia) Ht) as (ofs & Sl).
  assert (Q : 0 <= Z.quot (vz (om_size om) - init) thick) by (apply Z.quot_pos; lia).
  assert (Hq : thick * Z.quot (vz (om_size om) - init) thick <= vz (om_size om) - init < thick * Z.quot (vz (om_size om) - init) thick + thick).
  { rewrite Z.quot_div_nonneg by lia. pose proof (Z.div_mod (vz (om_size om) - init) thick ltac:(lia)). pose proof (Z.mod_pos_bound (vz (om_size om) - init) thick ltac:(lia)). lia. }
  destruct (slice_spec lib o om l0 E5) as (lps & El & F). unfold polygons_at in El. fold init thick in El.
  assert (Cnt : Z.of_nat (List.length lps) = layer_count init thick om).
  { pose proof (slicing_layers init thick (MeldDistance (Slicing o)) (JoinPolygonSnapDistance (Slicing o)) (FinishPolygonSnapDistance (Slicing o)) om ofs Sl ltac:(unfold layer_count; lia)) as SL.
    pose proof (proj2 (slicing_panics init thick (MeldDistance (Slicing o)) (JoinPolygonSnapDistance (Slicing o)) (FinishPolygonSnapDistance (Slicing o)) om ofs Sl)) as SP.
    destruct SL as (lps' & El' & Len' & _); [|rewrite El in El'; injection El' as <-; exact Len'].
    intros k Hk. set (vb := fun f => (MinZ f <=? S_Slicer.height init thick k) && ((S_Slicer.height init thick k <=? MaxZ f) || ((k =? 0) && (init - thick <? MaxZ f)))).
    assert (V : forall f, vb f = true <-> visited init thick k f).
    { intros f. unfold vb, visited. rewrite andb_true_iff, orb_true_iff, andb_true_iff, !Z.leb_le, Z.eqb_eq, Z.ltb_lt. tauto. }
    destruct (existsb vb ofs) eqn:X; [apply existsb_exists in X; destruct X as (f & If & Hf); exists f; split; [exact If|apply V, Hf]|].
    destruct (SP k Hk) as (m & Em); [|congruence]. intros f If Hv. apply V in Hv. assert (existsb vb ofs = true) by (apply existsb_exists; eauto). congruence. }
  assert (L6 : List.length l6 = List.length lps). { rewrite (keeps_length _ _ _ KA). symmetry. clear -F. induction F; cbn; congruence. }
  unfold layer_count in Cnt. set (q := Z.quot _ _) in *. clearbody q.
  assert (N6 : l6 <> []). { intros ->. cbn in L6. rewrite <- L6 in Cnt. cbn in Cnt. lia. }
  destruct (print_happens o lib fuel (PointXY mn) (PointXY mx) rs l6 text Ps Pe N6 E7 E8) as (ks & Lk & Ev).
  apply (print_is_planned lib fuel o (PointXY mn) (PointXY mx) l6 rs text E7) in E8. destruct E8 as (inf & ps & b & Ei & Pl & Er & Et).
  exists (List.length lps), ks. split; [lia|]. split; [nia|]. split; [congruence|]. split; [exact L6|]. split; [exact Ev|].
  exists inf, ps. split; [exact Pl|]. pose proof (proj1 Pl) as Lps. split; [congruence|]. intros nr p layer polygon z op En I.
  assert (Hn : (nr < List.length ps)%nat) by (apply nth_error_Some; congruence). assert (Hz : Z.of_nat nr <= q) by lia.
  assert (Z0 : z = init + Z.of_nat nr * thick).
  { apply (layer_heights lib o fuel (PointXY mn) (PointXY mx) inf l6 ps nr p Pl En) with (layer := layer) (polygon := polygon) (open := op).
    - fold init thick. destruct Sl as (_ & _ & Sz & _). unfold int64. nia.
    - rewrite Lps, L6. exact I. }
  split; [exact Z0|]. rewrite Z0. nia.
Qed.
Print Assumptions run_layers.

Lemma corner_model lib tangent fuel text (r : finished lib tangent fuel corner_file DefaultOptions "part.stl" text) : f_faces _ _ _ _ _ _ _ r = corner_fs /\ f_model _ _ _ _ _ _ _ r = corner_om.
Proof.
  destruct r as [fs om open l0 l1 l2 l3 l4 l5 l6 mn mx rs E1 E4 E5 M1 M2 M3 M4 M5 M6 B E7 E8]. cbn [f_faces f_model].
  assert (Ef : fs = corner_fs). { assert (Q : Read corner_file "part.stl" = Ok corner_fs) by (vm_compute; reflexivity). congruence. } split; [exact Ef|]. rewrite Ef in E4.
  assert (Q : Optimize (MeldDistance (Slicing DefaultOptions)) (Center (Printer DefaultOptions)) corner_fs = Ok (corner_om, 0)) by (vm_compute; reflexivity). congruence.
Qed.
Example run_layers_ex : exists text (r : corner_run text), List.length (f_layers _ _ _ _ _ _ _ r) = 5%nat.
Proof.
  destruct corner_finished as (text & [r]). exists text, r. destruct (corner_model _ _ _ _ r) as (F & M).
  destruct (run_layers _ _ _ _ _ _ _ r) as (n & ks & Hn & Ht & _ & L & _).
  - rewrite F. split; [vm_compute; intuition discriminate|]. split; [repeat constructor; vm_compute; discriminate|]. repeat split; vm_compute; discriminate.
  - vm_compute. discriminate.
  - rewrite M. intros p Ip. repeat (destruct Ip as [<-|Ip]; [repeat split; vm_compute; discriminate|]). destruct Ip.
  - rewrite M. split; vm_compute; discriminate.
  - vm_compute. discriminate.
  - split; [reflexivity|vm_compute; discriminate].
  - repeat constructor.
  - repeat constructor.
  - rewrite L. rewrite M in Ht. change (vz (om_size corner_om)) with 1000 in Ht. change (InitialLayerThickness (Print DefaultOptions)) with 200 in Ht. change (LayerThickness (Print DefaultOptions)) with 200 in Ht. lia.
Qed.

(** *** C83 *)
(** The program called with a command line that can be read, for a model and settings as in [run_succeeds], exits with code 0. *)
Theorem program_succeeds : forall (P : Type) (inside : path -> P -> bool) lib tangent fuel env sys d args items o fs om open ofs,
  exact inside lib -> capable lib -> 2 ^ 24 < Z.of_nat fuel ->
  spells args items -> readable_items items -> final "version" (VBool false) items = Some (VBool false) -> hd "" (operands items) <> "" -> ParseFlags args = Some (o, false) -> workable o ->
  Read env (hd "" (operands items)) = Ok fs -> usable (MeldDistance (Slicing o)) (Center (Printer o)) fs ->
  Optimize (MeldDistance (Slicing o)) (Center (Printer o)) fs = Ok (om, open) ->
  (forall p, In p (om_points om) -> vec_bounded (2 ^ 21) (opos p)) ->
  omFaces om (om_faces om) = Ok ofs -> connected ofs ->
  let init := InitialLayerThickness (Print o) in let thick := LayerThickness (Print o) in
  1 <= layer_count init thick om -> (exists f, In f ofs /\ MinZ f <= init) -> (exists f, In f ofs /\ S_Slicer.height init thick (layer_count init thick om - 1) <= MaxZ f) ->
  create_error sys = None -> (forall k, snd (write_answer sys k) = None /\ fst (write_answer sys k) <> O) ->
  program lib tangent fuel env sys d args = Some 0.
Proof.
  intros P inside lib tangent fuel env sys d args items o fs om open ofs E Cap Fuel Sp Rd V I Po W Er Us Eo Bp Ef Cn init thick Lc Lo Hi Ce Wa.
  destruct (exit_process lib tangent fuel env sys d args items Sp Rd V I) as (o' & Po' & Hin & X & _). rewrite Po in Po'. injection Po' as <-. apply X.
  rewrite <- Hin in Er. destruct (run_succeeds P inside lib tangent fuel env sys d o (InputFilePath (GoSlice o)) (OutputFilePath (GoSlice o)) fs om open ofs E Cap Fuel W Er Us Eo Bp Ef Cn Lc Lo Hi Ce Wa) as (steps & ->). reflexivity.
Qed.
Print Assumptions program_succeeds.
(** the tetrahedron of 1 mm with layers of 0.1 mm, given on the command line *)
Definition thin : options := Eval vm_compute in match ParseFlags ["--layer-thickness=100"; "part.stl"] with Some (o, _) => o | None => DefaultOptions end.
Example program_succeeds_ex : forall fuel, 2 ^ 24 < Z.of_nat fuel -> LayerThickness (Print thin) = 100 /\ layer_count 200 100 corner_om = 9 /\
  program line_lib (fun _ => f64_of_Z 1) fuel corner_file corner_os (fun _ => None) ["--layer-thickness=100"; "part.stl"] = Some 0.
Proof.
  intros fuel Fuel. split; [reflexivity|]. split; [reflexivity|].
  apply (program_succeeds Z in_strips) with (items := [Given "layer-thickness" "100"; Operand "part.stl"]) (o := thin) (fs := corner_fs) (om := corner_om) (open := 0) (ofs := corner_ofs).
  - exact line_exact.
  - exact line_capable.
  - exact Fuel.
  - apply (sp_equal "layer-thickness" "100"); [apply L_Flags.flag_name_find; eexists; reflexivity|]. apply sp_operand; [right; intros u; discriminate|constructor].
  - intros name get D. repeat (destruct D as [[= <- <-]|D]; [vm_compute; discriminate|]). destruct D.
  - reflexivity.
  - discriminate.
  - vm_compute. reflexivity.
  - split; vm_compute; intuition discriminate.
  - vm_compute. reflexivity.
  - split; [vm_compute; intuition discriminate|]. split; [repeat constructor; vm_compute; discriminate|]. repeat split; vm_compute; discriminate.
  - vm_compute. reflexivity.
  - intros p Ip. repeat (destruct Ip as [<-|Ip]; [repeat split; vm_compute; discriminate|]). destruct Ip.
  - vm_compute. reflexivity.
  - apply connected_via. vm_compute. reflexivity.
  - vm_compute. discriminate.
  - exists (nth 0 corner_ofs (V3 0 0 0, V3 0 0 0, V3 0 0 0)). split; [left; reflexivity|vm_compute; discriminate].
  - exists (nth 1 corner_ofs (V3 0 0 0, V3 0 0 0, V3 0 0 0)). split; [right; left; reflexivity|vm_compute; discriminate].
  - reflexivity.
  - intros k. split; [reflexivity|discriminate].
Qed.
