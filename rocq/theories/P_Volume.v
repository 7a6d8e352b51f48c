(** Property C88: the filament that is extruded. *)
From Coq Require Import Reals Psatz.
From Verif Require Import GoBase GoFloat GoStr M_Micrometer M_Geom2D M_Option M_Clip M_Builder M_Layer M_Render
  S_Text S_Option S_Printer S_Builder S_Calls S_Machine S_Render S_Volume
  L_Str L_Option L_Data L_Printer L_Builder L_Calls L_Render L_Events L_Settings L_Whole L_Float L_Extrude L_Volume L_Filament P_Clip P_Builder P_Render.
From Flocq Require Import Core BinarySingleNaN.
Local Open Scope string_scope.
Local Open Scope list_scope.
Local Open Scope Z_scope.

(** *** C88 *)
(** The amount commanded for a line is a number and differs from the filament with the volume of the line by at most 5
    millionths of it. *)
Theorem line_filament : forall d m t w a b, 0 < d <= 2 ^ 20 -> 0 <= m <= 2 ^ 24 -> 0 <= t <= 2 ^ 20 -> 0 <= w <= 2 ^ 20 -> small_steps a [b] ->
  is_finite_SF (line_amount (extrusion_per_mm d m t w) a b) = true /\
  (Rabs (SF2R radix2 (line_amount (extrusion_per_mm d m t w) a b) - filament d m t w (distance a b)) <= filament d m t w (distance a b) * (5 / 1000000))%R.
Proof.
  intros d m t w a b D M T W (X & Y & _). destruct (line_approx d m t w a b D M T W X Y) as (x & (_ & F & V) & R). split; [exact F|]. rewrite V. apply rel_35, R.
Qed.
Print Assumptions line_filament.

Lemma whole_E o (P : plain (StartGCode (Printer o))) lib ps b cs1 layer polygon z open cs2 g r0 : ps <> [] -> Forall prints ps ->
  run_calls lib (concat (all_calls o ps)) (NewGCodeBuilder (FilamentDiameter (Filament o)) (ExtrusionMultiplier (Filament o))) = Ok b ->
  concat (all_calls o ps) = cs1 ++ CPolygon layer polygon z open :: cs2 ->
  run_calls lib cs1 (NewGCodeBuilder (FilamentDiameter (Filament o)) (ExtrusionMultiplier (Filament o))) = Ok g ->
  rE (replay r0 (BuilderString g)) = shown 4 (extrusionAmount g).
Proof.
  intros N Pr R E Rg. destruct (print_body o ps N Pr) as (body & B & H). rewrite B in E.
  destruct (cut_middle (fun c => match c with CPolygon _ _ _ _ => True | _ => False end) _ _ _ _ _ _ E I (no_poly_Forall _ (start_no_poly o)) (no_poly_Forall _ (end_no_poly o))) as (b1 & b2 & -> & ->).
  apply Forall_app in H. destruct H as [H1 _]. apply run_app_Ok in Rg. destruct Rg as (gs & S1 & S2).
  destruct (start_agrees o P lib _ _ gs r0 S1) as (F & T & E0).
  destruct (calls_run lib b1 gs g (replay r0 (buf gs)) None (fresh_agree _ _ F E0)) as (t1 & Bt1 & T1 & Ag & _); [intros p Q; discriminate|exact H1|exact S2|].
  rewrite <- (replay_term _ _ _ T), <- Bt1 in Ag. destruct Ag as [_ _ _ Ae]. exact Ae.
Qed.

(** The E values of every polygon of a print: the lines from its first point use the filament for the way along its points,
    with the thickness of its layer, within 5 millionths, half a unit in the last place of the counter per line, and the 4
    digits of the printed numbers. *)
Theorem print_filament : forall o lib fuel mn mx rs layers text r0, plain (StartGCode (Printer o)) -> reasonable o -> valid32 (RetractionLength (Filament o)) = true ->
  layers <> [] -> goslice_renderers lib fuel o mn mx = Ok rs -> snd (Generate o rs layers tt) = Ok text ->
  exists infill ps, infillPattern o mn mx = Ok infill /\ planned lib o fuel mn mx infill layers ps /\
  forall cs1 layer polygon z open cs2 p0 qs outline, concat (all_calls o ps) = cs1 ++ CPolygon layer polygon z open :: cs2 ->
    polygon <> [] -> DouglasPeucker polygon (-1) = p0 :: qs -> outline = qs ++ (if open then [] else [p0]) -> small_steps p0 outline ->
    exists n p pre post g c here t t' approach lines,
      nth_error ps n = Some p /\ layer_calls o (Z.of_nat (List.length ps) - 1) (Z.of_nat n) p = pre ++ CPolygon layer polygon z open :: post /\
      cs1 = concat (firstn n (all_calls o ps)) ++ pre /\
      run_calls lib cs1 (NewGCodeBuilder (FilamentDiameter (Filament o)) (ExtrusionMultiplier (Filament o))) = Ok g /\
      text = (BuilderString g ++ t ++ t')%string /\ moves (replay r0 (BuilderString g)) t = approach ++ lines /\
      Forall2 executed (commanded (known g) (extrusionAmount g) (approach_ops (settings_of g) c (currentPosition g) p0 z)) approach /\
      (exists E0, Forall2 executed (commanded here E0 (lines_ops (settings_of g) z p0 outline)) lines) /\
      forall k0 k1 F, rE (last approach (replay r0 (BuilderString g))) = Some k0 -> rE (last lines (last approach (replay r0 (BuilderString g)))) = Some k1 ->
        F = filament (FilamentDiameter (Filament o)) (ExtrusionMultiplier (Filament o)) (thickness o n) (ExtrusionWidth (Printer o)) (way p0 outline) ->
        (Rabs (IZR (k1 - k0) / 10000 - F) <=
          F * (5 / 1000000) + INR (List.length outline) * (Rmax (Rabs (IZR k0)) (Rabs (IZR k1)) + 1) / 10000 / 16777216 + / 10000)%R.
Proof.
  intros o lib fuel mn mx rs layers text r0 Ps (D & M & IT & LT & W) V N R G. pose proof G as G0. apply (goslice_generate lib fuel o mn mx layers rs text R) in G.
  destruct G as (inf & ps & b & Ei & Pl & E & ->). exists inf, ps. split; [exact Ei|]. split; [exact Pl|].
  intros cs1 layer polygon z open cs2 p0 qs outline Ec Np Dp Eo Sm.
  assert (Nps : ps <> []). { destruct Pl as [Len _]. destruct ps; [|discriminate]. destruct layers; [contradiction|discriminate]. }
  pose proof (planned_prints o lib fuel mn mx inf layers ps Pl) as Pr.
  destruct (whole_polygon o Ps lib ps b cs1 layer polygon z open cs2 p0 qs r0 Nps Pr E Ec Np Dp) as (g & c & t & t' & E1 & E2 & E3 & E4).
  rewrite <- (settings_follow_calls _ _ _ _ _ E1) in E4. unfold polygon_ops in E4. rewrite <- Eo in E4.
  destruct (permm_at o ps cs1 (CPolygon layer polygon z open) cs2 Pr eq_refl Ec) as (n & p & pre & post & Hn & Hl & Hc & Pm).
  assert (Q : Forall S_Calls.proper cs1). { pose proof (print_proper o ps Pr ltac:(lia) ltac:(lia) ltac:(lia) V) as Q. rewrite Ec in Q. apply Forall_app in Q. apply Q. }
  destruct (calls_good lib cs1 _ _ Q E1 (new_good (FilamentDiameter (Filament o)) (ExtrusionMultiplier (Filament o)) ltac:(lia) ltac:(lia))) as [Va Vr Vp Pp _ _].
  destruct (commanded_app (approach_ops (settings_of g) c (currentPosition g) p0 z) (lines_ops (settings_of g) z p0 outline) (known g) (extrusionAmount g)) as (here & Eq).
  rewrite Eq in E4. apply Forall2_app_inv_l in E4. destruct E4 as (approach & lines & X1 & X2 & Em).
  exists n, p, pre, post, g, c, here, t, t', approach, lines. split; [exact Hn|]. split; [exact Hl|]. split; [exact Hc|]. split; [exact E1|]. split; [exact E3|]. split; [exact Em|].
  split; [exact X1|]. split; [eexists; exact X2|]. intros k0 k1 F K0 K1 ->.
  pose proof (whole_E o Ps lib ps b cs1 layer polygon z open cs2 g r0 Nps Pr E Ec E1) as Ea.
  pose proof (executed_counter _ _ X1 _ _ Ea) as C0. set (Ex := counter (extrusionAmount g) _) in *. pose proof (executed_counter _ _ X2 _ _ C0) as C1.
  assert (P : s_permm (settings_of g) = extrusion_per_mm (FilamentDiameter (Filament o)) (ExtrusionMultiplier (Filament o)) (thickness o n) (ExtrusionWidth (Printer o))).
  { rewrite (settings_follow_calls _ _ _ _ _ E1). exact Pm. }
  assert (VE : valid32 Ex = true). { apply counter_valid; [exact Va|]. pose proof (polygon_valid (settings_of g) c (currentPosition g) p0 [] z true Vp Vr) as Y. apply Forall_app in Y. apply Y. }
  assert (Tn : 0 <= thickness o n <= 2 ^ 20) by (destruct n; [exact IT|exact LT]).
  set (fin := counter Ex (commanded here Ex (lines_ops (settings_of g) z p0 outline))) in *.
  assert (Ff : is_finite_SF fin = true) by (apply shown4_finite; congruence).
  destruct (lines_counter _ _ (thickness o n) _ (settings_of g) z D M Tn W P outline here Ex p0 VE Sm Ff) as (FE & _ & _ & Er). fold fin in Er.
  pose proof (shown_near Ex k0 FE ltac:(congruence)) as N0. pose proof (shown_near fin k1 Ff ltac:(congruence)) as N1.
  set (F := filament _ _ _ _ _) in *. set (e0 := SF2R radix2 Ex) in *. set (e1 := SF2R radix2 fin) in *. rewrite minus_IZR.
  set (L := INR (List.length outline)) in *. assert (L0 : (0 <= L)%R) by apply pos_INR.
  assert (Mx : (Rmax (Rabs e0) (Rabs e1) <= (Rmax (Rabs (IZR k0)) (Rabs (IZR k1)) + 1) / 10000)%R).
  { apply Rmax_lub.
    - pose proof (Rmax_l (Rabs (IZR k0)) (Rabs (IZR k1))). assert (Rabs e0 <= Rabs (IZR k0 / 10000) + Rabs (e0 - IZR k0 / 10000))%R. { replace e0 with (IZR k0 / 10000 + (e0 - IZR k0 / 10000))%R at 1 by ring. apply Rabs_triang. }
      unfold Rdiv at 1 in H0. rewrite Rabs_mult, (Rabs_pos_eq (/ 10000)) in H0 by lra. lra.
    - pose proof (Rmax_r (Rabs (IZR k0)) (Rabs (IZR k1))). assert (Rabs e1 <= Rabs (IZR k1 / 10000) + Rabs (e1 - IZR k1 / 10000))%R. { replace e1 with (IZR k1 / 10000 + (e1 - IZR k1 / 10000))%R at 1 by ring. apply Rabs_triang. }
      unfold Rdiv at 1 in H0. rewrite Rabs_mult, (Rabs_pos_eq (/ 10000)) in H0 by lra. lra. }
  apply (Rmult_le_compat_l (L * / 16777216)) in Mx; [|apply Rmult_le_pos; lra].
  set (X := Rmax (Rabs e0) (Rabs e1)) in *. set (Y := Rmax (Rabs (IZR k0)) (Rabs (IZR k1))) in *.
  replace ((IZR k1 - IZR k0) / 10000 - F)%R with ((e1 - e0 - F) + ((e0 - IZR k0 / 10000) - (e1 - IZR k1 / 10000)))%R by field.
  eapply Rle_trans; [apply Rabs_triang|]. apply Rabs_le_inv in N0. apply Rabs_le_inv in N1.
  assert (Rabs ((e0 - IZR k0 / 10000) - (e1 - IZR k1 / 10000)) <= / 10000)%R by (apply Rabs_le; lra).
  replace (L * (Y + 1) / 10000 / 16777216)%R with (L * / 16777216 * ((Y + 1) / 10000))%R by field. lra.
Qed.
Print Assumptions print_filament.

(** the example print satisfies the hypotheses, and has long enough lines *)
Example print_filament_ex : exists rs text, plain (StartGCode (Printer ex_options)) /\ reasonable ex_options /\ valid32 (RetractionLength (Filament ex_options)) = true /\
  ex_layers <> [] /\ goslice_renderers toy 50 ex_options ex_min ex_max = Ok rs /\ snd (Generate ex_options rs ex_layers tt) = Ok text.
Proof.
  eexists. eexists. split; [repeat constructor|]. split; [unfold reasonable; vm_compute; intuition discriminate|]. split; [reflexivity|]. split; [discriminate|]. split; [reflexivity|]. vm_compute. reflexivity.
Qed.
Example line_filament_ex : small_steps (Pt 0 0) [Pt 100000 0] /\ (filament 1750 100 200 400 (distance (Pt 0 0) (Pt 100000 0)) = 100 * (2 / 10) * (4 / 10) / (PI * Rsqr (7 / 8)))%R.
Proof.
  split; [cbn; lia|]. unfold filament, distance, mm. cbn [px py]. change (100000 - 0) with 100000. change (0 - 0) with 0.
  replace (Rsqr (100000 / 1000) + Rsqr (0 / 1000))%R with (Rsqr 100) by (unfold Rsqr; field). rewrite sqrt_Rsqr by lra. pose proof PI_RGT_0. unfold Rsqr. field. lra.
Qed.

(** The counter is a 32 bit float: after 20 m of filament short lines are not extruded at all, so "every line is extruded
    with the filament of its volume, whatever was printed before" is false. *)
Theorem line_extruded_refuted : exists g, run_calls toy [CSetExtrusion 200 400; CSetExtrudeSpeed (f32_of_Z 60); CSetMoveSpeed (f32_of_Z 150);
    CPolygon None [Pt 0 600000000; Pt 0 0; Pt 25 0; Pt 25 25; Pt 50 25] 200 true] (NewGCodeBuilder 1750 100) = Ok g /\
  (0 < filament 1750 100 200 400 (way (Pt 0 0) [Pt 25 0; Pt 25 25; Pt 50 25]))%R /\
  text_lines (BuilderString g) = ["G0 X0.00 Y600000.00 Z0.20 F9000"; "G1 Y0.00 F3600 E19956.0820"; "G1 X0.03 E19956.0820"; "G1 Y0.03 E19956.0820"; "G1 X0.05 E19956.0820"; ""].
Proof.
  eexists. split; [vm_compute; reflexivity|]. split; [|vm_compute; reflexivity].
  cbn [way]. unfold distance, mm. cbn [px py]. change (25 - 0) with 25. change (50 - 25) with 25. change (25 - 25) with 0. change (0 - 0) with 0.
  replace (Rsqr (25 / 1000) + Rsqr (0 / 1000))%R with (Rsqr (25 / 1000)) by (unfold Rsqr; field). replace (Rsqr (0 / 1000) + Rsqr (25 / 1000))%R with (Rsqr (25 / 1000)) by (unfold Rsqr; field). rewrite sqrt_Rsqr by lra. pose proof PI_RGT_0. unfold filament, mm.
  assert (0 < PI * Rsqr (1750 / 1000 / 2))%R by (apply Rmult_lt_0_compat; [assumption|unfold Rsqr; lra]). apply Rdiv_lt_0_compat; [lra|assumption].
Qed.
Print Assumptions line_extruded_refuted.
