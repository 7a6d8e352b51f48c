(** Properties C44-C51 and C64-C66: the generator and the renderers. *)
From Coq Require Import Permutation.
From Verif Require Import GoBase GoFloat GoStr M_Micrometer M_Geom2D M_Option M_Clip M_Builder M_Layer M_Render
  S_Text S_Option S_Printer S_Builder S_Calls S_Machine S_Render
  L_Str L_Option L_Data L_Printer L_Builder L_Calls L_Render L_Events L_Settings L_Whole L_Safe P_Clip P_Builder.
Local Open Scope string_scope.
Local Open Scope list_scope.
Local Open Scope Z_scope.

(** *** an example print *)
Definition rectangle (x y w h : Z) : path := [Pt x y; Pt (x + w) y; Pt (x + w) (y + h); Pt x (y + h)].
Definition ex_options : options :=
  Options (Slicing DefaultOptions)
    (PrinterOptions 400 (Center (Printer DefaultOptions)) true true ["G28"; "M117 {print_temperature} C"; "G1 Z5 F5000 ; lift nozzle"] ["M107"; "G28 X0"])
    (FilamentOptions 1750 60 205 55 200 1 (f 30) (f 2) (f 0) [(1, 128)] 100)
    (PrintOptions (f 30) (f 60) (f 40) (f 150) 300 200 2 50 400 0 0 false 3 4
      (Support (Print DefaultOptions)) (BrimSkirtOptions 1 (f 5) 0))
    (GoSlice DefaultOptions).
Definition ex_walls : offset_result := [[[Part (rectangle 1000 1000 3000 3000) [rectangle 2000 2000 500 500]]; [Part (rectangle 1400 1400 2200 2200) []]]].
Definition ex_layer : layer := Layer (Some [Part (rectangle 800 800 3400 3400) []])
  (Some [("perimeters", AOffset ex_walls); ("bottom", AParts [Part (rectangle 1800 1800 1400 900) []])]).
Definition ex_layers : list layer := [ex_layer; Layer (Some []) None; ex_layer].
Definition ex_min := Pt 800 800.
Definition ex_max := Pt 4200 4200.
Definition ex_text : res string := let* rs := goslice_renderers toy 50 ex_options ex_min ex_max in snd (Generate ex_options rs ex_layers tt).
Example ex_text_ok : exists rs text, goslice_renderers toy 50 ex_options ex_min ex_max = Ok rs /\ snd (Generate ex_options rs ex_layers tt) = Ok text /\
  Nat.leb 100 (List.length (text_lines text)) = true.
Proof. eexists. eexists. split; [reflexivity|]. split; vm_compute; reflexivity. Qed.

(** *** C44 *)
(** Whatever the renderers do (also to a state they share), the calls are exactly those of the schedule. *)
Theorem generator_schedule : forall (S : Type) o (rs : list (Renderer S)) layers s,
  (forall k, (k < List.length layers)%nat ->
     int64 (InitialLayerThickness (Print o) + Z.of_nat k * LayerThickness (Print o)) /\ int64 (Z.of_nat k * LayerThickness (Print o))) ->
  Generate o rs layers s =
  let '(s', x) := perform (Z.of_nat (List.length layers) - 1)
     (schedule (InitialLayerThickness (Print o)) (LayerThickness (Print o)) rs layers) s
     (NewGCodeBuilder (FilamentDiameter (Filament o)) (ExtrusionMultiplier (Filament o))) in
  (s', match x with Ok b => Ok (BuilderString b) | Err e => Err e | Panic w => Panic w | Diverge => Diverge end).
Proof. intros S o rs layers s H. exact (generate_perform o rs layers s H). Qed.
Print Assumptions generator_schedule.
(** The first renderer that fails decides: nothing after it is called and its error is all that is returned. *)
Theorem generator_first_error : forall (S : Type) o (rs : list (Renderer S)) layers s a r nr l z rest s1 b1 s2 e,
  (forall k, (k < List.length layers)%nat ->
     int64 (InitialLayerThickness (Print o) + Z.of_nat k * LayerThickness (Print o)) /\ int64 (Z.of_nat k * LayerThickness (Print o))) ->
  schedule (InitialLayerThickness (Print o)) (LayerThickness (Print o)) rs layers = a ++ (r, nr, l, z) :: rest ->
  perform (Z.of_nat (List.length layers) - 1) a s
    (NewGCodeBuilder (FilamentDiameter (Filament o)) (ExtrusionMultiplier (Filament o))) = (s1, Ok b1) ->
  r s1 nr (Z.of_nat (List.length layers) - 1) l z b1 = (s2, Err e) ->
  Generate o rs layers s = (s2, Err e).
Proof.
  intros S o rs layers s a r nr l z rest s1 b1 s2 e H Es Ep Er. rewrite (generate_perform o rs layers s H), Es. rewrite (perform_app _ a). rewrite Ep.
  cbn [perform]. rewrite Er. reflexivity.
Qed.
Print Assumptions generator_first_error.
(** Renderers without a state: the G-code does not depend on what was generated before. *)
Theorem generator_repeatable : forall (S : Type) o (rs : list (Renderer S)) layers s s',
  (forall r, In r rs -> forall s s' nr mx l z g, snd (r s nr mx l z g) = snd (r s' nr mx l z g)) ->
  snd (Generate o rs layers s) = snd (Generate o rs layers s').
Proof. intros S o rs layers s s' H. exact (generate_state_free o rs layers s s' H). Qed.
Print Assumptions generator_repeatable.
(** The built in renderers have none. *)
Theorem goslice_renderers_stateless : forall lib fuel o mn mx rs r, goslice_renderers lib fuel o mn mx = Ok rs -> In r rs ->
  exists f, forall s nr m l z g, r s nr m l z g = (s, f nr m l z g).
Proof.
  intros lib fuel o mn mx rs r E I. unfold goslice_renderers in E. destruct (infillPattern o mn mx); [|discriminate..]. injection E as <-.
  cbn [In] in I. repeat (destruct I as [<-|I]; [eexists; intros; reflexivity|]). destruct I.
Qed.
Print Assumptions goslice_renderers_stateless.
(** two renderers that note down their calls; the second one fails on layer 1 *)
Definition noting (name fails : Z) : Renderer (list (Z * Z * Z)) := fun s nr _ _ z b =>
  (s ++ [(name, nr, z)], if nr =? fails then Err "no" else Ok (AddComment (itoa nr) b)).
Example generator_ex : 
  Generate ex_options [noting 7 9; noting 8 1] ex_layers [] = ([(7, 0, 300); (8, 0, 300); (7, 1, 500); (8, 1, 500)], Err "no") /\
  Generate ex_options [noting 7 9; noting 8 9] ex_layers [] =
    ([(7, 0, 300); (8, 0, 300); (7, 1, 500); (8, 1, 500); (7, 2, 700); (8, 2, 700)],
     Ok (";0" ++ newline ++ ";0" ++ newline ++ ";1" ++ newline ++ ";1" ++ newline ++ ";2" ++ newline ++ ";2" ++ newline)%string) /\
  (forall k, (k < List.length ex_layers)%nat -> int64 (300 + Z.of_nat k * 200) /\ int64 (Z.of_nat k * 200)).
Proof.
  split; [reflexivity|]. split; [reflexivity|]. cbn [ex_layers List.length]. intros k Hk. unfold int64, minInt64, maxInt64. lia.
Qed.

(** *** C45 *)
(** The perimeter renderer makes exactly the calls of [part_plan], part by part: inner insets ascending, then the outer
    one; each time the holes of a part and then its outline. *)
Theorem perimeter_prints : forall lib o nr mx l z b ps, Perimeters l = Ok ps ->
  Perimeter lib o nr mx l z b = run_calls lib (flat_map (part_plan o l z) ps) b.
Proof. intros lib o nr mx l z b ps E. rewrite perimeter_calls. unfold perimeter_plan. rewrite E. reflexivity. Qed.
Print Assumptions perimeter_prints.
Lemma polys_app a b : polys (a ++ b) = polys a ++ polys b.
Proof. unfold polys. apply flat_map_app. Qed.
Lemma polys_walls l z p : polys (closed_walls l z p) = polygons_of p.
Proof.
  unfold closed_walls. rewrite polys_app. unfold polygons_of. f_equal. induction (holes p) as [|h hs IH]; [reflexivity|].
  cbn [map polys flat_map app]. f_equal. exact IH.
Qed.
Lemma polys_flat {A} (f : A -> list call) (g : A -> list path) ps : (forall p, polys (f p) = g p) -> polys (flat_map f ps) = flat_map g ps.
Proof. intros H. induction ps as [|p ps IH]; [reflexivity|]. cbn [flat_map]. rewrite polys_app, H, IH. reflexivity. Qed.
(** Their order, and that each polygon of the structure is printed once. *)
Theorem inset_order : forall o l z outer inner,
  polys (part_plan o l z (outer :: inner)) = flat_map polygons_of (concat inner) ++ flat_map polygons_of outer.
Proof.
  intros o l z outer inner. cbn [part_plan]. rewrite polys_app. f_equal; apply polys_flat; intros p;
    (unfold inner_wall || unfold outer_wall); rewrite polys_app, polys_walls; reflexivity.
Qed.
Print Assumptions inset_order.
Theorem insets_once : forall o l z ps,
  Permutation (polys (flat_map (part_plan o l z) ps)) (flat_map polygons_of (concat (concat ps))).
Proof.
  intros o l z ps. induction ps as [|insets ps IH]; [constructor|]. cbn [flat_map concat]. rewrite polys_app, concat_app, flat_map_app.
  apply Permutation_app; [|exact IH]. destruct insets as [|outer inner]; [constructor|]. rewrite inset_order. cbn [concat].
  rewrite flat_map_app. apply Permutation_app_comm.
Qed.
Print Assumptions insets_once.
Example perimeter_ex : exists b, Perimeter toy ex_options 1 1 (Layer (Some []) (Some [("perimeters", AOffset
    [[[Part [Pt 1 1; Pt 9 1] [[Pt 2 2; Pt 3 2]]]; [Part [Pt 4 4; Pt 7 4] []]; [Part [Pt 5 5; Pt 8 5] []]]; [[Part [Pt 11 1; Pt 17 1] []]]])])) 500
    (NewGCodeBuilder 1750 100) = Ok b /\
  polys (flat_map (part_plan ex_options (Layer None None) 500) [[[Part [Pt 1 1; Pt 9 1] [[Pt 2 2; Pt 3 2]]]; [Part [Pt 4 4; Pt 7 4] []]; [Part [Pt 5 5; Pt 8 5] []]]; [[Part [Pt 11 1; Pt 17 1] []]]]) =
    [[Pt 4 4; Pt 7 4]; [Pt 5 5; Pt 8 5]; [Pt 2 2; Pt 3 2]; [Pt 1 1; Pt 9 1]; [Pt 11 1; Pt 17 1]].
Proof. eexists. split; [vm_compute; reflexivity|]. vm_compute. reflexivity. Qed.

(** *** the whole print *)
(** A print succeeds exactly if its calls can be planned and done; the G-code is their text. *)
Theorem print_is_planned : forall lib fuel o mn mx layers rs text, goslice_renderers lib fuel o mn mx = Ok rs ->
  (snd (Generate o rs layers tt) = Ok text <->
   exists infill ps b, infillPattern o mn mx = Ok infill /\ planned lib o fuel mn mx infill layers ps /\
    run_calls lib (concat (all_calls o ps)) (NewGCodeBuilder (FilamentDiameter (Filament o)) (ExtrusionMultiplier (Filament o))) = Ok b /\
    text = BuilderString b).
Proof. exact goslice_generate. Qed.
Print Assumptions print_is_planned.

(** *** C46 *)
(** The settings each polygon of a print is made with: see [layer_in_force].  Inner walls use the layer speed, outer ones
    the outer perimeter speed, and what is filled in afterwards the speed of the last wall. *)
Theorem print_settings : forall lib o fuel mn mx inf layers ps, planned lib o fuel mn mx inf layers ps ->
  in_force (FilamentDiameter (Filament o)) (ExtrusionMultiplier (Filament o)) unconfigured (concat (all_calls o ps)) =
  flat_map (fun '(nr, (l, p)) => layer_in_force o (Z.of_nat nr) l p) (combine (seq 0 (List.length layers)) (combine layers ps)).
Proof. exact print_in_force. Qed.
Print Assumptions print_settings.
Lemma force_app d m a b : forall k, in_force d m k (a ++ b) = in_force d m k a ++ in_force d m (fold_left (configure d m) a k) b.
Proof.
  induction a as [|c a IH]; intros k; [reflexivity|]. destruct c; cbn [app in_force fold_left]; rewrite IH; destruct k; reflexivity.
Qed.
(** [in_force] lists the settings that the builder really has when it is asked for the polygon. *)
Theorem in_force_meaning : forall lib d m cs1 layer polygon z open cs2 g,
  run_calls lib cs1 (NewGCodeBuilder d m) = Ok g ->
  exists before after, in_force d m unconfigured (cs1 ++ CPolygon layer polygon z open :: cs2) = before ++ (settings_of g, polygon) :: after /\
    map snd before = polys cs1.
Proof.
  intros lib d m cs1 layer polygon z open cs2 g E. rewrite force_app. cbn [in_force]. rewrite <- (settings_follow_calls lib d m cs1 g E).
  eexists. eexists. split; [reflexivity|]. clear E. generalize unconfigured. induction cs1 as [|c cs IH]; intros k; [reflexivity|].
  destruct c; cbn [in_force polys flat_map app map snd]; try apply IH. f_equal. apply IH.
Qed.
Print Assumptions in_force_meaning.
(** On layers above the first the speeds are those of the options. *)
Theorem wall_speeds : forall o nr v, 0 < nr -> s_print (with_speed o nr v) = int_of_f32 v.
Proof. intros o nr v H. unfold with_speed. cbn [s_print]. destruct (Z.eqb_spec nr 0); [lia|]. reflexivity. Qed.
Print Assumptions wall_speeds.
Theorem walls_by_kind : forall o outer inner v q, In (v, q) (walls_of o (outer :: inner)) ->
  (v = LayerSpeed (Print o) /\ In q (flat_map polygons_of (concat inner))) \/ (v = OuterPerimeterSpeed (Print o) /\ In q (flat_map polygons_of outer)).
Proof.
  intros o outer inner v q I. cbn [walls_of] in I. apply in_app_iff in I. destruct I as [I|I]; apply in_map_iff in I; destruct I as (x & E & I); injection E as <- <-; auto.
Qed.
Print Assumptions walls_by_kind.
(** If the last part of the layer has an outer wall, the infill is printed with the outer perimeter speed. *)
Theorem infill_at_outer_speed : forall o l ps insets outer inner p outer', Perimeters l = Ok (ps ++ [insets]) -> insets = outer :: inner -> outer = outer' ++ [p] ->
  speed_after o (layer_walls o l) = OuterPerimeterSpeed (Print o).
Proof.
  intros o l ps insets outer inner p outer' E -> ->. unfold speed_after, layer_walls. rewrite E, flat_map_app. cbn [flat_map walls_of].
  rewrite app_nil_r, !flat_map_app. cbn [flat_map]. rewrite app_nil_r. unfold polygons_of at 3. rewrite !map_app. cbn [map fst].
  rewrite !app_assoc, last_last. reflexivity.
Qed.
Print Assumptions infill_at_outer_speed.
(** So "infill is printed with the layer speed" is false. *)
Theorem infill_at_layer_speed_refuted : exists lib o fuel mn mx layers rs text line,
  goslice_renderers lib fuel o mn mx = Ok rs /\ snd (Generate o rs layers tt) = Ok text /\
  int_of_f32 (LayerSpeed (Print o)) = 60 /\ int_of_f32 (OuterPerimeterSpeed (Print o)) = 40 /\
  line = "G1 X0.80 F2400 E4.5763" /\
  exists before after, text_lines text = before ++ [";TYPE:FILL"; ";BOTTOM-FILL"; "G0 X4.20 Y4.20 F9000"; line] ++ after.
Proof.
  exists toy, ex_options, 50%nat, ex_min, ex_max, ex_layers. eexists. eexists. eexists. split; [reflexivity|]. split; [vm_compute; reflexivity|].
  split; [reflexivity|]. split; [reflexivity|]. split; [reflexivity|]. 
  match goal with |- exists a b, ?t = _ => exists (firstn 82 t), (skipn 86 t) end. vm_compute. reflexivity.
Qed.
Print Assumptions infill_at_layer_speed_refuted.

(** *** C47 *)
Theorem first_layer_settings : forall o l p st q, In (st, q) (layer_in_force o 0 l p) ->
  s_permm st = extrusion_per_mm (FilamentDiameter (Filament o)) (ExtrusionMultiplier (Filament o)) (InitialLayerThickness (Print o)) (ExtrusionWidth (Printer o)) /\
  (0 < int_of_f32 (IntialLayerSpeed (Print o)) -> s_print st = int_of_f32 (IntialLayerSpeed (Print o))).
Proof.
  intros o l p st q I. unfold layer_in_force in I. rewrite !in_app_iff, !in_map_iff in I.
  assert (W : exists v, st = with_speed o 0 v).
  { destruct I as [(x & E & _)|[([v x] & E & _)|(x & E & _)]]; injection E as <- _; eexists; reflexivity. }
  destruct W as (v & ->). split; [reflexivity|]. intros H. unfold with_speed. cbn [s_print]. apply Z.ltb_lt in H. rewrite H. reflexivity.
Qed.
Print Assumptions first_layer_settings.
Theorem later_layer_settings : forall o nr l p st q, 0 < nr -> In (st, q) (layer_in_force o nr l p) ->
  s_permm st = extrusion_per_mm (FilamentDiameter (Filament o)) (ExtrusionMultiplier (Filament o)) (LayerThickness (Print o)) (ExtrusionWidth (Printer o)) /\
  (s_print st = int_of_f32 (LayerSpeed (Print o)) \/ s_print st = int_of_f32 (OuterPerimeterSpeed (Print o))).
Proof.
  intros o nr l p st q H I. unfold layer_in_force in I. rewrite !in_app_iff, !in_map_iff in I.
  assert (V : forall w, In w (layer_walls o l) -> fst w = LayerSpeed (Print o) \/ fst w = OuterPerimeterSpeed (Print o)).
  { intros w Iw. unfold layer_walls in Iw. destruct (Perimeters l) as [ps| | |]; try contradiction. apply in_flat_map in Iw. destruct Iw as ([|outer inner] & _ & Iw); [contradiction|].
    destruct w as [v r]. destruct (walls_by_kind o outer inner v r Iw) as [[-> _]|[-> _]]; cbn [fst]; auto. }
  assert (W : exists v, st = with_speed o nr v /\ (v = LayerSpeed (Print o) \/ v = OuterPerimeterSpeed (Print o))).
  { destruct I as [(x & E & _)|[([v x] & E & Iw)|(x & E & _)]]; injection E as <- _; eexists; (split; [reflexivity|]); auto.
    - exact (V _ Iw).
    - unfold speed_after. destruct (layer_walls o l) as [|w ws] eqn:Ew; [left; reflexivity|]. 
      destruct (@exists_last _ (w :: ws)) as (ws' & w' & E'); [discriminate|]. rewrite E', map_app. cbn [map]. rewrite last_last. apply V. rewrite E', in_app_iff. right. left. reflexivity. }
  destruct W as (v & -> & Hv). split.
  - unfold with_speed. cbn [s_permm]. destruct (Z.eqb_spec nr 0); [lia|reflexivity].
  - rewrite wall_speeds by lia. destruct Hv as [->| ->]; auto.
Qed.
Print Assumptions later_layer_settings.
Example settings_of_print_ex : exists p, plan_layer toy ex_options 50 ex_min ex_max None 0 ex_layer (height ex_options 0) = Ok p /\
  map (fun '(st, q) => s_print st) (layer_in_force ex_options 0 ex_layer p) = repeat 30 13 /\
  exists p, plan_layer toy ex_options 50 ex_min ex_max None 2 ex_layer (height ex_options 2) = Ok p /\
  map (fun '(st, q) => s_print st) (layer_in_force ex_options 2 ex_layer p) = 60 :: repeat 40 11.
Proof. eexists. split; [vm_compute; reflexivity|]. split; [vm_compute; reflexivity|]. eexists. split; vm_compute; reflexivity. Qed.

(** *** C48, C49 *)
(** All that happens in a print, in order: heating if the safe start demands it, the custom start code, the layers -
    each with its mark, the fan command if the table has one for it, the change of the temperatures if it is that
    layer, and nothing but moves -, switching off if the safe stop demands it, and the custom end code. *)
Definition plain (lines : list string) : Prop := Forall (fun s => no_char "%" s = true) lines.
Theorem print_happens : forall o lib fuel mn mx rs layers text, plain (StartGCode (Printer o)) -> plain (EndGCode (Printer o)) ->
  layers <> [] -> goslice_renderers lib fuel o mn mx = Ok rs -> snd (Generate o rs layers tt) = Ok text ->
  exists ks, List.length ks = List.length layers /\
    events text = safe_start o ++ custom (map (fill_template o) (StartGCode (Printer o))) ++ marked o 0 ks
                  ++ safe_stop o ++ custom (EndGCode (Printer o)).
Proof. intros o lib fuel mn mx rs layers text H1 H2. exact (print_events o H1 H2 lib fuel mn mx rs layers text). Qed.
Print Assumptions print_happens.
(** when a heating command counts as present in custom code *)
Theorem custom_heating : forall lines codes, DoesInstructionContainCodes lines codes = true <-> mentions lines codes.
Proof. exact mentions_spec. Qed.
Print Assumptions custom_heating.
Theorem safe_start_hot_end : forall o lib fuel mn mx rs layers text, plain (StartGCode (Printer o)) -> plain (EndGCode (Printer o)) ->
  layers <> [] -> goslice_renderers lib fuel o mn mx = Ok rs -> snd (Generate o rs layers tt) = Ok text ->
  ForceSafeStartStopGCode (Printer o) = true -> ~ mentions (StartGCode (Printer o)) ["M104"; "M109"] ->
  exists before after, events text = before ++ EAux (HotEnd true (degrees (InitialHotEndTemperature (Filament o)))) :: after /\
    forall e, In e before -> exists t, e = EAux (Bed true t).
Proof.
  intros o lib fuel mn mx rs layers text H1 H2 N R G F M. destruct (print_happens o lib fuel mn mx rs layers text H1 H2 N R G) as (ks & _ & ->).
  unfold safe_start. rewrite F, (not_mentioned _ _ M). cbn [negb andb].
  match goal with |- context [if ?b then _ else _] => destruct b end; cbn [app].
  - eexists [_]. eexists. split; [reflexivity|]. intros e [<-|[]]. eexists. reflexivity.
  - exists []. eexists. split; [reflexivity|]. intros e [].
Qed.
Print Assumptions safe_start_hot_end.
Theorem safe_start_bed : forall o lib fuel mn mx rs layers text, plain (StartGCode (Printer o)) -> plain (EndGCode (Printer o)) ->
  layers <> [] -> goslice_renderers lib fuel o mn mx = Ok rs -> snd (Generate o rs layers tt) = Ok text ->
  ForceSafeStartStopGCode (Printer o) = true -> HasHeatedBed (Printer o) = true -> ~ mentions (StartGCode (Printer o)) ["M140"; "M190"] ->
  exists after, events text = EAux (Bed true (degrees (InitialBedTemperature (Filament o)))) :: after.
Proof.
  intros o lib fuel mn mx rs layers text H1 H2 N R G F B M. destruct (print_happens o lib fuel mn mx rs layers text H1 H2 N R G) as (ks & _ & ->).
  unfold safe_start. rewrite F, B, (not_mentioned _ _ M). cbn [negb andb app]. eexists. reflexivity.
Qed.
Print Assumptions safe_start_bed.
(** After the print the heaters are off. *)
Theorem safe_stop_hot_end : forall o lib fuel mn mx rs layers text, plain (StartGCode (Printer o)) -> plain (EndGCode (Printer o)) ->
  layers <> [] -> goslice_renderers lib fuel o mn mx = Ok rs -> snd (Generate o rs layers tt) = Ok text ->
  ForceSafeStartStopGCode (Printer o) = true -> Forall (fun s => no_char (chr 10) s = true) (EndGCode (Printer o)) ->
  ~ mentions (EndGCode (Printer o)) ["M104"; "M109"] -> hot_end (aux_events (events text)) None = Some 0.
Proof.
  intros o lib fuel mn mx rs layers text H1 H2 N R G F L M. destruct (print_happens o lib fuel mn mx rs layers text H1 H2 N R G) as (ks & _ & ->).
  rewrite 2 app_assoc, aux_events_app, hot_end_app. apply stop_hot; assumption.
Qed.
Print Assumptions safe_stop_hot_end.
Theorem safe_stop_bed : forall o lib fuel mn mx rs layers text, plain (StartGCode (Printer o)) -> plain (EndGCode (Printer o)) ->
  layers <> [] -> goslice_renderers lib fuel o mn mx = Ok rs -> snd (Generate o rs layers tt) = Ok text ->
  ForceSafeStartStopGCode (Printer o) = true -> HasHeatedBed (Printer o) = true ->
  Forall (fun s => no_char (chr 10) s = true) (EndGCode (Printer o)) ->
  ~ mentions (EndGCode (Printer o)) ["M140"; "M190"] -> bed (aux_events (events text)) None = Some 0.
Proof.
  intros o lib fuel mn mx rs layers text H1 H2 N R G F B L M. destruct (print_happens o lib fuel mn mx rs layers text H1 H2 N R G) as (ks & _ & ->).
  rewrite 2 app_assoc, aux_events_app, bed_app. apply stop_bed; assumption.
Qed.
Print Assumptions safe_stop_bed.
Lemma ex_mentions : ~ mentions (StartGCode (Printer ex_options)) ["M104"; "M109"] /\ ~ mentions (StartGCode (Printer ex_options)) ["M140"; "M190"] /\
  ~ mentions (EndGCode (Printer ex_options)) ["M104"; "M109"] /\ ~ mentions (EndGCode (Printer ex_options)) ["M140"; "M190"].
Proof. repeat split; intros H; apply mentions_spec in H; vm_compute in H; discriminate. Qed.
Example safe_ex : plain (StartGCode (Printer ex_options)) /\ plain (EndGCode (Printer ex_options)) /\
  Forall (fun s => no_char (chr 10) s = true) (EndGCode (Printer ex_options)) /\ exists text, ex_text = Ok text /\
  events text = [EAux (Bed true 600000); EAux (HotEnd true 2050000); EMove; ELayer "0"] ++ repeat EMove 42 ++ 
    [ELayer "1"; EAux (Fan 1280000); EAux (Bed false 550000); EAux (HotEnd false 2000000); ELayer "2"] ++ repeat EMove 33 ++
    [EAux (HotEnd false 0); EAux (Bed false 0); EAux (Fan 0)].
Proof.
  split; [repeat constructor|]. split; [repeat constructor|]. split; [repeat constructor|]. eexists. split; vm_compute; reflexivity.
Qed.
(** A line that comments the command out counts as mentioning it: the print starts with a cold hot end. *)
Definition with_start (start : list string) (o : options) : options :=
  Options (Slicing o) (PrinterOptions (ExtrusionWidth (Printer o)) (Center (Printer o)) (ForceSafeStartStopGCode (Printer o)) (HasHeatedBed (Printer o)) start (EndGCode (Printer o)))
    (Filament o) (Print o) (GoSlice o).
Theorem forced_heating_refuted : exists o lib fuel mn mx rs layers text after, 
  goslice_renderers lib fuel o mn mx = Ok rs /\ snd (Generate o rs layers tt) = Ok text /\
  ForceSafeStartStopGCode (Printer o) = true /\ events text = EAux (Bed true 600000) :: ELayer "0" :: EMove :: after /\
  StartGCode (Printer o) = [";M109 S200"].
Proof.
  exists (with_start [";M109 S200"] ex_options), toy, 50%nat, ex_min, ex_max. eexists. exists ex_layers. eexists. eexists.
  split; [reflexivity|]. split; [vm_compute; reflexivity|]. split; [reflexivity|]. split; [vm_compute; reflexivity|]. reflexivity.
Qed.
Print Assumptions forced_heating_refuted.

(** *** C49 *)
(** Between the marks: the fan commands of exactly the layers of the table, and one change of the temperatures. *)
Lemma aux_repeat k : aux_events (repeat EMove k) = [].
Proof. induction k as [|k IH]; [reflexivity|exact IH]. Qed.
Lemma aux_layer o nr k : aux_events (layer_events o nr k) = aux_events (fan_event o nr) ++ aux_events (temperature_event o nr).
Proof. unfold layer_events. rewrite !aux_events_app, aux_repeat, app_nil_r. reflexivity. Qed.
Theorem layer_commands : forall o n ks, aux_events (marked o n ks) =
  flat_map (fun nr => match lut_get (FanSpeed (Filament o)) (Z.of_nat nr) with Some v => [Fan (degrees v)] | None => [] end ++
    if Z.of_nat nr =? InitialTemperatureLayerCount (Filament o)
    then [Bed false (degrees (BedTemperature (Filament o))); HotEnd false (degrees (HotEndTemperature (Filament o)))] else [])
    (seq n (List.length ks)).
Proof.
  intros o n ks. revert n. unfold marked. induction ks as [|k ks IH]; intros n; [reflexivity|]. cbn [List.length seq combine flat_map].
  rewrite aux_events_app, aux_layer, IH. f_equal. f_equal.
  - unfold fan_event. destruct (lut_get _ _); reflexivity.
  - unfold temperature_event. destruct (_ =? _); reflexivity.
Qed.
Print Assumptions layer_commands.
(** The hot end ends up at its later temperature exactly if the layer of the change exists. *)
Theorem temperature_change : forall o n ks d, hot_end (aux_events (marked o n ks)) d =
  if (Z.of_nat n <=? InitialTemperatureLayerCount (Filament o)) && (InitialTemperatureLayerCount (Filament o) <? Z.of_nat (n + List.length ks))
  then Some (degrees (HotEndTemperature (Filament o))) else d.
Proof.
  intros o n ks. rewrite layer_commands. generalize (List.length ks). intros m. revert n. induction m as [|m IH]; intros n d.
  - cbn [seq flat_map hot_end]. rewrite Nat.add_0_r. destruct (Z.leb_spec (Z.of_nat n) (InitialTemperatureLayerCount (Filament o)));
      destruct (Z.ltb_spec (InitialTemperatureLayerCount (Filament o)) (Z.of_nat n)); cbn [andb]; try reflexivity; lia.
  - cbn [seq flat_map]. rewrite !hot_end_app, IH. replace (n + S m)%nat with (S n + m)%nat by lia.
    destruct (lut_get _ _); cbn [hot_end];
      (destruct (Z.eqb_spec (Z.of_nat n) (InitialTemperatureLayerCount (Filament o))) as [<-|H]; cbn [hot_end];
       [ destruct (Z.leb_spec (Z.of_nat (S n)) (Z.of_nat n)); [lia|]; destruct (Z.leb_spec (Z.of_nat n) (Z.of_nat n)); [|lia];
         destruct (Z.ltb_spec (Z.of_nat n) (Z.of_nat (S n + m))); [|lia]; reflexivity
       | destruct (Z.leb_spec (Z.of_nat (S n)) (InitialTemperatureLayerCount (Filament o)));
         destruct (Z.leb_spec (Z.of_nat n) (InitialTemperatureLayerCount (Filament o))); try lia; reflexivity ]).
Qed.
Print Assumptions temperature_change.
Definition without_bed (o : options) : options :=
  Options (Slicing o) (PrinterOptions (ExtrusionWidth (Printer o)) (Center (Printer o)) (ForceSafeStartStopGCode (Printer o)) false (StartGCode (Printer o)) (EndGCode (Printer o)))
    (Filament o) (Print o) (GoSlice o).
(** Without a heated bed a bed temperature is set all the same. *)
Theorem no_bed_command_refuted : exists o lib fuel mn mx rs layers text, goslice_renderers lib fuel o mn mx = Ok rs /\
  snd (Generate o rs layers tt) = Ok text /\ HasHeatedBed (Printer o) = false /\ bed (aux_events (events text)) None = Some 550000.
Proof.
  exists (without_bed ex_options), toy, 50%nat, ex_min, ex_max. eexists. exists ex_layers. eexists.
  split; [reflexivity|]. split; [vm_compute; reflexivity|]. split; [reflexivity|]. vm_compute. reflexivity.
Qed.
Print Assumptions no_bed_command_refuted.
Example temperature_ex : hot_end (aux_events (marked ex_options 0 [42; 0; 33]%nat)) None = Some 2000000 /\ hot_end (aux_events (marked ex_options 0 [42%nat])) None = None.
Proof. split; reflexivity. Qed.

(** *** C50 *)
(** The custom start code is emitted line by line with each placeholder replaced. *)
Theorem start_code_filled : forall o line, start_line o line (fill_template o line).
Proof. exact fill_start_line. Qed.
Print Assumptions start_code_filled.
Theorem no_placeholder_left : forall o line a b,
  fill_template o line <> (a ++ "{print_bed_temperature}" ++ b)%string /\ fill_template o line <> (a ++ "{print_temperature}" ++ b)%string.
Proof. exact fill_no_placeholder. Qed.
Print Assumptions no_placeholder_left.
Theorem other_text_kept : forall o line, (forall a b, line <> (a ++ "{print_bed_temperature}" ++ b)%string) ->
  (forall a b, line <> (a ++ "{print_temperature}" ++ b)%string) -> fill_template o line = line.
Proof. exact fill_unchanged. Qed.
Print Assumptions other_text_kept.
Definition lines_text (lines : list string) : string := String.concat "" (map (fun line => (line ++ newline)%string) lines).
Lemma lines_text_cons l ls : lines_text (l :: ls) = (l ++ newline ++ lines_text ls)%string.
Proof.
  unfold lines_text. cbn [map]. destruct (map _ ls) as [|x xs] eqn:E.
  - cbn [String.concat]. rewrite sapp_nil_r. reflexivity.
  - cbn [String.concat]. rewrite !sapp_assoc. reflexivity.
Qed.
Lemma add_commands_text lines : plain lines -> forall g, BuilderString (add_commands lines g) = (BuilderString g ++ lines_text lines)%string.
Proof.
  intros H. unfold add_commands. induction H as [|l ls Hl H IH]; intros g; cbn [fold_left].
  - unfold lines_text. cbn [map String.concat]. rewrite sapp_nil_r. reflexivity.
  - rewrite IH, lines_text_cons, (proj1 (command_verbatim l g Hl)). rewrite !sapp_assoc. reflexivity.
Qed.
(** These lines make up the start of every print. *)
Theorem start_code_printed : forall o lib fuel mn mx rs layers text, plain (StartGCode (Printer o)) ->
  layers <> [] -> goslice_renderers lib fuel o mn mx = Ok rs -> snd (Generate o rs layers tt) = Ok text ->
  exists before after, text = (before ++ ";START GCODE" ++ newline ++
     lines_text (map (fill_template o) (StartGCode (Printer o))) ++ "G92 E0 ; reset extrusion distance" ++ newline ++ after)%string.
Proof.
  intros o lib fuel mn mx rs layers text P N R G. apply (goslice_generate lib fuel o mn mx layers rs text R) in G.
  destruct G as (inf & ps & b & _ & (Len & _) & E & ->). destruct ps as [|p ps]; [destruct layers; [contradiction|discriminate]|].
  cbn [all_calls List.length seq combine map concat] in E. unfold layer_calls at 1 in E. unfold pre_plan at 1 in E.
  change (Z.of_nat 0 =? 0) with true in E. cbv iota in E. unfold start_calls in E.
  rewrite <- !app_assoc in E. apply run_app_Ok in E. destruct E as (b1 & E1 & E). apply run_app_Ok in E. destruct E as (b2 & E2 & E).
  apply run_app_Ok in E. destruct E as (b3 & E3 & E). apply run_app_Ok in E. destruct E as (b4 & E4 & E).
  apply run_app_Ok in E. destruct E as (b5 & E5 & E). apply run_app_Ok in E. destruct E as (b6 & E6 & E).
  rewrite commands_calls in E5. injection E5 as <-. cbn [run_calls run_call bind] in E4. injection E4 as <-. cbn [run_calls run_call bind] in E6. injection E6 as <-.
  destruct (grows lib _ _ _ E) as (t & Ht). change buf with BuilderString in Ht.
  match type of Ht with _ = (BuilderString ?x ++ _)%string =>
    match x with context [AddCommand "G92 E0 ; reset extrusion distance" ?y] =>
      change (BuilderString x) with (BuilderString (AddCommand "G92 E0 ; reset extrusion distance" y)) in Ht end end.
  rewrite (proj1 (command_verbatim "G92 E0 ; reset extrusion distance" _ eq_refl)), add_commands_text in Ht
    by (apply Forall_forall; intros s I; apply in_map_iff in I; destruct I as (s0 & <- & I); apply fill_plain; exact (proj1 (Forall_forall _ _) P s0 I)).
  rewrite (proj2 (command_verbatim "START GCODE" _ eq_refl)) in Ht.
  exists (BuilderString b3), t. rewrite !sapp_assoc in Ht. exact Ht.
Qed.
Print Assumptions start_code_printed.
Example fill_ex : fill_template ex_options "M109 S{print_temperature} T{print_temperature}" = "M109 S205 T205" /\
  exists text after, ex_text = Ok text /\ text = (";Generated with GoSlice" ++ newline ++ ";______________________" ++ newline ++ ";SET BED TEMP" ++ newline
    ++ "M190 S60 ; heat and wait for bed" ++ newline ++ ";SET HOTEND TEMP" ++ newline ++ "M109 S205 ; wait for hot end temperature" ++ newline
    ++ ";START GCODE" ++ newline ++ "G28" ++ newline ++ "M117 205 C" ++ newline ++ "G1 Z5 F5000 ; lift nozzle" ++ newline
    ++ "G92 E0 ; reset extrusion distance" ++ newline ++ after)%string.
Proof. split; [reflexivity|]. eexists. eexists. split; vm_compute; reflexivity. Qed.

(** *** C51 *)
(** The skirt: count lines around the hull of walls and support on layer 0, and nothing anywhere else. *)
Theorem skirt_printed : forall lib o nr mx l z b,
  Skirt lib o nr mx l z b = let* cs := skirt_plan lib o nr l z in run_calls lib cs b.
Proof. exact skirt_calls. Qed.
Print Assumptions skirt_printed.
Theorem skirt_only_first_layer : forall lib o nr mx l z b, nr <> 0 \/ s_SkirtCount (BrimSkirt (Print o)) = 0 -> Skirt lib o nr mx l z b = Ok b.
Proof.
  intros lib o nr mx l z b H. rewrite skirt_calls. unfold skirt_plan.
  assert (E : (s_SkirtCount (BrimSkirt (Print o)) =? 0) || negb (nr =? 0) = true).
  { destruct H as [H| ->]; [|reflexivity]. destruct (Z.eqb_spec nr 0); [contradiction|]. apply orb_true_r. }
  rewrite E. reflexivity.
Qed.
Print Assumptions skirt_only_first_layer.
(** On the first layer there are SkirtCount loops unless nothing is printed, the k-th one at the distance from the hull
    SkirtDistance + (BrimCount + 1 + k) extrusion widths. *)
Theorem skirt_lines : forall lib o l z ps support, Perimeters l = Ok ps -> FullSupport l = Ok support -> support ++ concat (concat ps) <> [] ->
  let w := ExtrusionWidth (Printer o) in let count := s_SkirtCount (BrimSkirt (Print o)) in
  let distance := ToMicrometer (s_SkirtDistance (BrimSkirt (Print o))) + w * s_BrimCount (BrimSkirt (Print o)) + w in
  count <> 0 -> Z.abs distance + Z.max 0 count * Z.abs w <= 2 ^ 53 -> Z.abs w <= 2 ^ 53 ->
  exists loops, skirt_plan lib o 0 l z = Ok (CComment "TYPE:SKIRT" :: map (fun p => CPolygon None (outline p) z false) (concat loops)) /\
    Z.of_nat (List.length loops) = Z.max 0 count /\
    forall k x, idx loops k = Ok x -> polyTreeToLayerParts (offset lib (f64_of_Z (distance + k * w)) [Hull lib (support ++ concat (concat ps))]) = Ok x.
Proof.
  intros lib o l z ps support Ep Es N w count distance C B W. unfold skirt_plan. destruct (Z.eqb_spec (s_SkirtCount (BrimSkirt (Print o))) 0); [contradiction|].
  cbn [orb negb Z.eqb]. rewrite Ep, Es. cbn [bind].
  assert (T : ToOneDimension ps = concat (concat ps)). { reflexivity. }
  rewrite T. fold w. fold count.
  assert (I64 : forall x, Z.abs x <= 2 ^ 53 -> wrap x = x). { intros x Hx. apply wrap_id. unfold int64, minInt64, maxInt64. lia. }
  assert (0 <= Z.max 0 count * Z.abs w) by nia.
  rewrite (I64 (- w)) by lia. replace (wrap _) with distance by (symmetry; apply I64; lia).
  destruct (inset_offsets lib (Part (Hull lib (support ++ concat (concat ps))) []) (- w) count distance) as (ins & Ei & Li & Ki); [lia..|].
  rewrite Ei. exists ins. split; [|split; [exact Li|]].
  - destruct support, ps; try reflexivity. contradiction.
  - intros k x Hk. rewrite <- (Ki k x Hk). cbn [outline holes]. replace (distance - k * - w) with (distance + k * w) by lia. reflexivity.
Qed.
Print Assumptions skirt_lines.
Example skirt_ex : exists b, Skirt toy ex_options 0 2 ex_layer 300 (NewGCodeBuilder 1750 100) = Ok b /\
  BuilderString b = (";TYPE:SKIRT" ++ newline ++ "G0 X6.40 Y1.00 Z0.30" ++ newline ++ "G0 X9.40" ++ newline ++ "G0 Y4.00" ++ newline
    ++ "G0 X6.40" ++ newline ++ "G0 X6.80 Y1.40" ++ newline ++ "G0 X9.00" ++ newline ++ "G0 Y3.60" ++ newline ++ "G0 X6.80" ++ newline ++ "G0 X6.40 Y1.00" ++ newline)%string.
Proof. eexists. split; vm_compute; reflexivity. Qed.

(** *** C64 *)
(** In a whole print every polygon is executed as asked for, starting from where and with how much filament the printer
    stands then, whatever the printer did before the print (the start code resets its extruder). *)
Theorem print_in_step : forall o lib fuel mn mx rs layers text r0, plain (StartGCode (Printer o)) ->
  layers <> [] -> goslice_renderers lib fuel o mn mx = Ok rs -> snd (Generate o rs layers tt) = Ok text ->
  exists infill ps, infillPattern o mn mx = Ok infill /\ planned lib o fuel mn mx infill layers ps /\
  forall cs1 layer polygon z open cs2 p0 qs, concat (all_calls o ps) = cs1 ++ CPolygon layer polygon z open :: cs2 ->
    polygon <> [] -> DouglasPeucker polygon (-1) = p0 :: qs ->
    exists g c t t', run_calls lib cs1 (NewGCodeBuilder (FilamentDiameter (Filament o)) (ExtrusionMultiplier (Filament o))) = Ok g /\
      crossing lib layer g p0 = Some c /\ text = (BuilderString g ++ t ++ t')%string /\
      Forall2 executed (commanded (known g) (extrusionAmount g) (polygon_ops (settings_of g) c (currentPosition g) p0 qs z open))
        (moves (replay r0 (BuilderString g)) t).
Proof.
  intros o lib fuel mn mx rs layers text r0 P N R G. apply (goslice_generate lib fuel o mn mx layers rs text R) in G.
  destruct G as (inf & ps & b & Ei & Pl & E & ->). exists inf, ps. split; [exact Ei|]. split; [exact Pl|].
  intros cs1 layer polygon z open cs2 p0 qs Ec Np D.
  assert (Nps : ps <> []). { destruct Pl as [Len _]. destruct ps; [|discriminate]. destruct layers; [contradiction|discriminate]. }
  destruct (whole_polygon o P lib ps b cs1 layer polygon z open cs2 p0 qs r0 Nps (planned_prints o lib fuel mn mx inf layers ps Pl) E Ec Np D) as (g & c & t & t' & E1 & E2 & E3 & E4).
  exists g, c, t, t'. split; [exact E1|]. split; [exact E2|]. split; [exact E3|]. rewrite (settings_follow_calls _ _ _ _ _ E1). exact E4.
Qed.
Print Assumptions print_in_step.
(** *** C65 *)
(** Everything of layer nr is printed at the height initial thickness + nr * thickness, and between the start and the end
    code there is nothing but the marks, settings and these polygons. *)
Theorem layer_heights : forall lib o fuel mn mx inf layers ps nr p, planned lib o fuel mn mx inf layers ps -> nth_error ps nr = Some p ->
  int64 (InitialLayerThickness (Print o) + Z.of_nat nr * LayerThickness (Print o)) ->
  forall layer polygon z open, In (CPolygon layer polygon z open) (layer_calls o (Z.of_nat (List.length ps) - 1) (Z.of_nat nr) p) ->
  z = InitialLayerThickness (Print o) + Z.of_nat nr * LayerThickness (Print o).
Proof.
  intros lib o fuel mn mx inf layers ps nr p [Len Pl] En H layer polygon z open I.
  destruct (nth_error layers nr) as [l|] eqn:El; [|apply nth_error_None in El; assert (nth_error ps nr = None) by (apply nth_error_None; lia); congruence].
  pose proof (layer_printing lib o fuel mn mx inf (Z.of_nat nr) l _ p (Pl nr l p El En)) as F.
  unfold height in F. rewrite wrap_id in F by exact H. unfold layer_calls in I. rewrite !in_app_iff in I.
  assert (NP : forall cs, forallb no_poly cs = true -> ~ In (CPolygon layer polygon z open) cs).
  { intros cs Hc Ic. rewrite forallb_forall in Hc. specialize (Hc _ Ic). discriminate. }
  pose proof (NP _ (pre_no_poly o (Z.of_nat nr))) as N1.
  assert (N2 : ~ In (CPolygon layer polygon z open) (if Z.of_nat nr =? Z.of_nat (List.length ps) - 1 then end_calls o else [])).
  { destruct (_ =? _); [exact (NP _ (end_no_poly o))|intros []]. }
  rewrite Forall_forall in F. assert (J : In (CPolygon layer polygon z open) (p_skirt p ++ p_brim p ++ p_walls p ++ p_fill p)).
  { rewrite !in_app_iff. tauto. }
  exact (F _ J).
Qed.
Print Assumptions layer_heights.
(** *** C66 *)
(** If the calls can be planned, generating fails only if the clipping library does. *)
Theorem print_succeeds : forall o lib fuel mn mx rs layers inf ps, goslice_renderers lib fuel o mn mx = Ok rs ->
  infillPattern o mn mx = Ok inf -> planned lib o fuel mn mx inf layers ps ->
  (forall parts line, IsCrossingPerimeter lib parts line <> None) -> exists text, snd (Generate o rs layers tt) = Ok text.
Proof.
  intros o lib fuel mn mx rs layers inf ps R Ei Pl H.
  assert (A : forall cs g, exists g', run_calls lib cs g = Ok g').
  { induction cs as [|c cs IH]; intros g; [exists g; reflexivity|]. cbn [run_calls].
    assert (exists g1, run_call lib c g = Ok g1) as (g1 & E1).
    { destruct c; try (eexists; reflexivity). apply polygon_fails_only_with_library. intros parts line _. apply H. }
    rewrite E1. apply IH. }
  destruct (A (concat (all_calls o ps)) (NewGCodeBuilder (FilamentDiameter (Filament o)) (ExtrusionMultiplier (Filament o)))) as (b & E).
  exists (BuilderString b). apply (goslice_generate lib fuel o mn mx layers rs _ R). exists inf, ps, b. auto.
Qed.
Print Assumptions print_succeeds.
Lemma toy_never_fails : forall parts line, IsCrossingPerimeter toy parts line <> None.
Proof. intros parts line. unfold IsCrossingPerimeter. cbn [execute toy]. discriminate. Qed.
Lemma ex_planned : exists ps, planned toy ex_options 50 ex_min ex_max None ex_layers ps /\ concat (map p_walls ps) <> [].
Proof.
  destruct (plan_layer toy ex_options 50 ex_min ex_max None 0 ex_layer (height ex_options 0)) as [p0| | |] eqn:E0; [|exfalso; vm_compute in E0; discriminate..].
  destruct (plan_layer toy ex_options 50 ex_min ex_max None 1 (Layer (Some []) None) (height ex_options 1)) as [p1| | |] eqn:E1; [|exfalso; vm_compute in E1; discriminate..].
  destruct (plan_layer toy ex_options 50 ex_min ex_max None 2 ex_layer (height ex_options 2)) as [p2| | |] eqn:E2; [|exfalso; vm_compute in E2; discriminate..].
  exists [p0; p1; p2]. split; [split; [reflexivity|]|].
  - intros nr l p Hl Hp. destruct nr as [|[|[|nr]]]; cbn [nth_error ex_layers] in Hl, Hp.
    + injection Hl as <-. injection Hp as <-. exact E0.
    + injection Hl as <-. injection Hp as <-. exact E1.
    + injection Hl as <-. injection Hp as <-. exact E2.
    + destruct nr; discriminate.
  - assert (p_walls p0 <> []). { vm_compute in E0. injection E0 as <-. discriminate. } cbn [map concat]. destruct (p_walls p0); [contradiction|discriminate].
Qed.
