(** Property C108: how the polygons of each layer are executed. *)
From Verif Require Import GoBase GoFloat GoStr M_Micrometer M_Geom2D M_Option M_Clip M_Builder M_Layer M_Render
  S_Text S_Printer S_Builder S_Calls S_Machine S_Render L_Str L_Data L_Printer L_Builder L_Calls L_Render L_Events L_Settings L_Whole
  P_Clip P_Builder P_Render.
Local Open Scope string_scope.
Local Open Scope list_scope.
Local Open Scope Z_scope.

Section Layers.
Variables (lib : clib) (o : options) (fuel : nat) (mn mx : pt) (inf : option linear).
Notation d := (FilamentDiameter (Filament o)).
Notation m := (ExtrusionMultiplier (Filament o)).
(** the configuration a layer starts with *)
Lemma layers_before mxl : forall layers ps n k nr, List.length ps = List.length layers ->
  (forall i l p, nth_error layers i = Some l -> nth_error ps i = Some p ->
     plan_layer lib o fuel mn mx inf (Z.of_nat (n + i)) l (height o (n + i)) = Ok p) ->
  mxl = Z.of_nat n + Z.of_nat (List.length ps) - 1 -> (n = O \/ exists v, k = conf o (Z.of_nat n - 1) v) -> (nr < List.length ps)%nat ->
  (n + nr = O)%nat \/ exists v, fold_left (configure d m) (concat (firstn nr (calls_from o n mxl ps))) k = conf o (Z.of_nat (n + nr) - 1) v.
Proof.
  induction layers as [|l layers IH]; intros [|p ps] n k nr L P M K H; try discriminate; [cbn in H; lia|].
  destruct nr as [|nr].
  - rewrite Nat.add_0_r. cbn [firstn concat fold_left]. exact K.
  - right. unfold calls_from. cbn [List.length seq combine map firstn concat]. rewrite fold_left_app.
    pose proof (P O l p eq_refl eq_refl) as P0. rewrite Nat.add_0_r in P0.
    destruct (layer_force o lib fuel mn mx inf mxl (Z.of_nat n) l (height o n) p k P0) as [_ F2].
    { destruct n; [left; reflexivity|right]. destruct K as [|K]; [discriminate|]. split; [lia|exact K]. }
    destruct F2 as (v & F2); [subst mxl; cbn [List.length] in *; lia|]. rewrite F2.
    destruct (IH ps (S n) (conf o (Z.of_nat n) v) nr) as [Q|(v' & Q)].
    + cbn [List.length] in L. lia.
    + intros i l' q Hl Hq. specialize (P (S i) l' q Hl Hq). rewrite Nat.add_succ_r in P. exact P.
    + subst mxl. cbn [List.length]. lia.
    + right. exists v. f_equal. lia.
    + cbn [List.length] in H. lia.
    + lia.
    + exists v'. replace (n + S nr)%nat with (S n + nr)%nat by lia. exact Q.
Qed.
Lemma polygon_in_force k a layer polygon z open b : In (settings_for (fold_left (configure d m) a k), polygon) (in_force d m k (a ++ CPolygon layer polygon z open :: b)).
Proof. rewrite in_force_app, in_app_iff. right. left. reflexivity. Qed.
Lemma in_layer_speed nr l p st q : 0 <= nr -> In (st, q) (layer_in_force o nr l p) ->
  exists v, st = with_speed o nr v /\ (v = LayerSpeed (Print o) \/ v = OuterPerimeterSpeed (Print o)).
Proof.
  intros H I. unfold layer_in_force in I. rewrite !in_app_iff, !in_map_iff in I.
  assert (V : forall w, In w (layer_walls o l) -> fst w = LayerSpeed (Print o) \/ fst w = OuterPerimeterSpeed (Print o)).
  { intros w Iw. unfold layer_walls in Iw. destruct (Perimeters l) as [ps| | |]; try contradiction. apply in_flat_map in Iw. destruct Iw as ([|outer inner] & _ & Iw); [contradiction|].
    destruct w as [v r]. destruct (walls_by_kind o outer inner v r Iw) as [[-> _]|[-> _]]; cbn [fst]; auto. }
  destruct I as [(x & E & _)|[([v x] & E & Iw)|(x & E & _)]]; injection E as <- _; eexists; (split; [reflexivity|]); auto.
  - exact (V _ Iw).
  - unfold speed_after. destruct (layer_walls o l) as [|w ws] eqn:Ew; [left; reflexivity|]. 
    destruct (@exists_last _ (w :: ws)) as (ws' & w' & E'); [discriminate|]. rewrite E', map_app. cbn [map]. rewrite last_last. apply V. rewrite E', in_app_iff. right. left. reflexivity.
Qed.
End Layers.

(** *** C108 *)
(** Whatever polygon is printed on layer nr, and whatever the printer did before: the printer goes through exactly the moves
    for it, at the height of the layer, with the amount of filament for the thickness of that layer, with the travel and
    retraction settings of the options, and with the initial layer speed on layer 0 if there is one and the layer or
    outer perimeter speed otherwise. *)
Theorem layer_executed : forall o lib fuel mn mx rs layers text r0, plain (StartGCode (Printer o)) ->
  goslice_renderers lib fuel o mn mx = Ok rs -> snd (Generate o rs layers tt) = Ok text ->
  exists infill ps, infillPattern o mn mx = Ok infill /\ planned lib o fuel mn mx infill layers ps /\
  forall nr l p cs1 parts polygon z open cs2 p0 qs, nth_error layers nr = Some l -> nth_error ps nr = Some p ->
    layer_calls o (Z.of_nat (List.length layers) - 1) (Z.of_nat nr) p = cs1 ++ CPolygon parts polygon z open :: cs2 ->
    int64 (InitialLayerThickness (Print o) + Z.of_nat nr * LayerThickness (Print o)) ->
    polygon <> [] -> DouglasPeucker polygon (-1) = p0 :: qs ->
    exists before moving after here E from crossing st, text = (before ++ moving ++ after)%string /\
      Forall2 executed (commanded here E (polygon_ops st crossing from p0 qs (InitialLayerThickness (Print o) + Z.of_nat nr * LayerThickness (Print o)) open))
        (moves (replay r0 before) moving) /\
      s_move st = int_of_f32 (MoveSpeed (Print o)) /\ s_rspeed st = int_of_f32 (RetractionSpeed (Filament o)) /\
      s_ramount st = RetractionLength (Filament o) /\ s_hop st = RetractionZHop (Filament o) /\
      s_permm st = extrusion_per_mm (FilamentDiameter (Filament o)) (ExtrusionMultiplier (Filament o))
        (if (nr =? 0)%nat then InitialLayerThickness (Print o) else LayerThickness (Print o)) (ExtrusionWidth (Printer o)) /\
      (if ((nr =? 0)%nat && (0 <? int_of_f32 (IntialLayerSpeed (Print o))))%bool then s_print st = int_of_f32 (IntialLayerSpeed (Print o))
       else s_print st = int_of_f32 (LayerSpeed (Print o)) \/ s_print st = int_of_f32 (OuterPerimeterSpeed (Print o))).
Proof.
  intros o lib fuel mn mx rs layers text r0 P R G. apply (goslice_generate lib fuel o mn mx layers rs text R) in G.
  destruct G as (inf & ps & b & Ei & Pl & E & ->). exists inf, ps. split; [exact Ei|]. split; [exact Pl|]. pose proof (proj1 Pl) as Len.
  intros nr l p cs1 parts polygon z open cs2 p0 qs El Ep Ec H64 Np D.
  assert (Li : (nr < List.length ps)%nat) by (apply nth_error_Some; congruence).
  assert (Nps : ps <> []) by (intros ->; cbn in Li; lia).
  set (mxl := Z.of_nat (List.length ps) - 1) in *. replace (Z.of_nat (List.length layers) - 1) with mxl in Ec by (unfold mxl; lia).
  assert (Cut : exists post, concat (all_calls o ps) = (concat (firstn nr (all_calls o ps)) ++ cs1) ++ CPolygon parts polygon z open :: post).
  { exists (cs2 ++ concat (skipn (S nr) (all_calls o ps))). rewrite <- (firstn_skipn nr (all_calls o ps)) at 1. rewrite concat_app, <- app_assoc. f_equal.
    assert (Nn : nth_error (all_calls o ps) nr = Some (layer_calls o mxl (Z.of_nat nr) p)).
    { unfold all_calls. fold mxl.
      assert (C : forall (l : list layer_plan) k i a, nth_error l i = Some a -> nth_error (combine (seq k (List.length l)) l) i = Some ((k + i)%nat, a)).
      { clear. induction l as [|x l IH]; intros k i a H; [destruct i; discriminate|]. destruct i as [|i]; cbn [List.length seq combine nth_error] in *.
        - injection H as ->. rewrite Nat.add_0_r. reflexivity.
        - rewrite (IH (S k) i a H). f_equal. f_equal. lia. }
      rewrite nth_error_map, (C ps O nr p Ep). reflexivity. }
    assert (Sk : forall (A : Type) (l : list A) i a, nth_error l i = Some a -> skipn i l = a :: skipn (S i) l).
    { clear. induction l as [|x l IH]; intros i a H; [destruct i; discriminate|]. destruct i as [|i]; [injection H as ->; reflexivity|]. exact (IH i a H). }
    rewrite (Sk _ _ _ _ Nn). cbn [concat]. rewrite Ec, <- app_assoc. reflexivity. }
  destruct Cut as (post & Cut).
  destruct (whole_polygon o P lib ps b _ parts polygon z open post p0 qs r0 Nps (planned_prints o lib fuel mn mx inf layers ps Pl) E Cut Np D)
    as (g & c & t & t' & E1 & E2 & E3 & E4).
  assert (Hz : z = InitialLayerThickness (Print o) + Z.of_nat nr * LayerThickness (Print o)).
  { eapply (layer_heights lib o fuel mn mx inf layers ps nr p Pl Ep H64 parts polygon z open). fold mxl. rewrite Ec, in_app_iff. right. left. reflexivity. }
  rewrite Hz in E4.
  match type of E4 with context [polygon_ops ?s _ _ _ _ _ _] => set (st := s) in * end.
  exists (BuilderString g), t, t', (known g), (extrusionAmount g), (currentPosition g), c, st. split; [exact E3|]. split; [exact E4|].
  assert (St : exists v, st = with_speed o (Z.of_nat nr) v /\ (v = LayerSpeed (Print o) \/ v = OuterPerimeterSpeed (Print o))).
  { eapply (in_layer_speed o (Z.of_nat nr) l p _ polygon); [lia|].
    set (k := fold_left (configure (FilamentDiameter (Filament o)) (ExtrusionMultiplier (Filament o))) (concat (firstn nr (all_calls o ps))) unconfigured).
    destruct (layer_force o lib fuel mn mx inf mxl (Z.of_nat nr) l (height o nr) p k (proj2 Pl nr l p El Ep)) as [F _].
    { destruct (layers_before lib o fuel mn mx inf mxl layers ps 0 unconfigured nr (proj1 Pl) (proj2 Pl)) as [Q|(v & Q)];
        [unfold mxl; lia|left; reflexivity|exact Li|left; lia|].
      destruct nr as [|nr']; [left; reflexivity|]. right. split; [lia|]. exists v. exact Q. }
    rewrite <- F, Ec. unfold st. rewrite fold_left_app. fold k. apply polygon_in_force. }
  destruct St as (v & -> & Hv). unfold with_speed. cbn [s_move s_rspeed s_ramount s_hop s_permm s_print].
  replace (Z.of_nat nr =? 0) with (nr =? 0)%nat by (destruct nr; reflexivity).
  repeat (split; [reflexivity|]). destruct ((nr =? 0)%nat && (0 <? int_of_f32 (IntialLayerSpeed (Print o))))%bool; [reflexivity|].
  destruct Hv as [-> | ->]; [left|right]; reflexivity.
Qed.
Print Assumptions layer_executed.

(** the example print fulfils the hypotheses, and there are polygons on its layers 0 and 2 *)
Example layer_executed_ex : plain (StartGCode (Printer ex_options)) /\
  (exists rs text, goslice_renderers toy 50 ex_options ex_min ex_max = Ok rs /\ snd (Generate ex_options rs ex_layers tt) = Ok text) /\
  Forall (fun nr => exists l p, nth_error ex_layers nr = Some l /\ plan_layer toy ex_options 50 ex_min ex_max None (Z.of_nat nr) l (height ex_options nr) = Ok p /\
    (existsb (fun c => match c with CPolygon _ (_ :: _) _ _ => true | _ => false end) (layer_calls ex_options 2 (Z.of_nat nr) p) = true)) [0; 2]%nat /\
  s_print (with_speed ex_options 0 (LayerSpeed (Print ex_options))) = 30 /\ s_print (with_speed ex_options 2 (LayerSpeed (Print ex_options))) = 60.
Proof.
  split; [repeat constructor|]. split; [eexists; eexists; split; [reflexivity|vm_compute; reflexivity]|]. split; [|split; vm_compute; reflexivity].
  repeat constructor; (eexists; eexists; split; [reflexivity|]; split; vm_compute; reflexivity).
Qed.
