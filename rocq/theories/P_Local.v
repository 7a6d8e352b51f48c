(** Properties C96 and C97: what a layer is printed with depends on the layers around it only, and more walls leave the others
    as they are. *)
From Verif Require Import GoBase GoFloat GoStr M_Micrometer M_Geom2D M_Model M_Slicer M_Clip M_Builder M_Option M_Layer M_Render M_Modifier M_Process
  S_Geom S_Model S_Slicer S_Calls S_Machine S_Render S_Modifier S_Local S_Process S_Fill L_Modifier L_Infill L_Local L_Strip L_LineLib
  P_Model P_Slicer P_Modifier P_Support P_Render P_Process P_Pipeline P_Complete P_EndToEnd.
Local Open Scope string_scope.
Local Open Scope list_scope.
Local Open Scope Z_scope.

(** *** C96 *)
(** The walls and the infill of a layer depend on nothing but the outlines of this layer, of as many layers below it as there
    are solid bottom layers and of as many layers above it as there are solid top layers - and on whether some layer below has
    no outlines at all, because then nothing above is filled (C56). *)
Theorem layer_depends_on_neighbours : forall lib o layers layers' l1 l1' l2 l2' l3 l3' n n',
  PerimeterModify lib o layers = Ok l1 -> InfillModify lib o l1 = Ok l2 -> InternalInfillModify lib o l2 = Ok l3 ->
  PerimeterModify lib o layers' = Ok l1' -> InfillModify lib o l1' = Ok l2' -> InternalInfillModify lib o l2' = Ok l3' ->
  same_around (Z.max 0 (NumberBottomLayers (Print o))) (Z.max 0 (NumberTopLayers (Print o))) layers layers' n n' -> (filled layers n <-> filled layers' n') ->
  nth_error l3 n = nth_error l3' n'.
Proof.
  intros lib o layers layers' l1 l1' l2 l2' l3 l3' n n' H1 H2 H3 H1' H2' H3' W F. exact (proj2 (stack_local lib o layers layers' l1 l1' l2 l2' l3 l3' n n' H1 H2 H3 H1' H2' H3' W F)).
Qed.
Print Assumptions layer_depends_on_neighbours.

(** In two runs without support, for models with the same extent in x and y and the same outlines around layer n, the same
    polygons and lines are printed in layer n. *)
Theorem layer_of_run_local : forall lib tangent fuel env env' o input input' text text' (r : finished lib tangent fuel env o input text) (r' : finished lib tangent fuel env' o input' text') n,
  s_Enabled (Support (Print o)) = false ->
  PointXY (f_min _ _ _ _ _ _ _ r) = PointXY (f_min _ _ _ _ _ _ _ r') -> PointXY (f_max _ _ _ _ _ _ _ r) = PointXY (f_max _ _ _ _ _ _ _ r') ->
  same_around (Z.max 0 (NumberBottomLayers (Print o))) (Z.max 0 (NumberTopLayers (Print o))) (f_sliced _ _ _ _ _ _ _ r) (f_sliced _ _ _ _ _ _ _ r') n n ->
  (filled (f_sliced _ _ _ _ _ _ _ r) n <-> filled (f_sliced _ _ _ _ _ _ _ r') n) ->
  exists infill ps ps' b b',
    planned lib o fuel (PointXY (f_min _ _ _ _ _ _ _ r)) (PointXY (f_max _ _ _ _ _ _ _ r)) infill (f_layers _ _ _ _ _ _ _ r) ps /\
    run_calls lib (concat (all_calls o ps)) (NewGCodeBuilder (FilamentDiameter (Filament o)) (ExtrusionMultiplier (Filament o))) = Ok b /\ text = BuilderString b /\
    planned lib o fuel (PointXY (f_min _ _ _ _ _ _ _ r')) (PointXY (f_max _ _ _ _ _ _ _ r')) infill (f_layers _ _ _ _ _ _ _ r') ps' /\
    run_calls lib (concat (all_calls o ps')) (NewGCodeBuilder (FilamentDiameter (Filament o)) (ExtrusionMultiplier (Filament o))) = Ok b' /\ text' = BuilderString b' /\
    nth_error ps n = nth_error ps' n.
Proof.
  intros lib tangent fuel env env' o input input' text text' r r' n Sup Bn Bx W F.
  destruct r as [fs om open l0 l1 l2 l3 l4 l5 l6 mn mx rs E1 E4 E5 M1 M2 M3 M4 M5 M6 B E7 E8].
  destruct r' as [fs' om' open' l0' l1' l2' l3' l4' l5' l6' mn' mx' rs' E1' E4' E5' M1' M2' M3' M4' M5' M6' B' E7' E8'].
  cbn [f_min f_max f_sliced f_layers] in *.
  destruct (support_disabled lib o tangent l4 Sup) as [D1 D2]. rewrite D1 in M5. injection M5 as <-. rewrite D2 in M6. injection M6 as <-.
  destruct (support_disabled lib o tangent l4' Sup) as [D1' D2']. rewrite D1' in M5'. injection M5' as <-. rewrite D2' in M6'. injection M6' as <-.
  pose proof (layer_depends_on_neighbours lib o _ _ _ _ _ _ _ _ n n M1 M2 M3 M1' M2' M3' W F) as N3. pose proof (brim_local lib o _ _ _ _ n M4 M4' N3) as N4.
  apply (print_is_planned lib fuel o _ _ l4 rs text E7) in E8. destruct E8 as (inf & ps & b & Ei & Pl & Er & Et).
  apply (print_is_planned lib fuel o _ _ l4' rs' text' E7') in E8'. destruct E8' as (inf' & ps' & b' & Ei' & Pl' & Er' & Et').
  rewrite <- Bn, <- Bx in Ei', Pl'. rewrite Ei in Ei'. injection Ei' as <-.
  exists inf, ps, ps', b, b'. split; [exact Pl|]. split; [exact Er|]. split; [exact Et|]. split; [rewrite <- Bn, <- Bx; exact Pl'|]. split; [exact Er'|]. split; [exact Et'|].
  destruct Pl as [L P]. destruct Pl' as [L' P']. destruct (nth_error l4 n) as [l|] eqn:El.
  - assert (K : forall (q : list layer_plan) (m : list layer), List.length q = List.length m -> nth_error m n <> None -> exists p, nth_error q n = Some p).
    { intros q m Lq Nm. destruct (nth_error q n) as [p|] eqn:Ep; [eauto|]. apply nth_error_Some in Nm. apply nth_error_None in Ep. lia. }
    destruct (K ps l4 L ltac:(congruence)) as (p & Ep). destruct (K ps' l4' L' ltac:(congruence)) as (p' & Ep'). symmetry in N4.
    pose proof (P n l p El Ep) as Q. pose proof (P' n l p' N4 Ep') as Q'. rewrite Q in Q'. injection Q' as <-. congruence.
  - symmetry in N4. apply nth_error_None in El, N4. rewrite <- L in El. rewrite <- L' in N4. apply nth_error_None in El, N4. congruence.
Qed.
Print Assumptions layer_of_run_local.

(** two stacks that agree around their layers 3 and 4 only *)
Definition stack_a : list layer := Eval vm_compute in map (fun n => plain_layer [bar 0 n]) [9000; 20000; 20000; 20000; 20000; 20000; 20000; 20000; 500000].
Definition stack_b : list layer := Eval vm_compute in map (fun n => plain_layer [bar 0 n]) [80000; 9000; 20000; 20000; 20000; 20000; 20000; 20000; 20000].
Example layer_depends_on_neighbours_ex : exists l1 l2 l3 l1' l2' l3',
  PerimeterModify strip_lib DefaultOptions stack_a = Ok l1 /\ InfillModify strip_lib DefaultOptions l1 = Ok l2 /\ InternalInfillModify strip_lib DefaultOptions l2 = Ok l3 /\
  PerimeterModify strip_lib DefaultOptions stack_b = Ok l1' /\ InfillModify strip_lib DefaultOptions l1' = Ok l2' /\ InternalInfillModify strip_lib DefaultOptions l2' = Ok l3' /\
  same_around 3 4 stack_a stack_b 3 4 /\ filled stack_a 3 /\ filled stack_b 4 /\
  nth_error l3 3 = nth_error l3' 4 /\ nth_error l3 4 <> nth_error l3' 5.
Proof.
  eexists _, _, _, _, _, _. do 6 (split; [vm_compute; reflexivity|]).
  assert (W : same_around 3 4 stack_a stack_b 3 4).
  { intros j Hj. assert (C : j = -3 \/ j = -2 \/ j = -1 \/ j = 0 \/ j = 1 \/ j = 2 \/ j = 3 \/ j = 4) by lia. do 7 (destruct C as [->|C]; [reflexivity|]). subst j. reflexivity. }
  split; [exact W|]. clear W.
  split; [intros i Hi; do 4 (destruct i as [|i]; [eexists; split; [reflexivity|discriminate]|]); lia|].
  split; [intros i Hi; do 5 (destruct i as [|i]; [eexists; split; [reflexivity|discriminate]|]); lia|].
  split; [vm_compute; reflexivity|vm_compute; discriminate].
Qed.

(** the same through a whole run: two towers that are the same up to 2 mm and go on differently, one with 2 mm more and one
    that leans over to a ridge of 3 mm *)
Definition tower_faces (h d : Z) : list triangle :=
  let v (x y z : Z) := (f32_of_Z x, f32_of_Z y, f32_of_Z z) in
  let wall x1 y1 x2 y2 z1 z2 d1 d2 := [(v x1 y1 z1, v x2 y2 z1, v (x2 + d2) y2 z2); (v x1 y1 z1, v (x2 + d2) y2 z2, v (x1 + d1) y1 z2)] in
  [(v 0 0 0, v 0 4 0, v 4 4 0); (v 0 0 0, v 4 4 0, v 4 0 0)] ++
  wall 0 0 4 0 0 2 0 0 ++ wall 4 0 4 4 0 2 0 0 ++ wall 4 4 0 4 0 2 0 0 ++ wall 0 4 0 0 0 2 0 0 ++
  wall 0 0 4 0 2 (2 + h) 0 (- d) ++ wall 4 0 4 4 2 (2 + h) (- d) (- d) ++ wall 4 4 0 4 2 (2 + h) (- d) 0 ++ wall 0 4 0 0 2 (2 + h) 0 0 ++
  [(v 0 0 (2 + h), v (4 - d) 0 (2 + h), v (4 - d) 4 (2 + h)); (v 0 0 (2 + h), v (4 - d) 4 (2 + h), v 0 4 (2 + h))].
Definition tower_file (h d : Z) : files := Files (fun _ => StatOk) (fun _ => (tower_faces h d, None)).
Definition tower_fs (h d : Z) : list face := match Read (tower_file h d) "" with Ok fs => fs | _ => [] end.
Definition tower_om (h d : Z) : omodel := match Optimize 30 (V3 100000 100000 0) (tower_fs h d) with Ok (om, _) => om | _ => OModel [] [] (V3 0 0 0) end.
Definition tower_ofs (h d : Z) : list face := match omFaces (tower_om h d) (om_faces (tower_om h d)) return list face with Ok fs => fs | _ => [] end.
Definition tower_run (h d : Z) (text : string) := finished line_lib (fun _ => f64_of_Z 1) (Z.to_nat (2 ^ 24 + 1)) (tower_file h d) DefaultOptions "part.stl" text.
Definition tower_os : os := OS None (fun _ => (3%nat, None)).
Definition straight_fs : list face := Eval vm_compute in tower_fs 2 0.
Definition straight_om : omodel := Eval vm_compute in tower_om 2 0.
Definition straight_ofs : list face := Eval vm_compute in tower_ofs 2 0.
Definition leaning_fs : list face := Eval vm_compute in tower_fs 3 1.
Definition leaning_om : omodel := Eval vm_compute in tower_om 3 1.
Definition leaning_ofs : list face := Eval vm_compute in tower_ofs 3 1.
Fixpoint spread (fs : list face) (k : nat) (rs : list face) : list face := match k with O => rs | S k' => spread fs k' (filter (fun f => existsb (share f) rs) fs) end.
Lemma spread_linked fs f k : forall rs, (forall g, In g rs -> linked fs f g) -> forall g, In g (spread fs k rs) -> linked fs f g.
Proof.
  induction k as [|k IH]; intros rs H; [exact H|]. apply IH. intros g Ig. apply filter_In in Ig. destruct Ig as [Ig E]. apply existsb_exists in E. destruct E as (r & Ir & E).
  destruct (share_ok _ _ E) as (v & V1 & V2). exact (Linked_step fs f r g v (H r Ir) Ig V2 V1).
Qed.
Lemma connected_within k fs : forallb (fun f => forallb (fun g => existsb (share g) (spread fs k [f])) fs) fs = true -> connected fs.
Proof.
  intros H f g If Ig. rewrite forallb_forall in H. specialize (H f If). cbn beta in H. rewrite forallb_forall in H. specialize (H g Ig). apply existsb_exists in H. destruct H as (m & Im & E).
  destruct (share_ok _ _ E) as (v & V1 & V2). apply (Linked_step fs f m g v); try assumption. refine (spread_linked fs f k [f] _ m Im). intros x [<-|[]]. apply Linked_refl, If.
Qed.
Lemma tower_finished h d fs om ofs : Read (tower_file h d) "part.stl" = Ok fs -> usable 30 (V3 100000 100000 0) fs -> Optimize 30 (V3 100000 100000 0) fs = Ok (om, 0) ->
  (forall p, In p (om_points om) -> vec_bounded (2 ^ 21) (opos p)) -> omFaces om (om_faces om) = Ok ofs -> connected ofs -> 1 <= layer_count 200 200 om ->
  (exists f, In f ofs /\ MinZ f <= 200) -> (exists f, In f ofs /\ S_Slicer.height 200 200 (layer_count 200 200 om - 1) <= MaxZ f) -> exists text, inhabited (tower_run h d text).
Proof.
  intros H1 H2 H3 H4 H5 H6 H7 H8 H9.
  assert (H : exists steps, Process (NewGoSlice line_lib (fun _ => f64_of_Z 1) (Z.to_nat (2 ^ 24 + 1)) (tower_file h d) tower_os (fun _ => None) DefaultOptions) "part.stl" "" = (steps, Ok tt)).
  { apply (run_succeeds Z in_strips) with (fs := fs) (om := om) (open := 0) (ofs := ofs); try assumption.
    - exact line_exact.
    - exact line_capable.
    - rewrite Z2Nat.id; [reflexivity|vm_compute; discriminate].
    - exact default_workable.
    - reflexivity.
    - intros k. split; [reflexivity|discriminate]. }
  apply built_in_run in H. destruct H as (text & r & _). exists text. exact r.
Qed.
Ltac tower fs om ofs :=
  apply (tower_finished _ _ fs om ofs);
  [vm_compute; reflexivity|split; [vm_compute; intuition discriminate|]; split; [repeat constructor; vm_compute; discriminate|]; repeat split; vm_compute; discriminate|vm_compute; reflexivity
  |let p := fresh "p" in let Ip := fresh "Ip" in intros p Ip; repeat (destruct Ip as [<-|Ip]; [repeat split; vm_compute; discriminate|]); destruct Ip
  |vm_compute; reflexivity|apply (connected_within 3); vm_compute; reflexivity|vm_compute; discriminate
  |exists (nth 0 ofs (V3 0 0 0, V3 0 0 0, V3 0 0 0)); split; [apply nth_In; vm_compute; lia|vm_compute; discriminate]
  |exists (nth 18 ofs (V3 0 0 0, V3 0 0 0, V3 0 0 0)); split; [apply nth_In; vm_compute; lia|vm_compute; discriminate]].
Lemma tower_straight : exists text, inhabited (tower_run 2 0 text).
Proof. tower straight_fs straight_om straight_ofs. Qed.
Lemma tower_leaning : exists text, inhabited (tower_run 3 1 text).
Proof. tower leaning_fs leaning_om leaning_ofs. Qed.
Definition straight_layers : list layer := Eval vm_compute in match Slice line_lib DefaultOptions straight_om return list layer with Ok ls => ls | _ => [] end.
Definition leaning_layers : list layer := Eval vm_compute in match Slice line_lib DefaultOptions leaning_om return list layer with Ok ls => ls | _ => [] end.
Lemma tower_sliced lib tangent fuel h d text fs om ls mn mx (r : finished lib tangent fuel (tower_file h d) DefaultOptions "part.stl" text) :
  Read (tower_file h d) "part.stl" = Ok fs -> Optimize 30 (V3 100000 100000 0) fs = Ok (om, 0) -> Slice lib DefaultOptions om = Ok ls -> omMin om = Ok mn -> omMax om = Ok mx ->
  f_sliced _ _ _ _ _ _ _ r = ls /\ f_min _ _ _ _ _ _ _ r = mn /\ f_max _ _ _ _ _ _ _ r = mx.
Proof.
  intros H1 H2 H3 H4 H5. destruct r as [fs0 om0 open l0 l1 l2 l3 l4 l5 l6 mn0 mx0 rs E1 E4 E5 M1 M2 M3 M4 M5 M6 [B1 B2] E7 E8]. cbn [f_sliced f_min f_max].
  assert (fs0 = fs) by congruence. subst fs0. change (Optimize 30 (V3 100000 100000 0) fs = Ok (om0, open)) in E4. assert (om0 = om) by congruence. subst om0. repeat split; congruence.
Qed.
(** layer 2 is printed alike, although one print has 20 layers and the other one 25 *)
Example layer_of_run_local_ex : exists text text' (r : tower_run 2 0 text) (r' : tower_run 3 1 text') infill ps ps' b b',
  List.length ps = 20%nat /\ List.length ps' = 25%nat /\
  run_calls line_lib (concat (all_calls DefaultOptions ps)) (NewGCodeBuilder (FilamentDiameter (Filament DefaultOptions)) (ExtrusionMultiplier (Filament DefaultOptions))) = Ok b /\ text = BuilderString b /\
  run_calls line_lib (concat (all_calls DefaultOptions ps')) (NewGCodeBuilder (FilamentDiameter (Filament DefaultOptions)) (ExtrusionMultiplier (Filament DefaultOptions))) = Ok b' /\ text' = BuilderString b' /\
  planned line_lib DefaultOptions (Z.to_nat (2 ^ 24 + 1)) (PointXY (f_min _ _ _ _ _ _ _ r)) (PointXY (f_max _ _ _ _ _ _ _ r)) infill (f_layers _ _ _ _ _ _ _ r) ps /\
  nth_error ps 2 = nth_error ps' 2.
Proof.
  destruct tower_straight as (text & [r]). destruct tower_leaning as (text' & [r']). exists text, text', r, r'.
  destruct (tower_sliced _ _ _ 2 0 text straight_fs straight_om straight_layers (V3 98000 98000 0) (V3 102000 102000 4000) r) as (S1 & S2 & S3); [vm_compute; reflexivity..|].
  destruct (tower_sliced _ _ _ 3 1 text' leaning_fs leaning_om leaning_layers (V3 98000 98000 0) (V3 102000 102000 5000) r') as (T1 & T2 & T3); [vm_compute; reflexivity..|].
  destruct (layer_of_run_local line_lib (fun _ => f64_of_Z 1) (Z.to_nat (2 ^ 24 + 1)) (tower_file 2 0) (tower_file 3 1) DefaultOptions "part.stl" "part.stl" text text' r r' 2) as (inf & ps & ps' & b & b' & H1 & H2 & H3 & H4 & H5 & H6 & H7).
  - reflexivity.
  - rewrite S2, T2. reflexivity.
  - rewrite S3, T3. reflexivity.
  - rewrite S1, T1. change (same_around 3 4 straight_layers leaning_layers 2 2). intros j Hj. assert (C : j = -3 \/ j = -2 \/ j = -1 \/ j = 0 \/ j = 1 \/ j = 2 \/ j = 3 \/ j = 4) by lia.
    do 7 (destruct C as [->|C]; [reflexivity|]). subst j. reflexivity.
  - rewrite S1, T1. split; intros _ i Hi; do 3 (destruct i as [|i]; [eexists; split; [reflexivity|discriminate]|]); lia.
  - exists inf, ps, ps', b, b'. assert (L : List.length (f_layers _ _ _ _ _ _ _ r) = 20%nat /\ List.length (f_layers _ _ _ _ _ _ _ r') = 25%nat).
    { destruct (all_keeps _ _ _ _ _ _ _ r) as (names & K). destruct (all_keeps _ _ _ _ _ _ _ r') as (names' & K'). rewrite (keeps_length _ _ _ K), (keeps_length _ _ _ K'), S1, T1. split; reflexivity. }
    destruct L as [L L']. split; [exact (eq_trans (proj1 H1) L)|]. split; [exact (eq_trans (proj1 H4) L')|]. split; [exact H2|]. split; [exact H3|]. split; [exact H5|]. split; [exact H6|]. split; [exact H1|exact H7].
Qed.

(** *** C97 *)
Lemma inset_loop_prefix lib p off n : forall m cur a b, (n <= m)%nat -> inset_loop lib p off n cur = Ok a -> inset_loop lib p off m cur = Ok b -> a = firstn n b.
Proof.
  induction n as [|n IH]; intros m cur a b H; [intros [= <-] _; reflexivity|]. destruct m as [|m]; [lia|]. cbn [inset_loop]. intros Ha Hb.
  apply bind_Ok in Ha. destruct Ha as (x & Ex & Ha). apply bind_Ok in Ha. destruct Ha as (a' & Ea & Ha). injection Ha as <-. rewrite Ex in Hb. cbn [bind] in Hb.
  apply bind_Ok in Hb. destruct Hb as (b' & Eb & Hb). injection Hb as <-. cbn [firstn]. f_equal. exact (IH m _ a' b' ltac:(lia) Ea Eb).
Qed.
(** Asking for more walls of the same width adds walls inside: the walls there would be with the smaller number stay as they
    are, part by part and wall by wall, whatever the other settings are. *)
Theorem more_walls : forall lib o o' layers l1 l1', ExtrusionWidth (Printer o) = ExtrusionWidth (Printer o') -> InsetCount (Print o) <= InsetCount (Print o') ->
  PerimeterModify lib o layers = Ok l1 -> PerimeterModify lib o' layers = Ok l1' ->
  Forall2 (fun l l' => exists pe pe', Perimeters l = Ok pe /\ Perimeters l' = Ok pe' /\
    Forall2 (fun e e' => exists inner, e' = e ++ inner /\ List.length e = Z.to_nat (InsetCount (Print o)) /\ List.length e' = Z.to_nat (InsetCount (Print o'))) pe pe') l1 l1'.
Proof.
  intros lib o o' layers l1 l1' W C H H'. pose proof (perimeter_spec lib o layers l1 H) as F. pose proof (perimeter_spec lib o' layers l1' H') as F'. clear H H'.
  revert l1' F'. induction F as [|l a layers l1 Ha F IH]; intros l1' F'; inversion F' as [|x a' y l1'' Ha' F'' ]; subst; constructor; [|exact (IH _ F'')].
  destruct (perimeter_layer_spec lib o l a Ha) as (pe & _ & Ep & _ & G & _). destruct (perimeter_layer_spec lib o' l a' Ha') as (pe' & _ & Ep' & _ & G' & _).
  exists pe, pe'. split; [exact Ep|]. split; [exact Ep'|]. rewrite <- W in G'. clear -C G G'. revert pe' G'.
  induction G as [|p e ps pe He G IH]; intros pe' G'; inversion G' as [|x e' y pe'' He' G'']; subst; constructor; [|exact (IH _ G'')].
  destruct (inset_total lib p (ExtrusionWidth (Printer o)) (InsetCount (Print o)) (quot64 (neg64 (ExtrusionWidth (Printer o))) 2)) as (e0 & E0 & L0). rewrite He in E0. injection E0 as <-.
  destruct (inset_total lib p (ExtrusionWidth (Printer o)) (InsetCount (Print o')) (quot64 (neg64 (ExtrusionWidth (Printer o))) 2)) as (e0' & E0' & L0'). rewrite He' in E0'. injection E0' as <-.
  exists (skipn (Z.to_nat (InsetCount (Print o))) e'). split; [|auto]. unfold Inset in He, He'.
  assert (Nm : (Z.to_nat (InsetCount (Print o)) <= Z.to_nat (InsetCount (Print o')))%nat) by lia.
  rewrite (inset_loop_prefix lib p _ _ _ _ e e' Nm He He') at 1. symmetry. apply firstn_skipn.
Qed.
Print Assumptions more_walls.
(** 2 walls by default, and 4 *)
Definition four_walls : options :=
  Options (Slicing DefaultOptions) (Printer DefaultOptions) (Filament DefaultOptions)
    (PrintOptions (c32 30 1) (c32 60 1) (c32 40 1) (c32 150 1) 200 200 4 20 0 30 45 true 1 1 (Support (Print DefaultOptions)) (BrimSkirt (Print DefaultOptions)))
    (GoSlice DefaultOptions).
Example more_walls_ex : exists l1 l1', ExtrusionWidth (Printer DefaultOptions) = ExtrusionWidth (Printer four_walls) /\ InsetCount (Print DefaultOptions) <= InsetCount (Print four_walls) /\
  PerimeterModify strip_lib DefaultOptions stack_a = Ok l1 /\ PerimeterModify strip_lib four_walls stack_a = Ok l1' /\
  exists l l' a b c d, nth_error l1 3 = Some l /\ nth_error l1' 3 = Some l' /\ Perimeters l = Ok [[a; b]] /\ Perimeters l' = Ok [[a; b; c; d]] /\ c <> [] /\ c <> b /\ d <> c.
Proof.
  eexists _, _. split; [reflexivity|]. split; [vm_compute; discriminate|]. split; [vm_compute; reflexivity|]. split; [vm_compute; reflexivity|].
  eexists _, _, _, _, _, _. split; [vm_compute; reflexivity|]. split; [vm_compute; reflexivity|]. split; [vm_compute; reflexivity|]. split; [vm_compute; reflexivity|]. repeat split; discriminate.
Qed.
