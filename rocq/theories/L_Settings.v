(** Proofs about the settings every polygon of a print is printed with. *)
From Verif Require Import GoBase GoFloat GoStr M_Micrometer M_Geom2D M_Option M_Clip M_Builder M_Layer M_Render
  S_Text S_Printer S_Builder S_Calls S_Machine S_Render L_Str L_Data L_Printer L_Builder L_Calls L_Render L_Events.
From Coq Require Import Permutation.
Local Open Scope string_scope.
Local Open Scope list_scope.
Local Open Scope Z_scope.

Section Settings.
Variable o : options.
Let d := FilamentDiameter (Filament o).
Let m := ExtrusionMultiplier (Filament o).
Lemma configure_same k c : (match c with CPolygon _ _ _ _ | CComment _ | CCommentInt _ _ | CCommand _ | CCommandInt _ _ => True | _ => False end) ->
  configure d m k c = k.
Proof. destruct k, c; cbn; intros H; try contradiction; reflexivity. Qed.
Lemma in_force_app a b : forall k, in_force d m k (a ++ b) = in_force d m k a ++ in_force d m (fold_left (configure d m) a k) b.
Proof.
  induction a as [|c a IH]; intros k; [reflexivity|]. cbn [app fold_left]. 
  destruct c; cbn [in_force]; rewrite IH; try reflexivity. rewrite (configure_same k (CPolygon _ _ _ _) I). reflexivity.
Qed.
Definition conf (nr : Z) (v : f32) : config :=
  Config (int_of_f32 (MoveSpeed (Print o))) (int_of_f32 v) (if nr =? 0 then int_of_f32 (IntialLayerSpeed (Print o)) else 0)
    (extrusion_per_mm d m (if nr =? 0 then InitialLayerThickness (Print o) else LayerThickness (Print o)) (ExtrusionWidth (Printer o)))
    (int_of_f32 (RetractionSpeed (Filament o))) (RetractionLength (Filament o)) (RetractionZHop (Filament o)).
Lemma conf_settings nr v : settings_for (conf nr v) = with_speed o nr v.
Proof.
  unfold settings_for, conf, with_speed. cbn [c_move c_extrude c_override c_permm c_rspeed c_ramount c_hop]. destruct (nr =? 0); reflexivity.
Qed.
(** calls without polygon *)
Definition no_poly (c : call) : bool := match c with CPolygon _ _ _ _ => false | _ => true end.
Lemma no_poly_in_force cs : forallb no_poly cs = true -> forall k, in_force d m k cs = [].
Proof.
  induction cs as [|c cs IH]; intros H k; [reflexivity|]. cbn [forallb] in H. apply andb_prop in H. destruct H as [H1 H2].
  destruct c; try discriminate; cbn [in_force]; apply IH, H2.
Qed.
Lemma commands_no_poly lines : forallb no_poly (map CCommand lines) = true.
Proof. induction lines; [reflexivity|assumption]. Qed.
Lemma commands_config lines : forall k, fold_left (configure d m) (map CCommand lines) k = k.
Proof. induction lines as [|l lines IH]; intros k; [reflexivity|]. cbn [map fold_left]. rewrite (configure_same k (CCommand l) I). apply IH. Qed.
Lemma pre_no_poly nr : forallb no_poly (pre_plan o nr) = true.
Proof.
  unfold pre_plan, start_calls. rewrite !forallb_app. destruct (nr =? 0).
  - rewrite !forallb_app, commands_no_poly.
    repeat match goal with |- context [if ?b then _ else _] => destruct b end; destruct (lut_get _ nr) as [[]|]; reflexivity.
  - repeat match goal with |- context [if ?b then _ else _] => destruct b end; destruct (lut_get _ nr) as [[]|]; reflexivity.
Qed.
Lemma end_no_poly : forallb no_poly (end_calls o) = true.
Proof.
  unfold end_calls. rewrite !forallb_app, commands_no_poly. repeat match goal with |- context [if ?b then _ else _] => destruct b end; reflexivity.
Qed.
Lemma start_config lines k : fold_left (configure d m) (start_calls o lines) k = conf 0 (LayerSpeed (Print o)).
Proof.
  unfold start_calls. rewrite !fold_left_app, commands_config. destruct k.
  repeat match goal with |- context [if ?b then [_; _] else _] => destruct b end; reflexivity.
Qed.
Lemma pre_config nr k : nr = 0 \/ (0 < nr /\ exists v, k = conf (nr - 1) v) ->
  fold_left (configure d m) (pre_plan o nr) k = conf nr (LayerSpeed (Print o)).
Proof.
  intros H. unfold pre_plan. rewrite !fold_left_app.
  match goal with |- fold_left _ ?t (fold_left _ ?f ?x) = _ => assert (G : forall y, fold_left (configure d m) t (fold_left (configure d m) f y) = y) end.
  { intros y. destruct y. repeat match goal with |- context [if ?b then _ else _] => destruct b end; destruct (lut_get _ nr) as [[]|]; reflexivity. }
  rewrite G. clear G. destruct H as [->|(Hn & v & ->)].
  - change (0 =? 0) with true. change (0 <? 0) with false. cbv iota. rewrite start_config. reflexivity.
  - destruct (Z.eqb_spec nr 0) as [|N]; [lia|]. destruct (Z.ltb_spec 0 nr) as [_|]; [|lia]. unfold conf.
    destruct (Z.eqb_spec nr 0) as [|_]; [contradiction|]. destruct (Z.eqb_spec nr 1) as [->|N1].
    + cbn. reflexivity.
    + destruct (Z.eqb_spec (nr - 1) 0) as [|_]; [lia|]. cbn. reflexivity.
Qed.
(** calls that leave the settings alone *)
Definition steady (c : call) : Prop := match c with CPolygon _ _ _ _ | CComment _ => True | _ => False end.
Lemma steady_run cs : Forall steady cs -> forall k, in_force d m k cs = map (pair (settings_for k)) (polys cs) /\ fold_left (configure d m) cs k = k.
Proof.
  induction 1 as [|c cs H _ IH]; intros k; [split; reflexivity|]. destruct (IH k) as [I1 I2].
  destruct c; try contradiction; unfold polys; cbn [in_force flat_map fold_left app map];
    rewrite ?(configure_same k (CComment _) I), ?(configure_same k (CPolygon _ _ _ _) I); unfold polys in I1; rewrite ?I1; split; reflexivity || assumption.
Qed.
(** calls that print walls *)
Definition walled (cs : list call) (ws : list (f32 * path)) : Prop :=
  forall nr v, in_force d m (conf nr v) cs = map (fun '(v, q) => (with_speed o nr v, q)) ws /\
               fold_left (configure d m) cs (conf nr v) = conf nr (last (map fst ws) v).
Lemma last_app {A} (a b : list A) : forall x, last (a ++ b) x = last b (last a x).
Proof.
  assert (C : forall (p : A) ps a, last (p :: ps) a = last ps p).
  { intros p ps. revert p. induction ps as [|q ps IH]; intros p y; [reflexivity|]. change (last (p :: q :: ps) y) with (last (q :: ps) y). rewrite (IH q y), (IH q p). reflexivity. }
  induction a as [|y a IH]; intros x; [reflexivity|]. change ((y :: a) ++ b) with (y :: (a ++ b)). rewrite !C. apply IH.
Qed.
Lemma walled_app a b wa wb : walled a wa -> walled b wb -> walled (a ++ b) (wa ++ wb).
Proof.
  intros A B nr v. destruct (A nr v) as [A1 A2]. destruct (B nr (last (map fst wa) v)) as [B1 B2].
  rewrite in_force_app, fold_left_app, A1, A2, B1, B2, !map_app, last_app. split; reflexivity.
Qed.
Lemma walled_flat {A} (f : A -> list call) (w : A -> list (f32 * path)) l : (forall x, walled (f x) (w x)) -> walled (flat_map f l) (flat_map w l).
Proof. intros H. induction l as [|x l IH]; [intros nr v; split; reflexivity|]. cbn [flat_map]. apply walled_app; [apply H|exact IH]. Qed.
Lemma wall_walled speed l z p name : walled ([CComment name; CSetExtrudeSpeed speed] ++ closed_walls l z p) (map (pair speed) (polygons_of p)).
Proof.
  intros nr v. rewrite in_force_app, fold_left_app. cbn [in_force fold_left app].
  replace (configure d m (configure d m (conf nr v) (CComment name)) (CSetExtrudeSpeed speed)) with (conf nr speed) by reflexivity.
  destruct (steady_run (closed_walls l z p)) with (k := conf nr speed) as [S1 S2].
  { unfold closed_walls. apply Forall_app. split; [apply Forall_map_intro; intros; exact I|repeat constructor]. }
  rewrite S1, S2, conf_settings. split.
  - rewrite map_map. f_equal. unfold closed_walls, polys, polygons_of. rewrite flat_map_app. f_equal.
    induction (holes p) as [|h hs IH]; [reflexivity|]. cbn. rewrite IH. reflexivity.
  - f_equal. rewrite map_map. unfold polygons_of. rewrite map_app, last_app. reflexivity.
Qed.
Lemma map_flat_map {A B C} (g : B -> C) (f : A -> list B) l : map g (flat_map f l) = flat_map (fun x => map g (f x)) l.
Proof. induction l as [|x l IH]; [reflexivity|]. cbn. rewrite map_app, IH. reflexivity. Qed.
Lemma part_walled l z insets : walled (part_plan o l z insets) (walls_of o insets).
Proof.
  destruct insets as [|outer inner]; [intros nr v; split; reflexivity|]. cbn [part_plan walls_of]. rewrite !map_flat_map.
  apply walled_app; apply walled_flat; intros p; apply wall_walled.
Qed.
Lemma perimeter_walled l z cs : perimeter_plan o l z = Ok cs -> walled cs (layer_walls o l).
Proof.
  unfold perimeter_plan, layer_walls. intros E. apply bind_Ok in E. destruct E as (ps & -> & E). injection E as <-.
  apply walled_flat. intros insets. apply part_walled.
Qed.
Section Lib.
Variable lib : clib.
Lemma skirt_steady nr l z cs : skirt_plan lib o nr l z = Ok cs -> Forall steady cs.
Proof.
  unfold skirt_plan. cbv zeta. destruct (_ || _); [intros [= <-]; constructor|]. intros E.
  apply bind_Ok in E. destruct E as (ps & _ & E). apply bind_Ok in E. destruct E as (su & _ & E).
  assert (G : forall w x y z', bind (Inset lib w x y z') (fun lines => Ok (CComment "TYPE:SKIRT" :: map (fun p => CPolygon None (outline p) z false) (concat lines))) = Ok cs ->
    Forall steady cs).
  { intros w x y z' G. apply bind_Ok in G. destruct G as (ls & _ & G). injection G as <-.
    apply Forall_cons; [exact I|]. apply Forall_map_intro. intros; exact I. }
  destruct su, ps; [injection E as <-; constructor| | |]; eapply G, E.
Qed.
Lemma brim_steady l z cs : brim_plan l z = Ok cs -> Forall steady cs.
Proof.
  unfold brim_plan. intros E. apply bind_Ok in E. destruct E as (br & _ & E). destruct br; injection E as <-; [constructor|].
  apply Forall_cons; [exact I|]. apply Forall_map_intro. intros; exact I.
Qed.
Lemma infill_steady fuel pat name comments nr l z cs : infill_plan lib fuel pat name comments nr l z = Ok cs -> Forall steady cs.
Proof.
  intros E. unfold infill_plan in E. destruct pat as [p|]; [|injection E as <-; constructor].
  apply bind_Ok in E. destruct E as (parts & _ & E). apply bind_Ok in E. destruct E as (filled & _ & E). injection E as <-.
  apply Forall_flat. intros ls _. apply Forall_app. split; apply Forall_map_intro; intros; exact I.
Qed.
Lemma layer_force fuel mn mx inf mxl nr l z p k : plan_layer lib o fuel mn mx inf nr l z = Ok p ->
  nr = 0 \/ (0 < nr /\ exists v, k = conf (nr - 1) v) ->
  in_force d m k (layer_calls o mxl nr p) = layer_in_force o nr l p /\
  (nr <> mxl -> exists v, fold_left (configure d m) (layer_calls o mxl nr p) k = conf nr v).
Proof.
  intros E K. unfold plan_layer in E. apply bind_Ok in E. destruct E as (s & S & E). apply bind_Ok in E. destruct E as (b & B & E).
  apply bind_Ok in E. destruct E as (w & W & E). apply bind_Ok in E. destruct E as (f & F & E). injection E as <-.
  assert (FS : Forall steady f).
  { unfold fill_plan in F. apply bind_Ok in F. destruct F as (c1 & F1 & F). apply bind_Ok in F. destruct F as (c2 & F2 & F).
    apply bind_Ok in F. destruct F as (c3 & F3 & F). apply bind_Ok in F. destruct F as (c4 & F4 & F). apply bind_Ok in F. destruct F as (c5 & F5 & F).
    injection F as <-. rewrite !Forall_app. repeat split; eapply infill_steady; eassumption. }
  destruct (steady_run s (skirt_steady _ _ _ _ S) (conf nr (LayerSpeed (Print o)))) as [S1 S2].
  destruct (steady_run b (brim_steady _ _ _ B) (conf nr (LayerSpeed (Print o)))) as [B1 B2].
  destruct (perimeter_walled l z w W nr (LayerSpeed (Print o))) as [W1 W2].
  destruct (steady_run f FS (conf nr (last (map fst (layer_walls o l)) (LayerSpeed (Print o))))) as [F1 F2].
  unfold layer_calls, layer_in_force. cbn [p_skirt p_brim p_walls p_fill].
  rewrite !in_force_app, !fold_left_app, (pre_config nr k K), (no_poly_in_force _ (pre_no_poly nr)), S1, S2, B1, B2, W1, W2, F1, F2, !conf_settings.
  split.
  - cbn [app]. rewrite map_app, <- !app_assoc. repeat f_equal.
    destruct (nr =? mxl); [rewrite (no_poly_in_force _ end_no_poly)|cbn]; rewrite app_nil_r; reflexivity.
  - intros N. destruct (Z.eqb_spec nr mxl); [contradiction|]. eexists. reflexivity.
Qed.
Lemma layers_force fuel mn mx inf mxl : forall layers ps n k, List.length ps = List.length layers ->
  (forall i l p, nth_error layers i = Some l -> nth_error ps i = Some p ->
     plan_layer lib o fuel mn mx inf (Z.of_nat (n + i)) l (height o (n + i)) = Ok p) ->
  mxl = Z.of_nat n + Z.of_nat (List.length ps) - 1 ->
  (n = O \/ exists v, k = conf (Z.of_nat n - 1) v) ->
  in_force d m k (concat (calls_from o n mxl ps)) =
  flat_map (fun '(nr, (l, p)) => layer_in_force o (Z.of_nat nr) l p) (combine (seq n (List.length ps)) (combine layers ps)).
Proof.
  induction layers as [|l layers IH]; intros [|p ps] n k L P M K; try discriminate; [reflexivity|].
  unfold calls_from. cbn [List.length seq combine map concat flat_map]. rewrite in_force_app.
  pose proof (P O l p eq_refl eq_refl) as P0. rewrite Nat.add_0_r in P0.
  destruct (layer_force fuel mn mx inf mxl (Z.of_nat n) l (height o n) p k P0) as [F1 F2].
  { destruct n; [left; reflexivity|right]. destruct K as [|K]; [discriminate|]. split; [lia|exact K]. }
  rewrite F1. f_equal. destruct ps as [|p' ps].
  - destruct layers; [reflexivity|discriminate].
  - destruct F2 as (v & F2); [subst mxl; cbn [List.length]; lia|]. rewrite F2. apply IH.
    + cbn [List.length] in *. lia.
    + intros i l' q Hl Hq. specialize (P (S i) l' q Hl Hq). rewrite Nat.add_succ_r in P. exact P.
    + subst mxl. cbn [List.length]. lia.
    + right. exists v. f_equal. lia.
Qed.
End Lib.
End Settings.
Lemma print_in_force lib o fuel mn mx inf layers ps : planned lib o fuel mn mx inf layers ps ->
  in_force (FilamentDiameter (Filament o)) (ExtrusionMultiplier (Filament o)) unconfigured (concat (all_calls o ps)) =
  flat_map (fun '(nr, (l, p)) => layer_in_force o (Z.of_nat nr) l p) (combine (seq 0 (List.length layers)) (combine layers ps)).
Proof.
  intros (L & P). rewrite <- L. unfold all_calls. apply (layers_force o lib fuel mn mx inf (Z.of_nat (List.length ps) - 1) layers ps 0 unconfigured L).
  - exact P.
  - lia.
  - left. reflexivity.
Qed.
