(** Property C84 for whole runs of the program. *)
From Verif Require Import GoBase GoFloat GoStr M_Micrometer M_Geom2D M_Model M_Slicer M_Clip M_Builder M_Option M_Layer M_Render M_Modifier M_Process M_Flags
  S_Geom S_Model S_Slicer S_Clip S_Area S_Printer S_Builder S_Calls S_Machine S_Render S_Modifier S_Process S_Fill S_Lines L_Model L_Area L_Clip L_Strip L_LineLib L_Modifier L_Infill L_Settings L_Process
  P_Builder P_Modifier P_Render P_Process P_Pipeline P_Complete P_Lines P_EndToEnd.
Local Open Scope string_scope.
Local Open Scope list_scope.
Local Open Scope Z_scope.

(** *** the layer a polygon is printed within *)
Definition within (l : layer) (c : call) : Prop :=
  match c with CPolygon (Some parts) _ _ _ => parts = LayerParts l | _ => True end.
Lemma Forall_map_in {A B} (f : A -> B) (Q : B -> Prop) l : (forall x, Q (f x)) -> Forall Q (map f l).
Proof. intros H. apply Forall_forall. intros y I. apply in_map_iff in I. destruct I as (x & <- & _). apply H. Qed.
Lemma Forall_flat_in {A B} (f : A -> list B) (Q : B -> Prop) l : (forall x, Forall Q (f x)) -> Forall Q (flat_map f l).
Proof. intros H. apply Forall_forall. intros y I. apply in_flat_map in I. destruct I as (x & _ & I). specialize (H x). rewrite Forall_forall in H. exact (H y I). Qed.
Lemma infill_within lib fuel pat name comments nr l z cs : infill_plan lib fuel pat name comments nr l z = Ok cs -> Forall (within l) cs.
Proof.
  intros E. unfold infill_plan in E. destruct pat as [p|]; [|injection E as <-; constructor].
  apply bind_Ok in E. destruct E as (parts & _ & E). apply bind_Ok in E. destruct E as (filled & _ & E). injection E as <-.
  apply Forall_flat_in. intros ls. apply Forall_app. split; apply Forall_map_in; intros x; [exact I|reflexivity].
Qed.
Lemma layer_within lib o fuel mn mx inf nr l z p mxl : plan_layer lib o fuel mn mx inf nr l z = Ok p -> Forall (within l) (layer_calls o mxl nr p).
Proof.
  intros E. unfold plan_layer in E. apply bind_Ok in E. destruct E as (s & S & E). apply bind_Ok in E. destruct E as (b & B & E).
  apply bind_Ok in E. destruct E as (w & W & E). apply bind_Ok in E. destruct E as (f & F & E). injection E as <-. unfold layer_calls. cbn [p_skirt p_brim p_walls p_fill].
  assert (NP : forall cs, forallb no_poly cs = true -> Forall (within l) cs).
  { intros cs H. apply Forall_forall. intros c Ic. rewrite forallb_forall in H. specialize (H c Ic). destruct c; try exact I. discriminate. }
  rewrite !Forall_app. split; [apply NP, pre_no_poly|]. split; [|split; [|split; [|split]]].
  - unfold skirt_plan in S. cbv zeta in S. destruct (_ || _); [injection S as <-; constructor|]. apply bind_Ok in S. destruct S as (ps & _ & S). apply bind_Ok in S. destruct S as (su & _ & S).
    assert (G : forall a x y z', bind (Inset lib a x y z') (fun lines => Ok (CComment "TYPE:SKIRT" :: map (fun p => CPolygon None (outline p) z false) (concat lines))) = Ok s -> Forall (within l) s).
    { intros a x y z' G. apply bind_Ok in G. destruct G as (ls & _ & G). injection G as <-. constructor; [exact I|]. apply Forall_map_in. intros; exact I. }
    destruct su, ps; [injection S as <-; constructor| | |]; eapply G, S.
  - unfold brim_plan in B. apply bind_Ok in B. destruct B as (br & _ & B). destruct br; injection B as <-; [constructor|]. constructor; [exact I|]. apply Forall_map_in. intros; exact I.
  - unfold perimeter_plan in W. apply bind_Ok in W. destruct W as (ps & _ & W). injection W as <-. apply Forall_flat_in. intros insets.
    assert (C : forall q, Forall (within l) (closed_walls l z q)). { intros q. unfold closed_walls. apply Forall_app. split; [apply Forall_map_in; reflexivity|constructor; [reflexivity|constructor]]. }
    destruct insets as [|outer inner]; [constructor|]. cbn [part_plan]. apply Forall_app. split; apply Forall_flat_in; intros q; (apply Forall_app; split; [repeat constructor|apply C]).
  - unfold fill_plan in F. apply bind_Ok in F. destruct F as (c1 & F1 & F). apply bind_Ok in F. destruct F as (c2 & F2 & F).
    apply bind_Ok in F. destruct F as (c3 & F3 & F). apply bind_Ok in F. destruct F as (c4 & F4 & F). apply bind_Ok in F. destruct F as (c5 & F5 & F).
    injection F as <-. rewrite !Forall_app. repeat split; eapply infill_within; eassumption.
  - destruct (nr =? mxl); [apply NP, end_no_poly|constructor].
Qed.
Lemma planned_within lib o fuel mn mx inf layers ps : planned lib o fuel mn mx inf layers ps -> forall layer polygon z open, In (CPolygon layer polygon z open) (concat (all_calls o ps)) ->
  exists n l p, nth_error layers n = Some l /\ nth_error ps n = Some p /\ In (CPolygon layer polygon z open) (layer_calls o (Z.of_nat (List.length ps) - 1) (Z.of_nat n) p) /\ (layer = None \/ layer = Some (LayerParts l)).
Proof.
  intros [Len Pl] layer polygon z open I. apply in_concat in I. destruct I as (cs & Ic & I). unfold all_calls in Ic. apply in_map_iff in Ic. destruct Ic as ([n p] & <- & Ic).
  apply In_nth_error in Ic. destruct Ic as (i & Ei). 
  assert (Q : nth_error (seq 0 (List.length ps)) i = Some n /\ nth_error ps i = Some p).
  { clear -Ei. revert Ei. generalize (seq 0 (List.length ps)). revert i. induction ps as [|q ps IH]; intros [|i] s E; destruct s as [|a s]; cbn in *; try discriminate; [injection E as <- <-; auto|apply IH, E]. }
  destruct Q as (Q1 & Q2). assert (Hi : (i < List.length ps)%nat) by (apply nth_error_Some; congruence).
  assert (n = i). { rewrite (nth_error_nth' _ O) in Q1 by (rewrite seq_length; exact Hi). rewrite seq_nth in Q1 by exact Hi. injection Q1 as <-. reflexivity. } subst n.
  destruct (nth_error layers i) as [l|] eqn:El; [|apply nth_error_None in El; lia].
  exists i, l, p. split; [exact El|]. split; [exact Q2|]. split; [exact I|].
  pose proof (layer_within lib o fuel mn mx inf _ l _ p (Z.of_nat (List.length ps) - 1) (Pl i l p El Q2)) as F. rewrite Forall_forall in F. specialize (F _ I). cbn in F. destruct layer as [parts|]; [right; congruence|left; reflexivity].
Qed.

(** *** C84 *)
(** Every polygon of a finished run is executed starting from where the printer stands.  The filament is retracted before it
    exactly if retraction is configured, the polygon is printed within a layer (no skirt or brim), and the straight way to it
    has a point that the (simplified) polygons cut from the model at that layer do not surround an odd number of times. *)
Theorem run_retracts : forall (P : Type) (inside : path -> P -> bool) (on : path -> P -> Prop) lib tangent fuel env o input text (r : finished lib tangent fuel env o input text) r0,
  exact inside lib -> cuts_exactly inside on lib -> plain (StartGCode (Printer o)) -> f_layers _ _ _ _ _ _ _ r <> [] ->
  exists lps infill ps, polygons_at o (f_model _ _ _ _ _ _ _ r) = Ok lps /\
    planned lib o fuel (PointXY (f_min _ _ _ _ _ _ _ r)) (PointXY (f_max _ _ _ _ _ _ _ r)) infill (f_layers _ _ _ _ _ _ _ r) ps /\
    forall cs1 layer polygon z open cs2 p0 qs, concat (all_calls o ps) = cs1 ++ CPolygon layer polygon z open :: cs2 ->
      polygon <> [] -> DouglasPeucker polygon (-1) = p0 :: qs ->
      exists n p polygons g c t t', nth_error ps n = Some p /\ In (CPolygon layer polygon z open) (layer_calls o (Z.of_nat (List.length ps) - 1) (Z.of_nat n) p) /\
        nth_error lps n = Some polygons /\
        run_calls lib cs1 (NewGCodeBuilder (FilamentDiameter (Filament o)) (ExtrusionMultiplier (Filament o))) = Ok g /\
        text = (BuilderString g ++ t ++ t')%string /\
        Forall2 executed (commanded (known g) (extrusionAmount g) (polygon_ops (settings_of g) c (currentPosition g) p0 qs z open)) (moves (replay r0 (BuilderString g)) t) /\
        (c = true <-> int_of_f32 (RetractionSpeed (Filament o)) <> 0 /\ is_zero (RetractionLength (Filament o)) = false /\ layer <> None /\
           exists x, on [PointXY (currentPosition g); p0] x /\ parity inside (map (fun c => Simplify c (-1) (-1)) polygons) x = false).
Proof.
  intros P inside on lib tangent fuel env o input text r r0 E Cut Ps N6. destruct (all_keeps _ _ _ _ _ _ _ r) as (names & KA).
  destruct r as [fs om open l0 l1 l2 l3 l4 l5 l6 mn mx rs E1 E4 E5 M1 M2 M3 M4 M5 M6 B E7 E8]. cbn [f_model f_min f_max f_layers f_sliced] in *.
  destruct (layer_parts_exact inside lib E o om l0 E5) as (lps & El & Len & Lp).
  destruct (print_in_step o lib fuel (PointXY mn) (PointXY mx) rs l6 text r0 Ps N6 E7 E8) as (inf & ps & Ei & Pl & St).
  exists lps, inf, ps. split; [exact El|]. split; [exact Pl|]. intros cs1 layer polygon z op cs2 p0 qs Ec Np D.
  destruct (St cs1 layer polygon z op cs2 p0 qs Ec Np D) as (g & c & t & t' & Rg & Hc & Et & Ex).
  destruct (planned_within lib o fuel _ _ inf l6 ps Pl layer polygon z op) as (n & l & p & Hl & Hp & Ip & Hla). { rewrite Ec. apply in_or_app. right. left. reflexivity. }
  destruct (keeps_nth _ _ _ _ _ KA Hl) as (l_0 & Hl0 & Hlp & _). destruct (Lp n l_0 Hl0) as (polygons & Hpo & Pr & _ & Cov).
  rewrite <- (LayerParts_eq l l_0 Hlp) in Pr, Cov.
  exists n, p, polygons, g, c, t, t'. split; [exact Hp|]. split; [exact Ip|]. split; [exact Hpo|]. split; [exact Rg|]. split; [exact Et|]. split; [exact Ex|].
  destruct (retracts_exactly P inside on lib layer g p0 Cut) as (c' & Hc' & Q). { intros parts ->. destruct Hla as [Q|Q]; [discriminate|injection Q as ->; exact Pr]. }
  rewrite Hc in Hc'. injection Hc' as <-. rewrite Q.
  assert (RS : retractionSpeed g = int_of_f32 (RetractionSpeed (Filament o)) /\ retractionAmount g = RetractionLength (Filament o)).
  { destruct (in_force_meaning lib _ _ cs1 layer polygon z op cs2 g Rg) as (before & after & F & _). rewrite <- Ec, (print_settings lib o fuel _ _ inf l6 ps Pl) in F.
    assert (I : In (settings_of g, polygon) (before ++ (settings_of g, polygon) :: after)) by (apply in_or_app; right; left; reflexivity).
    rewrite <- F in I. apply in_flat_map in I. destruct I as ([nr [l' p']] & _ & I). unfold layer_in_force in I. rewrite !in_app_iff in I.
    assert (W : exists v, settings_of g = with_speed o (Z.of_nat nr) v).
    { destruct I as [I|[I|I]]; apply in_map_iff in I; [destruct I as (q & Eq & _)|destruct I as ([v q] & Eq & _)|destruct I as (q & Eq & _)]; apply (f_equal fst) in Eq; cbn [fst] in Eq; eauto. }
    destruct W as (v & W). split; [exact (f_equal s_rspeed W)|exact (f_equal s_ramount W)]. }
  destruct RS as (-> & ->). split.
  - intros (Q1 & Q2 & parts & x & -> & O & Nc). split; [exact Q1|]. split; [exact Q2|]. split; [discriminate|]. exists x. split; [exact O|].
    destruct Hla as [Q'|Q']; [discriminate|]. injection Q' as ->. apply not_true_iff_false. rewrite <- Cov. exact Nc.
  - intros (Q1 & Q2 & Q3 & x & O & Nc). split; [exact Q1|]. split; [exact Q2|]. destruct layer as [parts|]; [|contradiction]. exists parts, x. split; [reflexivity|]. split; [exact O|].
    destruct Hla as [Q'|Q']; [discriminate|]. injection Q' as ->. rewrite Cov. congruence.
Qed.
Print Assumptions run_retracts.
(** the tetrahedron of 1 mm: every polygon of its program is executed so *)
Example run_retracts_ex : exists text (r : corner_run text), exact in_strips line_lib /\ cuts_exactly in_strips on_strips line_lib /\ plain (StartGCode (Printer DefaultOptions)) /\
  f_layers _ _ _ _ _ _ _ r <> [] /\ int_of_f32 (RetractionSpeed (Filament DefaultOptions)) = 30 /\ is_zero (RetractionLength (Filament DefaultOptions)) = false.
Proof.
  destruct run_layers_ex as (text & r & L). exists text, r. split; [exact line_exact|]. split; [exact line_cuts|]. split; [repeat constructor|].
  split; [intros H; rewrite H in L; discriminate|]. split; vm_compute; reflexivity.
Qed.
