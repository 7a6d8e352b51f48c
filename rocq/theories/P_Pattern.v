(** Property C89: which areas are filled with which lines. *)
From Verif Require Import GoBase GoFloat GoStr M_Micrometer M_Geom2D M_Model M_Slicer M_Clip M_Builder M_Option M_Layer M_Render M_Modifier M_Process
  S_Geom S_Slicer S_Clip S_Area S_Calls S_Render S_Fill S_Lines S_Pattern S_Process L_Area L_Clip L_Fill L_Strip L_LineLib L_Lines L_Zig
  P_Clip P_Render P_Infill P_Lines P_Complete.
Local Open Scope string_scope.
Local Open Scope list_scope.
Local Open Scope Z_scope.

Section Proof.
Context (P : Type) (inside : path -> P -> bool) (on : path -> P -> Prop) (lib : clib) (fuel : nat).
Hypothesis St : straight on.
Hypothesis Cut : cuts_exactly inside on lib.
Hypothesis Cap : capable lib.
Hypothesis Fuel : 2 ^ 24 < Z.of_nat fuel.
Lemma filled_by p nr q ls k : Z.abs (degree p) <= 2 ^ 52 -> pt_bounded (2 ^ 22) (lmin p) -> pt_bounded (2 ^ 22) (lmax p) ->
  0 < lineDistance p <= 2 ^ 28 -> 0 <= lineWidth p <= 2 ^ 28 -> Fill lib fuel p nr q = Ok ls ->
  k = Lines (lineDistance p) (degree p + (if rectlinear p && Z.even nr then 90 else 0)) (lmin p) (lmax p) (zigZag p) -> filled inside on lib (lineWidth p) k q ls.
Proof.
  intros Hd Bn Bx Hdi Hw E ->. pose proof (zig_lines inside on lib Cut Cap fuel p nr q ls Hd Bn Bx Hdi Hw ltac:(nia) E) as Z. cbv zeta in Z. unfold box in Z.
  rewrite fill_rotation in Z by exact Hd. unfold filled. cbn [S_Pattern.angle S_Pattern.low S_Pattern.high S_Pattern.distance S_Pattern.zigzag] in *.
  replace (degree p + (if rectlinear p && Z.even nr then 90 else 0)) with (if rectlinear p && Z.even nr then degree p + 90 else degree p) by (destruct (rectlinear p && Z.even nr); lia).
  exact Z.
Qed.
Lemma infill_block pattern name comments nr l z cs : infill_plan lib fuel (Some pattern) name comments nr l z = Ok cs ->
  Z.abs (degree pattern) <= 2 ^ 52 /\ pt_bounded (2 ^ 22) (lmin pattern) /\ pt_bounded (2 ^ 22) (lmax pattern) /\ 0 < lineDistance pattern <= 2 ^ 28 /\ 0 <= lineWidth pattern <= 2 ^ 28 ->
  exists parts lss, PartsAttribute l name = Ok parts /\
   Forall2 (filled inside on lib (lineWidth pattern) (Lines (lineDistance pattern) (degree pattern + (if rectlinear pattern && Z.even nr then 90 else 0)) (lmin pattern) (lmax pattern) (zigZag pattern))) parts lss /\
   cs = flat_map (fun ls => map CComment comments ++ map (fun line => CPolygon (Some (LayerParts l)) line z true) ls) lss.
Proof.
  intros E (H1 & H2 & H3 & H4 & H5). unfold infill_plan in E. apply bind_Ok in E. destruct E as (parts & Ep & E). apply bind_Ok in E. destruct E as (lss & El & E). injection E as <-.
  exists parts, lss. split; [exact Ep|]. split; [|reflexivity]. clear Ep. revert lss El. induction parts as [|q parts IH]; intros lss El; cbn [map_res] in El; [injection El as <-; constructor|].
  apply bind_Ok in El. destruct El as (ls & E1 & El). apply bind_Ok in El. destruct El as (r & E2 & El). injection El as <-. constructor; [|apply IH, E2].
  eapply filled_by; try eassumption. reflexivity.
Qed.
End Proof.

(** *** C89 *)
(** A part filled with any pattern: its lines are those of the pattern, zig-zag or not. *)
Theorem part_filled : forall (P : Type) (inside : path -> P -> bool) (on : path -> P -> Prop) lib fuel distance width degree mn mx rectlinear zig nr q ls,
  straight on -> cuts_exactly inside on lib -> capable lib -> Z.abs degree <= 2 ^ 52 -> pt_bounded (2 ^ 22) mn -> pt_bounded (2 ^ 22) mx ->
  0 < distance <= 2 ^ 28 -> 0 <= width <= 2 ^ 28 -> 2 ^ 24 < Z.of_nat fuel -> Fill lib fuel (Linear distance width degree mn mx rectlinear zig) nr q = Ok ls ->
  filled inside on lib width (Lines distance (degree + (if rectlinear && Z.even nr then 90 else 0)) mn mx zig) q ls.
Proof. intros P inside on lib fuel di w dg mn mx rl zig nr q ls St Cut Cap Hd Bn Bx Hdi Hw F E. exact (filled_by P inside on lib fuel Cut Cap F (Linear di w dg mn mx rl zig) nr q ls _ Hd Bn Bx Hdi Hw E eq_refl). Qed.
Print Assumptions part_filled.
(** three lines of width 200 and their connections *)
Example part_filled_ex : straight on_strips /\ cuts_exactly in_strips on_strips line_lib /\ capable line_lib /\
  Fill line_lib 1000 (Linear 400 200 0 (Pt 0 0) (Pt 2000 900) true true) 1 (Part [Pt 300 0; Pt 1300 0] []) =
    Ok [[Pt 400 800; Pt 400 100]; [Pt 400 100; Pt 800 100]; [Pt 800 100; Pt 800 800]; [Pt 800 800; Pt 1200 800]; [Pt 1200 800; Pt 1200 100]].
Proof. split; [exact strips_straight|]. split; [exact line_cuts|]. split; [exact line_capable|]. vm_compute. reflexivity. Qed.

(** What is filled in a layer of a print: support, its interface, bottom, top and the inside, each part with the lines for its
    kind, see [fillings]. *)
Theorem print_fillings : forall (P : Type) (inside : path -> P -> bool) (on : path -> P -> Prop) lib o fuel mn mx infill layers ps n l p,
  straight on -> cuts_exactly inside on lib -> capable lib -> workable o -> pt_bounded (2 ^ 21) mn -> pt_bounded (2 ^ 21) mx -> 2 ^ 24 < Z.of_nat fuel ->
  infillPattern o mn mx = Ok infill -> planned lib o fuel mn mx infill layers ps -> nth_error layers n = Some l -> nth_error ps n = Some p ->
  exists blocks, p_fill p = concat blocks /\
    Forall2 (fun '(name, comments, k) block => exists parts lss, PartsAttribute l name = Ok parts /\
      Forall2 (filled inside on lib (ExtrusionWidth (Printer o)) k) parts lss /\
      block = flat_map (fun ls => map CComment comments ++ map (fun line => CPolygon (Some (LayerParts l)) line (height o n) true) ls) lss)
      (fillings o mn mx (Z.of_nat n)) blocks.
Proof.
  intros P inside on lib o fuel mn mx infill layers ps n l p St Cut Cap W Bn Bx Fuel Ei (Len & Pl) Hl Hp. pose proof (Pl n l p Hl Hp) as E. unfold plan_layer in E.
  apply bind_Ok in E. destruct E as (sk & _ & E). apply bind_Ok in E. destruct E as (br & _ & E). apply bind_Ok in E. destruct E as (wl & _ & E). apply bind_Ok in E. destruct E as (fl & E & E'). injection E' as <-. cbn [p_fill].
  unfold fill_plan in E. apply bind_Ok in E. destruct E as (a & Ea & E). apply bind_Ok in E. destruct E as (b & Eb & E). apply bind_Ok in E. destruct E as (c & Ec & E). apply bind_Ok in E. destruct E as (d & Ed & E). apply bind_Ok in E. destruct E as (e & Ee & E). injection E as <-.
  pose proof (w_width o W) as Wd. pose proof (w_spacing o W) as Sp. pose proof (w_degree o W) as Dg. pose proof (w_infill o W) as If.
  pose proof (infill_block P inside on lib fuel Cut Cap Fuel) as B.
  apply (B (supportPattern o mn mx)) in Ea. 2:{ pose proof (enlarged_box o fuel mn mx W Bn Bx) as Q. unfold supportPattern. destruct (enlarge _ mn mx) as [q1 q2]. destruct Q. cbn [degree lmin lmax lineDistance lineWidth]. split; [lia|]. split; [assumption|]. split; [assumption|]. lia. }
  apply (B (interfacePattern o mn mx)) in Eb. 2:{ pose proof (enlarged_box o fuel mn mx W Bn Bx) as Q. unfold interfacePattern. destruct (enlarge _ mn mx) as [q1 q2]. destruct Q. cbn [degree lmin lmax lineDistance lineWidth]. split; [lia|]. split; [assumption|]. split; [assumption|]. lia. }
  assert (Tb : Z.abs (degree (topBottomPattern o mn mx)) <= 2 ^ 52 /\ pt_bounded (2 ^ 22) (lmin (topBottomPattern o mn mx)) /\ pt_bounded (2 ^ 22) (lmax (topBottomPattern o mn mx)) /\ 0 < lineDistance (topBottomPattern o mn mx) <= 2 ^ 28 /\ 0 <= lineWidth (topBottomPattern o mn mx) <= 2 ^ 28).
  { unfold topBottomPattern. cbn [degree lmin lmax lineDistance lineWidth]. unfold pt_bounded in *. repeat (split; [lia|]). lia. }
  apply (B (topBottomPattern o mn mx)) in Ec; [|exact Tb]. apply (B (topBottomPattern o mn mx)) in Ed; [|exact Tb].
  pose proof (infill_pattern_ok o fuel mn mx W Bn Bx Fuel) as (inf & Ej & Hi). assert (Eq : inf = infill) by congruence. subst inf. clear Ej.
  assert (Lo : Pt (sub64 (px mn) (ToMicrometer (s_PatternSpacing (Support (Print o))))) (sub64 (py mn) (ToMicrometer (s_PatternSpacing (Support (Print o))))) = Pt (px mn - ToMicrometer (s_PatternSpacing (Support (Print o)))) (py mn - ToMicrometer (s_PatternSpacing (Support (Print o))))).
  { destruct Bn. unfold sub64. rewrite !wrap_id by (unfold int64; lia). reflexivity. }
  assert (Hg : Pt (add64 (px mx) (ToMicrometer (s_PatternSpacing (Support (Print o))))) (add64 (py mx) (ToMicrometer (s_PatternSpacing (Support (Print o))))) = Pt (px mx + ToMicrometer (s_PatternSpacing (Support (Print o)))) (py mx + ToMicrometer (s_PatternSpacing (Support (Print o))))).
  { destruct Bx. unfold add64. rewrite !wrap_id by (unfold int64; lia). reflexivity. }
  unfold supportPattern, interfacePattern, topBottomPattern, enlarge in Ea, Eb, Ec, Ed. rewrite Lo, Hg in Ea, Eb. cbn [degree lmin lmax lineDistance lineWidth rectlinear zigZag andb] in Ea, Eb, Ec, Ed. rewrite Z.add_0_r in Ea, Eb.
  unfold fillings. unfold infillPattern in Ei. destruct (Z.eqb_spec (InfillPercent (Print o)) 0) as [Z0|N0]; cbn [negb] in Ei.
  - injection Ei as <-. cbn [infill_plan] in Ee. injection Ee as <-. exists [a; b; c; d]. split; [cbn [concat]; rewrite !app_nil_r, <- ?app_assoc; reflexivity|]. rewrite app_nil_r. repeat (constructor; [assumption|]). constructor.
  - rewrite infill_distance in Ei by lia. cbn [bind] in Ei. injection Ei as <-. unfold lines_per_cm in *. apply B in Ee; [|apply Hi; reflexivity]. cbn [degree lmin lmax lineDistance lineWidth rectlinear zigZag andb] in Ee.
    exists [a; b; c; d; e]. split; [cbn [concat]; rewrite ?app_nil_r, <- ?app_assoc; reflexivity|]. cbn [app]. repeat (constructor; [assumption|]). constructor.
Qed.
Print Assumptions print_fillings.
(** two layers with the default options; the second one has a part to be filled inside *)
Example print_fillings_ex : let layers := [Layer (Some []) None; Layer (Some []) (Some [("infill", AParts [Part [Pt 0 0; Pt 9000 0] []])])] in
  let fuel := Z.to_nat (2 ^ 24 + 1) in exists infill ps, workable DefaultOptions /\ pt_bounded (2 ^ 21) (Pt 0 0) /\ pt_bounded (2 ^ 21) (Pt 9000 5000) /\
  infillPattern DefaultOptions (Pt 0 0) (Pt 9000 5000) = Ok infill /\ planned line_lib DefaultOptions fuel (Pt 0 0) (Pt 9000 5000) infill layers ps /\
  In ("infill", ["TYPE:FILL"; "INTERNAL-FILL"], Lines 2000 45 (Pt 0 0) (Pt 9000 5000) false) (fillings DefaultOptions (Pt 0 0) (Pt 9000 5000) 1) /\
  In ("support", ["TYPE:SUPPORT"], Lines 2500 90 (Pt (-2500) (-2500)) (Pt 11500 7500) true) (fillings DefaultOptions (Pt 0 0) (Pt 9000 5000) 1).
Proof.
  cbv zeta. assert (Fuel : 2 ^ 24 < Z.of_nat (Z.to_nat (2 ^ 24 + 1))) by lia. set (fuel := Z.to_nat (2 ^ 24 + 1)) in *. clearbody fuel.
  assert (Bn : pt_bounded (2 ^ 21) (Pt 0 0)) by (split; cbn; lia). assert (Bx : pt_bounded (2 ^ 21) (Pt 9000 5000)) by (split; cbn; lia).
  destruct (infill_pattern_ok DefaultOptions fuel _ _ default_workable Bn Bx Fuel) as (infill & Ei & _).
  destruct (planned_total line_lib DefaultOptions fuel _ _ line_capable default_workable Bn Bx Fuel infill [Layer (Some []) None; Layer (Some []) (Some [("infill", AParts [Part [Pt 0 0; Pt 9000 0] []])])] Ei) as (ps & Pl).
  { intros l [<-|[<-|[]]]; (split; [vm_compute; eauto|]; split; [vm_compute; eauto|]; split; [vm_compute; eauto|]); intros name I; cbn in I; repeat (destruct I as [<-|I]; [vm_compute; eauto|]); destruct I. }
  exists infill, ps. split; [exact default_workable|]. split; [exact Bn|]. split; [exact Bx|]. split; [exact Ei|]. split; [exact Pl|].
  vm_compute. tauto.
Qed.
