(** Properties C38-C43: the G-code builder. *)
From Coq Require Import Reals.
From Verif Require Import GoBase GoFloat GoStr M_Micrometer M_Geom2D M_Option M_Clip M_Builder S_Text S_Printer S_Builder S_Calls
  L_Str L_Float L_Micrometer L_Data L_Printer L_Builder L_Calls L_Extrude.
From Flocq Require Import Core BinarySingleNaN.
Local Open Scope string_scope.
Local Open Scope Z_scope.

(** a library for the examples: a wall stands at x = 5 mm *)
Definition wall : clib := CLib
  (fun _ _ l => Some ([], if existsb (fun a => match a with
      | (PtSubject, false, [a; b]) => negb (Bool.eqb (px a <? 5000) (px b <? 5000)) | _ => false end) l then 1 else 0))
  (fun _ _ => []) (fun p => p) (fun d => d) (fun d => d).
Definition f (z : Z) : f32 := f32_of_Z z.
Definition square : path := [Pt 1000 1000; Pt 3000 1000; Pt 3000 3000; Pt 1000 3000].
Definition far_square : path := [Pt 9000 1000; Pt 11000 1000; Pt 11000 3000; Pt 9000 3000].
Definition ex_setup : list call :=
  [CSetExtrusion 200 400; CSetMoveSpeed (f 150); CSetExtrudeSpeed (f 60); CSetRetractionSpeed (f 30); CSetRetractionAmount (f 2); CSetHop (f 1)].
Definition ex_calls : list call :=
  ex_setup ++ [CComment "LAYER_START"; CPolygon (Some []) square 200 false; CCommand "M106 S255"; CPolygon (Some []) far_square 200 false].
Definition nowhere (e : Z) : regs := Regs None None None None (Some e).

(** *** C38 *)
(** After any sequence of calls that ends without error and whose custom texts do not themselves move the printer, a
    printer executing the text stands at the target of the last call (as printed with two decimals), its E register is the
    printed extrusion amount and its feedrate is the current speed. *)
Theorem printer_in_step : forall lib d m cs g r0, run_calls lib cs (NewGCodeBuilder d m) = Ok g -> Forall harmless cs -> rE r0 = Some 0 ->
  let r := replay r0 (BuilderString g) in
  (forall p, last_target cs None = Some p ->
     rX r = shown 2 (ToMillimeter (vx p)) /\ rY r = shown 2 (ToMillimeter (vy p)) /\ rZ r = shown 2 (ToMillimeter (vz p))) /\
  rE r = shown 4 (extrusionAmount g) /\
  (currentSpeed g <> 0 -> rF r = Some (wrap (currentSpeed g * 60) * 10000)).
Proof. exact in_step. Qed.
Print Assumptions printer_in_step.
(** Within 32 m the nozzle is at most 5 um off in each coordinate (registers count 0.1 um). *)
Theorem printer_position_close : forall lib d m cs g r0 p, run_calls lib cs (NewGCodeBuilder d m) = Ok g -> Forall harmless cs ->
  rE r0 = Some 0 -> last_target cs None = Some p ->
  Z.abs (vx p) <= 32768000 -> Z.abs (vy p) <= 32768000 -> Z.abs (vz p) <= 32768000 ->
  let r := replay r0 (BuilderString g) in
  exists x y z, rX r = Some x /\ rY r = Some y /\ rZ r = Some z /\
    Z.abs (x - 10 * vx p) <= 50 /\ Z.abs (y - 10 * vy p) <= 50 /\ Z.abs (z - 10 * vz p) <= 50.
Proof.
  intros lib d m cs g r0 p E H R T X Y Z. destruct (in_step lib d m cs g r0 E H R) as (P & _).
  destruct (P p T) as (PX & PY & PZ).
  destruct (shown_close _ X) as (x & Ex & Bx). destruct (shown_close _ Y) as (y & Ey & By). destruct (shown_close _ Z) as (z & Ez & Bz).
  exists x, y, z. unfold BuilderString. rewrite PX, PY, PZ. repeat split; assumption.
Qed.
Print Assumptions printer_position_close.
(** which custom texts are harmless: comments, and commands other than G0, G1 and G92 *)
Theorem harmless_texts : forall s, no_char "%" s = true -> no_char (chr 10) s = true ->
  harmless (CComment s) /\
  ((forall w ws, words s = w :: ws -> is_move w = false /\ w <> "G92") -> harmless (CCommand s)).
Proof. intros s P N. split; [apply comment_harmless|intros W; apply command_harmless]; assumption. Qed.
Print Assumptions harmless_texts.
Lemma ex_harmless : Forall harmless ex_calls.
Proof.
  unfold ex_calls, ex_setup. cbn [app]. repeat (apply Forall_cons; [|]); try exact I; [| |apply Forall_nil].
  - apply harmless_texts; reflexivity.
  - apply harmless_texts; [reflexivity|reflexivity|]. intros w ws E. injection E as <- _. split; [reflexivity|discriminate].
Qed.
Example in_step_ex : exists g, run_calls wall ex_calls (NewGCodeBuilder 1750 100) = Ok g /\
  last_target ex_calls None = Some (V3 9000 1000 200) /\
  replay (nowhere 0) (BuilderString g) = Regs (Some 90000) (Some 10000) (Some 2000) (Some 36000000) (Some 5322).
Proof. eexists. split; [vm_compute; reflexivity|]. split; [reflexivity|]. vm_compute. reflexivity. Qed.

(** *** C39 *)
(** The moves a polygon adds to the text are, in order, the moves of [polygon_ops]: the approach of the first vertex, one
    line to every further vertex of the simplified polygon at height z, and the line back to the first vertex exactly
    if the polygon is not open.  [crossing] says whether the approach crosses a perimeter. *)
Theorem polygon_moves : forall lib d m cs g r0 layer polygon z open g' p0 ps,
  run_calls lib cs (NewGCodeBuilder d m) = Ok g -> Forall harmless cs -> rE r0 = Some 0 ->
  polygon <> [] -> DouglasPeucker polygon (-1) = p0 :: ps -> AddPolygon lib layer polygon z open g = Ok g' ->
  exists c t, crossing lib layer g p0 = Some c /\ BuilderString g' = BuilderString g ++ t /\
    Forall2 executed (commanded (known g) (extrusionAmount g) (polygon_ops (settings_of g) c (currentPosition g) p0 ps z open))
      (moves (replay r0 (BuilderString g)) t).
Proof. exact polygon_after. Qed.
Print Assumptions polygon_moves.
(** It fails only if the clipping library fails, and an empty polygon adds nothing. *)
Theorem polygon_fails_only_with_library : forall lib layer polygon z open g,
  (forall parts line, layer = Some parts -> IsCrossingPerimeter lib parts line <> None) ->
  exists g', AddPolygon lib layer polygon z open g = Ok g'.
Proof.
  intros lib layer polygon z open g H. destruct polygon as [|v polygon]; [eexists; reflexivity|].
  destruct (DP_nonempty (v :: polygon)) as (p0 & ps & D); [discriminate|].
  rewrite (polygon_spec lib layer (v :: polygon) z open g p0 ps ltac:(discriminate) D).
  unfold crossing. destruct layer as [parts|]; [|eexists; reflexivity].
  match goal with |- context [if ?b then _ else _] => destruct b end; [|eexists; reflexivity].
  pose proof (H parts [PointXY (currentPosition g); p0] eq_refl). destruct (IsCrossingPerimeter lib parts _); [eexists; reflexivity|contradiction].
Qed.
Print Assumptions polygon_fails_only_with_library.
Theorem empty_polygon : forall lib layer z open g, AddPolygon lib layer [] z open g = Ok g.
Proof. reflexivity. Qed.
Print Assumptions empty_polygon.
Example polygon_ex : exists g, run_calls wall (ex_setup ++ [CPolygon (Some []) square 200 false]) (NewGCodeBuilder 1750 100) = Ok g /\
  BuilderString g = "G0 X1.00 Y1.00 Z0.20 F9000" ++ newline ++ "G1 X3.00 F3600 E0.0665" ++ newline ++ "G1 Y3.00 E0.1330" ++ newline
    ++ "G1 X1.00 E0.1996" ++ newline ++ "G1 Y1.00 E0.2661" ++ newline.
Proof. eexists. split; vm_compute; reflexivity. Qed.

(** *** C40 *)
(** If the way crosses a perimeter, the filament is pulled back before the travel and pushed forward after it; with a
    z-hop the nozzle is lifted before, travels at z + hop, and is lowered to z before the filament comes back. *)
Theorem travel_retracts : forall lib d m cs g r0 layer polygon z open g' p0 ps,
  run_calls lib cs (NewGCodeBuilder d m) = Ok g -> Forall harmless cs -> rE r0 = Some 0 ->
  polygon <> [] -> DouglasPeucker polygon (-1) = p0 :: ps -> AddPolygon lib layer polygon z open g = Ok g' ->
  crossing lib layer g p0 = Some true ->
  let back := retractionAmount g in
  let from := currentPosition g in
  let up := wrap (z + ToMicrometer (zHopOnRetract g)) in
  exists t, BuilderString g' = BuilderString g ++ t /\
    Forall2 executed (commanded (known g) (extrusionAmount g)
      ([(from, SFopp back, retractionSpeed g)]
       ++ (if SFltb (S754_zero false) (zHopOnRetract g)
           then [(V3 (vx from) (vy from) up, S754_zero false, moveSpeed g); (V3 (px p0) (py p0) up, S754_zero false, moveSpeed g)]
           else [])
       ++ [(V3 (px p0) (py p0) z, S754_zero false, moveSpeed g); (V3 (px p0) (py p0) z, back, retractionSpeed g)]
       ++ lines_ops (settings_of g) z p0 (ps ++ if open then [] else [p0])))
      (moves (replay r0 (BuilderString g)) t).
Proof.
  intros lib d m cs g r0 layer polygon z open g' p0 ps E H R Hp D A C. cbn zeta.
  destruct (polygon_after lib d m cs g r0 layer polygon z open g' p0 ps E H R Hp D A) as (c & t & C' & B & M).
  rewrite C in C'. injection C' as <-. exists t. split; [exact B|]. clear A C. revert M.
  unfold polygon_ops, approach_ops, travel, at_z, lift. cbn [settings_of s_hop s_move s_rspeed s_ramount]. 
  destruct (SFltb (S754_zero false) (zHopOnRetract g)); intros M; exact M.
Qed.
Print Assumptions travel_retracts.
(** Otherwise there is one travel move and no retraction. *)
Theorem travel_without_crossing : forall lib d m cs g r0 layer polygon z open g' p0 ps,
  run_calls lib cs (NewGCodeBuilder d m) = Ok g -> Forall harmless cs -> rE r0 = Some 0 ->
  polygon <> [] -> DouglasPeucker polygon (-1) = p0 :: ps -> AddPolygon lib layer polygon z open g = Ok g' ->
  (layer = None \/ retractionSpeed g = 0 \/ is_zero (retractionAmount g) = true \/
   exists parts, layer = Some parts /\ IsCrossingPerimeter lib parts [PointXY (currentPosition g); p0] = Some false) ->
  exists t, BuilderString g' = BuilderString g ++ t /\
    Forall2 executed (commanded (known g) (extrusionAmount g)
      ((V3 (px p0) (py p0) z, S754_zero false, moveSpeed g) :: lines_ops (settings_of g) z p0 (ps ++ if open then [] else [p0])))
      (moves (replay r0 (BuilderString g)) t).
Proof.
  intros lib d m cs g r0 layer polygon z open g' p0 ps E H R Hp D A C.
  destruct (polygon_after lib d m cs g r0 layer polygon z open g' p0 ps E H R Hp D A) as (c & t & C' & B & M).
  assert (c = false).
  { unfold crossing in C'. destruct C as [->|[N|[N|(parts & -> & N)]]].
    - congruence.
    - rewrite N in C'. destruct layer; cbn in C'; congruence.
    - rewrite N, andb_false_r in C'. destruct layer; congruence.
    - rewrite N in C'. match type of C' with context [if ?b then _ else _] => destruct b end; congruence. }
  subst c. exists t. split; [exact B|]. exact M.
Qed.
Print Assumptions travel_without_crossing.
(** The amount that comes back is the amount pulled, but the counter accumulates float32 rounding. *)
Theorem retraction_drift : forall x y a b, fin32 x a -> fin32 y b -> (Rabs a <= bpow radix2 98)%R -> (Rabs b <= bpow radix2 98)%R ->
  exists c, fin32 (add32 (add32 x (SFopp y)) y) c /\ (Rabs (c - a) <= (Rabs a + Rabs b) * bpow radix2 (-22))%R.
Proof. exact retract_drift. Qed.
Print Assumptions retraction_drift.
Theorem retraction_exact_refuted : exists x y : f32, valid32 x = true /\ valid32 y = true /\ add32 (add32 x (SFopp y)) y <> x.
Proof. exists (div32 (f 1) (f 3)), (f 2). vm_compute. repeat split. discriminate. Qed.
Print Assumptions retraction_exact_refuted.
Example travel_ex : exists g, run_calls wall (ex_setup ++ [CMove (V3 1000 1000 200) (f 0); CPolygon (Some []) [Pt 9000 1000; Pt 9000 2000] 200 true])
    (NewGCodeBuilder 1750 100) = Ok g /\
  BuilderString g = "G0 X1.00 Y1.00 Z0.20 F9000" ++ newline ++ "G1 F1800 E-2.0000" ++ newline ++ "G0 Z1.20 F9000" ++ newline ++ "G0 X9.00" ++ newline
    ++ "G0 Z0.20" ++ newline ++ "G1 F1800 E0.0000" ++ newline ++ "G1 Y2.00 F3600 E0.0333" ++ newline.
Proof. eexists. split; vm_compute; reflexivity. Qed.
(** Before any move the builder takes the nozzle to be at the origin: retracting first sends it there, at height 0. *)
Theorem first_retraction_stays_refuted : exists lib layer polygon z g g' rest,
  run_calls lib ex_setup (NewGCodeBuilder 1750 100) = Ok g /\ AddPolygon lib (Some layer) polygon z true g = Ok g' /\
  BuilderString g' = "G1 X0.00 Y0.00 Z0.00 F1800 E-2.0000" ++ newline ++ rest.
Proof.
  exists wall, [], [Pt 9000 1000; Pt 9000 2000], 200. eexists. eexists. eexists.
  split; [vm_compute; reflexivity|]. split; vm_compute; reflexivity.
Qed.
Print Assumptions first_retraction_stays_refuted.

(** *** C41 *)
(** The settings used by a polygon are those of the last configuring calls: travel at the move speed, printing at the
    override if positive and at the extrude speed otherwise, retraction at the retraction speed. *)
Theorem settings_follow_calls : forall lib d m cs g, run_calls lib cs (NewGCodeBuilder d m) = Ok g ->
  settings_of g = settings_for (fold_left (configure d m) cs unconfigured).
Proof. intros lib d m cs g E. rewrite settings_config, (calls_config lib cs _ _ E). reflexivity. Qed.
Print Assumptions settings_follow_calls.
(** A single move uses these speeds too. *)
Theorem move_speed : forall p e g, AddMove p e g = AddMoveSpeed p e (if is_zero e then s_move (settings_of g) else s_print (settings_of g)) g.
Proof. intros p e g. rewrite addMove_op. reflexivity. Qed.
Print Assumptions move_speed.
(** Speeds are cut down to whole mm/s. *)
Theorem speed_is_truncated : forall v r, fin32 v r -> int64 (Ztrunc r) -> int_of_f32 v = Ztrunc r.
Proof. exact speed_trunc. Qed.
Print Assumptions speed_is_truncated.
Theorem speed_exact_refuted : exists v, feq v fzero = false /\
  BuilderString (AddMove (V3 1000 0 0) fzero (SetMoveSpeed v (NewGCodeBuilder 1750 100))) = "G0 X1.00 Y0.00 Z0.00" ++ newline.
Proof. exists (div32 (f 1) (f 2)). split; vm_compute; reflexivity. Qed.
Print Assumptions speed_exact_refuted.
Example settings_ex : exists g, run_calls wall (ex_setup ++ [CSetOverride (f 25)]) (NewGCodeBuilder 1750 100) = Ok g /\
  s_print (settings_of g) = 25 /\ s_move (settings_of g) = 150.
Proof. eexists. split; [vm_compute; reflexivity|]. split; reflexivity. Qed.

(** *** C42 *)
(** Without retraction the E register never goes down while a polygon is printed, as long as it holds a number. *)
Theorem extrusion_never_decreases : forall lib d m cs g r0 layer polygon z open g' t e0,
  run_calls lib cs (NewGCodeBuilder d m) = Ok g -> Forall harmless cs -> Forall proper cs -> 0 <= d -> 0 <= m -> rE r0 = Some 0 ->
  AddPolygon lib layer polygon z open g = Ok g' -> (forall p0, crossing lib layer g p0 = Some false) ->
  rE (replay r0 (BuilderString g)) = Some e0 -> BuilderString g' = BuilderString g ++ t ->
  Forall (fun r => rE r <> None) (moves (replay r0 (BuilderString g)) t) ->
  rising e0 (moves (replay r0 (BuilderString g)) t).
Proof. exact polygon_rising. Qed.
Print Assumptions extrusion_never_decreases.
Example extrusion_ex : Forall proper ex_calls /\ exists g g', run_calls wall ex_calls (NewGCodeBuilder 1750 100) = Ok g /\
  AddPolygon wall None square 400 false g = Ok g' /\ exists t, BuilderString g' = BuilderString g ++ t /\
  map rE (moves (replay (nowhere 0) (BuilderString g)) t) = [Some 5322; Some 5987; Some 6652; Some 7317; Some 7982].
Proof.
  split; [repeat constructor; discriminate || (vm_compute; discriminate)|]. eexists. eexists. split; [vm_compute; reflexivity|].
  split; [vm_compute; reflexivity|]. eexists. split; [vm_compute; reflexivity|]. vm_compute. reflexivity.
Qed.
(** It need not go up: with 16.4 m already extruded, a line that needs 0.9 um of filament extrudes nothing. *)
Theorem extrusion_increases_refuted : exists E e : f32, valid32 E = true /\ valid32 e = true /\ flt fzero e = true /\ add32 E e = E.
Proof. exists (f 16384), (div32 (f 9) (f 10000)). vm_compute. repeat split. Qed.
Print Assumptions extrusion_increases_refuted.

(** *** C43 *)
Theorem command_verbatim : forall s g, no_char "%" s = true ->
  BuilderString (AddCommand s g) = BuilderString g ++ s ++ newline /\ BuilderString (AddComment s g) = BuilderString g ++ ";" ++ s ++ newline.
Proof. intros s g H. split; [apply command_text|apply comment_text]; exact H. Qed.
Print Assumptions command_verbatim.
(** a percent sign starts a format directive; doubling it protects the text *)
Theorem doubled_percent_verbatim : forall s g, BuilderString (AddCommand (escape s) g) = BuilderString g ++ s ++ newline.
Proof. exact command_escaped. Qed.
Print Assumptions doubled_percent_verbatim.
Theorem command_verbatim_refuted : exists s, forall g, BuilderString (AddCommand s g) = BuilderString g ++ "M117 50%!d(MISSING)one" ++ newline
  /\ s = "M117 50% done".
Proof. exists "M117 50% done". intros g. split; reflexivity. Qed.
Print Assumptions command_verbatim_refuted.
(** A line ending in a percent sign even loses its newline to the directive, and the following move is swallowed. *)
Theorem trailing_percent_swallows_move_refuted : exists s p, 
  BuilderString (AddMove p fzero (AddCommand s (SetMoveSpeed (f 100) (NewGCodeBuilder 1750 100)))) =
    "M117 50%!" ++ newline ++ "(MISSING)G0 X1.00 Y2.00 Z3.00 F6000" ++ newline /\ s = "M117 50%" /\
  rX (replay (nowhere 0) (BuilderString (AddMove p fzero (AddCommand s (SetMoveSpeed (f 100) (NewGCodeBuilder 1750 100)))))) = None.
Proof. exists "M117 50%", (V3 1000 2000 3000). split; [vm_compute; reflexivity|]. split; [reflexivity|]. vm_compute. reflexivity. Qed.
Print Assumptions trailing_percent_swallows_move_refuted.
Example command_ex : BuilderString (AddComment "TYPE:FILL" (AddCommand (escape "M117 50% done") (AddCommand "M104 S200" (NewGCodeBuilder 1750 100)))) =
  "M104 S200" ++ newline ++ "M117 50% done" ++ newline ++ ";TYPE:FILL" ++ newline.
Proof. reflexivity. Qed.
