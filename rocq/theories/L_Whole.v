(** The printer follows a generated print from start to end. *)
From Verif Require Import GoBase GoFloat GoStr M_Micrometer M_Geom2D M_Option M_Clip M_Builder M_Layer M_Render
  S_Text S_Printer S_Builder S_Calls S_Machine S_Render L_Str L_Data L_Printer L_Builder L_Calls L_Render L_Events L_Settings.
Local Open Scope list_scope.
Local Open Scope string_scope.
Local Open Scope Z_scope.

(** a builder that has not moved yet *)
Record fresh (g : builder) : Prop := Fresh {
  fr_x : notFirstMoveX g = false; fr_y : notFirstMoveY g = false; fr_z : notFirstMoveZ g = false;
  fr_s : currentSpeed g = 0; fr_e : extrusionAmount g = S754_zero false }.
Lemma fresh_call lib c g g' : fresh g -> call_text c <> None -> run_call lib c g = Ok g' -> fresh g'.
Proof.
  intros [X Y Z S E] T R. destruct c; cbn in T; try contradiction; cbn [run_call] in R; injection R as <-; constructor; assumption.
Qed.
Lemma fresh_calls lib cs : Forall (fun c => call_text c <> None) cs -> forall g g', fresh g -> run_calls lib cs g = Ok g' -> fresh g'.
Proof.
  induction 1 as [|c cs T _ IH]; intros g g' F R; cbn [run_calls] in R; [injection R as <-; exact F|].
  apply bind_Ok in R. destruct R as (g1 & R1 & R2). eapply IH; [|exact R2]. eapply fresh_call; eassumption.
Qed.
Lemma fresh_agree g r : fresh g -> rE r = Some 0 -> agree g r.
Proof.
  intros [X Y Z S E] R. constructor; [rewrite X, Y, Z; auto|rewrite X; discriminate|left; exact S|rewrite E, R; reflexivity].
Qed.
(** harmless commands with numbers *)
Lemma s_harmless c n rest : clean c -> (rest = "" \/ (exists x, rest = String ";" x) \/ (exists x, rest = " " ++ String ";" x)) ->
  no_char (chr 10) rest = true -> is_move c = false -> c <> "G92" -> ignored (c ++ " S" ++ itoa n ++ rest ++ newline).
Proof.
  intros Hc HR HN HM HG.
  assert (W : words (c ++ tail_words [String "S" (itoa n)]) = [c; String "S" (itoa n)] /\ all_chars line_char (c ++ tail_words [String "S" (itoa n)]) = true).
  { apply line_words; [exact Hc|]. constructor; [apply clean_word; [reflexivity|apply itoa_clean]|constructor]. }
  destruct W as [W L]. set (a := c ++ tail_words [String "S" (itoa n)]) in *.
  replace (c ++ " S" ++ itoa n ++ rest ++ newline) with ((a ++ rest) ++ newline).
  2: { unfold a. cbn [tail_words]. rewrite sapp_nil_r, !sapp_assoc. reflexivity. }
  assert (W' : words (a ++ rest) = [c; String "S" (itoa n)]).
  { destruct HR as [->|[(x & ->)|(x & ->)]].
    - rewrite sapp_nil_r. exact W.
    - rewrite words_comment by exact L. exact W.
    - replace (a ++ " " ++ String ";" x) with ((a ++ " ") ++ String ";" x) by (rewrite sapp_assoc; reflexivity).
      rewrite words_comment, words_space by (rewrite ?all_chars_app, ?L; reflexivity). exact W. }
  apply ignored_line; [rewrite no_char_app, HN, (line_no_nl _ L); reflexivity|].
  intros w ws E. rewrite W' in E. injection E as <- _. split; assumption.
Qed.
Lemma mark_harmless n : harmless (CCommentInt "LAYER:%v" n).
Proof.
  cbn [harmless]. change (sprintf_int (";" ++ "LAYER:%v" ++ newline) n) with (";LAYER:" ++ itoa n ++ newline).
  replace (";LAYER:" ++ itoa n ++ newline) with ((";LAYER:" ++ itoa n) ++ newline) by (rewrite sapp_assoc; reflexivity).
  apply ignored_line; [rewrite no_char_app, (clean_no_nl _ (itoa_clean n)); reflexivity|]. intros w ws E. discriminate.
Qed.
Lemma fan_harmless n : harmless (CCommandInt "M106 S%d; change fan speed" n).
Proof.
  cbn [harmless]. change (sprintf_int _ n) with ("M106" ++ " S" ++ itoa n ++ "; change fan speed" ++ newline).
  apply s_harmless; try reflexivity; [split; [discriminate|reflexivity]|right; left; eexists; reflexivity|discriminate].
Qed.
Lemma bed_harmless n : harmless (CCommandInt "M140 S%d" n).
Proof.
  cbn [harmless]. change (sprintf_int _ n) with ("M140" ++ " S" ++ itoa n ++ "" ++ newline).
  apply s_harmless; try reflexivity; [split; [discriminate|reflexivity]|left; reflexivity|discriminate].
Qed.
Lemma hot_harmless n : harmless (CCommandInt "M104 S%d" n).
Proof.
  cbn [harmless]. change (sprintf_int _ n) with ("M104" ++ " S" ++ itoa n ++ "" ++ newline).
  apply s_harmless; try reflexivity; [split; [discriminate|reflexivity]|left; reflexivity|discriminate].
Qed.
Lemma fan_off_harmless : harmless (CCommand "M107 ; disable fan").
Proof. apply command_harmless; [reflexivity|reflexivity|]. intros w ws E. injection E as <- _. split; [reflexivity|discriminate]. Qed.
Lemma set_temp_harmless : harmless (CComment "SET_TEMP").
Proof. apply comment_harmless; reflexivity. Qed.

Section Print.
Variable o : options.
(** the calls of PreLayer behind the start code *)
Definition pre_rest (nr : Z) : list call :=
  ([CCommentInt "LAYER:%v" nr]
  ++ (if 0 <? nr then [CDisableOverride; CSetExtrudeSpeed (LayerSpeed (Print o))] else [])
  ++ match lut_get (FanSpeed (Filament o)) nr with
     | Some 0 => [CCommand "M107 ; disable fan"]
     | Some v => [CCommandInt "M106 S%d; change fan speed" v]
     | None => []
     end
  ++ (if nr =? InitialTemperatureLayerCount (Filament o)
      then [CComment "SET_TEMP"; CCommandInt "M140 S%d" (BedTemperature (Filament o)); CCommandInt "M104 S%d" (HotEndTemperature (Filament o))]
      else []))%list.
Lemma rest_harmless nr : Forall harmless (pre_rest nr).
Proof.
  unfold pre_rest. rewrite !Forall_app. split; [constructor; [apply mark_harmless|constructor]|].
  split; [destruct (0 <? nr); repeat (apply Forall_cons; [exact I|]); apply Forall_nil|].
  split.
  - destruct (lut_get _ nr) as [[|v|v]|]; try apply Forall_nil; (apply Forall_cons; [|apply Forall_nil]); [apply fan_off_harmless|apply fan_harmless..].
  - destruct (nr =? _); [|apply Forall_nil]. apply Forall_cons; [apply set_temp_harmless|]. apply Forall_cons; [apply bed_harmless|].
    apply Forall_cons; [apply hot_harmless|apply Forall_nil].
Qed.
Lemma later_harmless nr : 0 < nr -> Forall harmless (pre_plan o nr).
Proof.
  intros H. unfold pre_plan. destruct (Z.eqb_spec nr 0); [lia|]. change (Forall harmless ((if nr =? 1 then [CSetExtrusion (LayerThickness (Print o)) (ExtrusionWidth (Printer o))] else []) ++ pre_rest nr)%list).
  apply Forall_app. split; [destruct (nr =? 1); [apply Forall_cons; [exact I|]|]; apply Forall_nil|apply rest_harmless].
Qed.
Definition start := start_calls o (map (fill_template o) (StartGCode (Printer o))).
Lemma layer_body mxl nr p : prints p -> (0 < nr -> exists b, layer_calls o mxl nr p = (b ++ if nr =? mxl then end_calls o else [])%list /\ Forall harmless b) /\
  (nr = 0 -> exists b, layer_calls o mxl nr p = (start ++ b ++ if nr =? mxl then end_calls o else [])%list /\ Forall harmless b).
Proof.
  intros (z & P). assert (Q := Forall_impl _ (printing_harmless z) P). split.
  - intros N. exists (pre_plan o nr ++ p_skirt p ++ p_brim p ++ p_walls p ++ p_fill p)%list.
    split; [unfold layer_calls; rewrite <- !app_assoc; reflexivity|]. apply Forall_app. split; [apply later_harmless, N|exact Q].
  - intros ->. exists (pre_rest 0 ++ p_skirt p ++ p_brim p ++ p_walls p ++ p_fill p)%list.
    split; [|apply Forall_app; split; [apply rest_harmless|exact Q]].
    unfold layer_calls. change (pre_plan o 0) with (start ++ pre_rest 0)%list. rewrite <- !app_assoc. reflexivity.
Qed.
Lemma later_body ps : forall n, (0 < n)%nat -> Forall prints ps ->
  exists b, concat (calls_from o n (Z.of_nat n + Z.of_nat (List.length ps) - 1) ps) = (b ++ match ps with [] => [] | _ => end_calls o end)%list /\ Forall harmless b.
Proof.
  induction ps as [|p ps IH]; intros n Hn P; [exists []; split; [reflexivity|constructor]|].
  inversion P as [|? ? P1 P2]; subst. unfold calls_from. cbn [List.length seq combine map concat].
  replace (Z.of_nat n + Z.of_nat (S (List.length ps)) - 1) with (Z.of_nat (S n) + Z.of_nat (List.length ps) - 1) by lia.
  destruct (IH (S n) ltac:(lia) P2) as (b & E & H). unfold calls_from in E. rewrite E.
  destruct (proj1 (layer_body (Z.of_nat (S n) + Z.of_nat (List.length ps) - 1) (Z.of_nat n) p P1) ltac:(lia)) as (b1 & E1 & H1). rewrite E1.
  destruct ps as [|p' ps].
  - destruct (Z.eqb_spec (Z.of_nat n) (Z.of_nat (S n) + Z.of_nat (@List.length layer_plan []) - 1)) as [_|C]; [|cbn [List.length] in C; lia].
    exists b1. split; [|exact H1]. cbn in E. rewrite app_nil_r in E. subst b. rewrite !app_nil_r. reflexivity.
  - destruct (Z.eqb_spec (Z.of_nat n) (Z.of_nat (S n) + Z.of_nat (List.length (p' :: ps)) - 1)) as [C|_]; [cbn [List.length] in C; lia|].
    exists (b1 ++ b)%list. split; [rewrite app_nil_r, app_assoc; reflexivity|]. apply Forall_app. split; assumption.
Qed.
Lemma print_body ps : ps <> [] -> Forall prints ps -> exists b, concat (all_calls o ps) = (start ++ b ++ end_calls o)%list /\ Forall harmless b.
Proof.
  intros N P. destruct ps as [|p ps]; [contradiction|]. inversion P as [|? ? P1 P2]; subst.
  unfold all_calls. cbn [List.length seq combine map concat].
  replace (Z.of_nat (S (List.length ps)) - 1) with (Z.of_nat 1 + Z.of_nat (List.length ps) - 1) by lia.
  destruct (later_body ps 1 ltac:(lia) P2) as (b & E & H). unfold calls_from in E. rewrite E.
  destruct (proj2 (layer_body (Z.of_nat 1 + Z.of_nat (List.length ps) - 1) (Z.of_nat 0) p P1) eq_refl) as (b1 & E1 & H1). rewrite E1.
  destruct ps as [|p' ps].
  - exists b1. split; [|exact H1]. cbn in E. rewrite app_nil_r in E. subst b. rewrite !app_nil_r. reflexivity.
  - destruct (Z.eqb_spec (Z.of_nat 0) (Z.of_nat 1 + Z.of_nat (List.length (p' :: ps)) - 1)) as [C|_]; [cbn [List.length] in C; lia|].
    exists (b1 ++ b)%list. split; [rewrite app_nil_r, <- !app_assoc; reflexivity|]. apply Forall_app. split; assumption.
Qed.
Hypothesis plain_start : Forall (fun s => no_char "%" s = true) (StartGCode (Printer o)).
(** behind the start code the printer and the builder agree, wherever the printer was before *)
Lemma start_agrees lib d m g r0 : run_calls lib start (NewGCodeBuilder d m) = Ok g -> fresh g /\ terminated (buf g) /\ rE (replay r0 (buf g)) = Some 0.
Proof.
  intros R. pose proof (start_talks o plain_start) as T.
  assert (F : fresh g).
  { eapply fresh_calls; [eapply Forall_impl; [|exact T]; intros c H; apply H| |exact R]. constructor; reflexivity. }
  split; [exact F|].
  unfold start, start_calls in R, T. 
  set (lines := map (fill_template o) (StartGCode (Printer o))) in *.
  set (tl := [CSetExtrusion (InitialLayerThickness (Print o)) (ExtrusionWidth (Printer o));
      CSetExtrudeSpeed (LayerSpeed (Print o)); CSetMoveSpeed (MoveSpeed (Print o));
      CSetRetractionSpeed (RetractionSpeed (Filament o)); CSetRetractionAmount (RetractionLength (Filament o));
      CSetHop (RetractionZHop (Filament o)); CSetOverride (IntialLayerSpeed (Print o))]) in *.
  match type of R with run_calls _ (?a ++ ?b ++ ?c ++ ?e ++ ?f ++ ?h :: tl)%list _ = _ =>
    replace (a ++ b ++ c ++ e ++ f ++ h :: tl)%list with ((a ++ b ++ c ++ e ++ f) ++ ([h] ++ tl))%list in R, T by (rewrite <- !app_assoc; reflexivity);
    set (hd := (a ++ b ++ c ++ e ++ f)%list) in * end.
  apply run_app_Ok in R. destruct R as (g1 & R1 & R2). apply Forall_app in T. destruct T as [T1 _].
  destruct (calls_say lib hd _ _ (Forall_impl _ (fun c (H : talks c) => proj2 H) T1) R1) as (t & es & B & TT & _).
  cbn [NewGCodeBuilder buf append] in B.
  assert (E : buf g = t ++ "G92 E0 ; reset extrusion distance" ++ newline).
  { cbn [app run_calls run_call bind] in R2. injection R2 as <-. cbn. rewrite B. reflexivity. }
  rewrite E. split; [apply terminated_app; [exact TT|right; eexists; reflexivity]|].
  rewrite (replay_term _ _ _ TT), replay_line. destruct (replay r0 t). reflexivity.
Qed.
(** lists cut at an element *)
Lemma cut_middle {A} (P : A -> Prop) (a b c x y : list A) (e : A) : (a ++ b ++ c = x ++ e :: y)%list -> P e -> Forall (fun z => ~ P z) a -> Forall (fun z => ~ P z) c ->
  exists b1 b2, b = (b1 ++ e :: b2)%list /\ x = (a ++ b1)%list.
Proof.
  intros E Pe Ha Hc. revert x E. induction a as [|a0 a IH]; intros x E; cbn [app] in E.
  - clear Ha. revert x E. induction b as [|b0 b IHb]; intros x E; cbn [app] in E.
    + exfalso. rewrite E in Hc. apply Forall_app in Hc. destruct Hc as [_ Hc]. inversion Hc. contradiction.
    + destruct x as [|x0 x]; injection E as -> E.
      * exists [], b. split; reflexivity.
      * destruct (IHb x E) as (b1 & b2 & -> & ->). exists (x0 :: b1), b2. split; reflexivity.
  - inversion Ha as [|? ? H1 H2]; subst. destruct x as [|x0 x]; injection E as -> E; [contradiction|].
    destruct (IH H2 x E) as (b1 & b2 & -> & ->). exists b1, b2. split; reflexivity.
Qed.
Lemma no_poly_Forall cs : forallb no_poly cs = true -> Forall (fun c => ~ match c with CPolygon _ _ _ _ => True | _ => False end) cs.
Proof. intros H. apply Forall_forall. intros c Hc. rewrite forallb_forall in H. specialize (H c Hc). destruct c; try discriminate; tauto. Qed.
Lemma start_no_poly : forallb no_poly start = true.
Proof.
  pose proof (pre_no_poly o 0) as H. change (pre_plan o 0) with (start ++ pre_rest 0)%list in H. rewrite forallb_app in H. apply andb_prop in H. apply H.
Qed.
Lemma grows lib cs : forall g g', run_calls lib cs g = Ok g' -> exists t, buf g' = buf g ++ t.
Proof.
  assert (P : forall c g g', run_call lib c g = Ok g' -> exists t, buf g' = buf g ++ t).
  { intros c g g' E. destruct c; cbn [run_call] in E; try (injection E as <-); try (exists ""; rewrite sapp_nil_r; reflexivity); try (eexists; reflexivity).
    - destruct (move_events p extrusion speed g) as (t & k & B & _). eauto.
    - rewrite addMove_op. destruct (ops_events [(p, extrusion, if is_zero extrusion then s_move (settings_of g) else s_print (settings_of g))] g) as (t & k & B & _). eauto.
    - destruct (polygon_events _ _ _ _ _ _ _ E) as (t & k & B & _). eauto. }
  induction cs as [|c cs IH]; intros g g' E; cbn [run_calls] in E.
  - injection E as <-. exists "". rewrite sapp_nil_r. reflexivity.
  - apply bind_Ok in E. destruct E as (g1 & E1 & E2). destruct (P _ _ _ E1) as (t & B). destruct (IH _ _ E2) as (t' & B').
    exists (t ++ t'). rewrite B', B, sapp_assoc. reflexivity.
Qed.
Let fresh_builder := NewGCodeBuilder (FilamentDiameter (Filament o)) (ExtrusionMultiplier (Filament o)).
Lemma whole_polygon lib ps b cs1 layer polygon z open cs2 p0 qs r0 : ps <> [] -> Forall prints ps ->
  run_calls lib (concat (all_calls o ps)) fresh_builder = Ok b ->
  concat (all_calls o ps) = (cs1 ++ CPolygon layer polygon z open :: cs2)%list -> polygon <> [] -> DouglasPeucker polygon (-1) = p0 :: qs ->
  exists g c t t', run_calls lib cs1 fresh_builder = Ok g /\ crossing lib layer g p0 = Some c /\ BuilderString b = BuilderString g ++ t ++ t' /\
    Forall2 executed (commanded (known g) (extrusionAmount g)
       (polygon_ops (settings_for (fold_left (configure (FilamentDiameter (Filament o)) (ExtrusionMultiplier (Filament o))) cs1 unconfigured)) c (currentPosition g) p0 qs z open))
      (moves (replay r0 (BuilderString g)) t).
Proof.
  intros N P R E Hp D. destruct (print_body ps N P) as (body & B & H). rewrite B in E.
  destruct (cut_middle (fun c => match c with CPolygon _ _ _ _ => True | _ => False end) _ _ _ _ _ _ E I (no_poly_Forall _ start_no_poly) (no_poly_Forall _ (end_no_poly o)))
    as (b1 & b2 & -> & ->).
  apply Forall_app in H. destruct H as [H1 _]. rewrite B, E in R. apply run_app_Ok in R. destruct R as (g & R1 & R2).
  cbn [run_calls] in R2. apply bind_Ok in R2. destruct R2 as (g' & A & R2). cbn [run_call] in A.
  destruct (grows lib cs2 _ _ R2) as (t' & Bt'). exists g.
  rewrite (polygon_spec lib layer polygon z open g p0 qs Hp D) in A. destruct (crossing lib layer g p0) as [c|] eqn:C; [|discriminate].
  injection A as <-. pose proof R1 as R1'. apply run_app_Ok in R1. destruct R1 as (gs & S1 & S2).
  destruct (start_agrees lib _ _ gs r0 S1) as (F & T & E0).
  destruct (calls_run lib b1 gs g (replay r0 (buf gs)) None (fresh_agree _ _ F E0)) as (t1 & Bt1 & T1 & Ag & _); [intros p Q; discriminate|exact H1|exact S2|].
  rewrite <- (replay_term _ _ _ T), <- Bt1 in Ag.
  destruct (ops_run (polygon_ops (settings_of g) c (currentPosition g) p0 qs z open) g _ Ag) as (t & Bt & _ & _ & M).
  exists c, t, t'. split; [exact R1'|]. split; [reflexivity|]. unfold BuilderString. split; [rewrite Bt', Bt, sapp_assoc; reflexivity|].
  rewrite settings_config, (calls_config lib _ _ _ R1') in M. exact M.
Qed.
End Print.
