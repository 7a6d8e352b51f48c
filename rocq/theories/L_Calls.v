(** Sequences of builder calls, and the text of commands and comments. *)
From Verif Require Import GoBase GoFloat GoStr M_Micrometer M_Geom2D M_Option S_Text L_Str S_Printer S_Builder M_Clip M_Builder
  L_Printer L_Builder S_Calls L_Micrometer L_Data.
Local Open Scope string_scope.
Local Open Scope Z_scope.

(** *** Sprintf without arguments *)
Lemma sprintf_aux_plain s : no_char "%" s = true -> forall f, (String.length s < f)%nat -> sprintf_aux f s = s.
Proof.
  induction s as [|c s IH]; intros H f Hf; (destruct f as [|f]; [cbn in Hf; lia|]); [reflexivity|].
  cbn [no_char all_chars] in H. unfold no_char in H. cbn [all_chars] in H. apply andb_prop in H. destruct H as [H1 H2].
  cbn [sprintf_aux]. rewrite Ascii.eqb_sym. destruct (Ascii.eqb "%" c); [discriminate|]. rewrite IH; [reflexivity|exact H2|cbn in Hf; lia].
Qed.
Lemma sprintf_plain s : no_char "%" s = true -> sprintf0 s = s.
Proof. intros H. apply sprintf_aux_plain; [exact H|lia]. Qed.
Lemma no_char_app c a b : no_char c (a ++ b) = no_char c a && no_char c b.
Proof. apply all_chars_app. Qed.
Lemma command_text s g : no_char "%" s = true -> buf (AddCommand s g) = buf g ++ s ++ newline.
Proof. intros H. cbn [AddCommand write buf]. rewrite sprintf_plain; [reflexivity|]. rewrite no_char_app, H. reflexivity. Qed.
Lemma comment_text s g : no_char "%" s = true -> buf (AddComment s g) = buf g ++ ";" ++ s ++ newline.
Proof. intros H. cbn [AddComment write buf]. rewrite sprintf_plain; [reflexivity|]. rewrite !no_char_app, H. reflexivity. Qed.

Lemma sprintf_escape s : forall f, (String.length (escape s) < f)%nat -> sprintf_aux f (escape s) = s.
Proof.
  induction s as [|c s IH]; intros f Hf; (destruct f as [|f]; [cbn in Hf; lia|]); [reflexivity|].
  cbn [escape] in *. destruct (Ascii.eqb c "%") eqn:E.
  - apply Ascii.eqb_eq in E. subst c. cbn in Hf. cbn. rewrite IH by lia. reflexivity.
  - cbn [sprintf_aux]. rewrite E. cbn in Hf. rewrite IH by lia. reflexivity.
Qed.
Lemma escape_app a b : escape (a ++ b) = escape a ++ escape b.
Proof. induction a as [|c a IH]; [reflexivity|]. cbn [append escape]. rewrite IH. destruct (Ascii.eqb c "%"); reflexivity. Qed.
Lemma command_escaped s g : buf (AddCommand (escape s) g) = buf g ++ s ++ newline.
Proof.
  cbn [AddCommand write buf]. replace (escape s ++ newline) with (escape (s ++ newline)) by (rewrite escape_app; reflexivity).
  unfold sprintf0. rewrite sprintf_escape by lia. reflexivity.
Qed.

(** *** texts the printer ignores *)
Lemma silent_line s : no_char (chr 10) s = true -> (forall w ws, words s = w :: ws -> is_move w = false /\ w <> "G92") -> silent s.
Proof.
  intros H W r. unfold replay, moves, text_lines. rewrite (split_none _ _ H). cbn [fold_left moves_of]. unfold exec, moving.
  destruct (words s) as [|w ws]; [split; reflexivity|]. destruct (W w ws eq_refl) as [M G]. rewrite M.
  apply String.eqb_neq in G. rewrite G. split; reflexivity.
Qed.
Lemma ignored_line s : no_char (chr 10) s = true -> (forall w ws, words s = w :: ws -> is_move w = false /\ w <> "G92") -> ignored (s ++ newline).
Proof.
  intros H W. split; [right; eauto|]. intros r. rewrite replay_line, moves_line. apply silent_line; assumption.
Qed.
Lemma command_harmless s : no_char "%" s = true -> no_char (chr 10) s = true ->
  (forall w ws, words s = w :: ws -> is_move w = false /\ w <> "G92") -> harmless (CCommand s).
Proof.
  intros P N W. cbn [harmless]. rewrite sprintf_plain; [apply ignored_line; assumption|]. rewrite no_char_app, P. reflexivity.
Qed.
Lemma comment_harmless s : no_char "%" s = true -> no_char (chr 10) s = true -> harmless (CComment s).
Proof.
  intros P N. cbn [harmless]. rewrite sprintf_plain.
  - change (";" ++ s ++ newline) with ((String ";" s) ++ newline). apply ignored_line.
    + exact N.
    + intros w ws E. discriminate.
  - rewrite !no_char_app, P. reflexivity.
Qed.

(** *** sequences of calls *)
Lemma agree_same g g' r : agree g r -> currentPosition g' = currentPosition g -> notFirstMoveX g' = notFirstMoveX g ->
  notFirstMoveY g' = notFirstMoveY g -> notFirstMoveZ g' = notFirstMoveZ g -> currentSpeed g' = currentSpeed g ->
  extrusionAmount g' = extrusionAmount g -> agree g' r.
Proof. intros [A B C D] P X Y Z S E. constructor; rewrite ?P, ?X, ?Y, ?Z, ?S, ?E; assumption. Qed.

Lemma ops_known : forall os g r, agree g r -> os <> [] -> notFirstMoveX (do_ops os g) = true.
Proof.
  assert (G : forall os g r, agree g r -> notFirstMoveX g = true -> notFirstMoveX (do_ops os g) = true).
  { induction os as [|o os IH]; intros g r A H; [exact H|]. destruct (op_step g r o A) as (t & _ & _ & A' & S1 & S2).
    cbn [do_ops]. apply (IH _ _ A'). destruct (stays g o); [destruct (S1 eq_refl) as [_ ->]; exact H|apply S2; reflexivity]. }
  intros os g r A Hne. destruct os as [|o os]; [contradiction|]. cbn [do_ops].
  destruct (op_step g r o A) as (t & _ & _ & A' & S1 & S2). apply (G os _ _ A').
  destruct (stays g o) eqn:St; [|apply S2; reflexivity]. destruct (S1 eq_refl) as [_ ->].
  destruct o as [[p e] s]. unfold stays, known in St. destruct (notFirstMoveX g); [reflexivity|discriminate].
Qed.
Lemma ops_pos os : forall g o, currentPosition (do_ops (os ++ [o]) g) = fst (fst o).
Proof. intros g o. rewrite do_ops_app. apply op_pos. Qed.

Lemma app_last_inv {A} (l : list A) : l <> [] -> exists a x, l = (a ++ [x])%list.
Proof. intros H. destruct (exists_last H) as (a & x & ->). eauto. Qed.
Lemma approach_last st c from p0 z : exists os o, approach_ops st c from p0 z = (os ++ [o])%list /\ fst (fst o) = at_z p0 z.
Proof.
  unfold approach_ops. destruct c; [|exists [], (travel st (at_z p0 z)); split; reflexivity].
  destruct (SFltb (S754_zero false) (s_hop st)); cbn [app].
  - eexists [_; _; _; _], _. split; [reflexivity|reflexivity].
  - eexists [_; _], _. split; [reflexivity|reflexivity].
Qed.
Lemma lines_last st z l : forall a, l <> [] -> exists os o, lines_ops st z a l = (os ++ [o])%list /\ fst (fst o) = at_z (last l a) z.
Proof.
  intros a H. destruct (exists_last H) as (m & x & ->). rewrite lines_app. exists (lines_ops st z a m), (line_op st z (last m a) x).
  split; [reflexivity|]. rewrite last_last. reflexivity.
Qed.
Lemma polygon_last st c from p0 ps z open : exists os o, polygon_ops st c from p0 ps z open = (os ++ [o])%list /\
  fst (fst o) = at_z (if open then last ps p0 else p0) z.
Proof.
  unfold polygon_ops. destruct (ps ++ (if open then [] else [p0]))%list as [|q l] eqn:E.
  - destruct ps; [|discriminate]. destruct open; [|discriminate].
    destruct (approach_last st c from p0 z) as (os & o & A & B). exists os, o. rewrite A. cbn [lines_ops]. rewrite app_nil_r. split; [reflexivity|exact B].
  - destruct (lines_last st z (q :: l) p0) as (os & o & A & B); [discriminate|].
    exists (approach_ops st c from p0 z ++ os)%list, o. rewrite A, app_assoc. split; [reflexivity|]. rewrite B. f_equal.
    rewrite <- E. destruct open; [rewrite app_nil_r; reflexivity|apply last_last].
Qed.

Lemma DP_nonempty polygon : polygon <> [] -> exists p0 ps, DouglasPeucker polygon (-1) = p0 :: ps.
Proof.
  intros H. destruct (DP_selection polygon (-1)) as (_ & H1 & _). destruct (DouglasPeucker polygon (-1)) as [|p0 ps]; eauto.
  destruct polygon; [contradiction|discriminate].
Qed.

Section lib.
Variable lib : clib.
Definition placed (g : builder) (d : option vec3) : Prop :=
  forall p, d = Some p -> currentPosition g = p /\ notFirstMoveX g = true.

Lemma call_step c g g' r d : agree g r -> placed g d -> harmless c -> run_call lib c g = Ok g' ->
  exists t, buf g' = buf g ++ t /\ terminated t /\ agree g' (replay r t) /\
    placed g' (match target c with Some p => Some p | None => d end).
Proof.
  intros A P H E.
  assert (SET : forall h, agree h r -> buf h = buf g -> currentPosition h = currentPosition g -> notFirstMoveX h = notFirstMoveX g ->
     exists t, buf h = buf g ++ t /\ terminated t /\ agree h (replay r t) /\ placed h d).
  { intros h Ah Bh Ph Nh. exists "". rewrite sapp_nil_r. split; [exact Bh|]. split; [left; reflexivity|]. split; [exact Ah|].
    intros p Hp. rewrite Ph, Nh. apply P, Hp. }
  assert (TXT : forall t, ignored t -> exists t', buf (write t g) = buf g ++ t' /\ terminated t' /\ agree (write t g) (replay r t') /\ placed (write t g) d).
  { intros t [T S]. exists t. split; [reflexivity|]. split; [exact T|]. rewrite (proj1 (S r)). split; [|exact P].
    eapply agree_same; [exact A|reflexivity..]. }
  destruct c; cbn [run_call target] in *; try (injection E as <-);
    try (apply SET; [eapply agree_same; [exact A|reflexivity..]|reflexivity..]); try (apply TXT; exact H).
  - destruct (ops_run [(p, extrusion, speed)] g r A) as (t & B & T & A' & _). exists t. split; [exact B|]. split; [exact T|].
    split; [exact A'|]. intros q [= <-]. split; [apply move_pos|].
    apply (ops_known [(p, extrusion, speed)] g r A). discriminate.
  - rewrite addMove_op. match goal with |- context [do_op ?o g] => set (o1 := o) end.
    destruct (ops_run [o1] g r A) as (t & B & T & A' & _). exists t. split; [exact B|]. split; [exact T|].
    split; [exact A'|]. intros q [= <-]. split; [apply op_pos|].
    apply (ops_known [o1] g r A). discriminate.
  - destruct polygon as [|v polygon].
    + cbn in E. injection E as <-. change (DouglasPeucker [] (-1)) with (@nil pt). cbn [target].
      apply SET; [exact A|reflexivity..].
    + destruct (DP_nonempty (v :: polygon)) as (p0 & ps & D); [discriminate|]. rewrite D.
      rewrite (polygon_spec lib layer (v :: polygon) z open g p0 ps ltac:(discriminate) D) in E.
      destruct (crossing lib layer g p0) as [c|]; [|discriminate]. injection E as <-.
      destruct (ops_run (polygon_ops (settings_of g) c (currentPosition g) p0 ps z open) g r A) as (t & B & T & A' & _).
      exists t. split; [exact B|]. split; [exact T|]. split; [exact A'|].
      intros q [= <-]. destruct (polygon_last (settings_of g) c (currentPosition g) p0 ps z open) as (os & o & E1 & E2).
      rewrite E1 in *. split; [rewrite ops_pos; exact E2|]. apply (ops_known _ g r A). destruct os; discriminate.
Qed.

Lemma calls_run cs : forall g g' r d, agree g r -> placed g d -> Forall harmless cs -> run_calls lib cs g = Ok g' ->
  exists t, buf g' = buf g ++ t /\ terminated t /\ agree g' (replay r t) /\ placed g' (last_target cs d).
Proof.
  induction cs as [|c cs IH]; intros g g' r d A P H E; cbn [run_calls last_target] in *.
  - injection E as <-. exists "". rewrite sapp_nil_r. split; [reflexivity|]. split; [left; reflexivity|]. split; assumption.
  - inversion H as [|? ? H1 H2]; subst. apply bind_Ok in E. destruct E as (g1 & E1 & E2).
    destruct (call_step c g g1 r d A P H1 E1) as (t & B & T & A1 & P1).
    destruct (IH g1 g' _ _ A1 P1 H2 E2) as (t' & B' & T' & A' & P').
    exists (t ++ t'). split; [rewrite B', B, sapp_assoc; reflexivity|]. split; [apply terminated_app; assumption|].
    rewrite (replay_term _ _ _ T). split; assumption.
Qed.
Lemma agree_new d m r : rE r = Some 0 -> agree (NewGCodeBuilder d m) r.
Proof. intros E. constructor; cbn; auto; try discriminate. Qed.

Lemma in_step d m cs g r0 : run_calls lib cs (NewGCodeBuilder d m) = Ok g -> Forall harmless cs -> rE r0 = Some 0 ->
  let r := replay r0 (buf g) in
  (forall p, last_target cs None = Some p ->
     rX r = shown 2 (ToMillimeter (vx p)) /\ rY r = shown 2 (ToMillimeter (vy p)) /\ rZ r = shown 2 (ToMillimeter (vz p))) /\
  rE r = shown 4 (extrusionAmount g) /\
  (currentSpeed g <> 0 -> rF r = Some (wrap (currentSpeed g * 60) * 10000)).
Proof.
  intros E H R. destruct (calls_run cs (NewGCodeBuilder d m) g r0 None (agree_new d m r0 R)) as (t & B & T & A & P); try assumption.
  { intros p Hp; discriminate. }
  cbn [NewGCodeBuilder buf append] in B. rewrite B. cbn zeta. destruct A as [_ Ap Af Ae]. split; [|split; [exact Ae|]].
  - intros p Hp. destruct (P p Hp) as [<- N]. apply Ap, N.
  - intros N. destruct Af; [contradiction|assumption].
Qed.
End lib.

Lemma shown_close m : Z.abs m <= 32768000 -> exists c, shown 2 (ToMillimeter m) = Some c /\ Z.abs (c - 10 * m) <= 50.
Proof.
  intros H. destruct (printed_close m H) as (s & a & E & Ha & B). unfold shown. rewrite E. eexists. split; [reflexivity|].
  change (10 ^ (4 - 2)) with 100. lia.
Qed.

(** *** settings *)
Definition config_of (g : builder) : config :=
  Config (moveSpeed g) (extrudeSpeed g) (extrudeSpeedOverride g) (extrusionPerMM g) (retractionSpeed g) (retractionAmount g) (zHopOnRetract g).
Lemma call_same_polygon lib l p z o g g' : AddPolygon lib l p z o g = Ok g' -> same_settings g g'.
Proof.
  intros E. destruct p as [|v p]; [injection E as <-; apply same_refl|].
  destruct (DP_nonempty (v :: p)) as (p0 & ps & D); [discriminate|].
  rewrite (polygon_spec lib l (v :: p) z o g p0 ps ltac:(discriminate) D) in E.
  destruct (crossing lib l g p0); [|discriminate]. injection E as <-. apply ops_settings.
Qed.
Lemma same_config g g' : same_settings g g' ->
  config_of g' = config_of g /\ filamentDiameter g' = filamentDiameter g /\ extrusionMultiplier g' = extrusionMultiplier g.
Proof. intros (A & B & C & D & E & F & G & H & I). unfold config_of. rewrite A, B, C, D, E, F, G, H, I. repeat split. Qed.
Lemma call_config lib c g g' : run_call lib c g = Ok g' ->
  config_of g' = configure (filamentDiameter g) (extrusionMultiplier g) (config_of g) c /\
  filamentDiameter g' = filamentDiameter g /\ extrusionMultiplier g' = extrusionMultiplier g.
Proof.
  intros E. destruct c; cbn [run_call] in E; try (injection E as <-; repeat split; fail).
  - injection E as <-. apply same_config, move_settings.
  - injection E as <-. apply same_config. unfold AddMove. apply move_settings.
  - apply same_config, (call_same_polygon _ _ _ _ _ _ _ E).
Qed.
Lemma calls_config lib cs : forall g g', run_calls lib cs g = Ok g' ->
  config_of g' = fold_left (configure (filamentDiameter g) (extrusionMultiplier g)) cs (config_of g).
Proof.
  induction cs as [|c cs IH]; intros g g' E; cbn [run_calls fold_left] in *; [injection E as <-; reflexivity|].
  apply bind_Ok in E. destruct E as (g1 & E1 & E2). destruct (call_config _ _ _ _ E1) as (A & B & C).
  rewrite (IH _ _ E2), A, B, C. reflexivity.
Qed.
Lemma settings_config g : settings_of g = settings_for (config_of g).
Proof. reflexivity. Qed.

(** *** a polygon after a sequence of calls *)
Lemma polygon_after lib d m cs g r0 layer polygon z open g' p0 ps :
  run_calls lib cs (NewGCodeBuilder d m) = Ok g -> Forall harmless cs -> rE r0 = Some 0 ->
  polygon <> [] -> DouglasPeucker polygon (-1) = p0 :: ps -> AddPolygon lib layer polygon z open g = Ok g' ->
  exists c t, crossing lib layer g p0 = Some c /\ buf g' = buf g ++ t /\
    Forall2 executed (commanded (known g) (extrusionAmount g) (polygon_ops (settings_of g) c (currentPosition g) p0 ps z open))
      (moves (replay r0 (buf g)) t).
Proof.
  intros E H R Hp D A.
  destruct (calls_run lib cs (NewGCodeBuilder d m) g r0 None (agree_new d m r0 R)) as (t0 & B & T & Ag & P); try assumption.
  { intros p Hq; discriminate. }
  cbn [NewGCodeBuilder buf append] in B. rewrite <- B in Ag.
  rewrite (polygon_spec lib layer polygon z open g p0 ps Hp D) in A. destruct (crossing lib layer g p0) as [c|]; [|discriminate].
  injection A as <-. destruct (ops_run (polygon_ops (settings_of g) c (currentPosition g) p0 ps z open) g _ Ag) as (t & Bt & _ & _ & M).
  exists c, t. split; [reflexivity|]. split; assumption.
Qed.
