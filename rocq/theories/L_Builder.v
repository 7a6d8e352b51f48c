(** The builder's text makes the printer do what was commanded. *)
From Verif Require Import GoBase GoFloat GoStr M_Micrometer M_Geom2D M_Option S_Text L_Str S_Printer S_Builder M_Clip M_Builder S_Calls L_Printer.
Local Open Scope string_scope.
Local Open Scope Z_scope.

Lemma nonzero_is_zero x : nonzero x = negb (is_zero x).
Proof.
  unfold nonzero, feq, fzero. destruct x as [[]|[]| |[] m e]; reflexivity.
Qed.
Lemma add_zero_shown k x e : is_zero e = true -> shown k (add32 x e) = shown k x.
Proof.
  destruct e as [s| | |]; try discriminate. intros _. unfold add32. destruct x as [t|t| |t m e']; cbn [SFadd]; try reflexivity.
  destruct (Bool.eqb t s) eqn:E; [reflexivity|]. unfold shown. cbn [dec_scaled].
  destruct t; reflexivity.
Qed.

Definition opt_word (b : bool) (w : string) : list string := if b then [w] else [].
Definition move_words (sx sy sz sf se : bool) (x y z f e : string) : list string :=
  (opt_word sx (String "X" x) ++ opt_word sy (String "Y" y) ++ opt_word sz (String "Z" z) ++ opt_word sf (String "F" f) ++ opt_word se (String "E" e))%list.
Lemma tail_opt b w : tail_words (opt_word b w) = if b then " " ++ w else "".
Proof. destruct b; cbn [opt_word tail_words]; [rewrite sapp_nil_r|]; reflexivity. Qed.
Lemma tail_move sx sy sz sf se x y z f e :
  tail_words (move_words sx sy sz sf se x y z f e) =
  (if sx then " X" ++ x else "") ++ (if sy then " Y" ++ y else "") ++ (if sz then " Z" ++ z else "")
  ++ (if sf then " F" ++ f else "") ++ (if se then " E" ++ e else "").
Proof.
  unfold move_words. rewrite !tail_words_app, !tail_opt. destruct sx, sy, sz, sf, se; reflexivity.
Qed.
Definition pick {A} (b : bool) (x y : A) : A := if b then x else y.
Lemma fold_words sx sy sz sf se x y z f e r :
  fold_left word (move_words sx sy sz sf se x y z f e) r =
  Regs (pick sx (number x) (rX r)) (pick sy (number y) (rY r)) (pick sz (number z) (rZ r)) (pick sf (number f) (rF r)) (pick se (number e) (rE r)).
Proof. destruct r, sx, sy, sz, sf, se; reflexivity. Qed.
Lemma move_words_clean sx sy sz sf se x y z f e :
  all_chars clean_char x = true -> all_chars clean_char y = true -> all_chars clean_char z = true ->
  all_chars clean_char f = true -> all_chars clean_char e = true -> Forall clean (move_words sx sy sz sf se x y z f e).
Proof.
  intros X Y Z F E. unfold move_words. rewrite !Forall_app.
  repeat split; [destruct sx|destruct sy|destruct sz|destruct sf|destruct se]; cbn [opt_word]; constructor;
    try constructor; apply clean_word; (reflexivity || assumption).
Qed.

(** the printer agrees with the builder: [flags] the axes were sent at least once *)
Record agree (g : builder) (r : regs) : Prop := Agree {
  ag_flags : notFirstMoveX g = notFirstMoveY g /\ notFirstMoveY g = notFirstMoveZ g;
  ag_pos : notFirstMoveX g = true ->
    rX r = shown 2 (ToMillimeter (vx (currentPosition g))) /\
    rY r = shown 2 (ToMillimeter (vy (currentPosition g))) /\
    rZ r = shown 2 (ToMillimeter (vz (currentPosition g)));
  ag_f : currentSpeed g = 0 \/ rF r = Some (wrap (currentSpeed g * 60) * 10000);
  ag_e : rE r = shown 4 (extrusionAmount g) }.

Definition do_op (o : op) (g : builder) : builder := let '(p, e, s) := o in AddMoveSpeed p e s g.
Fixpoint do_ops (os : list op) (g : builder) : builder :=
  match os with [] => g | o :: os' => do_ops os' (do_op o g) end.
Lemma do_ops_app a b g : do_ops (a ++ b) g = do_ops b (do_ops a g).
Proof. revert g; induction a as [|o a IH]; intros g; [reflexivity|]. apply IH. Qed.

(** fields a move does not touch *)
Definition same_settings (g g' : builder) : Prop :=
  extrusionPerMM g' = extrusionPerMM g /\ moveSpeed g' = moveSpeed g /\ extrudeSpeed g' = extrudeSpeed g /\
  extrudeSpeedOverride g' = extrudeSpeedOverride g /\ retractionSpeed g' = retractionSpeed g /\
  retractionAmount g' = retractionAmount g /\ zHopOnRetract g' = zHopOnRetract g /\
  filamentDiameter g' = filamentDiameter g /\ extrusionMultiplier g' = extrusionMultiplier g.
Lemma same_refl g : same_settings g g. Proof. repeat split. Qed.
Lemma same_trans a b c : same_settings a b -> same_settings b c -> same_settings a c.
Proof. unfold same_settings. intuition congruence. Qed.
Lemma move_settings p e s g : same_settings g (AddMoveSpeed p e s g).
Proof.
  unfold AddMoveSpeed. match goal with |- context [if ?c then _ else _] => destruct c end; repeat split.
Qed.

(** the move is dropped exactly if it goes nowhere and extrudes nothing *)
Definition stays (g : builder) (o : op) : bool :=
  let '(p, e, s) := o in match known g with Some q => same_place q p && is_zero e | None => false end.

Lemma vec_eta p q : vx p = vx q -> vy p = vy q -> vz p = vz q -> p = q.
Proof. destruct p, q; cbn; congruence. Qed.
Lemma same_place_eq p q : same_place p q = true <-> p = q.
Proof.
  unfold same_place. rewrite !andb_true_iff, !Z.eqb_eq. split; [intros [[A B] C]; apply vec_eta; assumption|intros ->; auto].
Qed.

Lemma op_step g r o : agree g r ->
  let g' := do_op o g in
  exists t, buf g' = buf g ++ t /\ terminated t /\ agree g' (replay r t) /\
    (stays g o = true -> t = "" /\ g' = g) /\
    (stays g o = false -> moves r t = [replay r t] /\
       currentPosition g' = fst (fst o) /\ notFirstMoveX g' = true /\ currentSpeed g' = snd o /\
       extrusionAmount g' = add32 (extrusionAmount g) (snd (fst o)) /\ executed (fst (fst o), snd o, add32 (extrusionAmount g) (snd (fst o))) (replay r t)).
Proof.
  destruct o as [[p e] s]. cbn [fst snd]. intros [[F1 F2] Hp Hf He].
  assert (ST : stays g (p, e, s) = (notFirstMoveX g || notFirstMoveY g || notFirstMoveZ g) &&
     (vx (currentPosition g) =? vx p) && (vy (currentPosition g) =? vy p) && (vz (currentPosition g) =? vz p) && negb (nonzero e)).
  { unfold stays, known. rewrite nonzero_is_zero, negb_involutive, <- F2, <- F1. destruct (notFirstMoveX g); cbn [orb andb]; [reflexivity|]. reflexivity. }
  cbn [do_op]. unfold AddMoveSpeed. rewrite <- ST. destruct (stays g (p, e, s)) eqn:St.
  { exists "". rewrite sapp_nil_r, replay_nil. split; [reflexivity|]. split; [left; reflexivity|].
    split; [constructor; auto|]. split; [auto|discriminate]. }
  cbv zeta.
  set (sx := negb (vx p =? vx (currentPosition g)) || negb (notFirstMoveX g)).
  set (sy := negb (vy p =? vy (currentPosition g)) || negb (notFirstMoveY g)).
  set (sz := negb (vz p =? vz (currentPosition g)) || negb (notFirstMoveZ g)).
  set (sf := negb (currentSpeed g =? s)). set (am := add32 (extrusionAmount g) e).
  set (cmd := if nonzero e then "G1" else "G0").
  set (ws := move_words sx sy sz sf (nonzero e) (fmt_fixed 2 (ToMillimeter (vx p))) (fmt_fixed 2 (ToMillimeter (vy p)))
               (fmt_fixed 2 (ToMillimeter (vz p))) (itoa (mul64 s 60)) (fmt_fixed 4 am)).
  assert (Wc : Forall clean ws) by (apply move_words_clean; try apply fmt_clean; apply itoa_clean).
  assert (Cc : clean cmd) by (unfold cmd; destruct (nonzero e); split; (discriminate || reflexivity)).
  assert (Cm : is_move cmd = true) by (unfold cmd; destruct (nonzero e); reflexivity).
  assert (Et : cmd ++ (if sx then " X" ++ fmt_fixed 2 (ToMillimeter (vx p)) else "")
     ++ (if sy then " Y" ++ fmt_fixed 2 (ToMillimeter (vy p)) else "")
     ++ (if sz then " Z" ++ fmt_fixed 2 (ToMillimeter (vz p)) else "")
     ++ (if sf then " F" ++ itoa (mul64 s 60) else "") ++ (if nonzero e then " E" ++ fmt_fixed 4 am else "") ++ newline
     = (cmd ++ tail_words ws) ++ newline).
  { unfold ws. rewrite tail_move, !sapp_assoc. reflexivity. }
  fold cmd. rewrite Et. exists ((cmd ++ tail_words ws) ++ newline). split; [reflexivity|].
  assert (Rr : replay r ((cmd ++ tail_words ws) ++ newline) =
     Regs (shown 2 (ToMillimeter (vx p))) (shown 2 (ToMillimeter (vy p))) (shown 2 (ToMillimeter (vz p)))
          (if (currentSpeed g =? s) && (s =? 0) then rF r else Some (wrap (s * 60) * 10000)) (shown 4 am)).
  { rewrite replay_line, (replay_words _ _ _ Cc Wc), Cm. cbn [orb]. unfold ws. rewrite fold_words.
    rewrite !(number_fmt 2) by (clear; lia). rewrite (number_fmt 4) by (clear; lia). rewrite number_itoa.
    assert (PX : pick sx (shown (Z.of_nat 2) (ToMillimeter (vx p))) (rX r) = shown 2 (ToMillimeter (vx p))).
    { unfold pick. destruct sx eqn:B; [reflexivity|]. unfold sx in B. apply orb_false_elim in B. destruct B as [B1 B2].
      apply negb_false_iff in B1, B2. apply Z.eqb_eq in B1. rewrite B1. apply Hp, B2. }
    assert (PY : pick sy (shown (Z.of_nat 2) (ToMillimeter (vy p))) (rY r) = shown 2 (ToMillimeter (vy p))).
    { unfold pick. destruct sy eqn:B; [reflexivity|]. unfold sy in B. apply orb_false_elim in B. destruct B as [B1 B2].
      apply negb_false_iff in B1, B2. apply Z.eqb_eq in B1. rewrite B1. apply Hp. congruence. }
    assert (PZ : pick sz (shown (Z.of_nat 2) (ToMillimeter (vz p))) (rZ r) = shown 2 (ToMillimeter (vz p))).
    { unfold pick. destruct sz eqn:B; [reflexivity|]. unfold sz in B. apply orb_false_elim in B. destruct B as [B1 B2].
      apply negb_false_iff in B1, B2. apply Z.eqb_eq in B1. rewrite B1. apply Hp. congruence. }
    assert (PF : pick sf (Some (mul64 s 60 * 10000)) (rF r) = if (currentSpeed g =? s) && (s =? 0) then rF r else Some (wrap (s * 60) * 10000)).
    { unfold pick, sf. destruct (Z.eqb_spec (currentSpeed g) s) as [B|B]; cbn [negb andb]; [|reflexivity].
      destruct (Z.eqb_spec s 0) as [B2|B2]; [reflexivity|]. destruct Hf as [Hf|Hf]; [congruence|]. rewrite Hf, B. reflexivity. }
    assert (PE : pick (nonzero e) (shown (Z.of_nat 4) am) (rE r) = shown 4 am).
    { unfold pick. rewrite nonzero_is_zero. destruct (is_zero e) eqn:B; cbn [negb]; [|reflexivity].
      unfold am. rewrite (add_zero_shown _ _ _ B). exact He. }
    rewrite PX, PY, PZ, PF, PE. reflexivity. }
  split; [right; eexists; reflexivity|].
  assert (FX : notFirstMoveX g || sx = true) by (unfold sx; destruct (notFirstMoveX g); [reflexivity|apply orb_true_r]).
  assert (FY : notFirstMoveY g || sy = true) by (unfold sy; destruct (notFirstMoveY g); [reflexivity|apply orb_true_r]).
  assert (FZ : notFirstMoveZ g || sz = true) by (unfold sz; destruct (notFirstMoveZ g); [reflexivity|apply orb_true_r]).
  split; [|split; [discriminate|]].
  { rewrite Rr. constructor; cbn.
    - rewrite FX, FY, FZ. split; reflexivity.
    - intros _. repeat split.
    - destruct (Z.eqb_spec s 0) as [B2|B2]; [left; exact B2|]. right. rewrite andb_false_r. reflexivity.
    - reflexivity. }
  intros _. cbn [currentPosition notFirstMoveX currentSpeed extrusionAmount].
  split; [|split; [reflexivity|split; [exact FX|split; [reflexivity|split; [reflexivity|]]]]].
  2: { rewrite Rr. cbn. repeat split. intros B2. destruct (Z.eqb_spec s 0); [contradiction|]. rewrite andb_false_r. reflexivity. }
  rewrite moves_line, (moves_words _ _ _ Cc Wc), Cm.
  rewrite replay_line, (replay_words _ _ _ Cc Wc), Cm. reflexivity.
Qed.

Lemma ops_run os : forall g r, agree g r ->
  exists t, buf (do_ops os g) = buf g ++ t /\ terminated t /\ agree (do_ops os g) (replay r t) /\
    Forall2 executed (commanded (known g) (extrusionAmount g) os) (moves r t).
Proof.
  induction os as [|o os IH]; intros g r A.
  - exists "". cbn [do_ops]. rewrite sapp_nil_r. split; [reflexivity|]. split; [left; reflexivity|]. split; [exact A|constructor].
  - destruct (op_step g r o A) as (t & B & T & A' & S1 & S2). cbn [do_ops].
    destruct (IH (do_op o g) (replay r t) A') as (t' & B' & T' & A'' & M').
    exists (t ++ t'). split; [rewrite B', B, sapp_assoc; reflexivity|]. split; [apply terminated_app; assumption|].
    rewrite (replay_term _ _ _ T), (moves_term _ _ _ T). split; [exact A''|].
    destruct o as [[p e] s]. cbn [commanded]. unfold stays in S1, S2. fold (known g) in S1, S2.
    destruct (match known g with Some q => same_place q p && is_zero e | None => false end).
    + destruct (S1 eq_refl) as [-> E]. rewrite E in M'. exact M'.
    + destruct (S2 eq_refl) as (Mv & P & N & _ & E & X). cbn [fst snd] in *. rewrite Mv. unfold known in M'. rewrite N, P, E in M'.
      constructor; assumption.
Qed.

(** *** the builder calls in terms of moves *)
Lemma same_settings_of g g' : same_settings g g' -> settings_of g' = settings_of g.
Proof. intros (A & B & C & D & E & F & G & _). unfold settings_of. rewrite A, B, C, D, E, F, G. reflexivity. Qed.
Lemma ops_settings os : forall g, same_settings g (do_ops os g).
Proof.
  induction os as [|[[p e] s] os IH]; intros g; [apply same_refl|]. cbn [do_ops].
  eapply same_trans; [|apply IH]. apply move_settings.
Qed.
Lemma addMove_op p e g : AddMove p e g = do_op (p, e, if is_zero e then s_move (settings_of g) else s_print (settings_of g)) g.
Proof.
  unfold AddMove, do_op. rewrite nonzero_is_zero. cbn [settings_of s_move s_print].
  destruct (is_zero e); cbn [negb]; [reflexivity|]. rewrite Z.leb_antisym. destruct (0 <? extrudeSpeedOverride g); reflexivity.
Qed.
Lemma move_pos p e s g : currentPosition (AddMoveSpeed p e s g) = p.
Proof.
  unfold AddMoveSpeed.
  destruct (_ && (vx (currentPosition g) =? vx p) && (vy (currentPosition g) =? vy p) && (vz (currentPosition g) =? vz p) && _) eqn:E; [|reflexivity].
  rewrite !andb_true_iff, !Z.eqb_eq in E. apply vec_eta; tauto.
Qed.
Lemma op_pos o g : currentPosition (do_op o g) = fst (fst o).
Proof. destruct o as [[p e] s]. apply move_pos. Qed.

Section lib.
Variable lib : clib.
Lemma addMove_in g0 p e g : same_settings g0 g ->
  AddMove p e g = do_op (p, e, if is_zero e then s_move (settings_of g0) else s_print (settings_of g0)) g.
Proof. intros S. rewrite addMove_op, (same_settings_of _ _ S). reflexivity. Qed.
Lemma op_settings o g0 g : same_settings g0 g -> same_settings g0 (do_op o g).
Proof. intros S. eapply same_trans; [exact S|]. destruct o as [[p e] s]. apply move_settings. Qed.
Lemma retract_end g0 g : same_settings g0 g ->
  AddMoveSpeed (currentPosition g) (retractionAmount g) (retractionSpeed g) g =
  do_op (currentPosition g, s_ramount (settings_of g0), s_rspeed (settings_of g0)) g.
Proof. intros (_ & _ & _ & _ & E & F & _). unfold do_op, settings_of. cbn [s_ramount s_rspeed]. rewrite E, F. reflexivity. Qed.

Local Opaque do_op.
Lemma travel_ops layer p0 z g :
  travel_to lib layer p0 z g =
  match crossing lib layer g p0 with
  | Some c => Ok (do_ops (approach_ops (settings_of g) c (currentPosition g) p0 z) g)
  | None => Err errCrossing
  end.
Proof.
  unfold travel_to, crossing.
  set (f := fun isCrossing : bool => _).
  assert (F : forall c, f c = Ok (do_ops (approach_ops (settings_of g) c (currentPosition g) p0 z) g)).
  { intros c. unfold f. change (flt fzero (zHopOnRetract g)) with (SFltb (S754_zero false) (zHopOnRetract g)).
    unfold approach_ops. change (s_hop (settings_of g)) with (zHopOnRetract g). destruct c; cbn [andb].
    - change (AddMoveSpeed (currentPosition g) (SFopp (retractionAmount g)) (retractionSpeed g) g)
        with (do_op (currentPosition g, SFopp (s_ramount (settings_of g)), s_rspeed (settings_of g)) g).
      set (o1 := (currentPosition g, SFopp (s_ramount (settings_of g)), s_rspeed (settings_of g))).
      pose proof (op_settings o1 g g (same_refl g)) as S1.
      assert (P1 : currentPosition (do_op o1 g) = currentPosition g) by apply op_pos. rewrite P1.
      destruct (SFltb (S754_zero false) (zHopOnRetract g)); cbn [app].
      + rewrite (addMove_in g _ _ _ S1). cbn [is_zero fzero].
        set (o2 := (V3 (vx (currentPosition g)) (vy (currentPosition g)) (add64 z (ToMicrometer (zHopOnRetract g))), fzero, s_move (settings_of g))).
        pose proof (op_settings o2 g _ S1) as S2. rewrite (addMove_in g _ _ _ S2). cbn [is_zero fzero].
        set (o3 := (V3 (px p0) (py p0) (add64 z (ToMicrometer (zHopOnRetract g))), fzero, s_move (settings_of g))).
        pose proof (op_settings o3 g _ S2) as S3. rewrite (addMove_in g _ _ _ S3). cbn [is_zero fzero].
        set (o4 := (V3 (px p0) (py p0) z, fzero, s_move (settings_of g))).
        pose proof (op_settings o4 g _ S3) as S4. rewrite (retract_end g _ S4), op_pos. reflexivity.
      + rewrite (addMove_in g _ _ _ S1). cbn [is_zero fzero].
        set (o4 := (V3 (px p0) (py p0) z, fzero, s_move (settings_of g))).
        pose proof (op_settings o4 g _ S1) as S4. rewrite (retract_end g _ S4), op_pos. reflexivity.
    - rewrite addMove_op. reflexivity. }
  destruct layer as [parts|]; [|apply F]. rewrite nonzero_is_zero.
  destruct (negb (retractionSpeed g =? 0) && negb (is_zero (retractionAmount g))); [|apply F].
  destruct (IsCrossingPerimeter lib parts _) as [c|]; [apply F|reflexivity].
Qed.

Lemma print_ops ps : forall prev z g0 g, same_settings g0 g ->
  print_points prev ps z g = do_ops (lines_ops (settings_of g0) z prev ps) g.
Proof.
  induction ps as [|p ps IH]; intros prev z g0 g S; [reflexivity|]. cbn [print_points lines_ops do_ops].
  rewrite (addMove_in g0 _ _ _ S). destruct S as (E & S'). rewrite E.
  change (extrusionPerMM g0) with (s_permm (settings_of g0)). fold (line_amount (s_permm (settings_of g0)) prev p). fold (at_z p z).
  fold (line_op (settings_of g0) z prev p). apply IH, op_settings. split; assumption.
Qed.
Lemma last_cons_default {A} (p : A) ps : forall a, last (p :: ps) a = last ps p.
Proof.
  revert p; induction ps as [|q ps IH]; intros p a; [reflexivity|].
  change (last (p :: q :: ps) a) with (last (q :: ps) a). rewrite (IH q a), (IH q p). reflexivity.
Qed.
Lemma lines_app st z ps : forall a b, lines_ops st z a (ps ++ [b]) = (lines_ops st z a ps ++ [line_op st z (last ps a) b])%list.
Proof.
  induction ps as [|p ps IH]; intros a b; [reflexivity|]. cbn [app lines_ops]. rewrite IH.
  rewrite (last_cons_default p ps a). reflexivity.
Qed.

Lemma polygon_spec layer polygon z open g p0 ps : polygon <> [] -> DouglasPeucker polygon (-1) = p0 :: ps ->
  AddPolygon lib layer polygon z open g =
  match crossing lib layer g p0 with
  | Some c => Ok (do_ops (polygon_ops (settings_of g) c (currentPosition g) p0 ps z open) g)
  | None => Err errCrossing
  end.
Proof.
  intros Hp E. unfold AddPolygon. destruct polygon; [contradiction|]. rewrite E, travel_ops.
  destruct (crossing lib layer g p0) as [c|]; [|reflexivity]. cbn [bind].
  set (g1 := do_ops (approach_ops _ _ _ _ _) g). assert (S1 : same_settings g g1) by apply ops_settings.
  rewrite (print_ops ps p0 z g g1 S1). set (g2 := do_ops _ g1).
  assert (S2 : same_settings g g2) by (eapply same_trans; [exact S1|apply ops_settings]).
  unfold polygon_ops. rewrite do_ops_app. fold g1. destruct open.
  - rewrite app_nil_r. reflexivity.
  - rewrite lines_app, do_ops_app. fold g2. cbn [do_ops]. rewrite (addMove_in g _ _ _ S2). unfold line_op, line_amount.
    destruct S2 as (X & _). rewrite X. reflexivity.
Qed.
End lib.
