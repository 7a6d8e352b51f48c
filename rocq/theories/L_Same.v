(** Proofs about places and matching sequences of calls. *)
From Verif Require Import GoBase GoFloat GoStr M_Micrometer M_Geom2D M_Option M_Clip M_Builder M_Layer M_Render
  S_Text L_Str S_Printer S_Builder S_Calls S_Machine S_Render L_Printer L_Builder L_Calls L_Render L_Events L_Settings L_Whole S_Same.
Local Open Scope string_scope.
Local Open Scope list_scope.
Local Open Scope Z_scope.

Lemma coordinate_eqb_eq a b : coordinate_eqb a b = true <-> a = b.
Proof. destruct a, b; cbn; rewrite ?Z.eqb_eq; split; congruence. Qed.
Lemma place_eqb_eq a b : place_eqb a b = true <-> a = b.
Proof.
  destruct a as [[x y] z], b as [[x' y'] z']. unfold place_eqb. cbn [fst snd]. rewrite !andb_true_iff, !coordinate_eqb_eq.
  split; [intros [[-> ->] ->]; reflexivity|intros [= -> -> ->]; auto].
Qed.
Lemma place_eqb_refl a : place_eqb a a = true. Proof. apply place_eqb_eq. reflexivity. Qed.

(** the places depend on the places before only *)
Lemma word_place r r' w : place_of r = place_of r' -> place_of (word r w) = place_of (word r' w).
Proof.
  unfold place_of. intros [= X Y Z]. destruct w as [|c t]; [cbn; congruence|]. cbn [word].
  repeat match goal with |- context [if ?b then _ else _] => destruct b; [cbn; congruence|] end. congruence.
Qed.
Lemma words_place ws : forall r r', place_of r = place_of r' -> place_of (fold_left word ws r) = place_of (fold_left word ws r').
Proof. induction ws as [|w ws IH]; intros r r' H; [exact H|]. cbn [fold_left]. apply IH, word_place, H. Qed.
Lemma exec_place r r' l : place_of r = place_of r' -> place_of (exec r l) = place_of (exec r' l).
Proof. intros H. unfold exec. destruct (words l) as [|w ws]; [exact H|]. destruct (_ || _); [apply words_place, H|exact H]. Qed.
Lemma visits_place ls : forall r r', place_of r = place_of r' -> visits r ls = visits r' ls.
Proof.
  induction ls as [|l ls IH]; intros r r' H; [reflexivity|]. cbn [visits]. rewrite (IH _ _ (exec_place r r' l H)), (exec_place r r' l H), H. reflexivity.
Qed.
Lemma lines_place ls : forall r r', place_of r = place_of r' -> place_of (fold_left exec ls r) = place_of (fold_left exec ls r').
Proof. induction ls as [|l ls IH]; intros r r' H; [exact H|]. cbn [fold_left]. apply IH, exec_place, H. Qed.
Lemma visits_app a b : forall r, visits r (a ++ b) = visits r a ++ visits (fold_left exec a r) b.
Proof.
  induction a as [|l a IH]; intros r; [reflexivity|]. cbn [app visits fold_left]. destruct (place_eqb _ _); cbn [app]; rewrite IH; reflexivity.
Qed.
Lemma visits_stay ls : forall r, visits r ls = [] -> place_of (fold_left exec ls r) = place_of r.
Proof.
  induction ls as [|l ls IH]; intros r H; [reflexivity|]. cbn [visits fold_left] in *. destruct (place_eqb _ _) eqn:E; [|discriminate].
  apply place_eqb_eq in E. rewrite (IH _ H). exact E.
Qed.
Lemma places_line r a b : places r (a ++ newline ++ b)%string = places r a ++ places (replay r a) b.
Proof. unfold places, replay, text_lines. rewrite newline_app, split_app_gen, visits_app. reflexivity. Qed.
Lemma places_nil r : places r "" = [].
Proof. unfold places. cbn. rewrite place_eqb_refl. reflexivity. Qed.
Lemma places_end r a : places r (a ++ newline)%string = places r a.
Proof. rewrite <- (sapp_nil_r (a ++ newline)), sapp_assoc, places_line, places_nil, app_nil_r. reflexivity. Qed.
Lemma places_term r a b : terminated a -> places r (a ++ b)%string = places r a ++ places (replay r a) b.
Proof. intros [->|(x & ->)]; [rewrite places_nil; reflexivity|]. rewrite sapp_assoc, places_line, places_end, replay_line. reflexivity. Qed.

(** texts that lead to the same places *)
Definition alike (t t' : string) : Prop := terminated t /\ terminated t' /\
  forall r r', place_of r = place_of r' -> places r t = places r' t' /\ place_of (replay r t) = place_of (replay r' t').
Lemma alike_app a a' b b' : alike a a' -> alike b b' -> alike (a ++ b) (a' ++ b').
Proof.
  intros (T & T' & H) (U & U' & K). split; [apply terminated_app; assumption|]. split; [apply terminated_app; assumption|].
  intros r r' E. rewrite !places_term, !replay_term by assumption. destruct (H r r' E) as [H1 H2]. destruct (K _ _ H2) as [K1 K2].
  rewrite H1, K1. split; [reflexivity|exact K2].
Qed.
Lemma alike_refl t : terminated t -> alike t t.
Proof. intros T. split; [exact T|]. split; [exact T|]. intros r r' E. split; [apply visits_place, E|apply lines_place, E]. Qed.
(** texts that lead nowhere *)
Definition quiet (t : string) : Prop := terminated t /\ forall r, places r t = [].
Lemma quiet_nil : quiet "". Proof. split; [left; reflexivity|apply places_nil]. Qed.
Lemma quiet_alike t t' : quiet t -> quiet t' -> alike t t'.
Proof.
  intros [T H] [T' H']. split; [exact T|]. split; [exact T'|]. intros r r' E. rewrite H, H'. split; [reflexivity|].
  unfold replay. unfold places in H, H'. rewrite (visits_stay _ _ (H r)), (visits_stay _ _ (H' r')). exact E.
Qed.
Lemma quiet_left t a a' : quiet t -> alike a a' -> alike (a ++ t) a'.
Proof. intros Q A. rewrite <- (sapp_nil_r a'). apply alike_app; [exact A|apply quiet_alike; [exact Q|exact quiet_nil]]. Qed.
Lemma quiet_right t a a' : quiet t -> alike a a' -> alike a (a' ++ t).
Proof. intros Q A. rewrite <- (sapp_nil_r a). apply alike_app; [exact A|apply quiet_alike; [exact quiet_nil|exact Q]]. Qed.

(** what the printer ignores leads nowhere: a register is either left alone by every line or set to a fixed value *)
Section Axis.
Variable axis : regs -> option Z.
Hypothesis axis_word : forall w, (forall r, axis (word r w) = axis r) \/ (exists c, forall r, axis (word r w) = c).
Lemma axis_words ws : (forall r, axis (fold_left word ws r) = axis r) \/ (exists c, forall r, axis (fold_left word ws r) = c).
Proof.
  induction ws as [|w ws IH]; [left; reflexivity|]. cbn [fold_left]. destruct IH as [IH|(c & IH)]; [|right; exists c; intros r; apply IH].
  destruct (axis_word w) as [H|(c & H)]; [left; intros r; rewrite IH; apply H|right; exists c; intros r; rewrite IH; apply H].
Qed.
Lemma axis_exec l : (forall r, axis (exec r l) = axis r) \/ (exists c, forall r, axis (exec r l) = c).
Proof.
  unfold exec. destruct (words l) as [|w ws]; [left; reflexivity|]. destruct (is_move w || String.eqb w "G92"); [apply axis_words|left; reflexivity].
Qed.
Hypothesis axis_any : forall x, exists r, axis r = x.
Lemma axis_kept ls : (forall r, axis (fold_left exec ls r) = axis r) -> Forall (fun l => forall r, axis (exec r l) = axis r) ls.
Proof.
  assert (C : forall ls, (Forall (fun l => forall r, axis (exec r l) = axis r) ls) \/ (exists c, forall r, axis (fold_left exec ls r) = c)).
  { induction ls0 as [|l ls0 IH]; [left; constructor|]. cbn [fold_left]. destruct IH as [IH|(c & IH)]; [|right; exists c; intros r; apply IH].
    destruct (axis_exec l) as [H|(c & H)]; [left; constructor; assumption|]. right. exists c. intros r.
    assert (K : forall r, axis (fold_left exec ls0 r) = axis r). { clear -IH. induction IH as [|l' ls' H' _ IH]; intros r; [reflexivity|]. cbn [fold_left]. rewrite IH. apply H'. }
    rewrite K. apply H. }
  intros K. destruct (C ls) as [H|(c & H)]; [exact H|exfalso].
  destruct (axis_any (match c with Some _ => None | None => Some 0 end)) as (r & Er). specialize (K r). rewrite H, Er in K. destruct c; discriminate.
Qed.
End Axis.
Lemma x_word w : (forall r, rX (word r w) = rX r) \/ (exists c, forall r, rX (word r w) = c).
Proof.
  destruct w as [|c t]; [left; reflexivity|]. cbn [word]. destruct (Ascii.eqb c "X"); [right; exists (number t); reflexivity|].
  left. intros r. repeat match goal with |- context [if ?b then _ else _] => destruct b; [reflexivity|] end. reflexivity.
Qed.
Lemma y_word w : (forall r, rY (word r w) = rY r) \/ (exists c, forall r, rY (word r w) = c).
Proof.
  destruct w as [|c t]; [left; reflexivity|]. cbn [word]. destruct (Ascii.eqb c "X"); [left; reflexivity|].
  destruct (Ascii.eqb c "Y"); [right; exists (number t); reflexivity|].
  left. intros r. repeat match goal with |- context [if ?b then _ else _] => destruct b; [reflexivity|] end. reflexivity.
Qed.
Lemma z_word w : (forall r, rZ (word r w) = rZ r) \/ (exists c, forall r, rZ (word r w) = c).
Proof.
  destruct w as [|c t]; [left; reflexivity|]. cbn [word]. destruct (Ascii.eqb c "X"); [left; reflexivity|].
  destruct (Ascii.eqb c "Y"); [left; reflexivity|]. destruct (Ascii.eqb c "Z"); [right; exists (number t); reflexivity|].
  left. intros r. repeat match goal with |- context [if ?b then _ else _] => destruct b; [reflexivity|] end. reflexivity.
Qed.
Lemma silent_places t : silent t -> forall r, places r t = [].
Proof.
  intros S.
  assert (X := axis_kept rX x_word (fun x => ex_intro _ (Regs x None None None None) eq_refl) (text_lines t) (fun r => f_equal rX (proj1 (S r)))).
  assert (Y := axis_kept rY y_word (fun x => ex_intro _ (Regs None x None None None) eq_refl) (text_lines t) (fun r => f_equal rY (proj1 (S r)))).
  assert (Z := axis_kept rZ z_word (fun x => ex_intro _ (Regs None None x None None) eq_refl) (text_lines t) (fun r => f_equal rZ (proj1 (S r)))).
  unfold places. clear S. induction (text_lines t) as [|l ls IH]; intros r; [reflexivity|].
  inversion X as [|? ? X1 X2]; subst. inversion Y as [|? ? Y1 Y2]; subst. inversion Z as [|? ? Z1 Z2]; subst.
  cbn [visits]. unfold place_of at 1. rewrite X1, Y1, Z1. fold (place_of r). rewrite place_eqb_refl. apply IH; assumption.
Qed.
Lemma ignored_quiet t : ignored t -> quiet t.
Proof. intros [T S]. split; [exact T|apply silent_places, S]. Qed.

(** *** moves *)
(** builders at the same place *)
Record rel (g g' : builder) : Prop := Rel {
  rel_text : alike (buf g) (buf g');
  rel_pos : currentPosition g' = currentPosition g;
  rel_flags : notFirstMoveX g = notFirstMoveY g /\ notFirstMoveY g = notFirstMoveZ g;
  rel_x : notFirstMoveX g' = notFirstMoveX g; rel_y : notFirstMoveY g' = notFirstMoveY g; rel_z : notFirstMoveZ g' = notFirstMoveZ g;
  rel_hop : zHopOnRetract g' = zHopOnRetract g;
  rel_retract : negb (retractionSpeed g' =? 0) && negb (is_zero (retractionAmount g')) = negb (retractionSpeed g =? 0) && negb (is_zero (retractionAmount g)) }.

(** the text of a move *)
Definition move_line (p : vec3) (e : f32) (s : Z) (g : builder) : string :=
  let sx := negb (vx p =? vx (currentPosition g)) || negb (notFirstMoveX g) in
  let sy := negb (vy p =? vy (currentPosition g)) || negb (notFirstMoveY g) in
  let sz := negb (vz p =? vz (currentPosition g)) || negb (notFirstMoveZ g) in
  (if nonzero e then "G1" else "G0") ++ tail_words (move_words sx sy sz (negb (currentSpeed g =? s)) (nonzero e)
    (fmt_fixed 2 (ToMillimeter (vx p))) (fmt_fixed 2 (ToMillimeter (vy p))) (fmt_fixed 2 (ToMillimeter (vz p)))
    (itoa (mul64 s 60)) (fmt_fixed 4 (add32 (extrusionAmount g) e))).
Definition dropped (p : vec3) (e : f32) (g : builder) : bool :=
  (notFirstMoveX g || notFirstMoveY g || notFirstMoveZ g) && (vx (currentPosition g) =? vx p) && (vy (currentPosition g) =? vy p) &&
  (vz (currentPosition g) =? vz p) && negb (nonzero e).
Lemma move_text p e s g : AddMoveSpeed p e s g =
  if dropped p e g then g else
  Builder (buf g ++ move_line p e s g ++ newline) (add32 (extrusionAmount g) e) (extrusionPerMM g) p
    (notFirstMoveX g || (negb (vx p =? vx (currentPosition g)) || negb (notFirstMoveX g)))
    (notFirstMoveY g || (negb (vy p =? vy (currentPosition g)) || negb (notFirstMoveY g)))
    (notFirstMoveZ g || (negb (vz p =? vz (currentPosition g)) || negb (notFirstMoveZ g)))
    (moveSpeed g) (extrudeSpeed g) s (extrudeSpeedOverride g) (retractionSpeed g) (retractionAmount g) (zHopOnRetract g)
    (filamentDiameter g) (extrusionMultiplier g).
Proof.
  unfold AddMoveSpeed, dropped. match goal with |- context [if ?b then _ else _] => destruct b end; [reflexivity|].
  cbv zeta. f_equal. unfold move_line. rewrite tail_move, !sapp_assoc. reflexivity.
Qed.
Definition place_after (p : vec3) (g : builder) (q : place) : place :=
  let '(x, y, z) := q in
  (pick (negb (vx p =? vx (currentPosition g)) || negb (notFirstMoveX g)) (number (fmt_fixed 2 (ToMillimeter (vx p)))) x,
   pick (negb (vy p =? vy (currentPosition g)) || negb (notFirstMoveY g)) (number (fmt_fixed 2 (ToMillimeter (vy p)))) y,
   pick (negb (vz p =? vz (currentPosition g)) || negb (notFirstMoveZ g)) (number (fmt_fixed 2 (ToMillimeter (vz p)))) z).
Lemma move_place p e s g r : text_lines (move_line p e s g) = [move_line p e s g] /\
  place_of (exec r (move_line p e s g)) = place_after p g (place_of r).
Proof.
  unfold move_line. cbv zeta. match goal with |- context [tail_words ?w] => set (ws := w) end.
  assert (Wc : Forall clean ws) by (apply move_words_clean; try apply fmt_clean; apply itoa_clean).
  set (cmd := if nonzero e then "G1" else "G0").
  assert (Cc : clean cmd) by (unfold cmd; destruct (nonzero e); split; (discriminate || reflexivity)).
  assert (Cm : is_move cmd = true) by (unfold cmd; destruct (nonzero e); reflexivity).
  destruct (line_words cmd ws Cc Wc) as [E L]. split; [apply text_lines_one, L|].
  unfold exec. rewrite E, Cm. cbn [orb]. unfold ws. rewrite fold_words. reflexivity.
Qed.
Lemma move_alike p e s e' s' g g' : currentPosition g' = currentPosition g -> notFirstMoveX g' = notFirstMoveX g -> notFirstMoveY g' = notFirstMoveY g ->
  notFirstMoveZ g' = notFirstMoveZ g -> alike (move_line p e s g ++ newline) (move_line p e' s' g' ++ newline).
Proof.
  intros P X Y Z. split; [right; eexists; reflexivity|]. split; [right; eexists; reflexivity|]. intros r r' E.
  rewrite !places_end, !replay_line. unfold places, replay. rewrite (proj1 (move_place p e s g r)), (proj1 (move_place p e' s' g' r')).
  cbn [visits fold_left]. rewrite !(proj2 (move_place _ _ _ _ _)), E. unfold place_after. rewrite P, X, Y, Z. split; [|reflexivity].
  reflexivity.
Qed.
Lemma move_still p e s g : notFirstMoveX g = true -> notFirstMoveY g = true -> notFirstMoveZ g = true -> currentPosition g = p ->
  quiet (move_line p e s g ++ newline).
Proof.
  intros X Y Z <-. split; [right; eexists; reflexivity|]. intros r. rewrite places_end. unfold places. rewrite (proj1 (move_place _ e s g r)). cbn [visits].
  rewrite (proj2 (move_place _ _ _ _ _)). unfold place_after, place_of. rewrite X, Y, Z, !Z.eqb_refl. cbn [negb orb pick]. rewrite place_eqb_refl. reflexivity.
Qed.
Lemma dropped_place p e g : dropped p e g = true -> (notFirstMoveX g || notFirstMoveY g || notFirstMoveZ g = true) /\ currentPosition g = p.
Proof.
  unfold dropped. rewrite !andb_true_iff, !Z.eqb_eq. intros ((((A & B) & C) & D) & _). split; [exact A|apply vec_eta; assumption].
Qed.
Lemma rel_move g g' p e s e' s' : rel g g' -> rel (AddMoveSpeed p e s g) (AddMoveSpeed p e' s' g').
Proof.
  intros [T P [F1 F2] X Y Z H R].
  assert (FX : forall b c : bool, b || (c || negb b) = true) by (intros [] []; reflexivity).
  rewrite !move_text. destruct (dropped p e g) eqn:D, (dropped p e' g') eqn:D'.
  - constructor; auto.
  - destruct (dropped_place _ _ _ D) as [A <-]. assert (FA : notFirstMoveX g = true) by (rewrite <- F2, <- F1 in A; destruct (notFirstMoveX g); auto).
    constructor; cbn [buf currentPosition notFirstMoveX notFirstMoveY notFirstMoveZ zHopOnRetract retractionSpeed retractionAmount]; auto; try (rewrite FX; congruence).
    apply quiet_right; [|exact T]. apply move_still; congruence.
  - destruct (dropped_place _ _ _ D') as [A <-]. assert (FA : notFirstMoveX g = true) by (rewrite X, Y, Z, <- F2, <- F1 in A; destruct (notFirstMoveX g); auto).
    constructor; cbn [buf currentPosition notFirstMoveX notFirstMoveY notFirstMoveZ zHopOnRetract retractionSpeed retractionAmount]; auto; try (rewrite FX; congruence).
    + apply quiet_left; [|exact T]. apply move_still; congruence.
    + rewrite !FX. auto.
  - constructor; cbn [buf currentPosition notFirstMoveX notFirstMoveY notFirstMoveZ zHopOnRetract retractionSpeed retractionAmount]; auto; try (rewrite !FX; auto).
    apply alike_app; [exact T|]. apply move_alike; assumption.
Qed.
Lemma rel_ops os os' : Forall2 (fun o o' : op => fst (fst o') = fst (fst o)) os os' -> forall g g', rel g g' -> rel (do_ops os g) (do_ops os' g').
Proof.
  induction 1 as [|[[p e] s] [[p' e'] s'] os os' E _ IH]; intros g g' R; [exact R|]. cbn [fst] in E. subst p'. cbn [do_ops]. apply IH.
  apply rel_move, R.
Qed.
Lemma lines_targets st st' z : forall l a, Forall2 (fun o o' : op => fst (fst o') = fst (fst o)) (lines_ops st z a l) (lines_ops st' z a l).
Proof. induction l as [|b l IH]; intros a; cbn [lines_ops]; constructor; [reflexivity|apply IH]. Qed.
Lemma polygon_targets st st' c from p0 ps z open : s_hop st' = s_hop st ->
  Forall2 (fun o o' : op => fst (fst o') = fst (fst o)) (polygon_ops st c from p0 ps z open) (polygon_ops st' c from p0 ps z open).
Proof.
  intros H. unfold polygon_ops. apply Forall2_app; [|apply lines_targets]. unfold approach_ops. rewrite H. destruct c; [|repeat constructor].
  destruct (SFltb _ _); repeat constructor.
Qed.
Lemma rel_polygon lib layer polygon z open g g' g1 : rel g g' -> AddPolygon lib layer polygon z open g = Ok g1 ->
  exists g1', AddPolygon lib layer polygon z open g' = Ok g1' /\ rel g1 g1'.
Proof.
  intros R. destruct polygon as [|p ps]; [intros [= <-]; exists g'; split; [reflexivity|exact R]|].
  destruct (DP_nonempty (p :: ps)) as (p0 & qs & D); [discriminate|].
  rewrite !(polygon_spec lib layer (p :: ps) z open _ p0 qs ltac:(discriminate) D).
  assert (C : crossing lib layer g' p0 = crossing lib layer g p0). { destruct R as [T P F X Y Z H R]. unfold crossing. rewrite R, P. reflexivity. }
  rewrite C. destruct (crossing lib layer g p0) as [c|]; [|discriminate]. intros [= <-]. eexists. split; [reflexivity|].
  rewrite (rel_pos _ _ R). apply rel_ops; [|exact R]. apply polygon_targets. exact (rel_hop _ _ R).
Qed.

(** *** calls *)
Definition mild (c : call) : Prop :=
  match c with
  | CSetExtrusion _ _ | CSetMoveSpeed _ | CSetExtrudeSpeed _ | CSetOverride _ | CDisableOverride => True
  | CCommand _ | CCommandInt _ _ | CComment _ | CCommentInt _ _ => harmless c
  | _ => False
  end.
Definition retracting (v a : f32) : bool := negb (int_of_f32 v =? 0) && negb (is_zero a).
Inductive matched : list call -> list call -> Prop :=
| M_nil : matched [] []
| M_left c cs cs' : mild c -> matched cs cs' -> matched (c :: cs) cs'
| M_right c cs cs' : mild c -> matched cs cs' -> matched cs (c :: cs')
| M_polygon l p z o cs cs' : matched cs cs' -> matched (CPolygon l p z o :: cs) (CPolygon l p z o :: cs')
| M_command s cs cs' : no_char "%" s = true -> matched cs cs' -> matched (CCommand s :: cs) (CCommand s :: cs')
| M_retraction v a v' a' h cs cs' : retracting v' a' = retracting v a -> matched cs cs' ->
    matched (CSetRetractionSpeed v :: CSetRetractionAmount a :: CSetHop h :: cs) (CSetRetractionSpeed v' :: CSetRetractionAmount a' :: CSetHop h :: cs').
Lemma matched_app a a' b b' : matched a a' -> matched b b' -> matched (a ++ b) (a' ++ b').
Proof. induction 1; intros M; cbn [app]; [exact M|apply M_left|apply M_right|apply M_polygon|apply M_command|apply M_retraction]; auto. Qed.
Lemma matched_left a : Forall mild a -> matched a [].
Proof. induction 1; [apply M_nil|apply M_left; assumption]. Qed.
Lemma matched_right a : Forall mild a -> matched [] a.
Proof. induction 1; [apply M_nil|apply M_right; assumption]. Qed.
Lemma matched_mild a b : Forall mild a -> Forall mild b -> matched a b.
Proof. intros A B. rewrite <- (app_nil_r a). change b with ([] ++ b). apply matched_app; [apply matched_left, A|apply matched_right, B]. Qed.
Lemma matched_flat {A} (f f' : A -> list call) l : (forall x, In x l -> matched (f x) (f' x)) -> matched (flat_map f l) (flat_map f' l).
Proof.
  induction l as [|x l IH]; intros H; [constructor|]. cbn [flat_map]. apply matched_app; [apply H; left; reflexivity|]. apply IH. intros y I. apply H. right. exact I.
Qed.
Lemma mild_run lib c g : mild c -> exists t, quiet t /\ exists g1, run_call lib c g = Ok g1 /\ buf g1 = (buf g ++ t)%string /\
  currentPosition g1 = currentPosition g /\ notFirstMoveX g1 = notFirstMoveX g /\ notFirstMoveY g1 = notFirstMoveY g /\ notFirstMoveZ g1 = notFirstMoveZ g /\
  zHopOnRetract g1 = zHopOnRetract g /\ retractionSpeed g1 = retractionSpeed g /\ retractionAmount g1 = retractionAmount g.
Proof.
  destruct c; cbn [mild harmless]; intros H; try contradiction;
    (exists ""; split; [exact quiet_nil|]; eexists; split; [reflexivity|]; cbn; rewrite sapp_nil_r; repeat split; fail) ||
    (eexists; split; [apply ignored_quiet; exact H|]; eexists; split; [reflexivity|]; repeat split).
Qed.
Lemma matched_run lib cs cs' : matched cs cs' -> forall g g' g1, rel g g' -> run_calls lib cs g = Ok g1 -> exists g1', run_calls lib cs' g' = Ok g1' /\ rel g1 g1'.
Proof.
  induction 1 as [|c cs cs' Hc M IH|c cs cs' Hc M IH|l p z o cs cs' M IH|s cs cs' Hs M IH|v a v' a' h cs cs' Hr M IH]; intros g g' g1 R E.
  - injection E as <-. exists g'. split; [reflexivity|exact R].
  - destruct (mild_run lib c g Hc) as (t & Q & g2 & Eg & B & P & X & Y & Z & H & S & A). cbn [run_calls] in E. rewrite Eg in E. cbn [bind] in E.
    apply (IH g2 g' g1); [|exact E]. destruct R as [T P' [F1 F2] X' Y' Z' H' R']. constructor; try congruence.
    + rewrite B. apply quiet_left; assumption.
    + split; congruence.
  - destruct (mild_run lib c g' Hc) as (t & Q & g2 & Eg & B & P & X & Y & Z & H & S & A). cbn [run_calls]. rewrite Eg. cbn [bind].
    apply (IH g g2 g1); [|exact E]. destruct R as [T P' F X' Y' Z' H' R']. constructor; try congruence. rewrite B. apply quiet_right; assumption.
  - cbn [run_calls run_call] in *. apply bind_Ok in E. destruct E as (g2 & E1 & E2). destruct (rel_polygon lib l p z o g g' g2 R E1) as (g2' & E1' & R').
    rewrite E1'. cbn [bind]. apply (IH g2 g2' g1 R' E2).
  - cbn [run_calls run_call bind] in *. apply (IH (AddCommand s g) (AddCommand s g') g1); [|exact E]. destruct R as [T P' F X' Y' Z' H' R']. constructor; try assumption.
    rewrite !command_text by exact Hs. apply alike_app; [exact T|]. apply alike_refl. right. eexists. reflexivity.
  - cbn [run_calls run_call bind] in *. apply (IH (SetRetractionZHop h (SetRetractionAmount a (SetRetractionSpeed v g))) (SetRetractionZHop h (SetRetractionAmount a' (SetRetractionSpeed v' g'))) g1); [|exact E].
    destruct R as [T P' F X' Y' Z' H' R']. constructor; try assumption; reflexivity.
Qed.

(** *** the calls of a print *)
Lemma matched_same z cs : Forall (printing z) cs -> matched cs cs.
Proof.
  induction 1 as [|c cs H _ IH]; [apply M_nil|]. pose proof (printing_harmless z c H) as K.
  destruct c; cbn [printing] in H; try contradiction; [apply M_left; [exact I|]; apply M_right; [exact I|]; exact IH| |apply M_polygon, IH].
  apply M_left; [exact K|]. apply M_right; [exact K|]. exact IH.
Qed.
Lemma silent_command s : no_char "%" s = true -> silent s -> mild (CCommand s).
Proof.
  intros P S. cbn [mild harmless]. rewrite sprintf_plain by (rewrite no_char_app, P; reflexivity). split; [right; eexists; reflexivity|].
  intros r. rewrite replay_line, moves_line. apply S.
Qed.
Lemma comment_mild s : no_char "%" s = true -> no_char (chr 10) s = true -> mild (CComment s).
Proof. exact (comment_harmless s). Qed.
Lemma wait_bed_mild n : mild (CCommandInt "M190 S%d ; heat and wait for bed" n).
Proof.
  cbn [mild harmless]. change (sprintf_int _ n) with ("M190" ++ " S" ++ itoa n ++ " ; heat and wait for bed" ++ newline)%string.
  apply s_harmless; try reflexivity; [split; [discriminate|reflexivity]|right; right; eexists; reflexivity|discriminate].
Qed.
Lemma wait_hot_mild n : mild (CCommandInt "M109 S%d ; wait for hot end temperature" n).
Proof.
  cbn [mild harmless]. change (sprintf_int _ n) with ("M109" ++ " S" ++ itoa n ++ " ; wait for hot end temperature" ++ newline)%string.
  apply s_harmless; try reflexivity; [split; [discriminate|reflexivity]|right; right; eexists; reflexivity|discriminate].
Qed.
Lemma hot_off_mild : mild (CCommand "M104 S0 ; Set Hot-end to 0C (off)").
Proof. apply command_harmless; [reflexivity|reflexivity|]. intros w ws E. injection E as <- _. split; [reflexivity|discriminate]. Qed.
Lemma bed_off_mild : mild (CCommand "M140 S0 ; Set bed to 0C (off)").
Proof. apply command_harmless; [reflexivity|reflexivity|]. intros w ws E. injection E as <- _. split; [reflexivity|discriminate]. Qed.
Lemma rest_mild o nr : Forall mild (pre_rest o nr).
Proof.
  unfold pre_rest. rewrite !Forall_app. split; [constructor; [apply mark_harmless|constructor]|].
  split; [destruct (0 <? nr); repeat (apply Forall_cons; [exact I|]); apply Forall_nil|].
  split.
  - destruct (lut_get _ nr) as [[|v|v]|]; try apply Forall_nil; (apply Forall_cons; [|apply Forall_nil]); [apply fan_off_harmless|apply fan_harmless..].
  - destruct (nr =? _); [|apply Forall_nil]. apply Forall_cons; [apply set_temp_harmless|]. apply Forall_cons; [apply bed_harmless|].
    apply Forall_cons; [apply hot_harmless|apply Forall_nil].
Qed.
Section Two.
Variables o o' : options.
Hypothesis P : same_path_options o o'.
Hypothesis A : starts_alike o o'.
Hypothesis Ps : Forall (fun s => no_char "%" s = true) (StartGCode (Printer o)).
Hypothesis Pe : Forall (fun s => no_char "%" s = true) (EndGCode (Printer o)).
Lemma start_matched : matched (start_calls o (map (fill_template o) (StartGCode (Printer o)))) (start_calls o' (map (fill_template o') (StartGCode (Printer o')))).
Proof.
  unfold start_calls.
  assert (C : Forall mild [CComment "Generated with GoSlice"; CComment "______________________"]) by (repeat (apply Forall_cons; [apply comment_mild; reflexivity|]); apply Forall_nil).
  assert (D : Forall mild [CComment "START GCODE"]) by (repeat (apply Forall_cons; [apply comment_mild; reflexivity|]); apply Forall_nil).
  apply matched_app; [apply matched_mild; exact C|].
  apply matched_app; [apply matched_mild; match goal with |- context [if ?b then _ else _] => destruct b end;
    repeat (apply Forall_cons; [first [apply comment_mild; reflexivity|apply wait_bed_mild]|]); apply Forall_nil|].
  apply matched_app; [apply matched_mild; match goal with |- context [if ?b then _ else _] => destruct b end;
    repeat (apply Forall_cons; [first [apply comment_mild; reflexivity|apply wait_hot_mild]|]); apply Forall_nil|].
  apply matched_app; [apply matched_mild; exact D|].
  apply matched_app.
  - rewrite (sp_start _ _ P). pose proof A as K. unfold starts_alike in K. revert Ps K. generalize (StartGCode (Printer o)) as ls.
    induction ls as [|l ls IH]; intros Q K; [apply M_nil|]. inversion Q as [|? ? Q1 Q2]; subst. cbn [map].
    assert (IH' := IH Q2 (fun x Hx => K x (or_intror Hx))).
    destruct (K l (or_introl eq_refl)) as [E|[S S']].
    + rewrite E. apply M_command; [apply fill_plain, Q1|exact IH'].
    + apply M_left; [apply silent_command; [apply fill_plain, Q1|exact S]|]. apply M_right; [apply silent_command; [apply fill_plain, Q1|exact S']|exact IH'].
  - apply M_command; [reflexivity|]. do 3 (apply M_left; [exact I|]). do 3 (apply M_right; [exact I|]).
    rewrite (sp_hop _ _ P). apply M_retraction; [exact (sp_retracts _ _ P)|]. apply M_left; [exact I|]. apply M_right; [exact I|]. apply M_nil.
Qed.
Lemma pre_matched nr : matched (pre_plan o nr) (pre_plan o' nr).
Proof.
  unfold pre_plan. apply matched_app; [|apply matched_mild; [apply (rest_mild o)|apply (rest_mild o')]].
  destruct (nr =? 0); [exact start_matched|]. destruct (nr =? 1); [|apply M_nil]. apply M_left; [exact I|]. apply M_right; [exact I|]. apply M_nil.
Qed.
Lemma end_matched : matched (end_calls o) (end_calls o').
Proof.
  unfold end_calls. rewrite (sp_end _ _ P).
  assert (C : mild (CComment "END_GCODE")) by (apply comment_mild; reflexivity).
  apply matched_app; [apply matched_mild; (apply Forall_cons; [exact C|apply Forall_cons; [exact I|apply Forall_nil]])|].
  apply matched_app; [apply matched_mild; match goal with |- context [if ?b then _ else _] => destruct b end;
    repeat (apply Forall_cons; [apply hot_off_mild|]); apply Forall_nil|].
  apply matched_app; [apply matched_mild; match goal with |- context [if ?b then _ else _] => destruct b end;
    repeat (apply Forall_cons; [apply bed_off_mild|]); apply Forall_nil|].
  induction Pe as [|l ls Q Q2 IH]; [apply M_nil|]. cbn [map]. apply M_command; [exact Q|exact (IH Q2)].
Qed.
Lemma closed_matched l z p : matched (closed_walls l z p) (closed_walls l z p).
Proof. unfold closed_walls. apply matched_app; [induction (holes p) as [|h hs IH]; [apply M_nil|apply M_polygon, IH]|apply M_polygon, M_nil]. Qed.
Lemma walls_matched l z w : perimeter_plan o l z = Ok w -> exists w', perimeter_plan o' l z = Ok w' /\ matched w w'.
Proof.
  unfold perimeter_plan. intros E. apply bind_Ok in E. destruct E as (ps & E & [= <-]). rewrite E. eexists. split; [reflexivity|].
  apply matched_flat. intros insets _. destruct insets as [|outer inner]; [apply M_nil|]. cbn [part_plan].
  assert (C : mild (CComment "TYPE:WALL-INNER") /\ mild (CComment "TYPE:WALL-OUTER")) by (split; apply comment_mild; reflexivity).
  apply matched_app; apply matched_flat; intros p _; (apply matched_app; [|apply closed_matched]); apply matched_mild;
    (apply Forall_cons; [first [exact (proj1 C)|exact (proj2 C)]|apply Forall_cons; [exact I|apply Forall_nil]]).
Qed.
End Two.
Lemma same_length {A B} (R : A -> B -> Prop) l l' : Forall2 R l l' -> List.length l = List.length l'.
Proof. induction 1; cbn; congruence. Qed.
Section Plans.
Variables o o' : options.
Hypothesis P : same_path_options o o'.
Hypothesis A : starts_alike o o'.
Hypothesis Ps : Forall (fun s => no_char "%" s = true) (StartGCode (Printer o)).
Hypothesis Pe : Forall (fun s => no_char "%" s = true) (EndGCode (Printer o)).
Definition match_plans (p p' : layer_plan) : Prop :=
  matched (p_skirt p) (p_skirt p') /\ matched (p_brim p) (p_brim p') /\ matched (p_walls p) (p_walls p') /\ matched (p_fill p) (p_fill p').
Lemma fill_same lib fuel mn mx inf nr l z : fill_plan lib o' fuel mn mx inf nr l z = fill_plan lib o fuel mn mx inf nr l z.
Proof. unfold fill_plan, supportPattern, interfacePattern, topBottomPattern. rewrite (sp_support _ _ P), (sp_width _ _ P), (sp_rotation _ _ P). reflexivity. Qed.
Lemma skirt_same lib nr l z : skirt_plan lib o' nr l z = skirt_plan lib o nr l z.
Proof. unfold skirt_plan. rewrite (sp_brim _ _ P), (sp_width _ _ P). reflexivity. Qed.
Lemma layer_matched lib fuel mn mx inf nr l z p : plan_layer lib o fuel mn mx inf nr l z = Ok p ->
  exists p', plan_layer lib o' fuel mn mx inf nr l z = Ok p' /\ match_plans p p'.
Proof.
  intros E. pose proof (layer_printing lib o fuel mn mx inf nr l z p E) as L. rewrite !Forall_app in L. destruct L as (L1 & L2 & _ & L4).
  unfold plan_layer in *. rewrite skirt_same, fill_same.
  apply bind_Ok in E. destruct E as (s & E1 & E). apply bind_Ok in E. destruct E as (b & E2 & E).
  apply bind_Ok in E. destruct E as (w & E3 & E). apply bind_Ok in E. destruct E as (f & E4 & [= <-]). cbn [p_skirt p_brim p_fill] in *.
  destruct (walls_matched o o' l z w E3) as (w' & E3' & M). rewrite E1, E2, E3', E4. eexists. split; [reflexivity|].
  split; [|split; [|split]]; cbn [p_skirt p_brim p_walls p_fill]; [eapply matched_same, L1|eapply matched_same, L2|exact M|eapply matched_same, L4].
Qed.
Lemma height_same n : height o' n = height o n.
Proof. unfold height. rewrite (sp_initial _ _ P), (sp_thickness _ _ P). reflexivity. Qed.
Lemma plans_matched lib fuel mn mx inf : forall layers ps n, List.length ps = List.length layers ->
  (forall i l p, nth_error layers i = Some l -> nth_error ps i = Some p -> plan_layer lib o fuel mn mx inf (Z.of_nat (n + i)) l (height o (n + i)) = Ok p) ->
  exists ps', Forall2 match_plans ps ps' /\
  (forall i l p, nth_error layers i = Some l -> nth_error ps' i = Some p -> plan_layer lib o' fuel mn mx inf (Z.of_nat (n + i)) l (height o' (n + i)) = Ok p).
Proof.
  induction layers as [|l layers IH]; intros [|p ps] n L H; try discriminate.
  - exists []. split; [constructor|]. intros [|i] ? ?; discriminate.
  - destruct (layer_matched lib fuel mn mx inf _ _ _ _ (H 0%nat l p eq_refl eq_refl)) as (p' & Ep & M).
    destruct (IH ps (S n)) as (ps' & F & K).
    + cbn in L. congruence.
    + intros i l' q El Eq. specialize (H (S i) l' q El Eq). rewrite Nat.add_succ_r in H. exact H.
    + exists (p' :: ps'). split; [constructor; assumption|]. intros [|i] l' q El Eq.
      * injection El as <-. injection Eq as <-. rewrite height_same. exact Ep.
      * rewrite Nat.add_succ_r. apply (K i l' q El Eq).
Qed.
Lemma calls_matched m : forall ps ps', Forall2 match_plans ps ps' -> forall n, matched (concat (calls_from o n m ps)) (concat (calls_from o' n m ps')).
Proof.
  induction 1 as [|p p' ps ps' (M1 & M2 & M3 & M4) _ IH]; intros n; [apply M_nil|]. cbn [calls_from List.length seq combine map concat].
  apply matched_app; [|apply IH]. unfold layer_calls. apply matched_app; [apply pre_matched; assumption|]. do 4 (apply matched_app; [assumption|]).
  destruct (_ =? m); [apply end_matched; assumption|apply M_nil].
Qed.
(** the generated texts *)
Lemma generate_matched lib fuel mn mx layers rs text : goslice_renderers lib fuel o mn mx = Ok rs -> snd (Generate o rs layers tt) = Ok text ->
  exists rs' text', goslice_renderers lib fuel o' mn mx = Ok rs' /\ snd (Generate o' rs' layers tt) = Ok text' /\ forall r, places r text' = places r text.
Proof.
  intros R G. apply (goslice_generate lib fuel o mn mx layers rs text R) in G. destruct G as (inf & ps & b & I & (L & Pl) & E & ->).
  assert (I' : infillPattern o' mn mx = Ok inf) by (unfold infillPattern in *; rewrite (sp_percent _ _ P), (sp_width _ _ P), (sp_rotation _ _ P), (sp_zigzag _ _ P); exact I).
  assert (R' : exists rs', goslice_renderers lib fuel o' mn mx = Ok rs') by (unfold goslice_renderers; rewrite I'; eexists; reflexivity).
  destruct R' as (rs' & R'). destruct (plans_matched lib fuel mn mx inf layers ps 0%nat L Pl) as (ps' & F & Pl').
  assert (L' := same_length _ _ _ F).
  assert (M := calls_matched (Z.of_nat (List.length ps) - 1) ps ps' F 0%nat).
  destruct (matched_run lib _ _ M (NewGCodeBuilder (FilamentDiameter (Filament o)) (ExtrusionMultiplier (Filament o)))
    (NewGCodeBuilder (FilamentDiameter (Filament o')) (ExtrusionMultiplier (Filament o'))) b) as (b' & E' & Rl).
  - constructor; try reflexivity; [apply alike_refl; left; reflexivity|split; reflexivity].
  - exact E.
  - exists rs', (BuilderString b'). split; [exact R'|]. split.
    + apply (goslice_generate lib fuel o' mn mx layers rs' _ R'). exists inf, ps', b'. split; [exact I'|]. split; [split; [congruence|exact Pl']|].
      split; [|reflexivity]. unfold all_calls. unfold calls_from in E'. rewrite <- L'. rewrite <- L' in E'. exact E'.
    + intros r. unfold BuilderString. symmetry. apply (proj2 (proj2 (rel_text _ _ Rl))). reflexivity.
Qed.
End Plans.
