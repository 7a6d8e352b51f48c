(** The filament of the polygons of a whole print. *)
From Coq Require Import Reals Psatz.
From Verif Require Import GoBase GoFloat GoStr M_Micrometer M_Geom2D M_Option M_Clip M_Builder M_Layer M_Render
  S_Text S_Option S_Printer S_Builder S_Calls S_Machine S_Render S_Volume
  L_Str L_Option L_Data L_Printer L_Builder L_Calls L_Render L_Events L_Settings L_Whole L_Float L_Extrude L_Volume.
From Flocq Require Import Core BinarySingleNaN.
Local Open Scope string_scope.
Local Open Scope list_scope.
Local Open Scope Z_scope.

(** *** the layer of a call *)
Lemma cut_concat {A} (ls : list (list A)) : forall a e b, concat ls = a ++ e :: b ->
  exists n l pre post, nth_error ls n = Some l /\ l = pre ++ e :: post /\ a = concat (firstn n ls) ++ pre.
Proof.
  induction ls as [|l ls IH]; intros a e b E; cbn [concat] in E; [destruct a; discriminate|].
  apply app_eq_app in E. destruct E as (m & [[-> E]|[-> E]]).
  - destruct m as [|x m]; cbn [app] in E.
    + destruct (IH [] e b (eq_sym E)) as (n & l' & pre & post & H1 & H2 & H3). exists (S n), l', pre, post. split; [exact H1|]. split; [exact H2|].
      cbn [firstn concat]. rewrite <- app_assoc, <- H3, !app_nil_r. reflexivity.
    + injection E as -> E. exists O, (a ++ x :: m), a, m. split; [reflexivity|]. split; reflexivity.
  - destruct (IH m e b E) as (n & l' & pre & post & H1 & H2 & ->). exists (S n), l', pre, post. split; [exact H1|]. split; [exact H2|].
    cbn [firstn concat]. rewrite app_assoc. reflexivity.
Qed.

Section Print.
Variable o : options.
Notation permm t := (extrusion_per_mm (FilamentDiameter (Filament o)) (ExtrusionMultiplier (Filament o)) t (ExtrusionWidth (Printer o))).
Notation conf := (configure (FilamentDiameter (Filament o)) (ExtrusionMultiplier (Filament o))).
Definition sets (c : call) : bool := match c with CSetExtrusion _ _ => true | _ => false end.
Lemma no_sets cs : forall k, forallb (fun c => negb (sets c)) cs = true -> c_permm (fold_left conf cs k) = c_permm k.
Proof.
  induction cs as [|c cs IH]; intros k H; [reflexivity|]. cbn [forallb] in H. apply andb_prop in H. destruct H as [H1 H2]. cbn [fold_left]. rewrite IH by exact H2.
  destruct k, c; try discriminate; reflexivity.
Qed.
Lemma printing_no_sets z cs : Forall (printing z) cs -> forallb (fun c => negb (sets c)) cs = true.
Proof. intros H. apply forallb_forall. intros c Hc. rewrite Forall_forall in H. specialize (H c Hc). destruct c; try contradiction; reflexivity. Qed.
Lemma rest_no_sets nr : forallb (fun c => negb (sets c)) (pre_rest o nr) = true.
Proof.
  unfold pre_rest. rewrite !forallb_app. cbn [forallb sets negb andb]. destruct (0 <? nr); cbn [forallb sets negb andb]; destruct (lut_get _ nr) as [[|v|v]|]; cbn [forallb sets negb andb]; destruct (nr =? _); reflexivity.
Qed.
Lemma first_sets k : c_permm (fold_left conf (pre_plan o 0) k) = permm (InitialLayerThickness (Print o)).
Proof.
  change (pre_plan o 0) with (start_calls o (map (fill_template o) (StartGCode (Printer o))) ++ pre_rest o 0). rewrite fold_left_app, no_sets by apply rest_no_sets.
  unfold start_calls. rewrite !app_assoc, fold_left_app. match goal with |- context [fold_left conf _ ?k] => destruct k end. reflexivity.
Qed.
Lemma second_sets k : c_permm (fold_left conf (pre_plan o 1) k) = permm (LayerThickness (Print o)).
Proof.
  change (pre_plan o 1) with (CSetExtrusion (LayerThickness (Print o)) (ExtrusionWidth (Printer o)) :: pre_rest o 1). cbn [fold_left]. rewrite no_sets by apply rest_no_sets.
  destruct k; reflexivity.
Qed.
Lemma later_sets nr k : 1 < nr -> c_permm (fold_left conf (pre_plan o nr) k) = c_permm k.
Proof.
  intros H. unfold pre_plan. destruct (Z.eqb_spec nr 0); [lia|]. destruct (Z.eqb_spec nr 1); [lia|]. change (c_permm (fold_left conf (pre_rest o nr) k) = c_permm k). apply no_sets, rest_no_sets.
Qed.
Notation thickness := (thickness o).
(** after the preparations of layer n *)
Lemma pre_sets n k : (2 <= n)%nat -> c_permm k = permm (thickness 1) -> c_permm (fold_left conf (pre_plan o (Z.of_nat n)) k) = permm (thickness n).
Proof. intros H K. rewrite later_sets by lia. rewrite K. destruct n; [lia|reflexivity]. Qed.
Lemma layer_sets mx n p k : prints p -> Z.of_nat n <> mx ->
  c_permm (fold_left conf (layer_calls o mx (Z.of_nat n) p) k) = c_permm (fold_left conf (pre_plan o (Z.of_nat n)) k).
Proof.
  intros (z & P) N. unfold layer_calls. destruct (Z.eqb_spec (Z.of_nat n) mx); [contradiction|]. rewrite app_nil_r, fold_left_app. apply no_sets.
  eapply printing_no_sets. exact P.
Qed.
Lemma all_calls_nth ps n l : nth_error (all_calls o ps) n = Some l -> exists p, nth_error ps n = Some p /\ l = layer_calls o (Z.of_nat (List.length ps) - 1) (Z.of_nat n) p.
Proof.
  unfold all_calls. intros H. rewrite nth_error_map in H. destruct (nth_error (combine _ ps) n) as [[nr p]|] eqn:H0; [|discriminate]. injection H as <-. rename H0 into H.
  assert (Q : forall (A : Type) (l : list A) a i x, nth_error (combine (seq a (List.length l)) l) i = Some x -> nth_error l i = Some (snd x) /\ fst x = (a + i)%nat).
  { clear. intros A l. induction l as [|y l IH]; intros a i x H; [destruct i; discriminate|]. cbn [List.length seq combine] in H. destruct i as [|i]; [injection H as <-; cbn; split; [reflexivity|lia]|].
    cbn [nth_error] in *. destruct (IH _ _ _ H) as [H1 H2]. split; [exact H1|lia]. }
  destruct (Q _ _ _ _ _ H) as [H1 H2]. cbn [fst snd] in *. subst. exists p. split; [exact H1|reflexivity].
Qed.
Lemma all_calls_length ps : List.length (all_calls o ps) = List.length ps.
Proof. unfold all_calls. rewrite map_length, combine_length, seq_length. lia. Qed.
(** before layer n *)
Lemma layers_sets ps : Forall prints ps -> forall n, (n < List.length ps)%nat ->
  (n = 0%nat \/ n = 1%nat /\ True \/ (2 <= n)%nat /\ c_permm (fold_left conf (concat (firstn n (all_calls o ps))) unconfigured) = permm (thickness 1)).
Proof.
  intros P n. induction n as [|n IH]; intros H; [left; reflexivity|]. destruct n as [|n]; [right; left; auto|]. right. right. split; [lia|].
  assert (L : (S n < List.length (all_calls o ps))%nat) by (rewrite all_calls_length; lia).
  destruct (nth_error (all_calls o ps) (S n)) as [l|] eqn:E; [|apply nth_error_None in E; lia].
  destruct (all_calls_nth ps (S n) l E) as (p & Hp & ->).
  assert (F : firstn (S (S n)) (all_calls o ps) = firstn (S n) (all_calls o ps) ++ [layer_calls o (Z.of_nat (List.length ps) - 1) (Z.of_nat (S n)) p]).
  { apply nth_error_split in E. destruct E as (a & b & Ea & La). rewrite Ea. rewrite <- La. replace (S (List.length a)) with (List.length a + 1)%nat by lia.
    rewrite firstn_app_2. rewrite firstn_app, firstn_all, Nat.sub_diag. cbn [firstn]. rewrite app_nil_r. reflexivity. }
  rewrite F, concat_app, fold_left_app. cbn [concat]. rewrite app_nil_r, layer_sets; [|rewrite Forall_forall in P; apply P, (nth_error_In _ _ Hp)|lia].
  destruct n as [|n]; [apply second_sets|]. apply (pre_sets (S (S n))); [lia|]. destruct (IH ltac:(lia)) as [C|[[C _]|[_ C]]]; [discriminate..|exact C].
Qed.
Lemma permm_at ps cs1 c cs2 : Forall prints ps -> no_poly c = false -> concat (all_calls o ps) = cs1 ++ c :: cs2 ->
  exists n p pre post, nth_error ps n = Some p /\ layer_calls o (Z.of_nat (List.length ps) - 1) (Z.of_nat n) p = pre ++ c :: post /\
    cs1 = concat (firstn n (all_calls o ps)) ++ pre /\ c_permm (fold_left conf cs1 unconfigured) = permm (thickness n).
Proof.
  intros P N E. destruct (cut_concat _ _ _ _ E) as (n & l & pre & post & H1 & H2 & H3). destruct (all_calls_nth ps n l H1) as (p & Hp & ->).
  exists n, p, pre, post. split; [exact Hp|]. split; [exact H2|]. split; [exact H3|].
  assert (Pp : prints p) by (rewrite Forall_forall in P; apply P, (nth_error_In _ _ Hp)). destruct Pp as (z & Pz).
  unfold layer_calls in H2. 
  replace (pre_plan o (Z.of_nat n) ++ p_skirt p ++ p_brim p ++ p_walls p ++ p_fill p ++ (if Z.of_nat n =? Z.of_nat (List.length ps) - 1 then end_calls o else []))
    with (pre_plan o (Z.of_nat n) ++ (p_skirt p ++ p_brim p ++ p_walls p ++ p_fill p) ++ (if Z.of_nat n =? Z.of_nat (List.length ps) - 1 then end_calls o else [])) in H2 by (rewrite <- !app_assoc; reflexivity).
  destruct (cut_middle (fun c => no_poly c = false) _ _ _ _ _ _ H2 N) as (b1 & b2 & Eb & Epre).
  { apply Forall_forall. intros x Hx. pose proof (pre_no_poly o (Z.of_nat n)) as Q. rewrite forallb_forall in Q. rewrite (Q x Hx). discriminate. }
  { apply Forall_forall. intros x Hx. destruct (Z.of_nat n =? _); [|contradiction]. pose proof (end_no_poly o) as Q. rewrite forallb_forall in Q. rewrite (Q x Hx). discriminate. }
  assert (B1 : forallb (fun c => negb (sets c)) b1 = true). { eapply printing_no_sets with (z := z). rewrite Eb in Pz. apply Forall_app in Pz. apply Pz. }
  rewrite H3, Epre, !fold_left_app, (no_sets b1) by exact B1.
  assert (Ln : (n < List.length ps)%nat) by (apply nth_error_Some; congruence).
  destruct n as [|n]; [apply first_sets|]. destruct n as [|n]; [apply second_sets|]. apply pre_sets; [lia|]. destruct (layers_sets ps P _ Ln) as [C|[[C _]|[_ C]]]; [discriminate..|exact C].
Qed.

(** *** the calls are proper *)
Lemma print_proper ps : Forall prints ps -> 0 <= InitialLayerThickness (Print o) -> 0 <= LayerThickness (Print o) -> 0 <= ExtrusionWidth (Printer o) ->
  valid32 (RetractionLength (Filament o)) = true -> Forall S_Calls.proper (concat (all_calls o ps)).
Proof.
  intros P I L W V. apply Forall_forall. intros c Hc. apply in_concat in Hc. destruct Hc as (l & Hl & Hc). apply In_nth_error in Hl. destruct Hl as (n & Hn).
  destruct (all_calls_nth ps n l Hn) as (p & Hp & ->). assert (Pp : prints p) by (rewrite Forall_forall in P; apply P, (nth_error_In _ _ Hp)). destruct Pp as (z & Pz).
  assert (Q : forall cs, forallb (fun c => match c with CSetExtrusion _ _ | CSetRetractionAmount _ | CMoveSpeed _ _ _ | CMove _ _ => false | _ => true end) cs = true -> Forall S_Calls.proper cs).
  { intros cs H. apply Forall_forall. intros x Hx. rewrite forallb_forall in H. specialize (H x Hx). destruct x; try discriminate; exact Logic.I. }
  assert (Qm : forall l, Forall S_Calls.proper (map CCommand l)). { intros l. apply Forall_forall. intros x Hx. apply in_map_iff in Hx. destruct Hx as (s & <- & _). exact Logic.I. }
  revert c Hc. apply Forall_forall. unfold layer_calls.
  assert (R : Forall S_Calls.proper (p_skirt p ++ p_brim p ++ p_walls p ++ p_fill p)). { eapply Forall_impl; [|exact Pz]. intros x Hx. destruct x; try contradiction; exact Logic.I. }
  rewrite !Forall_app in *. split; [|intuition].
  - unfold pre_plan. rewrite !Forall_app. split; [|split; [|split; [|split]]].
    + destruct (_ =? 0); [|destruct (_ =? 1)]; [|repeat constructor; assumption|constructor]. unfold start_calls. rewrite !Forall_app.
      repeat split; try (match goal with |- context [if ?b then _ else _] => destruct b end); try (repeat constructor; assumption). apply Qm.
    + repeat constructor.
    + destruct (0 <? _); repeat constructor.
    + apply Q. destruct (lut_get _ _) as [[|v|v]|]; reflexivity.
    + destruct (_ =? _); repeat constructor.
  - destruct (_ =? _); [|constructor]. unfold end_calls. rewrite !Forall_app. repeat split; try (match goal with |- context [if ?b then _ else _] => destruct b end); try (repeat constructor; assumption). apply Qm.
Qed.
End Print.

(** *** moves of a part of a polygon *)
Lemma commanded_app a b : forall here E, exists here', commanded here E (a ++ b) = commanded here E a ++ commanded here' (counter E (commanded here E a)) b.
Proof.
  induction a as [|[[p e] s] a IH]; intros here E; [exists here; reflexivity|]. cbn [app commanded].
  destruct (match here with Some q => same_place q p && is_zero e | None => false end); [apply IH|]. destruct (IH (Some p) (add32 E e)) as (h & ->). exists h. rewrite counter_cons. reflexivity.
Qed.
Lemma executed_counter cs rs : Forall2 executed cs rs -> forall r E, rE r = shown 4 E -> rE (last rs r) = shown 4 (counter E cs).
Proof.
  induction 1 as [|[[p s] e] x cs rs X F IH]; intros r E H; [exact H|]. rewrite counter_cons. cbn [snd]. destruct X as (_ & _ & _ & X & _). rewrite <- (IH x e X).
  destruct rs as [|y rs]; [reflexivity|]. cbn [last]. clear. revert y. induction rs as [|y' rs IH]; intros y; [reflexivity|]. cbn [last] in *. apply IH.
Qed.
Lemma counter_valid ops : forall here E, valid32 E = true -> Forall (fun o : op => valid32 (snd (fst o)) = true) ops -> valid32 (counter E (commanded here E ops)) = true.
Proof.
  induction ops as [|[[p e] s] ops IH]; intros here E V F; [exact V|]. inversion F; subst. cbn [commanded fst snd] in *.
  destruct (match here with Some q => same_place q p && is_zero e | None => false end); [apply IH; assumption|]. rewrite counter_cons. apply IH; [apply valid_add; try reflexivity; assumption|assumption].
Qed.
Local Open Scope R_scope.
Lemma shown_near x k : is_finite_SF x = true -> shown 4 x = Some k -> Rabs (SF2R radix2 x - IZR k / 10000) <= / 20000.
Proof.
  intros F S. rewrite (shown4 x F) in S. injection S as <-. pose proof (Znearest_half (fun x => negb (Z.even x)) (SF2R radix2 x * 10000)) as H.
  set (k := IZR (ZnearestE (SF2R radix2 x * 10000))) in *. set (v := SF2R radix2 x) in *. apply Rabs_le_inv in H. apply Rabs_le. lra.
Qed.
