(** Properties C51-C56 and C67: perimeters, infill and brim of a stack of layers. *)
From Coq Require Import Sorting.Sorted.
From Verif Require Import GoBase GoFloat GoStr M_Micrometer M_Geom2D M_Option M_Clip M_Builder M_Layer M_Modifier S_Clip L_Clip S_Area L_Area S_Modifier L_Modifier L_Amount L_ModArea L_Infill L_Strip.
Local Open Scope string_scope.
Local Open Scope list_scope.
Local Open Scope Z_scope.

(** *** C52 *)
Theorem modifiers_keep_layers : forall lib o tangent layers layers',
  (PerimeterModify lib o layers = Ok layers' -> keeps ["perimeters"; "overlapPerimeters"] layers layers') /\
  (InfillModify lib o layers = Ok layers' -> keeps ["bottom"; "top"] layers layers') /\
  (InternalInfillModify lib o layers = Ok layers' -> keeps ["infill"] layers layers') /\
  (BrimModify lib o layers = Ok layers' -> keeps ["brim"; "outerBrim"] layers layers') /\
  (SupportDetectorModify lib o tangent layers = Ok layers' -> keeps ["support"] layers layers') /\
  (SupportGeneratorModify lib o layers = Ok layers' -> keeps ["support"; "supportInterface"; "fullSupport"] layers layers').
Proof.
  intros lib o tangent layers layers'. split; [apply perimeter_keeps|]. split; [apply infill_keeps_all|]. split; [apply internal_keeps_all|].
  split; [intros H; exact (proj1 (brim_keeps lib o layers layers' H))|]. split; [apply detector_keeps|].
  unfold SupportGeneratorModify. destruct (negb _); [intros [= <-]; apply keeps_refl|]. apply generator_keeps, keeps_refl.
Qed.
Print Assumptions modifiers_keep_layers.

(** *** C53 *)
(** One entry per part with InsetCount insets, the k-th one width/2 + k * width inside the part, and one overlap
    border per part. *)
Theorem perimeter_structure : forall lib o layers layers', PerimeterModify lib o layers = Ok layers' ->
  let w := ExtrusionWidth (Printer o) in
  0 <= w <= 2 ^ 30 -> InsetCount (Print o) <= 2 ^ 20 ->
  Forall2 (fun l l' => exists pe ov, Perimeters l' = Ok pe /\ OverlapPerimeters l' = Ok ov /\
    List.length pe = List.length (LayerParts l) /\ List.length ov = List.length (LayerParts l) /\
    forall i p e, nth_error (LayerParts l) i = Some p -> nth_error pe i = Some e -> Z.of_nat (List.length e) = InsetCount (Print o) /\
      forall k x, idx e k = Ok x -> polyTreeToLayerParts (offset lib (f64_of_Z (- (w / 2) - k * w)) (outline p :: holes p)) = Ok x) layers layers'.
Proof.
  intros lib o layers layers' H w Hw Hc. pose proof (perimeter_spec lib o layers layers' H) as F. clear H. induction F as [|l l' layers layers' H F IH]; constructor; [|exact IH].
  destruct (perimeter_layer_spec lib o l l' H) as (pe & ov & Ep & Eo & F1 & F2). exists pe, ov. split; [exact Ep|]. split; [exact Eo|].
  pose proof (f2_len _ _ _ F1). pose proof (f2_len _ _ _ F2). split; [lia|]. split; [lia|]. intros i p e Ei Ee.
  destruct (f2_nth _ _ _ _ _ F1 Ei) as (e' & Ee' & Hi). rewrite Ee in Ee'. injection Ee' as <-. destruct (f2_nth _ _ _ _ _ F2 Ee) as (x & _ & N & _).
  fold w in Hi. assert (Q : quot64 (neg64 w) 2 = - (w / 2)). { rewrite quot_neg2 by lia. rewrite Z.quot_div_nonneg by lia. reflexivity. } rewrite Q in Hi.
  assert (B : 0 <= w / 2 <= 2 ^ 30) by (split; [apply Z.div_pos; lia|apply Z.div_le_upper_bound; lia]).
  destruct (inset_spec lib p w (InsetCount (Print o)) (- (w / 2))) as (ins & E1 & L1 & G1); [nia|lia|]. rewrite E1 in Hi. injection Hi as ->.
  split; [|exact G1]. destruct e as [|e0 e]; [contradiction|]. cbn [List.length] in *. lia.
Qed.
Print Assumptions perimeter_structure.
(** Without insets the modifier panics as soon as there is anything to print. *)
Theorem no_insets_panics : forall lib o layers, InsetCount (Print o) <= 0 ->
  (forall l, In l layers -> LayerParts l = []) /\ (exists layers', PerimeterModify lib o layers = Ok layers') \/
  (exists l, In l layers /\ LayerParts l <> []) /\ PerimeterModify lib o layers = Panic "index out of range".
Proof.
  intros lib o layers Hc.
  assert (One : forall l, LayerParts l = [] /\ (exists l', perimeter_layer lib o l = Ok l') \/ LayerParts l <> [] /\ perimeter_layer lib o l = Panic "index out of range").
  { intros l. destruct (LayerParts l) as [|p ps] eqn:Ep.
    - left. split; [reflexivity|]. unfold perimeter_layer. rewrite Ep. cbn [InsetLayer bind overlap_entries]. eauto.
    - right. split; [discriminate|]. unfold perimeter_layer. rewrite Ep. destruct (inset_layer_total lib (ExtrusionWidth (Printer o)) (InsetCount (Print o)) (quot64 (neg64 (ExtrusionWidth (Printer o))) 2) (p :: ps)) as (r & Er).
      rewrite Er. cbn [bind]. cbn [InsetLayer] in Er. unfold Inset in Er. replace (Z.to_nat (InsetCount (Print o))) with O in Er by lia. cbn [inset_loop bind] in Er.
      apply bind_Ok in Er. destruct Er as (r' & _ & Er). injection Er as <-. reflexivity. }
  assert (G : forall n i cur, (i + n = List.length cur)%nat ->
    (forall l, In l (skipn i cur) -> LayerParts l = []) /\ (exists ls, over_layers (fun layerNr layers => let* l := idx layers layerNr in let* l' := perimeter_layer lib o l in let* layers' := put layerNr l' layers in Ok (Some layers')) n (Z.of_nat i) cur = Ok ls) \/
    (exists l, In l (skipn i cur) /\ LayerParts l <> []) /\ over_layers (fun layerNr layers => let* l := idx layers layerNr in let* l' := perimeter_layer lib o l in let* layers' := put layerNr l' layers in Ok (Some layers')) n (Z.of_nat i) cur = Panic "index out of range").
  { induction n as [|n IH]; intros i cur Hi; cbn [over_layers].
    - left. split; [intros l; rewrite skipn_all2 by lia; intros []|eauto].
    - rewrite idx_nth. destruct (nth_error cur i) as [l|] eqn:El; [|apply nth_error_None in El; lia]. cbn [bind].
      assert (Sk : skipn i cur = l :: skipn (S i) cur). { clear - El. revert cur El. induction i as [|i IH]; intros [|a cur] El; try discriminate; cbn in *; [injection El as ->; reflexivity|exact (IH cur El)]. }
      destruct (One l) as [(Z0 & l' & ->)|(N & ->)]; cbn [bind].
      + rewrite put_in by lia. cbn [bind]. replace (Z.of_nat i + 1) with (Z.of_nat (S i)) by lia.
        assert (Sk2 : skipn (S i) (set_nth i l' cur) = skipn (S i) cur). { clear. revert cur. induction i as [|i IH]; intros [|a cur]; try reflexivity. cbn [set_nth]. cbn [skipn]. exact (IH cur). }
        destruct (IH (S i) (set_nth i l' cur)) as [(A & B)|((m & Im & Nm) & B)]; [rewrite set_nth_length; lia| |]; rewrite Sk2 in *.
        * left. split; [|exact B]. rewrite Sk. intros m [<-|Im]; [exact Z0|exact (A m Im)].
        * right. split; [|exact B]. exists m. rewrite Sk. split; [right; exact Im|exact Nm].
      + right. split; [|reflexivity]. exists l. rewrite Sk. split; [left; reflexivity|exact N]. }
  exact (G (List.length layers) O layers eq_refl).
Qed.
Print Assumptions no_insets_panics.

(** *** examples: strips, printed with the default options *)
Definition bar (a b : Z) : part := Part [Pt a 0; Pt b 0] [].
Definition plain_layer (ps : list part) : layer := Layer (Some ps) None.
(** a bar which gets longer on the top layer *)
Definition ledge : list layer := [plain_layer [bar 0 20000]; plain_layer [bar 0 20000]; plain_layer [bar 0 20000]; plain_layer [bar 0 20000]; plain_layer [bar 0 30000]].
Definition three (o : options) (layers : list layer) : res (list layer) :=
  let* l1 := PerimeterModify strip_lib o layers in let* l2 := InfillModify strip_lib o l1 in InternalInfillModify strip_lib o l2.
Example ledge_ex : exists l, (let* ls := three DefaultOptions ledge in idx ls 4) = Ok l /\
  Perimeters l = Ok [[[bar 200 29800]; [bar 600 29400]]] /\ OverlapPerimeters l = Ok [[bar 700 29300]] /\
  PartsAttribute l "bottom" = Ok [bar 19300 29300] /\ PartsAttribute l "top" = Ok [bar 700 19300] /\ PartsAttribute l "infill" = Ok [].
Proof. eexists. split; [vm_compute; reflexivity|]. vm_compute. repeat split; reflexivity. Qed.

(** *** C56 *)
(** Exactly the layers below the first one without parts get infill. *)
Theorem infill_stops : forall lib o layers l1 l2 l3, fresh ["bottom"; "top"; "infill"] layers ->
  PerimeterModify lib o layers = Ok l1 -> InfillModify lib o l1 = Ok l2 -> InternalInfillModify lib o l2 = Ok l3 ->
  forall n l', ~ filled layers n -> nth_error l3 n = Some l' -> attribute l' "bottom" = None /\ attribute l' "top" = None /\ attribute l' "infill" = None.
Proof. intros lib o layers l1 l2 l3 F H1 H2 H3. exact (no_infill lib o layers l1 l2 l3 H1 H2 H3 F). Qed.
Print Assumptions infill_stops.
(** an empty layer in between: nothing above it is filled, although it needs solid layers *)
Definition gap_layers : list layer := [plain_layer [bar 0 20000]; plain_layer []; plain_layer [bar 0 20000]].
Example gap_ex : exists l0 l2, (let* ls := three DefaultOptions gap_layers in let* a := idx ls 0 in let* b := idx ls 2 in Ok (a, b)) = Ok (l0, l2) /\
  PartsAttribute l0 "bottom" = Ok [bar 700 19300] /\ PartsAttribute l2 "bottom" = Ok [] /\ PartsAttribute l2 "top" = Ok [] /\ PartsAttribute l2 "infill" = Ok [].
Proof. eexists. eexists. split; [vm_compute; reflexivity|]. vm_compute. repeat split; reflexivity. Qed.

(** *** C54, C55, C67 *)
Section Stack.
Context {P : Type} (inside : path -> P -> bool).
Notation covered := (covered inside).
Notation proper := (proper inside).
Notation in_part := (in_part inside).
Variables (lib : clib) (o : options) (layers l1 l2 l3 : list layer).
Let w := ExtrusionWidth (Printer o).
Let overlap := InfillOverlapPercent (Print o).
Let full := add64 (InfillOverlapPercent (Print o)) (AdditionalInternalInfillOverlapPercent (Print o)).
(** the layers went through the first three modifiers *)
Record printed : Prop := Printed {
  pr_exact : exact inside lib;
  pr_fresh : fresh ["bottom"; "top"; "infill"] layers;
  pr_perimeter : PerimeterModify lib o layers = Ok l1;
  pr_infill : InfillModify lib o l1 = Ok l2;
  pr_internal : InternalInfillModify lib o l2 = Ok l3;
  pr_overlap : amount_ok w overlap /\ 0 <= amount w overlap;
  pr_full : amount_ok w full }.
Hypothesis Pr : printed.

Lemma borders_proper l l' pe ov : per_layer lib o l l' -> Perimeters l' = Ok pe -> OverlapPerimeters l' = Ok ov -> forall k e bd, nth_error pe k = Some e -> nth_error ov k = Some bd ->
  proper bd /\ forall x, covered bd x -> covered (last e []) x.
Proof.
  intros Hp Ep Eo k e bd Ek Eb. pose proof (inner_proper inside lib (pr_exact Pr) o l l' pe k e Hp Ep Ek) as Pi. destruct Hp as (pe' & ov' & Ep' & Eo' & _ & F2).
  rewrite Ep in Ep'. injection Ep' as <-. rewrite Eo in Eo'. injection Eo' as <-. destruct (f2_nth _ _ _ _ _ F2 Ek) as (bd' & Eb' & _ & Ov). rewrite Eb in Eb'. injection Eb' as <-.
  destruct (pr_overlap Pr) as (O1 & O2). destruct (shrink_proper inside lib (pr_exact Pr) o overlap (last e []) O1 O2 Pi) as (r & Er & Q & Hr). fold overlap in Ov. rewrite Ov in Er. injection Er as <-.
  split; [exact Q|]. intros x. exact (proj2 (Hr x)).
Qed.
Lemma border_in pe ov l l' bd : per_layer lib o l l' -> Perimeters l' = Ok pe -> OverlapPerimeters l' = Ok ov -> In bd ov -> proper bd.
Proof.
  intros Hp Ep Eo Ib. apply In_nth_error in Ib. destruct Ib as (k & Ek). pose proof Hp as (pe' & ov' & Ep' & Eo' & _ & F2). rewrite Ep in Ep'. injection Ep' as <-. rewrite Eo in Eo'. injection Eo' as <-.
  destruct (f2_nth_r _ _ _ _ _ F2 Ek) as (e & Ee & _). exact (proj1 (borders_proper l l' pe ov Hp Ep Eo k e bd Ee Ek)).
Qed.
(** C55: bottom, top and internal infill never overlap, stay inside the overlap borders and fill them. *)
Theorem infill_partition n : filled layers n -> exists l' ov bottom top internal, nth_error l3 n = Some l' /\ OverlapPerimeters l' = Ok ov /\
  PartsAttribute l' "bottom" = Ok bottom /\ PartsAttribute l' "top" = Ok top /\ PartsAttribute l' "infill" = Ok internal /\ forall x,
    ~ (covered bottom x /\ covered top x) /\ ~ (covered bottom x /\ covered internal x) /\ ~ (covered top x /\ covered internal x) /\
    (covered bottom x \/ covered top x \/ covered internal x -> exists border, In border ov /\ covered border x) /\
    (InfillPercent (Print o) <> 0 -> (exists border, In border ov /\ covered border x) -> covered bottom x \/ covered top x \/ covered internal x).
Proof.
  intros Fn. destruct (layer_spec inside lib (pr_exact Pr) o (pr_full Pr) layers l1 l2 l3 (pr_perimeter Pr) (pr_infill Pr) (pr_internal Pr) (pr_fresh Pr) n Fn)
    as (l & l' & pe & ov & bs & ts & is & El & El' & Ep & Eo & Hp & Eb & Et & Ei & Pb & Pt & Cb & Ct & Ci).
  exists l', ov, bs, ts, is. repeat (split; [assumption|]). intros x.
  assert (Bd : forall bd, In bd ov -> (par inside bd x = true <-> covered bd x)) by (intros bd Ib; apply par_proper; exact (border_in pe ov l l' bd Hp Ep Eo Ib)).
  split; [intros [A B]; exact (proj2 (proj1 (Ct x) B) A)|]. split; [intros [A B]; exact (proj1 (proj2 (proj2 (proj1 (Ci x) B))) A)|]. split; [intros [A B]; exact (proj2 (proj2 (proj2 (proj1 (Ci x) B))) A)|]. split.
  - intros [C|[C|C]].
    + apply Cb in C. destruct C as (j & e & bd & p & _ & Ebd & _ & _ & C). exists bd. pose proof (nth_error_In _ _ Ebd). split; [assumption|]. apply Bd; assumption.
    + apply Ct in C. destruct C as ((j & e & bd & p & _ & Ebd & _ & _ & C) & _). exists bd. pose proof (nth_error_In _ _ Ebd). split; [assumption|]. apply Bd; assumption.
    + apply Ci in C. destruct C as (_ & (bd & Ib & C) & _). exists bd. split; [exact Ib|]. apply Bd; assumption.
  - intros NZ (bd & Ib & C). destruct (par inside bs x) eqn:Xb; [left; apply par_proper; assumption|]. destruct (par inside ts x) eqn:Xt; [right; left; apply par_proper; assumption|].
    right. right. apply Ci. split; [exact NZ|]. split; [exists bd; split; [exact Ib|]; apply Bd; assumption|]. split; intros D; apply (par_proper inside) in D; try assumption; congruence.
Qed.

(** The layers as sliced have proper parts. *)
Hypothesis Hproper : forall l, In l layers -> proper (LayerParts l).
Lemma par_layer l x : In l l1 -> (par inside (LayerParts l) x = false <-> ~ covered (LayerParts l) x).
Proof.
  intros Il. rewrite <- not_true_iff_false. enough (Q : proper (LayerParts l)) by (rewrite (par_proper inside _ x Q); reflexivity).
  apply In_nth_error in Il. destruct Il as (k & Ek). destruct (keeps_nth _ _ _ _ _ (perimeter_keeps lib o layers l1 (pr_perimeter Pr)) Ek) as (m & Em & Ep & _).
  rewrite (LayerParts_eq l m Ep). apply Hproper. exact (nth_error_In _ _ Em).
Qed.
Lemma same_layer k l : nth_error l1 k = Some l -> exists m, nth_error layers k = Some m /\ LayerParts l = LayerParts m.
Proof. intros Ek. destruct (keeps_nth _ _ _ _ _ (perimeter_keeps lib o layers l1 (pr_perimeter Pr)) Ek) as (m & Em & Ep & _). exists m. split; [exact Em|]. apply LayerParts_eq, Ep. Qed.
Lemma same_layer_r k m : nth_error layers k = Some m -> exists l, nth_error l1 k = Some l /\ LayerParts l = LayerParts m.
Proof. intros Ek. destruct (keeps_nth_l _ _ _ _ _ (perimeter_keeps lib o layers l1 (pr_perimeter Pr)) Ek) as (l & El & Ep & _). exists l. split; [exact El|]. apply LayerParts_eq, Ep. Qed.
Lemma same_length : List.length l1 = List.length layers.
Proof. apply (keeps_length _ _ _ (perimeter_keeps lib o layers l1 (pr_perimeter Pr))). Qed.
(** what the two loops compute *)
Lemma below_area n p : (n < List.length layers)%nat -> proper [p] -> exists r, bottom_loop lib l1 (Z.of_nat n) p (Z.to_nat (NumberBottomLayers (Print o))) 0 [] = Ok r /\ proper r /\
  (r = [p] \/ r = [] \/ clip_result lib r) /\ forall x, covered r x <-> in_part p x /\ exposed_below inside layers n (NumberBottomLayers (Print o)) x.
Proof.
  intros Hn Pp. rewrite <- same_length in Hn. destruct (bottom_ok inside lib (pr_exact Pr) l1 n p Hn (Z.to_nat (NumberBottomLayers (Print o))) 0 [] (area_nil inside lib p)) as (r & Er & (S & Q) & H).
  exists r. split; [exact Er|]. specialize (Q (proper_part_one inside p Pp)). split; [exact Q|]. split; [exact S|]. intros x. rewrite <- (par_proper inside r x Q), H, par_nil, par_one, (proper_part_parity inside p x (proper_part_one inside p Pp)). split.
  - intros [C|(Hi & j & Hj & D)]; [discriminate|]. split; [exact Hi|]. exists j. split; [lia|]. destruct D as [->|(l & Hl & El & Pl)]; [left; reflexivity|]. right.
    destruct (same_layer _ _ El) as (m & Em & Lm). exists m. split; [exact Hl|]. split; [exact Em|]. rewrite <- Lm. apply par_layer; [exact (nth_error_In _ _ El)|exact Pl].
  - intros (Hi & j & Hj & D). right. split; [exact Hi|]. exists j. split; [lia|]. destruct D as [->|(m & Hl & Em & Pm)]; [left; reflexivity|]. right.
    destruct (same_layer_r _ _ Em) as (l & El & Lm). exists l. split; [exact Hl|]. split; [exact El|]. apply par_layer; [exact (nth_error_In _ _ El)|]. rewrite Lm. exact Pm.
Qed.
Lemma above_area n p : (n < List.length layers)%nat -> proper [p] -> exists r, top_loop lib l1 (Z.of_nat n) p (Z.to_nat (NumberTopLayers (Print o))) 0 [] = Ok r /\ proper r /\
  (r = [p] \/ r = [] \/ clip_result lib r) /\ forall x, covered r x <-> in_part p x /\ exposed_above inside layers n (NumberTopLayers (Print o)) x.
Proof.
  intros Hn Pp. rewrite <- same_length in Hn. destruct (top_ok inside lib (pr_exact Pr) l1 n p Hn (Z.to_nat (NumberTopLayers (Print o))) 0 [] (area_nil inside lib p)) as (r & Er & (S & Q) & H).
  exists r. split; [exact Er|]. specialize (Q (proper_part_one inside p Pp)). split; [exact Q|]. split; [exact S|]. intros x. rewrite <- (par_proper inside r x Q), H, par_nil, par_one, (proper_part_parity inside p x (proper_part_one inside p Pp)), same_length. split.
  - intros [C|(Hi & j & Hj & D)]; [discriminate|]. split; [exact Hi|]. exists j. split; [lia|]. destruct D as [D|(l & El & Pl)]; [left; exact D|]. right.
    destruct (same_layer _ _ El) as (m & Em & Lm). exists m. split; [exact Em|]. rewrite <- Lm. apply par_layer; [exact (nth_error_In _ _ El)|exact Pl].
  - intros (Hi & j & Hj & D). right. split; [exact Hi|]. exists j. split; [lia|]. destruct D as [D|(m & Em & Pm)]; [left; exact D|]. right.
    destruct (same_layer_r _ _ Em) as (l & El & Lm). exists l. split; [exact El|]. apply par_layer; [exact (nth_error_In _ _ El)|]. rewrite Lm. exact Pm.
Qed.
Lemma filled_length n : filled layers n -> (n < List.length layers)%nat.
Proof. intros F. destruct (F n (le_n n)) as (l & El & _). apply nth_error_Some. congruence. Qed.
Lemma spread_area loop n p count r : amount w full <= 0 -> proper r -> loop l1 (Z.of_nat n) p (Z.to_nat count) 0 [] = Ok r -> apart inside lib (amount w full) r ->
  forall x, covered r x -> solid_area inside lib o loop l1 n p count x.
Proof.
  intros Ha Q Er Ap x (q & Iq & Hq). unfold solid_area. destruct (overlap_ok inside lib (pr_exact Pr) o full r (pr_full Pr)) as (e & Ee & He & _). exists r, e. split; [exact Er|]. split; [exact Ee|].
  rewrite He. apply (proj2 (xor_one _ _ (Ap x))). exists q. split; [exact Iq|]. apply (moved_grow inside lib (pr_exact Pr)); [exact Ha|]. apply proper_part_parity; [exact (proj1 Q q Iq)|exact Hq].
Qed.
Lemma apart_small r p : amount w full <= 0 -> r = [p] \/ r = [] -> apart inside lib (amount w full) r.
Proof. intros _ [->| ->] x; cbn [at_most_one]; [split; [intros _ b []|exact I]|exact I]. Qed.

(** C54: The whole area of an innermost perimeter that is exposed to below and lies in the overlap border is solid,
    provided the pieces of that area do not overlap each other after they are enlarged. *)
Theorem solid_bottom n k l' pe ov e border p x : filled layers n -> amount w full <= 0 ->
  nth_error l3 n = Some l' -> Perimeters l' = Ok pe -> OverlapPerimeters l' = Ok ov -> nth_error pe k = Some e -> nth_error ov k = Some border -> In p (last e []) ->
  (forall r, clip_result lib r -> (forall y, covered r y <-> in_part p y /\ exposed_below inside layers n (NumberBottomLayers (Print o)) y) -> apart inside lib (amount w full) r) ->
  in_part p x -> covered border x -> exposed_below inside layers n (NumberBottomLayers (Print o)) x ->
  exists bottom, PartsAttribute l' "bottom" = Ok bottom /\ covered bottom x.
Proof.
  intros Fn Ha El' Ep Eo Ek Ebd Ip Hap Hin Hbd Hex.
  destruct (layer_spec inside lib (pr_exact Pr) o (pr_full Pr) layers l1 l2 l3 (pr_perimeter Pr) (pr_infill Pr) (pr_internal Pr) (pr_fresh Pr) n Fn)
    as (l & l'' & pe' & ov' & bs & ts & is & El & El'' & Ep' & Eo' & Hp & Eb & Et & Ei & Pb & Pt & Cb & Ct & Ci).
  rewrite El' in El''. injection El'' as <-. rewrite Ep in Ep'. injection Ep' as <-. rewrite Eo in Eo'. injection Eo' as <-.
  exists bs. split; [exact Eb|]. apply Cb. exists k, e, border, p. split; [exact Ek|]. split; [exact Ebd|]. split; [exact Ip|].
  pose proof (inner_proper inside lib (pr_exact Pr) o l l' pe k e Hp Ep Ek) as Pi. pose proof (proper_in inside p _ Pi Ip) as Pp.
  destruct (below_area n p (filled_length n Fn) Pp) as (r & Er & Q & S & Hr). split.
  - apply (spread_area (bottom_loop lib) n p (NumberBottomLayers (Print o)) r Ha Q Er); [|apply Hr; auto].
    destruct S as [S|[S|S]]; [apply (apart_small r p Ha); auto|apply (apart_small r p Ha); auto|exact (Hap r S Hr)].
  - apply par_proper; [|exact Hbd]. exact (proj1 (borders_proper l l' pe ov Hp Ep Eo k e border Ek Ebd)).
Qed.
Theorem solid_top n k l' pe ov e border p x : filled layers n -> amount w full <= 0 ->
  nth_error l3 n = Some l' -> Perimeters l' = Ok pe -> OverlapPerimeters l' = Ok ov -> nth_error pe k = Some e -> nth_error ov k = Some border -> In p (last e []) ->
  (forall r, clip_result lib r -> (forall y, covered r y <-> in_part p y /\ exposed_above inside layers n (NumberTopLayers (Print o)) y) -> apart inside lib (amount w full) r) ->
  in_part p x -> covered border x -> exposed_above inside layers n (NumberTopLayers (Print o)) x ->
  exists bottom top, PartsAttribute l' "bottom" = Ok bottom /\ PartsAttribute l' "top" = Ok top /\ (covered top x \/ covered bottom x).
Proof.
  intros Fn Ha El' Ep Eo Ek Ebd Ip Hap Hin Hbd Hex.
  destruct (layer_spec inside lib (pr_exact Pr) o (pr_full Pr) layers l1 l2 l3 (pr_perimeter Pr) (pr_infill Pr) (pr_internal Pr) (pr_fresh Pr) n Fn)
    as (l & l'' & pe' & ov' & bs & ts & is & El & El'' & Ep' & Eo' & Hp & Eb & Et & Ei & Pb & Pt & Cb & Ct & Ci).
  rewrite El' in El''. injection El'' as <-. rewrite Ep in Ep'. injection Ep' as <-. rewrite Eo in Eo'. injection Eo' as <-.
  exists bs, ts. split; [exact Eb|]. split; [exact Et|]. destruct (par inside bs x) eqn:Xb; [right; apply par_proper; assumption|left].
  apply Ct. split; [|intros C; apply (par_proper inside) in C; [congruence|exact Pb]]. exists k, e, border, p. split; [exact Ek|]. split; [exact Ebd|]. split; [exact Ip|].
  pose proof (inner_proper inside lib (pr_exact Pr) o l l' pe k e Hp Ep Ek) as Pi. pose proof (proper_in inside p _ Pi Ip) as Pp.
  destruct (above_area n p (filled_length n Fn) Pp) as (r & Er & Q & S & Hr). split.
  - apply (spread_area (top_loop lib) n p (NumberTopLayers (Print o)) r Ha Q Er); [|apply Hr; auto].
    destruct S as [S|[S|S]]; [apply (apart_small r p Ha); auto|apply (apart_small r p Ha); auto|exact (Hap r S Hr)].
  - apply par_proper; [|exact Hbd]. exact (proj1 (borders_proper l l' pe ov Hp Ep Eo k e border Ek Ebd)).
Qed.
(** Without additional overlap only exposed areas become solid. *)
Theorem solid_only_exposed n l' pe ov bottom top x : filled layers n -> amount w full = 0 ->
  nth_error l3 n = Some l' -> Perimeters l' = Ok pe -> OverlapPerimeters l' = Ok ov -> PartsAttribute l' "bottom" = Ok bottom -> PartsAttribute l' "top" = Ok top ->
  (covered bottom x -> exists k e border p, nth_error pe k = Some e /\ nth_error ov k = Some border /\ In p (last e []) /\ in_part p x /\ covered border x /\ exposed_below inside layers n (NumberBottomLayers (Print o)) x) /\
  (covered top x -> exists k e border p, nth_error pe k = Some e /\ nth_error ov k = Some border /\ In p (last e []) /\ in_part p x /\ covered border x /\ exposed_above inside layers n (NumberTopLayers (Print o)) x).
Proof.
  intros Fn Ha El' Ep Eo Eb0 Et0.
  destruct (layer_spec inside lib (pr_exact Pr) o (pr_full Pr) layers l1 l2 l3 (pr_perimeter Pr) (pr_infill Pr) (pr_internal Pr) (pr_fresh Pr) n Fn)
    as (l & l'' & pe' & ov' & bs & ts & is & El & El'' & Ep' & Eo' & Hp & Eb & Et & Ei & Pb & Pt & Cb & Ct & Ci).
  rewrite El' in El''. injection El'' as <-. rewrite Ep in Ep'. injection Ep' as <-. rewrite Eo in Eo'. injection Eo' as <-. rewrite Eb0 in Eb. injection Eb as ->. rewrite Et0 in Et. injection Et as ->.
  assert (X : forall loop count r k e p, nth_error pe k = Some e -> In p (last e []) -> loop l1 (Z.of_nat n) p (Z.to_nat count) 0 [] = Ok r -> proper r -> solid_area inside lib o loop l1 n p count x -> covered r x).
  { intros loop count r k e p Ek Ip Er Q (r' & e' & Er' & Ee & He). rewrite Er in Er'. injection Er' as <-.
    destruct (overlap_ok inside lib (pr_exact Pr) o full r (pr_full Pr)) as (e2 & Ee2 & He2 & _). change (add64 (InfillOverlapPercent (Print o)) (AdditionalInternalInfillOverlapPercent (Print o))) with full in Ee.
    rewrite Ee in Ee2. injection Ee2 as <-. rewrite He2 in He. change (ExtrusionWidth (Printer o)) with w in He. rewrite Ha in He.
    assert (A : at_most_one (fun q => moved inside lib 0 q x = true) r).
    { destruct Q as [Q1 Q2]. specialize (Q2 x). clear - Q1 Q2. induction r as [|q r IH]; [exact I|]. cbn [at_most_one] in *. destruct Q2 as [A B]. split; [|apply IH; [intros q' I'; apply Q1; right; exact I'|exact B]].
      intros M b Ib Mb. apply (A (proj1 (proper_part_parity inside q x (Q1 q (or_introl eq_refl))) M) b Ib). exact (proj1 (proper_part_parity inside b x (Q1 b (or_intror Ib))) Mb). }
    apply (xor_one _ _ A) in He. destruct He as (q & Iq & M). exists q. split; [exact Iq|]. exact (proj1 (proper_part_parity inside q x (proj1 Q q Iq)) M). }
  split.
  - intros C. apply Cb in C. destruct C as (k & e & bd & p & Ek & Ebd & Ip & S & Hb). exists k, e, bd, p. repeat (split; [assumption|]).
    pose proof (inner_proper inside lib (pr_exact Pr) o l l' pe k e Hp Ep Ek) as Pi. pose proof (proper_in inside p _ Pi Ip) as Pp.
    destruct (below_area n p (filled_length n Fn) Pp) as (r & Er & Q & _ & Hr). pose proof (proj1 (Hr x) (X _ _ r k e p Ek Ip Er Q S)) as (H1 & H2). split; [exact H1|]. split; [|exact H2].
    apply par_proper; [exact (proj1 (borders_proper l l' pe ov Hp Ep Eo k e bd Ek Ebd))|exact Hb].
  - intros C. apply Ct in C. destruct C as ((k & e & bd & p & Ek & Ebd & Ip & S & Hb) & _). exists k, e, bd, p. repeat (split; [assumption|]).
    pose proof (inner_proper inside lib (pr_exact Pr) o l l' pe k e Hp Ep Ek) as Pi. pose proof (proper_in inside p _ Pi Ip) as Pp.
    destruct (above_area n p (filled_length n Fn) Pp) as (r & Er & Q & _ & Hr). pose proof (proj1 (Hr x) (X _ _ r k e p Ek Ip Er Q S)) as (H1 & H2). split; [exact H1|]. split; [|exact H2].
    apply par_proper; [exact (proj1 (borders_proper l l' pe ov Hp Ep Eo k e bd Ek Ebd))|exact Hb].
Qed.
(** C67: perimeters and infill never leave the layer's parts. *)
Theorem print_inside_model n l l' : 0 <= w <= 2 ^ 30 -> InsetCount (Print o) <= 2 ^ 20 -> nth_error layers n = Some l -> nth_error l3 n = Some l' ->
  (forall pe e wall p x, Perimeters l' = Ok pe -> In e pe -> In wall e -> In p wall -> in_part p x -> covered (LayerParts l) x) /\
  (forall name ps x, In name ["bottom"; "top"; "infill"] -> PartsAttribute l' name = Ok ps -> covered ps x -> covered (LayerParts l) x).
Proof.
  intros Hw Hc El El'. pose proof (perimeter_structure lib o layers l1 (pr_perimeter Pr) Hw Hc) as F.
  assert (K2 := infill_keeps_all lib o l1 l2 (pr_infill Pr)). assert (K3 := internal_keeps_all lib o l2 l3 (pr_internal Pr)).
  destruct (keeps_nth _ _ _ _ _ K3 El') as (b & Eb & _ & Ab). destruct (keeps_nth _ _ _ _ _ K2 Eb) as (a & Ea & _ & Aa). destruct (f2_nth _ _ _ _ _ F El) as (a' & Ea' & pe & ov & Ep & Eo & Lp & Lo & G). rewrite Ea in Ea'. injection Ea' as <-.
  assert (Ep' : Perimeters l' = Ok pe) by (rewrite (perimeters_eq b l'), (perimeters_eq a b); [exact Ep|apply Aa; cbn; intuition discriminate|apply Ab; cbn; intuition discriminate]).
  assert (W : forall e wall p x, In e pe -> In wall e -> In p wall -> in_part p x -> covered (LayerParts l) x).
  { intros e wall p x Ie Iw Ip Hx. apply In_nth_error in Ie. destruct Ie as (i & Ei). destruct (nth_error (LayerParts l) i) as [q|] eqn:Eq; [|apply nth_error_None in Eq; assert (i < List.length pe)%nat by (apply nth_error_Some; congruence); lia].
    destruct (G i q e Eq Ei) as (_ & Gk). apply In_nth_error in Iw. destruct Iw as (k & Ek). assert (Ix : idx e (Z.of_nat k) = Ok wall) by (rewrite idx_nth, Ek; reflexivity). specialize (Gk _ _ Ix).
    destruct (offset_ok inside lib (pr_exact Pr) (f64_of_Z (- (w / 2) - Z.of_nat k * w)) q) as (r & Er & Q & Hr). unfold w in Gk. fold w in Gk. rewrite Gk in Er. injection Er as <-.
    assert (C : covered wall x) by (exists p; auto). apply (par_proper inside wall x Q) in C. rewrite Hr in C.
    apply (exact_shrink inside lib (pr_exact Pr)) in C; [|pose proof (Z.div_pos w 2); nia]. exists q. pose proof (nth_error_In _ _ Eq) as Iq. split; [exact Iq|].
    apply proper_part_parity; [|exact C]. exact (proj1 (Hproper l (nth_error_In _ _ El)) q Iq). }
  split; [intros pe' e wall p x Ep''; rewrite Ep' in Ep''; injection Ep'' as <-; apply W|].
  assert (FD : filled layers n \/ ~ filled layers n).
  { destruct (infill_stop lib o layers l1 l2 (pr_perimeter Pr) (pr_infill Pr)) as (stop & _ & St). rewrite <- St. destruct (Nat.lt_ge_cases n stop); [left; assumption|right; lia]. }
  destruct FD as [Fn|Nf].
  - intros name ps x In_ Eps C. destruct (infill_partition n Fn) as (m & ov' & bs & ts & is & Em & Eo' & Eb' & Et' & Ei' & H). rewrite El' in Em. injection Em as <-. destruct (H x) as (_ & _ & _ & Hb & _).
    assert (Cx : covered bs x \/ covered ts x \/ covered is x).
    { destruct In_ as [<-|[<-|[<-|[]]]]; [rewrite Eb' in Eps|rewrite Et' in Eps|rewrite Ei' in Eps]; injection Eps as ->; auto. }
    destruct (Hb Cx) as (bd & Ibd & Cbd). apply In_nth_error in Ibd. destruct Ibd as (k & Ek).
    destruct (layer_spec inside lib (pr_exact Pr) o (pr_full Pr) layers l1 l2 l3 (pr_perimeter Pr) (pr_infill Pr) (pr_internal Pr) (pr_fresh Pr) n Fn)
      as (l0 & l'' & pe' & ov'' & _ & _ & _ & El0 & El'' & Ep'' & Eo'' & Hp & _). rewrite El' in El''. injection El'' as <-. rewrite Eo' in Eo''. injection Eo'' as <-. rewrite Ep' in Ep''. injection Ep'' as <-.
    pose proof Hp as (pe2 & ov2 & Q1 & Q2 & _ & F2). rewrite Ep' in Q1. injection Q1 as <-. rewrite Eo' in Q2. injection Q2 as <-. destruct (f2_nth_r _ _ _ _ _ F2 Ek) as (e & Ee & Ne & _).
    destruct (borders_proper l0 l' pe ov' Hp Ep' Eo' k e bd Ee Ek) as (_ & Sub). destruct (Sub x Cbd) as (p & Ip & Hx). exact (W e (last e []) p x (nth_error_In _ _ Ee) (last_in e [] Ne) Ip Hx).
  - intros name ps x In_ Eps C. destruct (no_infill lib o layers l1 l2 l3 (pr_perimeter Pr) (pr_infill Pr) (pr_internal Pr) (pr_fresh Pr) n l' Nf El') as (N1 & N2 & N3).
    unfold PartsAttribute in Eps. assert (N : attribute l' name = None) by (destruct In_ as [<-|[<-|[<-|[]]]]; assumption). rewrite N in Eps. injection Eps as <-. destruct (covered_nil inside x C).
Qed.
End Stack.
Print Assumptions infill_partition.
Print Assumptions solid_bottom.
Print Assumptions solid_top.
Print Assumptions solid_only_exposed.
Print Assumptions print_inside_model.

(** the ledge meets all the assumptions *)
Lemma bar_proper a b : proper in_strips [bar a b].
Proof. apply proper_one. intros x. split; [intros h []|exact I]. Qed.
Lemma bar_covered a b x : a < b -> (covered in_strips [bar a b] x <-> a <= x < b).
Proof. intros H. rewrite <- (strip_in_part (a, b) x H). split; [intros (p & [<-|[]] & C); exact C|intros C; exists (bar a b); split; [left; reflexivity|exact C]]. Qed.
Definition layers_of (r : res (list layer)) : list layer := match r with Ok l => l | _ => [] end.
Definition ledge1 := Eval vm_compute in layers_of (PerimeterModify strip_lib DefaultOptions ledge).
Definition ledge2 := Eval vm_compute in layers_of (InfillModify strip_lib DefaultOptions ledge1).
Definition ledge3 := Eval vm_compute in layers_of (InternalInfillModify strip_lib DefaultOptions ledge2).
Lemma ledge_fresh : fresh ["bottom"; "top"; "infill"] ledge.
Proof. repeat constructor. Qed.
Lemma ledge_printed : printed in_strips strip_lib DefaultOptions ledge ledge1 ledge2 ledge3.
Proof.
  split; [exact strip_exact|exact ledge_fresh|vm_compute; reflexivity|vm_compute; reflexivity|vm_compute; reflexivity| |];
    vm_compute; intuition discriminate.
Qed.
Lemma ledge_filled : filled ledge 4.
Proof. intros i Hi. do 5 (destruct i as [|i]; [eexists; split; [reflexivity|discriminate]|]). lia. Qed.
Lemma ledge_proper l : In l ledge -> proper in_strips (LayerParts l).
Proof. intros H. repeat (destruct H as [<-|H]; [apply bar_proper|]). destruct H. Qed.
Lemma ledge_exposed x : in_part in_strips (bar 600 29400) x /\ exposed_below in_strips ledge 4 3 x <-> 20000 <= x < 29400.
Proof.
  unfold bar at 1. rewrite (strip_in_part (600, 29400) x) by reflexivity. cbn [fst snd]. split.
  - intros (H & i & Hi & [E|(l & Hl & El & N)]); [lia|]. do 3 (destruct i as [|i]; [injection El as <-; change (LayerParts _) with [bar 0 20000] in N; rewrite bar_covered in N by lia; lia|]). lia.
  - intros H. split; [lia|]. exists O. split; [lia|]. right. exists (plain_layer [bar 0 20000]). split; [lia|]. split; [reflexivity|]. change (LayerParts _) with [bar 0 20000]. rewrite bar_covered by lia. lia.
Qed.
Example solid_bottom_ex : forall x, 20000 <= x < 29300 -> exists bottom, (let* l := idx ledge3 4 in PartsAttribute l "bottom") = Ok bottom /\ covered in_strips bottom x.
Proof.
  intros x Hx. refine (solid_bottom in_strips strip_lib DefaultOptions ledge ledge1 ledge2 ledge3 ledge_printed ledge_proper 4 0 _ _ _ _ [bar 700 29300] (bar 600 29400) x ledge_filled _ eq_refl eq_refl eq_refl eq_refl eq_refl _ _ _ _ _).
  - vm_compute. discriminate.
  - left. reflexivity.
  - intros r Hr Cr. change (NumberBottomLayers (Print DefaultOptions)) with 3 in Cr. destruct (strip_convex r Hr) as [->|(p & ->)].
    + intros a b c Habc. rewrite !Cr, !ledge_exposed. lia.
    + intros y. exact I.
    + intros y. split; [intros _ q []|exact I].
  - apply ledge_exposed. lia.
  - apply bar_covered; lia.
  - apply (ledge_exposed x). lia.
Qed.
(** so do a single layer and the layer on top *)
Example solid_top_ex : forall x, 700 <= x < 29300 -> exists bottom top, (let* l := idx ledge3 4 in PartsAttribute l "bottom") = Ok bottom /\ (let* l := idx ledge3 4 in PartsAttribute l "top") = Ok top /\ (covered in_strips top x \/ covered in_strips bottom x).
Proof.
  intros x Hx. assert (Ex : forall y, exposed_above in_strips ledge 4 4 y) by (intros y; exists O; split; [lia|left; reflexivity]).
  refine (solid_top in_strips strip_lib DefaultOptions ledge ledge1 ledge2 ledge3 ledge_printed ledge_proper 4 0 _ _ _ _ [bar 700 29300] (bar 600 29400) x ledge_filled _ eq_refl eq_refl eq_refl eq_refl eq_refl _ _ _ _ _).
  - vm_compute. discriminate.
  - left. reflexivity.
  - intros r Hr Cr. change (NumberTopLayers (Print DefaultOptions)) with 4 in Cr. assert (Cb : forall y, covered in_strips r y <-> 600 <= y < 29400).
    { intros y. rewrite Cr. unfold bar. rewrite (strip_in_part (600, 29400) y) by reflexivity. cbn [fst snd]. specialize (Ex y). tauto. }
    destruct (strip_convex r Hr) as [->|(p & ->)].
    + intros a b c Habc. rewrite !Cb. lia.
    + intros y. exact I.
    + intros y. split; [intros _ q []|exact I].
  - unfold bar. apply (strip_in_part (600, 29400)); cbn [fst snd]; lia.
  - apply bar_covered; lia.
  - apply Ex.
Qed.

(** The condition about the pieces is needed. With the default options the two exposed sides of a narrow rib are
    enlarged by 700 micrometer, overlap each other above the rib, and what lies in both is left out: 19900 is exposed
    to below and not solid. *)
Definition rib : list layer := [plain_layer [bar 0 30000]; plain_layer [bar 0 30000]; plain_layer [bar 20000 20500]; plain_layer [bar 0 30000]].
Theorem solid_bottom_refuted : exists (layers l1 l2 l3 : list layer) (n k : nat) l' pe ov e border p x, 
  printed in_strips strip_lib DefaultOptions layers l1 l2 l3 /\ (forall l, In l layers -> proper in_strips (LayerParts l)) /\ filled layers n /\
  nth_error l3 n = Some l' /\ Perimeters l' = Ok pe /\ OverlapPerimeters l' = Ok ov /\ nth_error pe k = Some e /\ nth_error ov k = Some border /\ In p (last e []) /\
  in_part in_strips p x /\ covered in_strips border x /\ exposed_below in_strips layers n (NumberBottomLayers (Print DefaultOptions)) x /\
  ~ exists bottom, PartsAttribute l' "bottom" = Ok bottom /\ covered in_strips bottom x.
Proof.
  exists rib, (layers_of (PerimeterModify strip_lib DefaultOptions rib)), (layers_of (let* a := PerimeterModify strip_lib DefaultOptions rib in InfillModify strip_lib DefaultOptions a)), (layers_of (three DefaultOptions rib)), 3%nat, 0%nat.
  eexists. eexists. eexists. eexists. exists [bar 700 29300], (bar 600 29400), 19900. split; [|split; [|split]].
  - split; [exact strip_exact|repeat constructor|vm_compute; reflexivity|vm_compute; reflexivity|vm_compute; reflexivity| |]; vm_compute; intuition discriminate.
  - intros l H. repeat (destruct H as [<-|H]; [apply bar_proper|]). destruct H.
  - intros i Hi. do 4 (destruct i as [|i]; [eexists; split; [reflexivity|discriminate]|]). lia.
  - split; [vm_compute; reflexivity|]. split; [vm_compute; reflexivity|]. split; [vm_compute; reflexivity|]. split; [vm_compute; reflexivity|]. split; [vm_compute; reflexivity|].
    split; [left; reflexivity|]. split; [apply (strip_in_part (600, 29400)); cbn [fst snd]; lia|]. split; [apply bar_covered; lia|]. split.
    + exists O. split; [reflexivity|]. right. exists (plain_layer [bar 20000 20500]). split; [lia|]. split; [reflexivity|]. change (LayerParts _) with [bar 20000 20500]. rewrite bar_covered by lia. lia.
    + intros (bottom & Eb & p & Ip & Hp). vm_compute in Eb. injection Eb as <-. destruct Ip as [<-|[<-|[]]]; vm_compute in Hp; destruct Hp; discriminate.
Qed.
Print Assumptions solid_bottom_refuted.

(** the other theorems on the ledge *)
Example infill_partition_ex : exists l' ov bottom top internal, nth_error ledge3 4 = Some l' /\ OverlapPerimeters l' = Ok ov /\ PartsAttribute l' "bottom" = Ok bottom /\ PartsAttribute l' "top" = Ok top /\ PartsAttribute l' "infill" = Ok internal /\
  bottom <> [] /\ top <> [] /\ forall x, (exists border, In border ov /\ covered in_strips border x) -> covered in_strips bottom x \/ covered in_strips top x \/ covered in_strips internal x.
Proof.
  destruct (infill_partition in_strips strip_lib DefaultOptions ledge ledge1 ledge2 ledge3 ledge_printed 4 ledge_filled) as (l' & ov & b & t & i & H1 & H2 & H3 & H4 & H5 & H).
  exists l', ov, b, t, i. repeat (split; [assumption|]). injection H1 as <-. injection H3 as <-. injection H4 as <-. split; [discriminate|]. split; [discriminate|]. intros x Hx. apply (H x); [discriminate|exact Hx].
Qed.
Example print_inside_model_ex : forall x, covered in_strips [bar 19300 29300] x -> covered in_strips [bar 0 30000] x.
Proof.
  intros x. destruct (print_inside_model in_strips strip_lib DefaultOptions ledge ledge1 ledge2 ledge3 ledge_printed ledge_proper 4 _ _ ltac:(vm_compute; intuition discriminate) ltac:(vm_compute; discriminate) eq_refl eq_refl) as (_ & H).
  apply (H "bottom" [bar 19300 29300] x); [left; reflexivity|reflexivity].
Qed.
(** without additional overlap *)
Definition with_print (f : print_options -> print_options) (o : options) : options := Options (Slicing o) (Printer o) (Filament o) (f (Print o)) (GoSlice o).
Definition tight : options := with_print (fun p => PrintOptions (IntialLayerSpeed p) (LayerSpeed p) (OuterPerimeterSpeed p) (MoveSpeed p) (InitialLayerThickness p) (LayerThickness p) (InsetCount p)
  50 50 (InfillPercent p) (InfillRotationDegree p) (InfillZigZag p) (NumberBottomLayers p) (NumberTopLayers p) (Support p) (BrimSkirt p)) DefaultOptions.
Definition ledge1' := Eval vm_compute in layers_of (PerimeterModify strip_lib tight ledge).
Definition ledge2' := Eval vm_compute in layers_of (InfillModify strip_lib tight ledge1').
Definition ledge3' := Eval vm_compute in layers_of (InternalInfillModify strip_lib tight ledge2').
Lemma ledge_printed' : printed in_strips strip_lib tight ledge ledge1' ledge2' ledge3'.
Proof.
  split; [exact strip_exact|exact ledge_fresh|vm_compute; reflexivity|vm_compute; reflexivity|vm_compute; reflexivity| |];
    vm_compute; intuition discriminate.
Qed.
Example solid_only_exposed_ex : exists l', nth_error ledge3' 4 = Some l' /\ PartsAttribute l' "bottom" = Ok [bar 20000 29300] /\ forall x, covered in_strips [bar 20000 29300] x -> exposed_below in_strips ledge 4 3 x.
Proof.
  eexists. split; [reflexivity|]. split; [reflexivity|]. intros x C.
  destruct (solid_only_exposed in_strips strip_lib tight ledge ledge1' ledge2' ledge3' ledge_printed' ledge_proper 4 _ _ _ [bar 20000 29300] _ x ledge_filled eq_refl eq_refl eq_refl eq_refl eq_refl eq_refl) as (H & _).
  destruct (H C) as (k & e & bd & p & _ & _ & _ & _ & _ & R). exact R.
Qed.

(** *** C51: the brim *)
Theorem brim_disabled : forall lib o layers, s_BrimCount (BrimSkirt (Print o)) = 0 -> BrimModify lib o layers = Ok layers.
Proof. intros lib o layers H. unfold BrimModify. rewrite H. reflexivity. Qed.
Theorem brim_only_first_layer : forall lib o layers layers', BrimModify lib o layers = Ok layers' -> skipn 1 layers' = skipn 1 layers.
Proof. intros lib o layers layers' H. exact (proj2 (brim_keeps lib o layers layers' H)). Qed.
(** Around each outermost contour of the first layer's perimeters there are BrimCount lines, the k-th one
    (k + 1) * width away from it.  The area of the brim is bounded by the last of these lines, half a width further out. *)
Theorem brim_lines : forall lib o layers layers' l pe tops,
  let w := ExtrusionWidth (Printer o) in let count := s_BrimCount (BrimSkirt (Print o)) in
  BrimModify lib o layers = Ok layers' -> 0 < count -> 0 <= w -> (count + 1) * w <= 2 ^ 53 ->
  nth_error layers 0 = Some l -> Perimeters l = Ok pe -> pe <> [] -> attribute l "outerBrim" = None ->
  TopLevelPolygons lib (flat_map (fun walls => flat_map (firstn 1) walls) pe) = Some tops -> tops <> [] ->
  exists l' brim areas, nth_error layers' 0 = Some l' /\ Brim l' = Ok brim /\
    Forall2 (fun top lines => Z.of_nat (List.length lines) = count /\
      forall k line, idx lines k = Ok line -> polyTreeToLayerParts (offset lib (f64_of_Z ((k + 1) * w)) [top]) = Ok line) tops brim /\
    Forall2 (fun p area => polyTreeToLayerParts (offset lib (f64_of_Z (w / 2)) (outline p :: holes p)) = Ok area) (flat_map (fun lines => last lines []) brim) areas /\
    BrimOuterDimension l' = Ok (concat areas).
Proof.
  intros lib o layers layers' l pe tops w count H Hc Hw Hb El Ep Np Fo Et Nt. unfold BrimModify in H. fold count w in H. destruct (Z.eqb_spec count 0); [lia|].
  change 0 with (Z.of_nat 0) in H. rewrite idx_nth, El in H. cbn [bind] in H. rewrite Ep in H. cbn [bind] in H.
  assert (Eo : outer_perimeters pe = flat_map (fun walls => flat_map (firstn 1) walls) pe).
  { unfold outer_perimeters. apply flat_map_ext. intros walls. apply flat_map_ext. intros [|x wall]; reflexivity. }
  rewrite Eo, Et in H. destruct pe as [|pe0 pe]; [contradiction|]. destruct tops as [|top tops]; [contradiction|]. cbn [map] in H.
  change (Part top [] :: map (fun p => Part p []) tops) with (map (fun p => Part p []) (top :: tops)) in H. set (ts := top :: tops) in *.
  assert (Wb : w <= 2 ^ 53) by nia. assert (W2 : 0 <= w / 2 <= w) by (split; [apply Z.div_pos; lia|apply Z.div_le_upper_bound; lia]).
  assert (Nw : neg64 w = - w) by (unfold neg64; apply wrap_id; unfold int64; lia).
  assert (Qw : quot64 w 2 = w / 2) by (unfold quot64; rewrite Z.quot_div_nonneg by lia; apply wrap_id; unfold int64; lia).
  rewrite Nw, Qw in H.
  destruct (inset_layer_spec lib (- w) count w ltac:(nia) ltac:(nia) (map (fun p => Part p []) ts)) as (brim & Eb & Fb). rewrite Eb in H. cbn [bind] in H.
  destruct (inset_layer_spec lib (- w) 1 (w / 2) ltac:(nia) ltac:(nia) (outer_lines brim)) as (outer & Eu & Fu). rewrite Eu in H. cbn [bind] in H.
  assert (F1 : Forall2 (fun top lines => Z.of_nat (List.length lines) = count /\ forall k line, idx lines k = Ok line -> polyTreeToLayerParts (offset lib (f64_of_Z ((k + 1) * w)) [top]) = Ok line) ts brim).
  { clear - Fb Hc Hw Hb. revert brim Fb. induction ts as [|t ts IH]; cbn [map]; intros brim Fb; inversion Fb as [|? lines ? brim' Hl Fb']; subst; constructor; [|exact (IH _ Fb')].
    destruct (inset_spec lib (Part t []) (- w) count w ltac:(nia) ltac:(nia)) as (ins & Ei & Li & Gi). rewrite Hl in Ei. injection Ei as ->. split; [lia|]. intros k line Ik. replace ((k + 1) * w) with (w - k * - w) by ring. exact (Gi k line Ik). }
  assert (F2 : exists areas, concat areas = ToOneDimension outer /\ Forall2 (fun p area => polyTreeToLayerParts (offset lib (f64_of_Z (w / 2)) (outline p :: holes p)) = Ok area) (outer_lines brim) areas).
  { unfold ToOneDimension. clear - Fu W2 Hb Hc Hw. induction Fu as [|p x ps outer Hx Fu (areas & Ea & Fa)]; [exists []; split; [reflexivity|constructor]|].
    destruct (inset_spec lib p (- w) 1 (w / 2) ltac:(nia) ltac:(nia)) as (ins & Ei & Li & Gi). rewrite Hx in Ei. injection Ei as ->. destruct ins as [|area [|]]; cbn [List.length] in Li; try lia.
    exists (area :: areas). cbn [concat app]. rewrite Ea. split; [reflexivity|]. constructor; [|exact Fa]. specialize (Gi 0 area eq_refl). rewrite Z.mul_0_l, Z.sub_0_r in Gi. exact Gi. }
  destruct F2 as (areas & Ea & Fa). destruct brim as [|lines brim]; [inversion F1|]. set (bm := lines :: brim) in *. fold bm in H.
  unfold put in H. destruct layers as [|l0 layers]; [discriminate|]. injection El as ->. cbn in H. injection H as <-.
  exists (set_parts "outerBrim" (ToOneDimension outer) (set_attribute "brim" (AOffset bm) (newExtendedLayer l))), bm, areas. split; [reflexivity|].
  split; [unfold Brim; rewrite lookup_parts, lookup_set; reflexivity|]. split; [exact F1|]. split; [exact Fa|]. rewrite Ea.
  unfold BrimOuterDimension, set_parts. destruct (ToOneDimension outer) as [|q qs]; [|rewrite lookup_set; reflexivity]. rewrite lookup_set, lookup_new. cbn. rewrite Fo. reflexivity.
Qed.
Print Assumptions brim_lines.
Definition brimmed : options := with_print (fun p => PrintOptions (IntialLayerSpeed p) (LayerSpeed p) (OuterPerimeterSpeed p) (MoveSpeed p) (InitialLayerThickness p) (LayerThickness p) 1
  50 50 (InfillPercent p) (InfillRotationDegree p) (InfillZigZag p) (NumberBottomLayers p) (NumberTopLayers p) (Support p) (BrimSkirtOptions 0 (c32 5 1) 2)) DefaultOptions.
Example brim_lines_ex : exists layers layers' l pe l', PerimeterModify strip_lib brimmed ledge = Ok layers /\ BrimModify strip_lib brimmed layers = Ok layers' /\
  nth_error layers 0 = Some l /\ Perimeters l = Ok pe /\ attribute l "outerBrim" = None /\ TopLevelPolygons strip_lib (flat_map (fun walls => flat_map (firstn 1) walls) pe) = Some [[Pt 200 0; Pt 19800 0]] /\
  nth_error layers' 0 = Some l' /\ Brim l' = Ok [[[bar (-200) 20200]; [bar (-600) 20600]]] /\ BrimOuterDimension l' = Ok [bar (-800) 20800].
Proof. do 5 eexists. split; [vm_compute; reflexivity|]. split; [vm_compute; reflexivity|]. split; [reflexivity|]. repeat (split; [vm_compute; reflexivity|]). vm_compute; reflexivity. Qed.
(** A brim needs a first layer: without layers the modifier panics. *)
Theorem brim_without_layers_panics : forall lib o, s_BrimCount (BrimSkirt (Print o)) <> 0 -> BrimModify lib o [] = Panic "index out of range".
Proof. intros lib o H. unfold BrimModify. destruct (Z.eqb_spec (s_BrimCount (BrimSkirt (Print o))) 0); [contradiction|]. reflexivity. Qed.
Print Assumptions brim_disabled.
Print Assumptions brim_only_first_layer.
Print Assumptions brim_without_layers_panics.

(** *** C68: with an exact clipping library and at least one inset the modifiers never fail *)
Lemma overlap_all_total lib o percent : forall ps, exists r, overlap_all lib o percent ps = Ok r.
Proof.
  induction ps as [|p ps (r & IH)]; cbn [overlap_all]; [eauto|]. unfold calculateOverlapPerimeter.
  destruct (negb _); [|cbn [bind]; rewrite IH; cbn [bind]; eauto].
  match goal with |- context [Inset lib p ?a 1 ?b] => destruct (inset_total lib p a 1 b) as (x & -> & L) end. destruct x as [|x [|]]; try discriminate. cbn [bind]. change (idx [x] 0) with (Ok x). cbn [bind]. rewrite IH. cbn [bind]. eauto.
Qed.
Lemma overlap_entries_total lib o : forall pe, (forall e, In e pe -> e <> []) -> exists r, overlap_entries lib o pe = Ok r.
Proof.
  induction pe as [|e pe IH]; intros H; cbn [overlap_entries]; [eauto|]. rewrite (idx_last e [] (H e (or_introl eq_refl))). cbn [bind].
  destruct (overlap_all_total lib o (InfillOverlapPercent (Print o)) (last e [])) as (x & ->). cbn [bind]. destruct IH as (r & ->); [intros e' I'; apply H; right; exact I'|]. cbn [bind]. eauto.
Qed.
Lemma perimeter_layer_total lib o l : 1 <= InsetCount (Print o) -> exists l', perimeter_layer lib o l = Ok l'.
Proof.
  intros Hc. unfold perimeter_layer. destruct (inset_layer_total lib (ExtrusionWidth (Printer o)) (InsetCount (Print o)) (quot64 (neg64 (ExtrusionWidth (Printer o))) 2) (LayerParts l)) as (pe & Ep). rewrite Ep. cbn [bind].
  destruct (overlap_entries_total lib o pe) as (ov & ->); [|cbn [bind]; eauto]. intros e Ie. apply inset_layer_f2 in Ep. apply In_nth_error in Ie. destruct Ie as (k & Ek).
  destruct (f2_nth_r _ _ _ _ _ Ep Ek) as (p & _ & Hi). destruct (inset_total lib p (ExtrusionWidth (Printer o)) (InsetCount (Print o)) (quot64 (neg64 (ExtrusionWidth (Printer o))) 2)) as (x & Ex & L).
  rewrite Hi in Ex. injection Ex as <-. intros ->. cbn in L. lia.
Qed.
Theorem perimeters_and_infill_succeed : forall (P : Type) (inside : path -> P -> bool) lib o layers, exact inside lib -> 1 <= InsetCount (Print o) ->
  amount_ok (ExtrusionWidth (Printer o)) (add64 (InfillOverlapPercent (Print o)) (AdditionalInternalInfillOverlapPercent (Print o))) ->
  fresh ["bottom"; "top"; "infill"] layers ->
  exists l1 l2 l3, PerimeterModify lib o layers = Ok l1 /\ InfillModify lib o l1 = Ok l2 /\ InternalInfillModify lib o l2 = Ok l3.
Proof.
  intros P inside lib o layers E Hc Hf F.
  assert (T1 : exists l1, PerimeterModify lib o layers = Ok l1).
  { unfold PerimeterModify. refine (local_total layers _ (fun _ l => let* l' := perimeter_layer lib o l in Ok (Some l')) _ _ _).
    - intros i cur _. exact (perimeter_local lib o i cur).
    - intros i l l' H. apply bind_Ok in H. destruct H as (l'' & H & [= <-]). unfold perimeter_layer in H. apply bind_Ok in H. destruct H as (pe & _ & H). apply bind_Ok in H. destruct H as (ov & _ & [= <-]). reflexivity.
    - intros i l _. destruct (perimeter_layer_total lib o l Hc) as (l' & ->). cbn [bind]. eauto. }
  destruct T1 as (l1 & H1). exists l1. pose proof (perimeter_spec lib o layers l1 H1) as F1. pose proof (perimeter_keeps lib o layers l1 H1) as K1.
  assert (L1 : forall i l, nth_error l1 i = Some l -> attribute l "bottom" = None /\ attribute l "top" = None /\ attribute l "infill" = None /\
    exists pe ov, Perimeters l = Ok pe /\ OverlapPerimeters l = Ok ov /\ List.length ov = List.length pe /\ forall e, In e pe -> e <> []).
  { intros i l El. destruct (keeps_nth _ _ _ _ _ K1 El) as (l0 & El0 & _ & Hk). unfold fresh in F. rewrite Forall_forall in F. specialize (F l0 (nth_error_In _ _ El0)).
    rewrite !Hk, !F by (cbn; intuition discriminate). repeat (split; [reflexivity|]). destruct (f2_nth_r _ _ _ _ _ F1 El) as (l0' & El0' & Hp).
    destruct (perimeter_layer_spec lib o l0' l Hp) as (pe & ov & Ep & Eo & _ & F2). exists pe, ov. split; [exact Ep|]. split; [exact Eo|]. pose proof (f2_len _ _ _ F2). split; [lia|].
    intros e Ie. apply In_nth_error in Ie. destruct Ie as (k & Ek). destruct (f2_nth _ _ _ _ _ F2 Ek) as (x & _ & N & _). exact N. }
  assert (T2 : exists l2, InfillModify lib o l1 = Ok l2).
  { unfold InfillModify. refine (local_total l1 _ (infill_layer lib o l1) _ _ _).
    - intros i cur. apply infill_local.
    - intros i l l' H. exact (proj1 (infill_keeps lib o l1 i l l' H)).
    - intros i l El. destruct (L1 i l El) as (Nb & Nt & _ & pe & ov & Ep & Eo & Le & Ne). destruct pe as [|e pe].
      + exists None. unfold infill_layer. rewrite Eo. destruct ov; [reflexivity|discriminate].
      + destruct (infill_layer_ok inside lib E o Hf l1 i l (e :: pe) ov) as (l' & bs & ts & H & _); try assumption; [apply nth_error_Some; congruence|discriminate|eauto]. }
  destruct T2 as (l2 & H2). exists l2.
  assert (T3 : exists l3, InternalInfillModify lib o l2 = Ok l3).
  { unfold InternalInfillModify. refine (local_total l2 _ (internal_layer lib o) _ _ _).
    - intros i cur _. apply internal_local.
    - intros i l l' H. exact (proj1 (internal_keeps lib o i l l' H)).
    - intros i l El. destruct (infill_spec lib o l1 l2 H2) as (stop & SW).
      assert (A : exists ov bs ts, OverlapPerimeters l = Ok ov /\ PartsAttribute l "bottom" = Ok bs /\ PartsAttribute l "top" = Ok ts).
      { destruct (Nat.lt_ge_cases i stop) as [Hi|Hi].
        - destruct (nth_error l1 i) as [m|] eqn:Em; [|apply nth_error_None in Em; assert (i < List.length l2)%nat by (apply nth_error_Some; congruence); rewrite (sw_length _ _ _ _ SW) in *; lia].
          destruct (sw_before _ _ _ _ SW i m Hi Em) as (l' & El' & Hl). rewrite El in El'. injection El' as <-. destruct (L1 i m Em) as (Nb & Nt & _ & pe & ov & Ep & Eo & Le & Ne). destruct pe as [|e pe].
          { unfold infill_layer in Hl. rewrite Eo in Hl. destruct ov; [discriminate|discriminate]. }
          destruct (infill_layer_ok inside lib E o Hf l1 i m (e :: pe) ov) as (l' & bs & ts & H & Hb & Ht & _); try assumption; [apply nth_error_Some; congruence|discriminate|]. rewrite Hl in H. injection H as <-.
          exists ov, bs, ts. split; [|auto]. rewrite (overlap_eq m l); [exact Eo|]. apply (proj2 (infill_keeps lib o l1 i m l Hl)). cbn. intuition discriminate.
        - rewrite (sw_after _ _ _ _ SW i Hi) in El. destruct (L1 i l El) as (Nb & Nt & _ & pe & ov & Ep & Eo & _). exists ov, [], []. unfold PartsAttribute. rewrite Nb, Nt. auto. }
      destruct A as (ov & bs & ts & Eo & Eb & Et). unfold internal_layer. rewrite Eo. cbn [bind]. destruct ov as [|ov0 ov]; [eauto|]. rewrite Eb. cbn [bind]. rewrite Et. cbn [bind].
      destruct (internal_parts_ok inside lib E o (bs ++ ts) (ov0 :: ov)) as (is & -> & _). cbn [bind]. eauto. }
  destruct T3 as (l3 & H3). exists l3. auto.
Qed.
Print Assumptions perimeters_and_infill_succeed.
Example perimeters_and_infill_succeed_ex : 1 <= InsetCount (Print DefaultOptions) /\ amount_ok 400 450 /\ fresh ["bottom"; "top"; "infill"] ledge.
Proof. split; [vm_compute; discriminate|]. split; [vm_compute; intuition discriminate|exact ledge_fresh]. Qed.
