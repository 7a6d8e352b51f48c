(** Properties C57-C60, C69 and C70: support. *)
From Verif Require Import GoBase GoFloat GoStr M_Micrometer M_Geom2D M_Option M_Clip M_Builder M_Layer M_Modifier S_Clip L_Clip S_Area L_Area S_Modifier L_Modifier L_ModArea L_Infill L_Strip S_Support L_Support P_Modifier.
Local Open Scope string_scope.
Local Open Scope list_scope.
Local Open Scope Z_scope.

Lemma half_quot a : 0 <= a <= 2 ^ 62 -> quot64 a 2 = a / 2.
Proof. intros H. unfold quot64. rewrite Z.quot_div_nonneg by lia. apply wrap_id. pose proof (Z.div_pos a 2). pose proof (Z.div_le_upper_bound a 2 a). unfold int64. lia. Qed.
Lemma oddly_none {A} (f : A -> bool) l : (forall a, In a l -> f a = false) -> oddly f l = false.
Proof. induction l as [|a l IH]; intros H; [reflexivity|]. cbn [oddly]. rewrite (H a (or_introl eq_refl)), IH by (intros b Ib; apply H; right; exact Ib). reflexivity. Qed.
Lemma oddly_one {A} (f : A -> bool) l : at_most_one (fun a => f a = true) l -> (oddly f l = true <-> exists a, In a l /\ f a = true).
Proof. rewrite oddly_xor. apply xor_one. Qed.

(** *** C60: detection *)
Theorem support_disabled : forall lib o tangent layers, s_Enabled (Support (Print o)) = false ->
  SupportDetectorModify lib o tangent layers = Ok layers /\ SupportGeneratorModify lib o layers = Ok layers.
Proof.
  intros lib o tangent layers H. split; [|unfold SupportGeneratorModify; rewrite H; reflexivity]. unfold SupportDetectorModify.
  destruct layers as [|l layers]; [reflexivity|]. cbn [List.length over_layers]. unfold detector_step at 1. rewrite H. reflexivity.
Qed.
(** The overhang of layer k + 1 over layer k is stored on layer k - TopGapLayers, for all k with TopGapLayers <= k < last
    layer.  Nothing else changes. *)
Theorem support_detection : forall lib o tangent layers layers', s_Enabled (Support (Print o)) = true -> 0 <= s_TopGapLayers (Support (Print o)) -> fresh ["support"] layers ->
  SupportDetectorModify lib o tangent layers = Ok layers' ->
  keeps ["support"] layers layers' /\
  (forall j k, Z.of_nat k = Z.of_nat j + s_TopGapLayers (Support (Print o)) -> (k + 1 < List.length layers)%nat ->
     exists lower upper s, nth_error layers k = Some lower /\ nth_error layers (k + 1) = Some upper /\ overhang lib o tangent lower upper = Ok s /\ has layers' j "support" s) /\
  (forall j, Z.of_nat (List.length layers) <= Z.of_nat j + s_TopGapLayers (Support (Print o)) + 1 -> nth_error layers' j = nth_error layers j).
Proof.
  intros lib o tangent layers layers' En TG F H. split; [exact (detector_keeps lib o tangent layers layers' H)|]. destruct (detector_spec lib o tangent layers En TG layers' H) as (L & D). split.
  - intros j k Hk Hl. destruct (nth_error layers j) as [l|] eqn:El; [|apply nth_error_None in El; lia]. destruct (D j l El) as (D1 & _).
    assert (k = j + Z.to_nat (s_TopGapLayers (Support (Print o))))%nat as -> by lia. destruct D1 as (a & b & s & Ea & Eb & Eo & Ec); [lia|].
    exists a, b, s. repeat (split; [assumption|]). eexists. split; [exact Ec|]. unfold PartsAttribute. rewrite lookup_parts, lookup_new. unfold fresh in F. rewrite Forall_forall in F.
    rewrite (F l (nth_error_In _ _ El) "support") by (left; reflexivity). cbn [String.eqb Ascii.eqb Bool.eqb]. destruct s; reflexivity.
  - intros j Hj. destruct (nth_error layers j) as [l|] eqn:El; [|apply nth_error_None in El; apply nth_error_None; lia]. apply (D j l El). lia.
Qed.
Print Assumptions support_disabled.
Print Assumptions support_detection.

Section Overhangs.
Context {P : Type} (inside : path -> P -> bool).
(** C69: the overhang is what the upper layer covers outside of the lower layer enlarged by half of the distance
    d = thickness * tan(threshold); every such point needs support if the enlarged pieces do not overlap. *)
Theorem overhang_detected : forall lib o tangent lower upper s d spacing, exact inside lib -> proper inside (LayerParts upper) ->
  support_distance o tangent = - d -> 0 <= d <= 2 ^ 62 -> ToMicrometer (s_PatternSpacing (Support (Print o))) = spacing -> 0 <= spacing <= 2 ^ 60 ->
  overhang lib o tangent lower upper = Ok s ->
  (forall raw, clip_result lib raw -> (forall y, covered inside raw y <-> covered inside (LayerParts upper) y /\ oddly (fun p => near inside lib (d / 2) p y) (LayerParts lower) = false) ->
     near_apart inside lib (spacing * 3 / 2) raw) ->
  forall x, covered inside (LayerParts upper) x -> (forall p, In p (LayerParts lower) -> near inside lib (d / 2) p x = false) -> covered inside s x /\ parity inside (contours_of s) x = true.
Proof.
  intros lib o tangent lower upper s d spacing E Pu Hd Bd Hsp Bsp Ho Ap x Hx Hn. destruct (overhang_ok inside lib E o tangent lower upper) as (raw & s' & Eo & Pr & Cr & Hr & Hs & Ps). rewrite Ho in Eo. injection Eo as <-.
  assert (Q1 : quot64 (neg64 (support_distance o tangent)) 2 = d / 2). { rewrite quot_neg2 by lia. rewrite Hd, Z.quot_opp_l by lia. rewrite Z.quot_div_nonneg by lia. lia. }
  assert (Q2 : quot64 (mul64 (ToMicrometer (s_PatternSpacing (Support (Print o)))) 3) 2 = spacing * 3 / 2). { rewrite Hsp. unfold mul64. rewrite wrap_id by (unfold int64; lia). apply half_quot. lia. }
  rewrite Q1 in Hr. rewrite Q2 in Hs, Ps.
  assert (Cov : forall y, covered inside raw y <-> covered inside (LayerParts upper) y /\ oddly (fun p => near inside lib (d / 2) p y) (LayerParts lower) = false).
  { intros y. rewrite <- (par_proper inside raw y Pr), Hr, andb_true_iff, negb_true_iff, (par_proper inside _ y Pu). reflexivity. }
  assert (A : near_apart inside lib (spacing * 3 / 2) raw) by (destruct Cr as [->|Cr]; [intros y; exact I|exact (Ap raw Cr Cov)]).
  enough (par inside s x = true) as Hp by (split; [apply (par_proper inside s x (Ps A)); exact Hp|exact Hp]). rewrite Hs. apply oddly_one; [exact (A x)|]. destruct (proj2 (Cov x)) as (p & Ip & Hp); [split; [exact Hx|apply oddly_none; exact Hn]|].
  exists p. split; [exact Ip|]. unfold near. apply (exact_grow inside lib E); [apply Z.div_pos; lia|]. apply proper_part_parity; [exact (proj1 Pr p Ip)|exact Hp].
Qed.

(** *** the generated support *)
Variables (lib : clib) (o : options) (layers : list layer).
Hypothesis E : exact inside lib.
Hypothesis En : s_Enabled (Support (Print o)) = true.
Hypothesis IL : 0 <= s_InterfaceLayers (Support (Print o)).
Hypothesis Typed : support_typed layers.
Hypothesis Fresh : fresh ["fullSupport"; "supportInterface"] layers.
(** C70: generating support never fails. *)
Theorem support_succeeds : exists layers', SupportGeneratorModify lib o layers = Ok layers'.
Proof. destruct (generator_spec inside lib E o layers Typed Fresh IL En) as (layers' & H & _). eauto. Qed.
Variable layers' : list layer.
Hypothesis Gen : SupportGeneratorModify lib o layers = Ok layers'.
Variable gap : Z.
Hypothesis Hgap : ToMicrometer (s_Gap (Support (Print o))) = gap.
Hypothesis Bgap : 0 <= gap <= 2 ^ 62.
Lemma all_done j : (j + 2 < List.length layers)%nat -> done inside lib o layers layers' j.
Proof. destruct (generator_spec inside lib E o layers Typed Fresh IL En) as (l2 & H & _ & _ & D). rewrite Gen in H. injection H as <-. exact (D j). Qed.
(** C58: the support of a layer is what comes down from above and what is needed here, outside of the model enlarged by
    half of the gap.  The top two layers are left as they are. *)
Theorem support_comes_down j l d : (j + 2 < List.length layers)%nat -> nth_error layers j = Some l -> has layers j "support" d ->
  exists s, has layers' j "fullSupport" s /\ proper inside s /\
    forall x, covered inside s x <-> (from_above inside layers layers' j x \/ parity inside (contours_of d) x = true) /\ oddly (fun p => near inside lib (gap / 2) p x) (LayerParts l) = false.
Proof.
  intros Hj El (l0 & El0 & Hd). rewrite El in El0. injection El0 as <-. destruct (all_done j Hj) as (l0 & l' & D & S & I & W & B & H1 & H2 & H3 & H4 & H5 & H6 & H7 & H8 & _ & _ & _ & H11 & _).
  rewrite El in H1. injection H1 as <-. rewrite Hd in H3. injection H3 as <-. rewrite Hgap, half_quot in H11 by exact Bgap. exists S. split; [exists l'; auto|]. split; [exact H8|exact H11].
Qed.
Theorem top_layers_untouched j : (List.length layers <= j + 2)%nat -> nth_error layers' j = nth_error layers j.
Proof. destruct (generator_spec inside lib E o layers Typed Fresh IL En) as (l2 & H & _ & T & _). rewrite Gen in H. injection H as <-. exact (T j). Qed.
(** So a point that needs support is supported on all layers from there down to the first one where the model is near. *)
Theorem support_column j d x : (j + 2 < List.length layers)%nat -> has layers j "support" d -> parity inside (contours_of d) x = true ->
  forall i, (i <= j)%nat -> (forall k l, (i <= k <= j)%nat -> nth_error layers k = Some l -> forall p, In p (LayerParts l) -> near inside lib (gap / 2) p x = false) ->
  exists s, has layers' i "fullSupport" s /\ covered inside s x.
Proof.
  intros Hj Hd Hx i Hi. remember (j - i)%nat as n eqn:En0. revert i Hi En0. induction n as [|n IH]; intros i Hi Ei Clear.
  - assert (i = j) as -> by lia. destruct Hd as (l & El & Hd). destruct (support_comes_down j l d Hj El (ex_intro _ l (conj El Hd))) as (s & Hs & _ & Cs). exists s. split; [exact Hs|]. apply Cs.
    split; [right; exact Hx|]. apply oddly_none. apply (Clear j l); [lia|exact El].
  - destruct (IH (i + 1)%nat ltac:(lia) ltac:(lia)) as (s1 & Hs1 & C1); [intros k l Hk; apply Clear; lia|].
    destruct (nth_error layers i) as [l|] eqn:El; [|apply nth_error_None in El; lia]. destruct (proj1 (Typed l (nth_error_In _ _ El))) as (d' & Hd').
    destruct (support_comes_down i l d' ltac:(lia) El (ex_intro _ l (conj El Hd'))) as (s & Hs & _ & Cs). exists s. split; [exact Hs|]. apply Cs. split.
    + left. right. split; [lia|]. exists s1. auto.
    + apply oddly_none. apply (Clear i l); [lia|exact El].
Qed.
(** C57: If the parts of a layer do not overlap each other after enlarging them by half of the gap, all support of that
    layer stays outside of them. *)
Theorem support_clear_of_model j l name ps x : (j + 2 < List.length layers)%nat -> nth_error layers j = Some l -> near_apart inside lib (gap / 2) (LayerParts l) ->
  In name ["fullSupport"; "supportInterface"; "support"] -> has layers' j name ps -> covered inside ps x ->
  forall p, In p (LayerParts l) -> near inside lib (gap / 2) p x = false /\ (proper_part inside p -> ~ in_part inside p x).
Proof.
  intros Hj El Ap In_ (l0' & El0 & Hps) C. destruct (all_done j Hj) as (l0 & l' & D & S & I & W & B & H1 & H2 & H3 & H4 & H5 & H6 & H7 & H8 & _ & _ & _ & H11 & H12 & H13).
  rewrite El in H1. injection H1 as <-. rewrite H2 in El0. injection El0 as <-. rewrite Hgap, half_quot in H11 by exact Bgap.
  assert (CS : covered inside S x). { destruct In_ as [<-|[<-|[<-|[]]]]; [rewrite H5 in Hps|rewrite H6 in Hps|rewrite H7 in Hps]; injection Hps as <-; [exact C|apply H12 in C; apply C|apply H13 in C; apply C]. }
  apply H11 in CS. destruct CS as (_ & CS). intros p Ip. assert (Np : near inside lib (gap / 2) p x = false).
  { destruct (near inside lib (gap / 2) p x) eqn:Ex; [|reflexivity]. assert (oddly (fun p => near inside lib (gap / 2) p x) (LayerParts l) = true) by (apply oddly_one; [exact (Ap x)|exists p; auto]). congruence. }
  split; [exact Np|]. intros Pp Hin. apply proper_part_parity in Hin; [|exact Pp]. assert (near inside lib (gap / 2) p x = true); [|congruence]. unfold near. apply (exact_grow inside lib E); [apply Z.div_pos; lia|exact Hin].
Qed.
(** C59: Outside of the brim, interface and normal support are disjoint and together are the whole support.  A point is
    interface exactly if there is no support InterfaceLayers above it.  Inside the brim there is neither. *)
Theorem support_interface j l brim : (j + 2 < List.length layers)%nat -> nth_error layers j = Some l -> BrimOuterDimension l = Ok brim ->
  exists s interface normal, has layers' j "fullSupport" s /\ has layers' j "supportInterface" interface /\ has layers' j "support" normal /\ forall x,
    ~ (covered inside interface x /\ covered inside normal x) /\
    (covered inside s x /\ parity inside (contours_of brim) x = false <-> covered inside interface x \/ covered inside normal x) /\
    (covered inside interface x <-> covered inside s x /\ ~ deep inside layers' (s_InterfaceLayers (Support (Print o))) j x /\ parity inside (contours_of brim) x = false).
Proof.
  intros Hj El Eb. destruct (all_done j Hj) as (l0 & l' & D & S & I & W & B & H1 & H2 & H3 & H4 & H5 & H6 & H7 & H8 & H9 & H10 & _ & H11 & H12 & H13).
  rewrite El in H1. injection H1 as <-. rewrite Eb in H4. injection H4 as <-. exists S, I, W. split; [exists l'; auto|]. split; [exists l'; auto|]. split; [exists l'; auto|]. intros x. split; [|split; [|apply H12]].
  - intros (A & C). apply H12 in A. apply H13 in C. tauto.
  - split.
    + intros (A & Bx). destruct (par inside W x) eqn:Ew; [right; apply (par_proper inside W x H10); exact Ew|]. left. apply H12. split; [exact A|]. split; [|exact Bx].
      intros Dp. assert (covered inside W x) as Cw by (apply H13; auto). apply (par_proper inside W x H10) in Cw. congruence.
    + intros [C|C]; [apply H12 in C|apply H13 in C]; tauto.
Qed.
Theorem no_interface_layers_is_all_interface j l brim : s_InterfaceLayers (Support (Print o)) = 0 -> (j + 2 < List.length layers)%nat -> nth_error layers j = Some l -> BrimOuterDimension l = Ok brim ->
  exists normal, has layers' j "support" normal /\ forall x, ~ covered inside normal x.
Proof.
  intros Z0 Hj El Eb. destruct (all_done j Hj) as (l0 & l' & D & S & I & W & B & H1 & H2 & H3 & H4 & H5 & H6 & H7 & H8 & H9 & H10 & _ & H11 & H12 & H13).
  exists W. split; [exists l'; auto|]. intros x C. apply H13 in C. destruct C as (_ & (C & _) & _). lia.
Qed.
End Overhangs.
Print Assumptions overhang_detected.
Print Assumptions support_succeeds.
Print Assumptions support_comes_down.
Print Assumptions top_layers_untouched.
Print Assumptions support_column.
Print Assumptions support_clear_of_model.
Print Assumptions support_interface.
Print Assumptions no_interface_layers_is_all_interface.

(** The two modifiers together: an overhanging point of layer k + 1 is supported TopGapLayers below layer k and on all
    layers further down to the first one where the model is near. *)
Lemma detected_typed lib o tangent layers layers' : s_Enabled (Support (Print o)) = true -> 0 <= s_TopGapLayers (Support (Print o)) -> fresh ["support"] layers ->
  (forall l, In l layers -> exists b, BrimOuterDimension l = Ok b) -> SupportDetectorModify lib o tangent layers = Ok layers' -> support_typed layers'.
Proof.
  intros En TG F B H l' Il'. apply In_nth_error in Il'. destruct Il' as (j & Ej). destruct (support_detection lib o tangent layers layers' En TG F H) as (K & D1 & D2).
  destruct (keeps_nth _ _ _ _ _ K Ej) as (l & El & _ & Ha). split.
  - assert (Q : Z.of_nat (List.length layers) <= Z.of_nat j + s_TopGapLayers (Support (Print o)) + 1 \/ (j + Z.to_nat (s_TopGapLayers (Support (Print o))) + 1 < List.length layers)%nat) by lia. destruct Q as [Q|Q].
    + rewrite (D2 j Q), El in Ej. injection Ej as <-. exists []. unfold PartsAttribute. unfold fresh in F. rewrite Forall_forall in F. rewrite (F l (nth_error_In _ _ El) "support") by (left; reflexivity). reflexivity.
    + destruct (D1 j (j + Z.to_nat (s_TopGapLayers (Support (Print o))))%nat ltac:(lia) Q) as (a & b & s & _ & _ & _ & (l2 & E2 & Hs)). rewrite Ej in E2. injection E2 as <-. eauto.
  - destruct (B l (nth_error_In _ _ El)) as (b & Hb). exists b. unfold BrimOuterDimension in *. rewrite (Ha "outerBrim") by (cbn; intuition discriminate). exact Hb.
Qed.
Theorem overhang_supported : forall (P : Type) (inside : path -> P -> bool) lib o tangent layers detected layers' k j lower upper d spacing gap x, exact inside lib ->
  s_Enabled (Support (Print o)) = true -> 0 <= s_TopGapLayers (Support (Print o)) -> 0 <= s_InterfaceLayers (Support (Print o)) ->
  fresh ["support"; "fullSupport"; "supportInterface"] layers -> (forall l, In l layers -> exists b, BrimOuterDimension l = Ok b) ->
  SupportDetectorModify lib o tangent layers = Ok detected -> SupportGeneratorModify lib o detected = Ok layers' ->
  support_distance o tangent = - d -> 0 <= d <= 2 ^ 62 -> ToMicrometer (s_PatternSpacing (Support (Print o))) = spacing -> 0 <= spacing <= 2 ^ 60 -> ToMicrometer (s_Gap (Support (Print o))) = gap -> 0 <= gap <= 2 ^ 62 ->
  Z.of_nat k = Z.of_nat j + s_TopGapLayers (Support (Print o)) -> (j + 2 < List.length layers)%nat -> nth_error layers k = Some lower -> nth_error layers (k + 1) = Some upper -> proper inside (LayerParts upper) ->
  (forall raw, clip_result lib raw -> (forall y, covered inside raw y <-> covered inside (LayerParts upper) y /\ oddly (fun p => near inside lib (d / 2) p y) (LayerParts lower) = false) ->
     near_apart inside lib (spacing * 3 / 2) raw) ->
  covered inside (LayerParts upper) x -> (forall p, In p (LayerParts lower) -> near inside lib (d / 2) p x = false) ->
  forall i, (i <= j)%nat -> (forall m l, (i <= m <= j)%nat -> nth_error layers m = Some l -> forall p, In p (LayerParts l) -> near inside lib (gap / 2) p x = false) ->
  exists s, has layers' i "fullSupport" s /\ covered inside s x.
Proof.
  intros P inside lib o tangent layers detected layers' k j lower upper d spacing gap x E En TG IL F B Hdet Hgen Hd Bd Hsp Bsp Hgap Bgap Hk Hj El Eu Pu Ap Hx Hn i Hi Clear.
  assert (F1 : fresh ["support"] layers) by (revert F; apply Forall_impl; intros l H name [<-|[]]; apply H; left; reflexivity).
  destruct (support_detection lib o tangent layers detected En TG F1 Hdet) as (K & D1 & _). assert (Lk : (k + 1 < List.length layers)%nat) by (apply nth_error_Some; congruence).
  destruct (D1 j k Hk Lk) as (a & b & s & Ea & Eb & Eo & Hs). rewrite El in Ea. injection Ea as <-. rewrite Eu in Eb. injection Eb as <-.
  destruct (overhang_detected inside lib o tangent lower upper s d spacing E Pu Hd Bd Hsp Bsp Eo Ap x Hx Hn) as (_ & Ps).
  pose proof (keeps_length _ _ _ K) as LL.
  refine (support_column inside lib o detected E En IL (detected_typed lib o tangent layers detected En TG F1 B Hdet) _ layers' Hgen gap Hgap Bgap j s x ltac:(lia) Hs Ps i Hi _).
  - apply Forall_forall. intros l' Il' name In_. apply In_nth_error in Il'. destruct Il' as (m & Em). destruct (keeps_nth _ _ _ _ _ K Em) as (l & El' & _ & Ha). unfold fresh in F. rewrite Forall_forall in F.
    rewrite Ha by (destruct In_ as [<-|[<-|[]]]; cbn; intuition discriminate). apply (F l (nth_error_In _ _ El')). right. exact In_.
  - intros m l' Hm Em p Ip. destruct (keeps_nth _ _ _ _ _ K Em) as (l & El' & Hp & _). apply (Clear m l Hm El' p). rewrite <- (LayerParts_eq l' l Hp). exact Ip.
Qed.
Print Assumptions overhang_supported.

(** *** examples *)
Definition support_with (s : support_options) : options := with_print (fun p => PrintOptions (IntialLayerSpeed p) (LayerSpeed p) (OuterPerimeterSpeed p) (MoveSpeed p) (InitialLayerThickness p) (LayerThickness p) (InsetCount p)
  50 50 (InfillPercent p) (InfillRotationDegree p) (InfillZigZag p) (NumberBottomLayers p) (NumberTopLayers p) s (BrimSkirt p)) DefaultOptions.
(** the default values for the angle, the spacing and the gap *)
Definition supported : options := support_with (SupportOptions true 60 1 2 (c32 25 10) (c32 6 10)).
(** the float64 nearest to the tangent of 60 degrees *)
Definition tan60 (_ : f64) : f64 := div64f (f64_of_Z 17320508075688772) (f64_of_Z 10000000000000000).
Definition pillar : layer := plain_layer [bar 0 5000].
Definition roof : layer := plain_layer [bar 0 20000].
Definition shed : list layer := [pillar; pillar; pillar; pillar; pillar; pillar; roof; roof].
Definition detected := Eval vm_compute in layers_of (SupportDetectorModify strip_lib supported tan60 shed).
Definition finished := Eval vm_compute in layers_of (SupportGeneratorModify strip_lib supported detected).
Lemma strip_near d a b x : a < b -> a - whole (f64_of_Z d) < b + whole (f64_of_Z d) -> (near in_strips strip_lib d (bar a b) x = true <-> a - whole (f64_of_Z d) <= x < b + whole (f64_of_Z d)).
Proof.
  intros H _. unfold near, bar. cbn [offset strip_lib outline holes]. rewrite offset_parity.
  assert (Q : pairs (toggles (parity in_strips [[Pt a 0; Pt b 0]]) (flat_map ends [[Pt a 0; Pt b 0]])) = [(a, b)]).
  { unfold toggles. cbn [flat_map ends app sort fold_right insert px]. destruct (Z.ltb_spec a b); [|lia]. cbn [filter parity in_strips ends odd_le px].
    replace (a <=? a) with true by (symmetry; apply Z.leb_le; lia). replace (b <=? a) with false by (symmetry; apply Z.leb_gt; lia). replace (a <=? a - 1) with false by (symmetry; apply Z.leb_gt; lia). replace (b <=? a - 1) with false by (symmetry; apply Z.leb_gt; lia).
    replace (a <=? b) with true by (symmetry; apply Z.leb_le; lia). replace (b <=? b) with true by (symmetry; apply Z.leb_le; lia). replace (a <=? b - 1) with true by (symmetry; apply Z.leb_le; lia). replace (b <=? b - 1) with false by (symmetry; apply Z.leb_gt; lia). reflexivity. }
  split.
  - intros (ab & Iab & Hx). change (In ab (pairs (toggles (parity in_strips [[Pt a 0; Pt b 0]]) (flat_map ends [[Pt a 0; Pt b 0]])))) in Iab. rewrite Q in Iab. destruct Iab as [<-|[]]. cbn [fst snd] in Hx. lia.
  - intros Hx. exists (a, b). split; [|cbn [fst snd]; lia]. change (In (a, b) (pairs (toggles (parity in_strips [[Pt a 0; Pt b 0]]) (flat_map ends [[Pt a 0; Pt b 0]])))). rewrite Q. left; reflexivity.
Qed.
Lemma whole_173 : whole (f64_of_Z 173) = 173. Proof. reflexivity. Qed.
Lemma whole_300 : whole (f64_of_Z 300) = 300. Proof. reflexivity. Qed.
Lemma shed_detected : SupportDetectorModify strip_lib supported tan60 shed = Ok detected.
Proof. vm_compute. reflexivity. Qed.
Lemma shed_finished : SupportGeneratorModify strip_lib supported detected = Ok finished.
Proof. vm_compute. reflexivity. Qed.
Example support_detection_ex : has detected 4 "support" [bar 1423 23750] /\ (exists l, nth_error detected 5 = Some l /\ PartsAttribute l "support" = Ok []) /\ nth_error detected 6 = nth_error shed 6.
Proof. split; [eexists; split; reflexivity|]. split; [eexists; split; reflexivity|reflexivity]. Qed.
Lemma shed_raw y : covered in_strips (LayerParts roof) y /\ oddly (fun p => near in_strips strip_lib 173 p y) (LayerParts pillar) = false <-> 5173 <= y < 20000.
Proof.
  change (LayerParts roof) with [bar 0 20000]. rewrite bar_covered by lia. change (LayerParts pillar) with [bar 0 5000]. cbn [oddly]. rewrite xorb_false_r, <- not_true_iff_false, strip_near by (rewrite ?whole_173; lia). rewrite whole_173. lia.
Qed.
Lemma shed_apart raw : clip_result strip_lib raw -> (forall y, covered in_strips raw y <-> covered in_strips (LayerParts roof) y /\ oddly (fun p => near in_strips strip_lib 173 p y) (LayerParts pillar) = false) -> near_apart in_strips strip_lib 3750 raw.
Proof.
  intros Hr C. destruct (strip_convex raw Hr) as [->|(p & ->)].
  - intros a b c Habc. rewrite !C, !shed_raw. lia.
  - intros y. exact I.
  - intros y. split; [intros _ q []|exact I].
Qed.
Example overhang_supported_ex : forall x i, 5300 <= x < 20000 -> (i <= 4)%nat -> exists s, has finished i "fullSupport" s /\ covered in_strips s x.
Proof.
  intros x i Hx Hi. refine (overhang_supported Z in_strips strip_lib supported tan60 shed detected finished 5 4 pillar roof 346 2500 600 x strip_exact eq_refl ltac:(vm_compute; discriminate) ltac:(vm_compute; discriminate) _ _ shed_detected shed_finished eq_refl ltac:(lia) eq_refl ltac:(lia) eq_refl ltac:(lia) eq_refl ltac:(cbn; lia) eq_refl eq_refl (bar_proper 0 20000) shed_apart _ _ i Hi _).
  - repeat (apply Forall_cons; [intros name _; reflexivity|]). apply Forall_nil.
  - intros l H. exists []. repeat (destruct H as [<-|H]; [reflexivity|]). destruct H.
  - apply bar_covered; lia.
  - intros p [<-|[]]. apply not_true_iff_false. change (346 / 2) with 173. rewrite strip_near by (rewrite ?whole_173; lia). rewrite whole_173. lia.
  - intros m l Hm El p Ip. assert (LayerParts l = [bar 0 5000]) as Hl by (do 5 (destruct m as [|m]; [injection El as <-; reflexivity|]); lia). rewrite Hl in Ip. destruct Ip as [<-|[]].
    apply not_true_iff_false. change (600 / 2) with 300. rewrite strip_near by (rewrite ?whole_300; lia). rewrite whole_300. lia.
Qed.
Lemma detected_fresh : fresh ["fullSupport"; "supportInterface"] detected.
Proof. repeat (apply Forall_cons; [intros name [<-|[<-|[]]]; reflexivity|]). apply Forall_nil. Qed.
Lemma detected_ok : support_typed detected.
Proof. intros l H. repeat (destruct H as [<-|H]; [split; eexists; reflexivity|]). destruct H. Qed.
Example support_interface_ex : has finished 4 "supportInterface" [bar 5300 23750] /\ has finished 4 "support" [] /\ has finished 3 "supportInterface" [bar 5300 23750] /\ has finished 2 "supportInterface" [] /\ has finished 2 "support" [bar 5300 23750].
Proof. repeat split; eexists; split; reflexivity. Qed.
Example support_clear_ex : forall x, covered in_strips [bar 5300 23750] x -> ~ in_part in_strips (bar 0 5000) x.
Proof.
  intros x C. refine (proj2 (support_clear_of_model in_strips strip_lib supported detected strip_exact eq_refl ltac:(vm_compute; discriminate) detected_ok detected_fresh finished shed_finished 600 eq_refl ltac:(lia) 2 _ "support" [bar 5300 23750] x ltac:(cbn; lia) eq_refl _ _ _ C (bar 0 5000) _) _).
  - intros y. split; [intros _ q []|exact I].
  - right. right. left. reflexivity.
  - eexists. split; reflexivity.
  - left. reflexivity.
  - apply (bar_proper 0 5000). left. reflexivity.
Qed.

(** The condition in [overhang_detected] is needed: with the default spacing the two overhangs of a T are enlarged by
    3750 micrometer, overlap each other, and get no support where they do. *)
Theorem overhang_detected_refuted : exists lower upper s x, proper in_strips (LayerParts lower) /\ proper in_strips (LayerParts upper) /\ overhang strip_lib supported tan60 lower upper = Ok s /\
  support_distance supported tan60 = - 346 /\ covered in_strips (LayerParts upper) x /\ (forall p, In p (LayerParts lower) -> near in_strips strip_lib 346 p x = false) /\ parity in_strips (contours_of s) x = false.
Proof.
  exists (plain_layer [bar 9000 11000]), roof. eexists. exists 8000. split; [apply bar_proper|]. split; [apply bar_proper|]. split; [vm_compute; reflexivity|]. split; [reflexivity|].
  split; [apply bar_covered; lia|]. split; [intros p [<-|[]]; vm_compute; reflexivity|]. vm_compute. reflexivity.
Qed.
(** Only half of the distance is used: an upper layer that nowhere reaches further than d over the lower one gets
    support all the same. *)
Theorem threshold_refuted : exists lower upper s p x, proper in_strips (LayerParts upper) /\ support_distance supported tan60 = - 346 /\ LayerParts lower = [p] /\
  (forall y, covered in_strips (LayerParts upper) y -> near in_strips strip_lib 346 p y = true) /\ overhang strip_lib supported tan60 lower upper = Ok s /\ parity in_strips (contours_of s) x = true.
Proof.
  exists pillar, (plain_layer [bar 0 5300]). eexists. exists (bar 0 5000), 5250. split; [apply bar_proper|]. split; [reflexivity|]. split; [reflexivity|]. split.
  - intros y C. change (LayerParts _) with [bar 0 5300] in C. apply bar_covered in C; [|lia]. apply strip_near; change (whole (f64_of_Z 346)) with 346; lia.
  - split; vm_compute; reflexivity.
Qed.
(** The condition in [support_clear_of_model] is needed: the surroundings of two parts 200 micrometer apart from each
    other overlap and cancel each other out, so support is generated inside of the model. *)
Definition slit : list layer := [plain_layer [bar 0 10000; bar 10200 20000]; plain_layer [bar 0 1000]; plain_layer [bar 0 1000]; roof; roof].
Theorem support_clear_of_model_refuted : exists layers detected layers' j l s p x, SupportDetectorModify strip_lib supported tan60 layers = Ok detected /\ SupportGeneratorModify strip_lib supported detected = Ok layers' /\
  (j + 2 < List.length layers)%nat /\ nth_error layers j = Some l /\ proper in_strips (LayerParts l) /\ has layers' j "supportInterface" s /\ covered in_strips s x /\ In p (LayerParts l) /\ in_part in_strips p x.
Proof.
  exists slit, (layers_of (SupportDetectorModify strip_lib supported tan60 slit)), (layers_of (let* d := SupportDetectorModify strip_lib supported tan60 slit in SupportGeneratorModify strip_lib supported d)), 0%nat.
  exists (plain_layer [bar 0 10000; bar 10200 20000]). eexists. exists (bar 10200 20000), 10250. split; [vm_compute; reflexivity|]. split; [vm_compute; reflexivity|]. split; [cbn; lia|]. split; [reflexivity|]. split.
  - split; [intros p [<-|[<-|[]]]; (intros y; split; [intros h []|exact I])|]. intros y. change (LayerParts _) with [bar 0 10000; bar 10200 20000]. cbn [at_most_one]. split; [|split; [intros _ q []|exact I]].
    intros H1 q [<-|[]] H2. apply (strip_in_part (0, 10000)) in H1; [|reflexivity]. apply (strip_in_part (10200, 20000)) in H2; [|reflexivity]. cbn [fst snd] in *. lia.
  - split; [eexists; split; vm_compute; reflexivity|]. split; [|split; [right; left; reflexivity|apply (strip_in_part (10200, 20000)); cbn [fst snd]; lia]].
    exists (bar 9900 10300). split; [right; left; reflexivity|apply (strip_in_part (9900, 10300)); cbn [fst snd]; lia].
Qed.
Print Assumptions overhang_detected_refuted.
Print Assumptions threshold_refuted.
Print Assumptions support_clear_of_model_refuted.
