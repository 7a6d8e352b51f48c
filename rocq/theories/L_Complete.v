(** All modifiers succeed and leave attributes the renderers can read. *)
From Verif Require Import GoBase GoFloat GoStr M_Micrometer M_Geom2D M_Option M_Clip M_Builder M_Layer M_Modifier S_Clip L_Clip S_Area L_Area S_Modifier L_Modifier L_ModArea L_Infill S_Support L_Support P_Modifier P_Support.
Local Open Scope string_scope.
Local Open Scope list_scope.
Local Open Scope Z_scope.

(** the renderers can read the attributes *)
Definition readable (l : layer) : Prop :=
  (exists x, Perimeters l = Ok x) /\ (exists x, Brim l = Ok x) /\ (exists x, FullSupport l = Ok x) /\
  forall name, In name ["support"; "supportInterface"; "bottom"; "top"; "infill"] -> exists ps, PartsAttribute l name = Ok ps.
Lemma parts_eq l l' name : attribute l' name = attribute l name -> PartsAttribute l' name = PartsAttribute l name.
Proof. unfold PartsAttribute. intros ->. reflexivity. Qed.
Lemma parts_none l name : attribute l name = None -> exists ps, PartsAttribute l name = Ok ps.
Proof. unfold PartsAttribute. intros ->. eauto. Qed.

Section Total.
Context {P : Type} (inside : path -> P -> bool).
Variables (lib : clib) (o : options) (tangent : f64 -> f64) (layers : list layer).
Hypothesis E : exact inside lib.
Hypothesis Fresh : Forall (fun l => forall name, attribute l name = None) layers.
Hypothesis Some_layer : layers <> [].
Hypothesis Insets : 1 <= InsetCount (Print o).
Hypothesis Full : amount_ok (ExtrusionWidth (Printer o)) (add64 (InfillOverlapPercent (Print o)) (AdditionalInternalInfillOverlapPercent (Print o))).
Hypothesis Gaps : 0 <= s_TopGapLayers (Support (Print o)).
Hypothesis Interface : 0 <= s_InterfaceLayers (Support (Print o)).

Lemma fresh_all names : fresh names layers.
Proof. unfold fresh. eapply Forall_impl; [|exact Fresh]. cbn beta. auto. Qed.
Lemma fresh_at i l name : nth_error layers i = Some l -> attribute l name = None.
Proof. intros El. rewrite Forall_forall in Fresh. exact (Fresh l (nth_error_In _ _ El) name). Qed.

(** after the first three *)
Lemma three_readable l1 l2 l3 : PerimeterModify lib o layers = Ok l1 -> InfillModify lib o l1 = Ok l2 -> InternalInfillModify lib o l2 = Ok l3 ->
  List.length l3 = List.length layers /\ forall i l, nth_error l3 i = Some l -> (exists x, Perimeters l = Ok x) /\ (forall name, In name ["bottom"; "top"; "infill"] -> exists ps, PartsAttribute l name = Ok ps) /\
    forall name, ~ In name ["perimeters"; "overlapPerimeters"; "bottom"; "top"; "infill"] -> attribute l name = None.
Proof.
  intros H1 H2 H3. pose proof (perimeter_keeps lib o layers l1 H1) as K1. pose proof (infill_keeps_all lib o l1 l2 H2) as K2. pose proof (internal_keeps_all lib o l2 l3 H3) as K3.
  split; [rewrite (keeps_length _ _ _ K3), (keeps_length _ _ _ K2), (keeps_length _ _ _ K1); reflexivity|]. intros i l El.
  destruct (keeps_nth _ _ _ _ _ K3 El) as (b & Eb & _ & Ab). destruct (keeps_nth _ _ _ _ _ K2 Eb) as (a & Ea & _ & Aa). destruct (keeps_nth _ _ _ _ _ K1 Ea) as (z & Ez & _ & Az).
  split; [|split].
  - destruct (f2_nth_r _ _ _ _ _ (perimeter_spec lib o layers l1 H1) Ea) as (z' & _ & Hp). destruct (perimeter_layer_spec lib o z' a Hp) as (pe & ov & Ep & _). exists pe. rewrite (perimeters_eq b l), (perimeters_eq a b); [exact Ep|apply Aa; cbn; intuition discriminate|apply Ab; cbn; intuition discriminate].
  - destruct (infill_stop lib o layers l1 l2 H1 H2) as (stop & _ & St). destruct (Nat.lt_ge_cases i stop) as [Lt|Ge].
    + apply St in Lt. destruct (layer_spec inside lib E o Full layers l1 l2 l3 H1 H2 H3 (fresh_all _) i Lt) as (_ & l' & _ & _ & bs & ts & is & _ & El' & _ & _ & _ & Eb' & Et & Ei & _).
      rewrite El in El'. injection El' as <-. intros name [<-|[<-|[<-|[]]]]; eauto.
    + assert (Nf : ~ filled layers i) by (rewrite <- St; lia). destruct (no_infill lib o layers l1 l2 l3 H1 H2 H3 (fresh_all _) i l Nf El) as (N1 & N2 & N3). intros name [<-|[<-|[<-|[]]]]; apply parts_none; assumption.
  - intros name N. rewrite Ab, Aa, Az by (cbn in N |- *; intuition). exact (fresh_at i z name Ez).
Qed.
Lemma brim_total ls : ls <> [] -> (forall l, In l ls -> exists x, Perimeters l = Ok x) -> exists ls', BrimModify lib o ls = Ok ls'.
Proof.
  intros Ne Hp. unfold BrimModify. destruct (_ =? 0); [eauto|]. destruct ls as [|l ls]; [contradiction|]. change (idx (l :: ls) 0) with (Ok l). cbn [bind].
  destruct (Hp l (or_introl eq_refl)) as (pe & ->). cbn [bind]. destruct pe as [|p0 pe]; [eauto|]. destruct (map _ _) as [|q qs]; [eauto|].
  match goal with |- context [InsetLayer lib ?a ?b ?c ?d] => destruct (inset_layer_total lib b c d a) as (brim & ->) end. cbn [bind].
  match goal with |- context [InsetLayer lib ?a ?b ?c ?d] => destruct (inset_layer_total lib b c d a) as (outer & ->) end. cbn [bind]. eexists. unfold put. cbn. reflexivity.
Qed.
Lemma brim_readable ls ls' : BrimModify lib o ls = Ok ls' -> (forall l, In l ls -> attribute l "brim" = None /\ attribute l "outerBrim" = None) ->
  forall l, In l ls' -> (exists x, Brim l = Ok x) /\ exists x, BrimOuterDimension l = Ok x.
Proof.
  intros H F. assert (Old : forall l, In l ls -> (exists x, Brim l = Ok x) /\ exists x, BrimOuterDimension l = Ok x).
  { intros l Il. destruct (F l Il) as (A & B). unfold Brim, BrimOuterDimension. rewrite A, B. eauto. }
  unfold BrimModify in H. destruct (_ =? 0); [injection H as <-; exact Old|]. apply bind_Ok in H. destruct H as (l0 & E0 & H). apply bind_Ok in H. destruct H as (pe & _ & H).
  destruct pe as [|p0 pe]; [injection H as <-; exact Old|]. destruct (map _ _) as [|q qs] in H; [injection H as <-; exact Old|]. apply bind_Ok in H. destruct H as (brim & _ & H). apply bind_Ok in H. destruct H as (outer & _ & H).
  apply put_Ok in H. destruct H as (_ & ->). destruct ls as [|a ls]; [discriminate|]. change (idx (a :: ls) 0) with (Ok a) in E0. injection E0 as <-. destruct (F a (or_introl eq_refl)) as (A & B).
  intros l [<-|Il]; [|apply Old; right; exact Il]. unfold Brim, BrimOuterDimension. rewrite !lookup_parts. cbn [String.eqb Ascii.eqb Bool.eqb]. split.
  - destruct brim as [|b0 brim]; [rewrite lookup_new, A; eauto|]. rewrite lookup_set. cbn. eauto.
  - destruct (ToOneDimension outer); [|eauto]. destruct brim as [|b0 brim]; [rewrite lookup_new, B; eauto|]. rewrite lookup_set, lookup_new, B. cbn. eauto.
Qed.
Theorem modifiers_succeed : exists l1 l2 l3 l4 l5 l6, PerimeterModify lib o layers = Ok l1 /\ InfillModify lib o l1 = Ok l2 /\ InternalInfillModify lib o l2 = Ok l3 /\
  BrimModify lib o l3 = Ok l4 /\ SupportDetectorModify lib o tangent l4 = Ok l5 /\ SupportGeneratorModify lib o l5 = Ok l6 /\ forall l, In l l6 -> readable l.
Proof.
  destruct (perimeters_and_infill_succeed P inside lib o layers E Insets Full (fresh_all _)) as (l1 & l2 & l3 & H1 & H2 & H3). destruct (three_readable l1 l2 l3 H1 H2 H3) as (L3 & R3).
  assert (R3' : forall l, In l l3 -> (exists x, Perimeters l = Ok x) /\ (forall name, In name ["bottom"; "top"; "infill"] -> exists ps, PartsAttribute l name = Ok ps) /\
    forall name, ~ In name ["perimeters"; "overlapPerimeters"; "bottom"; "top"; "infill"] -> attribute l name = None).
  { intros l Il. apply In_nth_error in Il. destruct Il as (i & Ei). exact (R3 i l Ei). }
  assert (N3 : l3 <> []) by (destruct layers, l3; try discriminate; contradiction).
  destruct (brim_total l3 N3 (fun l Il => proj1 (R3' l Il))) as (l4 & H4). pose proof (proj1 (brim_keeps lib o l3 l4 H4)) as K4.
  assert (B4 : forall l, In l l4 -> (exists x, Brim l = Ok x) /\ exists x, BrimOuterDimension l = Ok x).
  { apply (brim_readable l3 l4 H4). intros l Il. destruct (R3' l Il) as (_ & _ & Q). split; apply Q; cbn; intuition discriminate. }
  assert (R4 : forall i l, nth_error l4 i = Some l -> (exists x, Perimeters l = Ok x) /\ (exists x, Brim l = Ok x) /\ (exists x, BrimOuterDimension l = Ok x) /\
    (forall name, In name ["bottom"; "top"; "infill"] -> exists ps, PartsAttribute l name = Ok ps) /\ attribute l "support" = None /\ attribute l "supportInterface" = None /\ attribute l "fullSupport" = None).
  { intros i l El. destruct (B4 l (nth_error_In _ _ El)) as (Q1 & Q2). destruct (keeps_nth _ _ _ _ _ K4 El) as (b & Eb & _ & Ab). destruct (R3 i b Eb) as (S1 & S2 & S3).
    split; [rewrite (perimeters_eq b l); [exact S1|apply Ab; cbn; intuition discriminate]|]. split; [exact Q1|]. split; [exact Q2|]. split.
    - intros name Hn. destruct (S2 name Hn) as (ps & Ep). exists ps. rewrite (parts_eq b l name); [exact Ep|]. apply Ab. destruct Hn as [<-|[<-|[<-|[]]]]; cbn; intuition discriminate.
    - repeat split; (rewrite Ab; [apply S3|]; cbn; intuition discriminate). }
  exists l1, l2, l3, l4. destruct (s_Enabled (Support (Print o))) eqn:En.
  - assert (F4 : fresh ["support"] l4). { unfold fresh. apply Forall_forall. intros l Il name [<-|[]]. apply In_nth_error in Il. destruct Il as (i & Ei). apply (R4 i l Ei). }
    destruct (detector_total lib o tangent l4 En Gaps) as (l5 & H5). { intros a b. destruct (overhang_ok inside lib E o tangent a b) as (_ & s & Es & _). eauto. }
    destruct (support_detection lib o tangent l4 l5 En Gaps F4 H5) as (K5 & D1 & D2).
    assert (S5 : forall i l, nth_error l5 i = Some l -> exists ps, PartsAttribute l "support" = Ok ps).
    { intros i l El. assert (Li : (i < List.length l4)%nat) by (rewrite <- (keeps_length _ _ _ K5); apply nth_error_Some; congruence).
      destruct (Z_lt_ge_dec (Z.of_nat i + s_TopGapLayers (Support (Print o)) + 1) (Z.of_nat (List.length l4))) as [Lt|Ge].
      - destruct (D1 i (i + Z.to_nat (s_TopGapLayers (Support (Print o))))%nat) as (lo & up & s & _ & _ & _ & l' & El' & Ep); [lia|lia|]. rewrite El in El'. injection El' as <-. eauto.
      - rewrite D2 in El by lia. apply parts_none. apply (R4 i l El). }
    assert (T5 : support_typed l5).
    { intros l Il. apply In_nth_error in Il. destruct Il as (i & Ei). split; [exact (S5 i l Ei)|]. destruct (keeps_nth _ _ _ _ _ K5 Ei) as (b & Eb & _ & Ab). destruct (R4 i b Eb) as (_ & _ & (x & Ex) & _).
      exists x. unfold BrimOuterDimension in *. rewrite Ab; [exact Ex|cbn; intuition discriminate]. }
    assert (F5 : fresh ["fullSupport"; "supportInterface"] l5).
    { unfold fresh. apply Forall_forall. intros l Il name Hn. apply In_nth_error in Il. destruct Il as (i & Ei). destruct (keeps_nth _ _ _ _ _ K5 Ei) as (b & Eb & _ & Ab). destruct (R4 i b Eb) as (_ & _ & _ & _ & _ & Q1 & Q2).
      rewrite Ab by (destruct Hn as [<-|[<-|[]]]; cbn; intuition discriminate). destruct Hn as [<-|[<-|[]]]; assumption. }
    destruct (generator_spec inside lib E o l5 T5 F5 Interface En) as (l6 & H6 & L6 & Top & D). exists l5, l6. repeat (split; [assumption|]).
    assert (K6 : keeps ["support"; "supportInterface"; "fullSupport"] l5 l6) by exact (proj2 (proj2 (proj2 (proj2 (proj2 (modifiers_keep_layers lib o tangent l5 l6))))) H6).
    intros l Il. apply In_nth_error in Il. destruct Il as (i & Ei). destruct (keeps_nth _ _ _ _ _ K6 Ei) as (b & Eb & _ & Ab). destruct (keeps_nth _ _ _ _ _ K5 Eb) as (c & Ec & _ & Ac). destruct (R4 i c Ec) as (S1 & S2 & _ & S4 & _ & S6 & S7).
    assert (Sup : (exists x, FullSupport l = Ok x) /\ (exists x, PartsAttribute l "support" = Ok x) /\ exists x, PartsAttribute l "supportInterface" = Ok x).
    { destruct (Nat.lt_ge_cases (i + 2) (List.length l5)) as [Lt|Ge].
      - destruct (D i Lt) as (a & l' & D0 & S & I & W & B & _ & El' & _ & _ & Q1 & Q2 & Q3 & _). rewrite Ei in El'. injection El' as <-. split; [|eauto]. exists S. unfold FullSupport. unfold PartsAttribute in Q1. destruct (attribute l "fullSupport") as [[]|]; congruence.
      - rewrite Top in Ei by exact Ge. assert (b = l) by congruence. subst b. split; [|split; [exact (S5 i l Ei)|]].
        + unfold FullSupport. rewrite Ac by (cbn; intuition discriminate). rewrite S7. eauto.
        + apply parts_none. rewrite Ac by (cbn; intuition discriminate). exact S6. }
    destruct Sup as (Q1 & Q2 & Q3). split; [rewrite (perimeters_eq b l), (perimeters_eq c b); [exact S1|apply Ac; cbn; intuition discriminate|apply Ab; cbn; intuition discriminate]|]. split.
    { destruct S2 as (x & Ex). exists x. unfold Brim in *. rewrite Ab, Ac by (cbn; intuition discriminate). exact Ex. }
    split; [exact Q1|]. intros name [<-|[<-|Hn]]; [exact Q2|exact Q3|]. destruct (S4 name Hn) as (ps & Ep). exists ps. rewrite (parts_eq b l name), (parts_eq c b name); [exact Ep|apply Ac|apply Ab]; destruct Hn as [<-|[<-|[<-|[]]]]; cbn; intuition discriminate.
  - destruct (support_disabled lib o tangent l4 En) as (H5 & H6). exists l4, l4. repeat (split; [assumption|]). intros l Il. apply In_nth_error in Il. destruct Il as (i & Ei). destruct (R4 i l Ei) as (S1 & S2 & _ & S4 & S5 & S6 & S7).
    split; [exact S1|]. split; [exact S2|]. split; [unfold FullSupport; rewrite S7; eauto|]. intros name [<-|[<-|Hn]]; [apply parts_none; exact S5|apply parts_none; exact S6|exact (S4 name Hn)].
Qed.
End Total.
