(** Property C115: more solid layers never make the solid area smaller, unless the areas overlap. *)
From Verif Require Import GoBase GoFloat GoStr M_Micrometer M_Geom2D M_Option M_Clip M_Builder M_Layer M_Modifier S_Clip L_Clip S_Area L_Area S_Modifier L_Modifier L_Amount L_ModArea L_Infill L_Strip P_Modifier.
Local Open Scope string_scope.
Local Open Scope list_scope.
Local Open Scope Z_scope.

(** the options with other numbers of solid layers *)
Definition resolid (bottom top : Z) (o : options) : options :=
  let p := Print o in
  Options (Slicing o) (Printer o) (Filament o)
    (PrintOptions (IntialLayerSpeed p) (LayerSpeed p) (OuterPerimeterSpeed p) (MoveSpeed p) (InitialLayerThickness p) (LayerThickness p) (InsetCount p)
      (InfillOverlapPercent p) (AdditionalInternalInfillOverlapPercent p) (InfillPercent p) (InfillRotationDegree p) (InfillZigZag p) bottom top (Support p) (BrimSkirt p)) (GoSlice o).

Lemma clip_apart {P : Type} (inside : path -> P -> bool) lib r : exact inside lib -> clip_result lib r -> apart inside lib 0 r.
Proof.
  intros E (t & subject & clip & tree & n & Ex & Er) x. destruct (exact_clip inside lib E t subject clip) as (tree' & n' & Ex' & N & _). rewrite Ex in Ex'. injection Ex' as <- <-.
  destruct (tree_parts inside tree r N Er) as ([Q1 Q2] & _). specialize (Q2 x). clear - Q1 Q2. induction r as [|q r IH]; [exact I|]. cbn [at_most_one] in *. destruct Q2 as [A B].
  split; [|apply IH; [intros q' I'; apply Q1; right; exact I'|exact B]].
  unfold moved. cbn [Z.eqb]. intros M b Ib Mb. apply (A (proj1 (proper_part_parity inside q x (Q1 q (or_introl eq_refl))) M) b Ib). exact (proj1 (proper_part_parity inside b x (Q1 b (or_intror Ib))) Mb).
Qed.
Lemma walls_kept lib o l1 l2 l3 n l : InfillModify lib o l1 = Ok l2 -> InternalInfillModify lib o l2 = Ok l3 -> nth_error l3 n = Some l ->
  exists a, nth_error l1 n = Some a /\ Perimeters l = Perimeters a /\ OverlapPerimeters l = OverlapPerimeters a.
Proof.
  intros H2 H3 El. assert (K2 := infill_keeps_all lib o l1 l2 H2). assert (K3 := internal_keeps_all lib o l2 l3 H3).
  destruct (keeps_nth _ _ _ _ _ K3 El) as (b & Eb & _ & Ab). destruct (keeps_nth _ _ _ _ _ K2 Eb) as (a & Ea & _ & Aa). exists a. split; [exact Ea|].
  split; [unfold Perimeters|unfold OverlapPerimeters]; rewrite Ab, Aa by (cbn; intuition discriminate); reflexivity.
Qed.
Lemma below_more {P : Type} (inside : path -> P -> bool) layers n c c' x : c <= c' -> exposed_below inside layers n c x -> exposed_below inside layers n c' x.
Proof. intros H (i & Hi & E). exists i. split; [lia|exact E]. Qed.
Lemma above_more {P : Type} (inside : path -> P -> bool) layers n c c' x : c <= c' -> exposed_above inside layers n c x -> exposed_above inside layers n c' x.
Proof. intros H (i & Hi & E). exists i. split; [lia|exact E]. Qed.

(** If solid areas are not enlarged (the overlaps together are 100 percent), what is solid stays solid with more solid layers, what is a bottom stays a
    bottom, and the rest, which gets the sparse filling, does not grow. *)
Theorem more_solid_layers : forall (P : Type) (inside : path -> P -> bool) lib o b t layers l1 l2 l3 l1' l2' l3' n l l' bottom top internal bottom' top' internal' x,
  printed inside lib o layers l1 l2 l3 -> printed inside lib (resolid b t o) layers l1' l2' l3' -> (forall y, In y layers -> proper inside (LayerParts y)) ->
  NumberBottomLayers (Print o) <= b -> NumberTopLayers (Print o) <= t ->
  amount (ExtrusionWidth (Printer o)) (add64 (InfillOverlapPercent (Print o)) (AdditionalInternalInfillOverlapPercent (Print o))) = 0 ->
  nth_error l3 n = Some l -> nth_error l3' n = Some l' ->
  PartsAttribute l "bottom" = Ok bottom -> PartsAttribute l "top" = Ok top -> PartsAttribute l "infill" = Ok internal ->
  PartsAttribute l' "bottom" = Ok bottom' -> PartsAttribute l' "top" = Ok top' -> PartsAttribute l' "infill" = Ok internal' ->
  (covered inside bottom x -> covered inside bottom' x) /\ (covered inside bottom x \/ covered inside top x -> covered inside bottom' x \/ covered inside top' x) /\
  (InfillPercent (Print o) <> 0 -> covered inside internal' x -> covered inside internal x).
Proof.
  intros P inside lib o b t layers l1 l2 l3 l1' l2' l3' n l l' bottom top internal bottom' top' internal' x Pr Pr' Hp Hb Ht Ha El El' Eb Et Ei Eb' Et' Ei'.
  assert (L1 : l1' = l1). { pose proof (pr_perimeter _ _ _ _ _ _ _ Pr') as Q. change (PerimeterModify lib o layers = Ok l1') in Q. pose proof (pr_perimeter _ _ _ _ _ _ _ Pr). congruence. }
  subst l1'. destruct (walls_kept lib o l1 l2 l3 n l (pr_infill _ _ _ _ _ _ _ Pr) (pr_internal _ _ _ _ _ _ _ Pr) El) as (a & Ea & Wp & Wo).
  destruct (walls_kept lib _ l1 l2' l3' n l' (pr_infill _ _ _ _ _ _ _ Pr') (pr_internal _ _ _ _ _ _ _ Pr') El') as (a' & Ea' & Wp' & Wo'). rewrite Ea in Ea'. injection Ea' as <-.
  assert (FD : filled layers n \/ ~ filled layers n).
  { destruct (infill_stop lib o layers l1 l2 (pr_perimeter _ _ _ _ _ _ _ Pr) (pr_infill _ _ _ _ _ _ _ Pr)) as (stop & _ & St). rewrite <- St. destruct (Nat.lt_ge_cases n stop); [left; assumption|right; lia]. }
  destruct FD as [Fn|Nf].
  - destruct (infill_partition inside lib o layers l1 l2 l3 Pr n Fn) as (m & ov & bs & ts & is & Em & Eo & Qb & Qt & Qi & H). rewrite El in Em. injection Em as <-.
    rewrite Eb in Qb. injection Qb as <-. rewrite Et in Qt. injection Qt as <-. rewrite Ei in Qi. injection Qi as <-.
    destruct (infill_partition inside lib _ layers l1 l2' l3' Pr' n Fn) as (m' & ov' & bs' & ts' & is' & Em' & Eo' & Qb' & Qt' & Qi' & H'). rewrite El' in Em'. injection Em' as <-.
    rewrite Eb' in Qb'. injection Qb' as <-. rewrite Et' in Qt'. injection Qt' as <-. rewrite Ei' in Qi'. injection Qi' as <-.
    destruct (layer_spec inside lib (pr_exact _ _ _ _ _ _ _ Pr) o (pr_full _ _ _ _ _ _ _ Pr) layers l1 l2 l3 (pr_perimeter _ _ _ _ _ _ _ Pr) (pr_infill _ _ _ _ _ _ _ Pr) (pr_internal _ _ _ _ _ _ _ Pr) (pr_fresh _ _ _ _ _ _ _ Pr) n Fn)
      as (l0 & l'' & pe & ov'' & _ & _ & _ & _ & El'' & Ep & Eo'' & _). rewrite El in El''. injection El'' as <-. clear Eo'' ov''.
    assert (Ep' : Perimeters l' = Ok pe) by congruence. assert (ov' = ov) by congruence. subst ov'.
    destruct (solid_only_exposed inside lib o layers l1 l2 l3 Pr Hp n l pe ov bottom top x Fn Ha El Ep Eo Eb Et) as (Sb & St).
    assert (B : covered inside bottom x -> covered inside bottom' x).
    { intros C. apply Sb in C. destruct C as (k & e & bd & p & Ek & Ebd & Ip & Hx & Cb & Ex).
      destruct (solid_bottom inside lib (resolid b t o) layers l1 l2' l3' Pr' Hp n k l' pe ov e bd p x Fn) as (bs & Q & C); try assumption.
      - change (amount (ExtrusionWidth (Printer o)) (add64 (InfillOverlapPercent (Print o)) (AdditionalInternalInfillOverlapPercent (Print o))) <= 0). rewrite Ha. lia.
      - intros r Hr _. change (apart inside lib (amount (ExtrusionWidth (Printer o)) (add64 (InfillOverlapPercent (Print o)) (AdditionalInternalInfillOverlapPercent (Print o)))) r). rewrite Ha.
        exact (clip_apart inside lib r (pr_exact _ _ _ _ _ _ _ Pr) Hr).
      - apply (below_more inside layers n (NumberBottomLayers (Print o))); [exact Hb|exact Ex].
      - rewrite Eb' in Q. injection Q as <-. exact C. }
    assert (T : covered inside bottom x \/ covered inside top x -> covered inside bottom' x \/ covered inside top' x).
    { intros [C|C]; [left; exact (B C)|]. apply St in C. destruct C as (k & e & bd & p & Ek & Ebd & Ip & Hx & Cb & Ex).
      destruct (solid_top inside lib (resolid b t o) layers l1 l2' l3' Pr' Hp n k l' pe ov e bd p x Fn) as (bs & ts & Q & Q' & C); try assumption.
      - change (amount (ExtrusionWidth (Printer o)) (add64 (InfillOverlapPercent (Print o)) (AdditionalInternalInfillOverlapPercent (Print o))) <= 0). rewrite Ha. lia.
      - intros r Hr _. change (apart inside lib (amount (ExtrusionWidth (Printer o)) (add64 (InfillOverlapPercent (Print o)) (AdditionalInternalInfillOverlapPercent (Print o)))) r). rewrite Ha.
        exact (clip_apart inside lib r (pr_exact _ _ _ _ _ _ _ Pr) Hr).
      - apply (above_more inside layers n (NumberTopLayers (Print o))); [exact Ht|exact Ex].
      - rewrite Eb' in Q. injection Q as <-. rewrite Et' in Q'. injection Q' as <-. tauto. }
    split; [exact B|]. split; [exact T|]. intros N C. destruct (H x) as (_ & _ & _ & _ & Fill). destruct (H' x) as (_ & D1 & D2 & In_ & _).
    destruct (Fill N (In_ (or_intror (or_intror C)))) as [X|[X|X]]; [| |exact X]; exfalso.
    + apply D1. split; [exact (B X)|exact C].
    + destruct (T (or_intror X)) as [Y|Y]; [apply D1|apply D2]; split; assumption.
  - destruct (no_infill lib o layers l1 l2 l3 (pr_perimeter _ _ _ _ _ _ _ Pr) (pr_infill _ _ _ _ _ _ _ Pr) (pr_internal _ _ _ _ _ _ _ Pr) (pr_fresh _ _ _ _ _ _ _ Pr) n l Nf El) as (N1 & N2 & N3).
    destruct (no_infill lib _ layers l1 l2' l3' (pr_perimeter _ _ _ _ _ _ _ Pr') (pr_infill _ _ _ _ _ _ _ Pr') (pr_internal _ _ _ _ _ _ _ Pr') (pr_fresh _ _ _ _ _ _ _ Pr') n l' Nf El') as (N1' & N2' & N3').
    unfold PartsAttribute in Eb, Et, Ei'. rewrite N1 in Eb. rewrite N2 in Et. rewrite N3' in Ei'. injection Eb as <-. injection Et as <-. injection Ei' as <-. pose proof (covered_nil inside x). tauto.
Qed.
Print Assumptions more_solid_layers.

(** With the default overlap it fails: the layer at the height of 3 layers has one gap below it on the left of 20000 and, one layer lower, another one on the right of
    20500.  Both are enlarged by 700 micrometer and what is in both is left out, so the point 19900 is solid with one bottom layer and not with two. *)
Definition step_stack : list layer := [plain_layer [bar 0 30000]; plain_layer [bar 0 20500]; plain_layer [bar 20000 30000]; plain_layer [bar 0 30000]; plain_layer [bar 0 30000]].
Theorem more_solid_layers_refuted : exists l l' bottom bottom',
  (let* ls := three (resolid 1 0 DefaultOptions) step_stack in idx ls 3) = Ok l /\ (let* ls := three (resolid 2 0 DefaultOptions) step_stack in idx ls 3) = Ok l' /\
  PartsAttribute l "bottom" = Ok bottom /\ PartsAttribute l' "bottom" = Ok bottom' /\ covered in_strips bottom 19900 /\ ~ covered in_strips bottom' 19900.
Proof.
  do 4 eexists. split; [vm_compute; reflexivity|]. split; [vm_compute; reflexivity|]. split; [vm_compute; reflexivity|]. split; [vm_compute; reflexivity|]. split.
  - eexists. split; [left; reflexivity|]. apply (strip_in_part (_, _)); cbn [fst snd]; lia.
  - intros (p & Ip & Hp). repeat (destruct Ip as [<-|Ip]; [apply (strip_in_part (_, _)) in Hp; cbn [fst snd] in *; lia|]). destruct Ip.
Qed.
Print Assumptions more_solid_layers_refuted.

(** 50 and 50 percent overlap *)
Definition even : options := Eval vm_compute in
  let p := Print DefaultOptions in
  Options (Slicing DefaultOptions) (Printer DefaultOptions) (Filament DefaultOptions)
    (PrintOptions (IntialLayerSpeed p) (LayerSpeed p) (OuterPerimeterSpeed p) (MoveSpeed p) 200 200 2 50 50 20 45 false 1 1 (Support p) (BrimSkirt p)) (GoSlice DefaultOptions).
Definition stage1 o := layers_of (PerimeterModify strip_lib o step_stack).
Definition stage2 o := layers_of (InfillModify strip_lib o (stage1 o)).
Definition stage3 o := layers_of (InternalInfillModify strip_lib o (stage2 o)).
Lemma even_printed : printed in_strips strip_lib even step_stack (stage1 even) (stage2 even) (stage3 even) /\
  printed in_strips strip_lib (resolid 2 2 even) step_stack (stage1 (resolid 2 2 even)) (stage2 (resolid 2 2 even)) (stage3 (resolid 2 2 even)).
Proof. split; (split; [exact strip_exact|repeat constructor|vm_compute; reflexivity|vm_compute; reflexivity|vm_compute; reflexivity| |]; vm_compute; intuition discriminate). Qed.
Example more_solid_layers_ex : exists l l' bottom bottom', (forall y, In y step_stack -> proper in_strips (LayerParts y)) /\
  amount (ExtrusionWidth (Printer even)) (add64 (InfillOverlapPercent (Print even)) (AdditionalInternalInfillOverlapPercent (Print even))) = 0 /\
  nth_error (stage3 even) 3 = Some l /\ nth_error (stage3 (resolid 2 2 even)) 3 = Some l' /\ PartsAttribute l "bottom" = Ok bottom /\ PartsAttribute l' "bottom" = Ok bottom' /\
  bottom <> [] /\ bottom' <> bottom.
Proof.
  do 4 eexists. split; [intros y H; repeat (destruct H as [<-|H]; [apply bar_proper|]); destruct H|]. split; [vm_compute; reflexivity|].
  split; [vm_compute; reflexivity|]. split; [vm_compute; reflexivity|]. split; [vm_compute; reflexivity|]. split; [vm_compute; reflexivity|]. split; discriminate.
Qed.
