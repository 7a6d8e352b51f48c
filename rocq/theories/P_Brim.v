(** Property C86: brim and skirt surround what the first layer prints. *)
From Verif Require Import GoBase GoFloat M_Micrometer M_Geom2D M_Option M_Clip M_Builder M_Layer M_Modifier M_Render S_Clip S_Area S_Calls S_Render S_Modifier S_Brim L_Modifier L_Area L_ModArea L_Strip L_TreeLib P_Modifier P_Render.
Local Open Scope Z_scope.

(** The outermost contours of parts lie apart from each other, and around every point that an odd number of outlines surrounds
    there is one of them. *)
Theorem top_level_exact : forall (P : Type) (inside : path -> P -> bool) lib parts, exact inside lib ->
  exists tops, TopLevelPolygons lib parts = Some tops /\ (forall x, at_most_one (fun c => inside c x = true) tops) /\
    forall x, parity inside (map outline parts) x = true -> exists c, In c tops /\ inside c x = true.
Proof.
  intros P inside lib parts Ex. destruct (exact_clip _ _ Ex CtUnion (map outline parts) []) as (tree & n & E & N & H). cbn [closed_as map] in E. rewrite app_nil_r in E.
  unfold TopLevelPolygons. unfold closed_as in E. rewrite map_map in E. rewrite E. eexists. split; [reflexivity|]. split.
  - intros x. destruct N as [_ One]. specialize (One x). clear -One. induction tree as [|t tree IH]; [exact I|]. cbn [map at_most_one] in *. destruct One as [O1 O2]. split; [|exact (IH O2)].
    intros Ht c Ic. apply in_map_iff in Ic. destruct Ic as (t' & <- & It). exact (O1 Ht t' It).
  - intros x Px. specialize (H x). rewrite Px in H. cbn [op orb] in H. destruct N as [N _]. clear -H N. induction tree as [|t tree IH]; [discriminate|]. cbn [flat_map] in H. rewrite parity_app in H.
    destruct (parity inside (contours t) x) eqn:Pt.
    + exists (contour t). split; [left; reflexivity|]. specialize (N t (or_introl eq_refl)). destruct (inside (contour t) x) eqn:Q; [reflexivity|]. exfalso.
      assert (Z : forall n, nested inside n -> inside (contour n) x = false -> parity inside (contours n) x = false).
      { clear -x. induction n as [c l IH] using node_ind'. intros Nn Hc. inversion Nn as [c' l' Hn Hi _]; subst c' l'. cbn [contour] in Hc. cbn [contours parity]. rewrite Hc, xorb_false_l.
        assert (G : forall m, In m l -> parity inside (contours m) x = false). { intros m Im. apply (IH m Im (Hn m Im)). destruct (inside (contour m) x) eqn:Qm; [|reflexivity]. rewrite (Hi m x Im Qm) in Hc. discriminate. }
        clear IH Nn Hn Hi. induction l as [|m l IHl]; [reflexivity|]. cbn [flat_map]. rewrite parity_app, (G m (or_introl eq_refl)), IHl; [reflexivity|]. intros k Ik. apply G. right. exact Ik. }
      rewrite (Z t N Q) in Pt. discriminate.
    + rewrite xorb_false_l in H. destruct (IH (fun k Ik => N k (or_intror Ik)) H) as (c & Ic & Hc). exists c. split; [right; exact Ic|exact Hc].
Qed.
Print Assumptions top_level_exact.
Example top_level_ex : TopLevelPolygons tree_lib [bar 0 100; bar 10 90; bar 200 300] = Some [[Pt 0 0; Pt 300 0]] /\ TopLevelPolygons strip_lib [bar 0 100; bar 200 300] = Some [[Pt 0 0; Pt 100 0]; [Pt 200 0; Pt 300 0]].
Proof. split; vm_compute; reflexivity. Qed.

Section Surround.
Context {P : Type} (inside : path -> P -> bool) (lib : clib).
Hypothesis Ex : exact inside lib.
(** some loop of the line goes around the point *)
Definition around (line : list part) (x : P) : Prop := exists p, In p line /\ inside (outline p) x = true.
Lemma covered_around line x : covered inside line x -> around line x.
Proof. intros (p & Ip & H & _). exists p. auto. Qed.
Lemma grown_covers d c x ps : 0 <= d -> inside c x = true -> polyTreeToLayerParts (offset lib (f64_of_Z d) [c]) = Ok ps -> covered inside ps x.
Proof.
  intros Hd Hc E. destruct (tree_parts inside _ _ (exact_offset _ _ Ex _ _) E) as [_ C]. apply C. apply (exact_grow _ _ Ex); [exact Hd|]. cbn [parity]. rewrite Hc. reflexivity.
Qed.
Lemma forall2_in {A B} (R : A -> B -> Prop) l l' : Forall2 R l l' -> forall a, In a l -> exists b, In b l' /\ R a b.
Proof. induction 1 as [|a b l l' H F IH]; intros c I; [destruct I|]. destruct I as [<-|I]; [exists b; split; [left; reflexivity|exact H]|]. destruct (IH c I) as (d & Id & Hd). exists d. split; [right; exact Id|exact Hd]. Qed.
Lemma forall2_in_r {A B} (R : A -> B -> Prop) l l' : Forall2 R l l' -> forall b, In b l' -> exists a, In a l /\ R a b.
Proof. induction 1 as [|a b l l' H F IH]; intros c I; [destruct I|]. destruct I as [<-|I]; [exists a; split; [left; reflexivity|exact H]|]. destruct (IH c I) as (d & Id & Hd). exists d. split; [right; exact Id|exact Hd]. Qed.
Lemma in_idx {A} (l : list A) a : In a l -> exists k, 0 <= k < Z.of_nat (List.length l) /\ idx l k = Ok a.
Proof.
  intros I. apply In_nth_error in I. destruct I as (n & E). exists (Z.of_nat n). rewrite idx_nth, E. split; [|reflexivity]. assert (n < List.length l)%nat by (apply nth_error_Some; congruence). lia.
Qed.
End Surround.

(** The first pieces of the walls of the first layer: if each other one lies apart from p or strictly inside of it, then p
    gets BrimCount lines, each of which goes around all of p, and the area of the brim contains all of p. *)
Theorem brim_surrounds : forall (P : Type) (inside : path -> P -> bool) strictly lib o layers layers' l pe before p after,
  exact inside lib -> outermost inside strictly lib ->
  let w := ExtrusionWidth (Printer o) in let count := s_BrimCount (BrimSkirt (Print o)) in
  BrimModify lib o layers = Ok layers' -> 0 < count -> 0 <= w -> (count + 1) * w <= 2 ^ 53 ->
  nth_error layers 0 = Some l -> Perimeters l = Ok pe -> attribute l "outerBrim" = None ->
  flat_map (fun walls => flat_map (firstn 1) walls) pe = before ++ p :: after ->
  (forall d, In d (before ++ after) -> (forall x, inside (outline d) x = true -> inside (outline p) x = false) \/ strictly (outline d) (outline p)) ->
  forall x, inside (outline p) x = true ->
  exists l' brim area, nth_error layers' 0 = Some l' /\ Brim l' = Ok brim /\ BrimOuterDimension l' = Ok area /\ covered inside area x /\
      exists lines, In lines brim /\ Z.of_nat (List.length lines) = count /\ forall line, In line lines -> around inside line x.
Proof.
  intros P inside strictly lib o layers layers' l pe before p after Ex Out w count H Hc Hw Hb El Ep Fo Eo Apart.
  assert (Np : pe <> []) by (intros ->; destruct before; discriminate).
  destruct (exact_clip _ _ Ex CtUnion (map outline (before ++ p :: after)) []) as (tree & n & E & N & _). cbn [closed_as map] in E. rewrite app_nil_r in E.
  assert (Et : TopLevelPolygons lib (flat_map (fun walls => flat_map (firstn 1) walls) pe) = Some (map contour tree)).
  { rewrite Eo. unfold TopLevelPolygons. unfold closed_as in E. rewrite map_map in E. rewrite E. reflexivity. }
  assert (Top : forall x, inside (outline p) x = true -> exists t, In t tree /\ inside (contour t) x = true).
  { rewrite map_app in E. cbn [map] in E. apply (Out _ _ _ _ _ E). intros d Id. rewrite <- map_app in Id. apply in_map_iff in Id. destruct Id as (q & <- & Iq). exact (Apart q Iq). }
  intros x Hx. destruct (Top x Hx) as (t & It & Ht). assert (Tn : map contour tree <> []) by (destruct tree; [destruct It|discriminate]).
  destruct (brim_lines lib o layers layers' l pe _ H Hc Hw Hb El Ep Np Fo Et Tn) as (l' & brim & areas & E1 & E2 & F1 & F2 & E3).
    exists l', brim, (concat areas). split; [exact E1|]. split; [exact E2|]. split; [exact E3|].
    destruct (forall2_in _ _ _ F1 _ (in_map contour _ _ It)) as (lines & Il & Len & Each).
    assert (Cov : forall k line, idx lines k = Ok line -> 0 <= k -> covered inside line x).
    { intros k line Ek Hk. fold w in Each. apply (grown_covers inside lib Ex ((k + 1) * w) (contour t)); [nia|exact Ht|exact (Each k line Ek)]. }
    split.
    + assert (Ll : In (last lines []) lines). { fold count in Len. destruct lines as [|a r]; [cbn in Len; lia|]. rewrite (app_removelast_last [] (l := a :: r)) at 2 by discriminate. apply in_or_app. right. left. reflexivity. }
      destruct (in_idx _ _ Ll) as (k & Hk & Ek). destruct (Cov k _ Ek (proj1 Hk)) as (q & Iq & Hq).
      assert (Pr : proper_part inside q). { destruct (tree_parts inside _ _ (exact_offset _ _ Ex _ _) (Each k _ Ek)) as [[Pp _] _]. exact (Pp q Iq). }
      destruct (forall2_in _ _ _ F2 q) as (area & Ia & Ea); [apply in_flat_map; exists lines; auto|].
      destruct (tree_parts inside _ _ (exact_offset _ _ Ex _ _) Ea) as [_ C].
      assert (Ca : covered inside area x). { apply C. fold w. apply (exact_grow _ _ Ex); [apply Z.div_pos; lia|]. apply (proper_part_parity inside q x Pr). exact Hq. }
      destruct Ca as (r & Ir & Hr). exists r. split; [apply in_concat; eauto|exact Hr].
    + exists lines. split; [exact Il|]. split; [exact Len|]. intros line I. destruct (in_idx _ _ I) as (k & Hk & Ek). apply covered_around. exact (Cov k line Ek (proj1 Hk)).
Qed.
Print Assumptions brim_surrounds.
Definition fenced : options := with_print (fun p => PrintOptions (IntialLayerSpeed p) (LayerSpeed p) (OuterPerimeterSpeed p) (MoveSpeed p) (InitialLayerThickness p) (LayerThickness p) 2
  50 50 (InfillPercent p) (InfillRotationDegree p) (InfillZigZag p) (NumberBottomLayers p) (NumberTopLayers p) (Support p) (BrimSkirtOptions 2 (c32 5 1) 2)) DefaultOptions.
(** two walls around 0 .. 20000 and another part next to it *)
Definition two_bars : list layer := [plain_layer [bar 0 20000; bar 30000 40000]; plain_layer [bar 0 20000]].
Example brim_surrounds_ex : exists layers layers' l pe, PerimeterModify tree_lib fenced two_bars = Ok layers /\ BrimModify tree_lib fenced layers = Ok layers' /\
  nth_error layers 0 = Some l /\ Perimeters l = Ok pe /\ attribute l "outerBrim" = None /\
  flat_map (fun walls => flat_map (firstn 1) walls) pe = [] ++ bar 200 19800 :: [bar 600 19400; bar 30200 39800; bar 30600 39400] /\
  (forall d, In d [bar 600 19400; bar 30200 39800; bar 30600 39400] -> (forall x, in_strips (outline d) x = true -> in_strips (outline (bar 200 19800)) x = false) \/ strictly_in (outline d) (outline (bar 200 19800))) /\
  exact in_strips tree_lib /\ outermost in_strips strictly_in tree_lib.
Proof.
  do 4 eexists. split; [vm_compute; reflexivity|]. split; [vm_compute; reflexivity|]. split; [reflexivity|]. do 3 (split; [vm_compute; reflexivity|]). split; [|split; [exact tree_exact|exact tree_outermost]].
  intros d [<-|[<-|[<-|[]]]]; [right; exists 200, 19800, 0, 0; split; [reflexivity|]; intros e [<-|[<-|[]]]; cbn [px]; lia| |]; left; intros x; unfold in_strips; cbn [bar outline ends px odd_le];
    rewrite !xorb_false_r; repeat match goal with |- context [?a <=? x] => destruct (Z.leb_spec a x) end; cbn; try lia; congruence.
Qed.

(** the area the skirt is put around is the one C59 describes *)
Lemma full_support_stored l support : PartsAttribute l "fullSupport" = Ok support -> FullSupport l = Ok support.
Proof. unfold PartsAttribute, FullSupport. destruct (attribute l "fullSupport") as [[]|]; intros [= <-]; reflexivity. Qed.
(** Every loop of the skirt goes around everything the walls and the support of the first layer surround. *)
Theorem skirt_surrounds : forall (P : Type) (inside : path -> P -> bool) lib o l z ps support,
  exact inside lib -> hulls inside lib -> Perimeters l = Ok ps -> PartsAttribute l "fullSupport" = Ok support -> support ++ concat (concat ps) <> [] ->
  let w := ExtrusionWidth (Printer o) in let count := s_SkirtCount (BrimSkirt (Print o)) in
  let distance := ToMicrometer (s_SkirtDistance (BrimSkirt (Print o))) + w * s_BrimCount (BrimSkirt (Print o)) + w in
  count <> 0 -> 0 <= distance -> 0 <= w -> distance + Z.max 0 count * w <= 2 ^ 53 -> w <= 2 ^ 53 ->
  exists loops, skirt_plan lib o 0 l z = Ok (CComment "TYPE:SKIRT" :: map (fun p => CPolygon None (outline p) z false) (concat loops)) /\
    Z.of_nat (List.length loops) = Z.max 0 count /\
    forall p x, In p (support ++ concat (concat ps)) -> inside (outline p) x = true -> forall loop, In loop loops -> around inside loop x.
Proof.
  intros P inside lib o l z ps support Ex Hu Ep Ea N w count distance C Hd Hw B W. pose proof (full_support_stored _ _ Ea) as Es.
  destruct (skirt_lines lib o l z ps support Ep Es N C) as (loops & E & Len & Each); fold w count distance; [rewrite !Z.abs_eq; lia|lia|]. fold w count distance in Len, Each.
  exists loops. split; [exact E|]. split; [exact Len|]. intros p x Ip Hx loop Il. destruct (in_idx _ _ Il) as (k & Hk & Ek). apply covered_around.
  apply (grown_covers inside lib Ex (distance + k * w) (Hull lib (support ++ concat (concat ps)))); [nia| |exact (Each k loop Ek)].
  unfold Hull. apply (hull_around _ _ Hu _ (outline p)); [apply in_map, Ip|exact Hx].
Qed.
Print Assumptions skirt_surrounds.

(** Every loop of the skirt goes around each line of the brim. *)
Theorem skirt_around_brim : forall (P : Type) (inside : path -> P -> bool) lib o layers layers' l l' lr z pe support brim,
  exact inside lib -> hulls inside lib -> grows_evenly inside lib ->
  let w := ExtrusionWidth (Printer o) in let count := s_BrimCount (BrimSkirt (Print o)) in
  let distance := ToMicrometer (s_SkirtDistance (BrimSkirt (Print o))) + w * count + w in
  BrimModify lib o layers = Ok layers' -> nth_error layers 0 = Some l -> Perimeters l = Ok pe -> attribute l "brim" = None -> attribute l "outerBrim" = None ->
  nth_error layers' 0 = Some l' -> Brim l' = Ok brim -> brim <> [] -> Perimeters lr = Perimeters l' -> FullSupport lr = Ok support -> concat (concat pe) <> [] ->
  0 <= count -> 0 <= w -> 0 <= ToMicrometer (s_SkirtDistance (BrimSkirt (Print o))) -> s_SkirtCount (BrimSkirt (Print o)) <> 0 ->
  distance + Z.max 0 (s_SkirtCount (BrimSkirt (Print o))) * w <= 2 ^ 53 ->
  exists loops, skirt_plan lib o 0 lr z = Ok (CComment "TYPE:SKIRT" :: map (fun p => CPolygon None (outline p) z false) (concat loops)) /\
    Z.of_nat (List.length loops) = Z.max 0 (s_SkirtCount (BrimSkirt (Print o))) /\
    forall lines line x, In lines brim -> In line lines -> covered inside line x -> forall loop, In loop loops -> around inside loop x.
Proof.
  intros P inside lib o layers layers' l l' lr z pe support brim Ex Hu Gr w count distance H El Ep Fb Fo El' Eb Nb Epr Es Ne Hc Hw Hs Sc B2.
  assert (Epr' : Perimeters lr = Ok pe).
  { rewrite Epr. destruct (brim_keeps lib o layers layers' H) as [K _]. unfold keeps in K. destruct layers as [|l0 layers0]; [discriminate|]. injection El as ->. inversion K as [|? l1 ? r [_ K1] _]; subst. injection El' as ->.
    rewrite <- Ep. unfold Perimeters. rewrite K1; [reflexivity|]. intros [Q|[Q|[]]]; discriminate. }
  assert (Np : pe <> []) by (intros ->; apply Ne; reflexivity).
  destruct (exact_clip _ _ Ex CtUnion (map outline (flat_map (fun walls => flat_map (firstn 1) walls) pe)) []) as (tree & n & E & N & _). cbn [closed_as map] in E. rewrite app_nil_r in E.
  assert (Et : TopLevelPolygons lib (flat_map (fun walls => flat_map (firstn 1) walls) pe) = Some (map contour tree)).
  { unfold TopLevelPolygons. unfold closed_as in E. rewrite map_map in E. rewrite E. reflexivity. }
  assert (Same : layers' = layers -> False).
  { intros ->. rewrite El in El'. injection El' as <-. unfold Brim in Eb. rewrite Fb in Eb. injection Eb as <-. contradiction. }
  assert (Hc' : 0 < count). { destruct (Z.eq_dec count 0) as [Z0|]; [|lia]. exfalso. apply Same. unfold BrimModify in H. fold count in H. rewrite Z0 in H. cbn in H. congruence. }
  assert (Tn : map contour tree <> []).
  { intros Tn. apply Same. unfold BrimModify in H. fold count in H. destruct (Z.eqb_spec count 0); [lia|]. change 0 with (Z.of_nat 0) in H. rewrite idx_nth, El in H. cbn [bind] in H. rewrite Ep in H. cbn [bind] in H.
    assert (Eo' : outer_perimeters pe = flat_map (fun walls => flat_map (firstn 1) walls) pe).
    { unfold outer_perimeters. apply flat_map_ext. intros walls. apply flat_map_ext. intros [|y wall]; reflexivity. }
    rewrite Eo', Et, Tn in H. destruct pe; [contradiction|]. cbn in H. congruence. }
  assert (0 <= Z.max 0 (s_SkirtCount (BrimSkirt (Print o))) * w) by (apply Z.mul_nonneg_nonneg; lia).
  assert (D : distance = ToMicrometer (s_SkirtDistance (BrimSkirt (Print o))) + (count + 1) * w) by (unfold distance; ring).
  destruct (brim_lines lib o layers layers' l pe _ H Hc' Hw ltac:(fold w count; lia) El Ep Np Fo Et Tn) as (l1 & brim' & areas & E1 & E2 & F1 & _ & _).
  rewrite El' in E1. injection E1 as <-. rewrite Eb in E2. injection E2 as <-. fold w count in F1.
  assert (Nall : support ++ concat (concat pe) <> []) by (intros Q; apply app_eq_nil in Q; exact (Ne (proj2 Q))).
  assert (Dp : 0 <= (count + 1) * w) by nia. assert (W : w <= 2 ^ 53) by nia.
  destruct (skirt_lines lib o lr z pe support Epr' Es Nall Sc) as (loops & Ek & Len & Each); fold w count distance; [rewrite !Z.abs_eq; lia|lia|]. fold w count distance in Len, Each.
  exists loops. split; [exact Ek|]. split; [exact Len|]. intros lines line x Il Iline Cx loop Iloop.
  destruct (forall2_in_r _ _ _ F1 _ Il) as (top & It & Ll & El1). apply in_map_iff in It. destruct It as (t & <- & It).
  destruct (in_idx _ _ Iline) as (k & Hk & Ek1). destruct (in_idx _ _ Iloop) as (j & Hj & Ej).
  destruct (tree_parts inside _ _ (exact_offset _ _ Ex _ _) (El1 k line Ek1)) as [_ C1]. apply C1 in Cx. apply covered_around.
  destruct (tree_parts inside _ _ (exact_offset _ _ Ex _ _) (Each j loop Ej)) as [_ C2]. apply C2.
  assert (J : 0 <= j * w <= Z.max 0 (s_SkirtCount (BrimSkirt (Print o))) * w) by nia. assert (K : 0 <= (k + 1) * w <= (count + 1) * w) by nia.
  apply (Gr (contour t) _ ((k + 1) * w)); [|lia|lia|exact Cx].
  intros y Hy. unfold Hull. refine (hull_union _ _ Hu _ _ tree n t y _ E It Hy). intros c Ic. apply in_map_iff in Ic. destruct Ic as (q & <- & Iq). apply in_map. apply in_or_app. right.
  apply in_flat_map in Iq. destruct Iq as (walls & Iw & Iq). apply in_flat_map in Iq. destruct Iq as (wall & Iwl & Iq). destruct wall as [|q0 wall]; [destruct Iq|]. destruct Iq as [<-|[]].
  apply in_concat. exists (q0 :: wall). split; [|left; reflexivity]. apply in_concat. exists walls. auto.
Qed.
Print Assumptions skirt_around_brim.
Example skirt_around_brim_ex : exists layers layers' l l' pe brim, PerimeterModify tree_lib fenced two_bars = Ok layers /\ BrimModify tree_lib fenced layers = Ok layers' /\
  nth_error layers 0 = Some l /\ nth_error layers' 0 = Some l' /\ Perimeters l = Ok pe /\ attribute l "brim" = None /\ attribute l "outerBrim" = None /\ Brim l' = Ok brim /\
  brim = [[[bar (-200) 40200]; [bar (-600) 40600]]] /\ FullSupport l' = Ok [] /\ concat (concat pe) <> [] /\
  skirt_plan tree_lib fenced 0 l' 300 = Ok (CComment "TYPE:SKIRT" :: map (fun p => CPolygon None (outline p) 300 false) (concat [[bar (-6000) 46000]; [bar (-6400) 46400]])) /\
  exact in_strips tree_lib /\ hulls in_strips tree_lib /\ grows_evenly in_strips tree_lib.
Proof.
  do 6 eexists. split; [vm_compute; reflexivity|]. split; [vm_compute; reflexivity|]. split; [reflexivity|]. split; [reflexivity|]. split; [vm_compute; reflexivity|]. do 2 (split; [vm_compute; reflexivity|]). split; [vm_compute; reflexivity|].
  split; [reflexivity|]. split; [vm_compute; reflexivity|]. split; [discriminate|]. split; [vm_compute; reflexivity|]. split; [exact tree_exact|]. split; [exact tree_hulls|exact tree_grows].
Qed.

(** Not every outer wall gets a brim.  If shrinking a part by half a line splits it (two bodies joined by a neck that is
    thinner than a line), the wall has two pieces, and only the first one gets a brim. *)
Definition neck : list layer := [plain_layer [Part [Pt 0 0; Pt 10000 0; Pt 10300 0; Pt 20000 0] []]].
Theorem brim_around_every_wall_refuted : exists layers layers' l l' pe brim,
  PerimeterModify strip_lib brimmed neck = Ok layers /\ BrimModify strip_lib brimmed layers = Ok layers' /\
  nth_error layers 0 = Some l /\ Perimeters l = Ok pe /\ nth_error layers' 0 = Some l' /\ Brim l' = Ok brim /\
  exists walls wall piece x, In walls pe /\ nth_error walls 0 = Some wall /\ In piece wall /\ in_strips (outline piece) x = true /\
    forall lines line, In lines brim -> In line lines -> ~ around in_strips line x.
Proof.
  do 6 eexists. split; [vm_compute; reflexivity|]. split; [vm_compute; reflexivity|]. split; [reflexivity|]. split; [vm_compute; reflexivity|]. split; [reflexivity|]. split; [vm_compute; reflexivity|].
  eexists. eexists. exists (bar 10500 19800), 15000. split; [left; reflexivity|]. split; [reflexivity|]. split; [right; left; reflexivity|]. split; [reflexivity|].
  intros lines line [<-|[]] Il (p & Ip & Hp). destruct Il as [<-|[<-|[]]]; destruct Ip as [<-|[]]; discriminate.
Qed.
Print Assumptions brim_around_every_wall_refuted.
