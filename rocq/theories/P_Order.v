(** Property C104: the order of the faces in the file, and of their corners, does not matter. *)
From Coq Require Import Reals Lra Permutation.
From Verif Require Import GoBase GoFloat GoStr M_Micrometer M_Geom2D M_Model M_Slicer M_Clip M_Builder M_Option M_Layer M_Render M_Modifier M_Process M_Flags
  S_Geom S_Model S_Slicer S_Clip S_Area S_Calls S_Machine S_Render S_Modifier S_Process S_Fill S_Flags S_Place S_Print S_Solid S_Body L_Float L_Model L_Slicer L_SliceLoop L_SliceAll L_Area L_Clip L_Strip L_LineLib L_Modifier L_Infill L_Process L_Ray L_Solid L_Sliver
  P_Model P_Slicer P_Modifier P_Render P_Process P_Pipeline P_Complete P_Flags P_EndToEnd P_Solid P_Print P_Body.
Local Open Scope string_scope.
Local Open Scope list_scope.
Local Open Scope Z_scope.

Definition alike (f g : face) : Prop := turned f g \/ turned (flip f) g.
Definition same3 (f g : face) : Prop := forall v, In v (facePoints f) <-> In v (facePoints g).
Ltac six f g H := destruct f as [[? ?] ?]; destruct H as [H|H]; cbn [turned flip] in H; destruct H as [->|[->| ->]].
Lemma alike_points f g : alike f g -> same3 f g.
Proof. intros H v. six f g H; cbn; tauto. Qed.
Lemma alike_proper f g : alike f g -> proper_face f -> proper_face g.
Proof. intros H. six f g H; cbn; intuition congruence. Qed.
Lemma alike_on_face f g x y z : alike f g -> on_face f x y z -> on_face g x y z.
Proof.
  intros H O. six f g H; unfold on_face in *; destruct O as (s & t & u & Hs & Ht & Hu & S & X & Y & Z).
  - exists s, t, u. repeat split; lra. - exists t, u, s. repeat split; lra. - exists u, s, t. repeat split; lra.
  - exists s, u, t. repeat split; lra. - exists u, t, s. repeat split; lra. - exists t, s, u. repeat split; lra.
Qed.
Lemma alike_sym f g : alike f g -> alike g f.
Proof. intros H. six f g H; unfold alike; cbn [turned flip]; tauto. Qed.
Lemma hit_alike z p f g : alike f g -> hit z p g = hit z p f.
Proof.
  intros H. six f g H; unfold hit; cbn [fedges filter fst snd];
    repeat match goal with |- context [vz ?v <? z] => destruct (Z.ltb_spec (vz v) z) end; cbn [xorb]; try reflexivity;
    repeat match goal with |- context [passes z ?a ?b] => lazymatch goal with |- context [passes z b a] => rewrite (passes_sym z a b) by lia end end;
    try reflexivity; apply crossed_sym.
Qed.
Lemma f2_impl {A B} (R T : A -> B -> Prop) l m : (forall x y, R x y -> T x y) -> Forall2 R l m -> Forall2 T l m.
Proof. intros I. induction 1; constructor; auto. Qed.
Lemma f2_in {A B} (R : A -> B -> Prop) l m : Forall2 R l m -> (forall x, In x l -> exists y, In y m /\ R x y) /\ (forall y, In y m -> exists x, In x l /\ R x y).
Proof.
  induction 1 as [|x y l m Hxy F (I1 & I2)]; [split; intros ? []|]. split.
  - intros a [<-|Ia]; [exists y; cbn; auto|]. destruct (I1 a Ia) as (b & Ib & Hb). exists b. cbn; auto.
  - intros b [<-|Ib]; [exists x; cbn; auto|]. destruct (I2 b Ib) as (a & Ia & Ha). exists a. cbn; auto.
Qed.
Lemma in_solid_perm fs gs z p : Permutation fs gs -> in_solid gs z p = in_solid fs z p.
Proof.
  unfold in_solid. induction 1 as [|f l m P IH|f g l|l m n P1 I1 P2 I2]; cbn [map fold_right]; [reflexivity|rewrite IH; reflexivity| |congruence].
  destruct (hit z p f), (hit z p g), (fold_right _ _ _); reflexivity.
Qed.
Lemma in_solid_alike fs gs z p : Forall2 alike fs gs -> in_solid gs z p = in_solid fs z p.
Proof. unfold in_solid. induction 1 as [|f g l m H F IH]; cbn [map fold_right]; [reflexivity|]. rewrite IH, (hit_alike _ _ _ _ H). reflexivity. Qed.

(** every face has a counterpart *)
Definition covers (fs gs : list face) : Prop := forall g, In g gs -> exists f, In f fs /\ alike f g.
Definition both (fs gs : list face) : Prop := covers fs gs /\ covers gs fs.
Lemma both_vertices fs gs : both fs gs -> forall v, In v (vertices fs) <-> In v (vertices gs).
Proof.
  intros (A & B) v. unfold vertices. rewrite !in_flat_map. split; intros (f & If & Iv).
  - destruct (B f If) as (g & Ig & H). exists g. split; [exact Ig|]. apply (alike_points _ _ H). exact Iv.
  - destruct (A f If) as (g & Ig & H). exists g. split; [exact Ig|]. apply (alike_points _ _ H). exact Iv.
Qed.
Lemma both_printable meld init fs gs : both fs gs -> printable meld init fs -> printable meld init gs.
Proof.
  intros B Pr. pose proof (both_vertices _ _ B) as V. destruct B as (C1 & C2). destruct Pr as [Ps Pn Pp Pa Pg Ph]. split.
  - intros ->. destruct fs as [|f fs]; [congruence|]. destruct (C2 f ltac:(left; reflexivity)) as (g & [] & _).
  - apply Forall_forall. intros v Iv. rewrite Forall_forall in Pn. apply Pn, V, Iv.
  - apply Forall_forall. intros g Ig. destruct (C1 g Ig) as (f & If & H). rewrite Forall_forall in Pp. exact (alike_proper _ _ H (Pp f If)).
  - intros v w Iv Iw. apply Pa; apply V; assumption.
  - intros z v w Iv Iw Hz. destruct (Pg z v w) as (f & a & b & If & Ia & Ib & Hf); [apply V; assumption..|exact Hz|]. destruct (C2 f If) as (g & Ig & H). apply alike_points in H.
    exists g, a, b. split; [exact Ig|]. split; [apply H; exact Ia|]. split; [apply H; exact Ib|exact Hf].
  - destruct Ph as (v & w & Iv & Iw & H). exists v, w. split; [apply V, Iv|]. split; [apply V, Iw|exact H].
Qed.
Lemma both_away fs gs z p : both fs gs -> away fs z p -> away gs z p.
Proof. intros (C1 & _) A g x y Ig O. destruct (C1 g Ig) as (f & If & H). exact (A f x y If (alike_on_face _ _ _ _ _ (alike_sym _ _ H) O)). Qed.
Lemma both_box fs gs mn mx : both fs gs -> tight_box3 (vertices fs) mn mx -> tight_box3 (vertices gs) mn mx.
Proof.
  intros B T. pose proof (both_vertices _ _ B) as V. destruct T as (T0 & T). split; [intros v Iv; apply T0, V, Iv|].
  assert (G : forall Q : vec3 -> Prop, (exists v, In v (vertices fs) /\ Q v) -> exists v, In v (vertices gs) /\ Q v) by (intros Q (v & Iv & Hv); exists v; split; [apply V; exact Iv|exact Hv]).
  destruct T as (T1 & T2 & T3 & T4 & T5 & T6). repeat split; apply G; assumption.
Qed.
(** no two faces have the same corners *)
Definition distinct (fs : list face) : Prop := forall i j f g, nth_error fs i = Some f -> nth_error fs j = Some g -> same3 f g -> i = j.
Lemma distinct_spec fs : distinct fs <-> NoDup fs /\ forall f g, In f fs -> In g fs -> same3 f g -> f = g.
Proof.
  split.
  - intros D. split.
    + apply NoDup_nth_error. intros i j Hi E. apply nth_error_Some in Hi. destruct (nth_error fs i) as [f|] eqn:Ei; [|congruence]. apply (D i j f f Ei (eq_sym E)). intros v. reflexivity.
    + intros f g If Ig S. apply In_nth_error in If, Ig. destruct If as (i & Ei), Ig as (j & Ej). rewrite (D i j f g Ei Ej S) in Ei. congruence.
  - intros (Nd & Di) i j f g Ei Ej S. assert (f = g) by (apply Di; [eapply nth_error_In; eassumption..|exact S]). subst g.
    apply (proj1 (NoDup_nth_error fs) Nd); [apply nth_error_Some; congruence|congruence].
Qed.
Lemma distinct_alike fs gs : Forall2 alike fs gs -> distinct fs -> distinct gs.
Proof.
  intros F D i j f g Ei Ej S. destruct (f2_nth_r _ _ _ _ _ F Ei) as (f' & Ei' & Hf). destruct (f2_nth_r _ _ _ _ _ F Ej) as (g' & Ej' & Hg).
  apply (D i j f' g' Ei' Ej'). intros v. rewrite (alike_points _ _ Hf v), (alike_points _ _ Hg v). apply S.
Qed.
Definition same_edges (f g : face) : Prop := forall e, In e (fedges f) <-> In e (fedges g).
Lemma turned_edges f g : turned f g -> same_edges f g.
Proof. intros H e. destruct f as [[a b] c]. destruct H as [->|[->| ->]]; cbn; tauto. Qed.
Lemma flip_edges f a b : In (a, b) (fedges (flip f)) <-> In (b, a) (fedges f).
Proof. destruct f as [[x y] w]. cbn. intuition congruence. Qed.
Lemma watertight_turned fs gs : Forall2 turned fs gs -> watertight fs -> watertight gs.
Proof.
  intros F (W1 & W2 & Nd & Di). assert (Fa : Forall2 alike fs gs) by (eapply f2_impl; [|exact F]; intros f g H; left; exact H).
  assert (D : distinct fs) by (apply distinct_spec; split; assumption). pose proof (distinct_alike _ _ Fa D) as Dg. destruct (f2_in _ _ _ F) as (F1 & F2).
  split; [|split; [|apply distinct_spec in Dg; exact Dg]].
  - intros g a b Ig Ie. destruct (F2 g Ig) as (f & If & H). apply (turned_edges _ _ H) in Ie. destruct (W1 f a b If Ie) as (h & Ih & Ih'). destruct (F1 h Ih) as (k & Ik & Hk). exists k. split; [exact Ik|]. apply (turned_edges _ _ Hk). exact Ih'.
  - intros f g e If Ig I1 I2. apply In_nth_error in If, Ig. destruct If as (i & Ei), Ig as (j & Ej).
    destruct (f2_nth_r _ _ _ _ _ F Ei) as (f' & Ei' & Hf). destruct (f2_nth_r _ _ _ _ _ F Ej) as (g' & Ej' & Hg).
    assert (f' = g') by (apply (W2 f' g' e); [eapply nth_error_In; eassumption..|apply (turned_edges _ _ Hf); exact I1|apply (turned_edges _ _ Hg); exact I2]). subst g'.
    assert (i = j) by (apply (D i j f' f' Ei' Ej'); intros v; reflexivity). subst j. congruence.
Qed.
Lemma watertight_perm fs gs : Permutation fs gs -> watertight fs -> watertight gs.
Proof.
  intros P (W1 & W2 & Nd & Di). assert (I : forall f, In f gs -> In f fs) by (intros f; apply Permutation_in, Permutation_sym, P).
  split; [|split; [|split]].
  - intros f a b If Ie. destruct (W1 f a b (I f If) Ie) as (g & Ig & H). exists g. split; [eapply Permutation_in; eassumption|exact H].
  - intros f g e If Ig. apply W2; auto.
  - eapply Permutation_NoDup; eassumption.
  - intros f g If Ig. apply Di; auto.
Qed.
Lemma flip_flip f : flip (flip f) = f.
Proof. destruct f as [[a b] c]. reflexivity. Qed.
Lemma flip_alike f : alike f (flip f).
Proof. right. destruct f as [[a b] c]. left. reflexivity. Qed.
Lemma flips_alike fs : Forall2 alike fs (map flip fs).
Proof. induction fs; cbn; constructor; auto using flip_alike. Qed.
Lemma watertight_flip fs : watertight fs -> watertight (map flip fs).
Proof.
  intros (W1 & W2 & Nd & Di). pose proof (distinct_alike _ _ (flips_alike fs) (proj2 (distinct_spec fs) (conj Nd Di))) as Dg.
  split; [|split; [|apply distinct_spec in Dg; exact Dg]].
  - intros g a b Ig Ie. apply in_map_iff in Ig. destruct Ig as (f & <- & If). apply (proj1 (flip_edges _ _ _)) in Ie. destruct (W1 f b a If Ie) as (h & Ih & Ih'). exists (flip h). split; [apply in_map; exact Ih|]. apply (proj2 (flip_edges _ _ _)). exact Ih'.
  - intros f g [a b] If Ig I1 I2. apply in_map_iff in If, Ig. destruct If as (f' & <- & If), Ig as (g' & <- & Ig). apply (proj1 (flip_edges _ _ _)) in I1, I2. f_equal. exact (W2 f' g' _ If Ig I1 I2).
Qed.
Lemma edges_apart_edges z d fs gs : (forall g e, In g gs -> In e (fedges g) -> rises z e -> exists f, In f fs /\ In e (fedges f)) -> edges_apart z d fs -> edges_apart z d gs.
Proof.
  intros H A f g a b c e If Ig I1 I2 R1 R2 N. destruct (H f _ If I1 R1) as (f' & If' & I1'). destruct (H g _ Ig I2 R2) as (g' & Ig' & I2'). exact (A f' g' a b c e If' Ig' I1' I2' R1 R2 N).
Qed.
Lemma rearranged_good fs gs : rearranged fs gs -> watertight fs -> both fs gs /\ watertight gs /\ (forall z d, edges_apart z d fs -> edges_apart z d gs) /\ (forall z p, in_solid gs z p = in_solid fs z p) /\ List.length gs = List.length fs.
Proof.
  intros (hs & P & F) W. pose proof (watertight_perm _ _ P W) as Wh.
  assert (Fa : Forall2 alike hs gs).
  { destruct F as [F|F]; [eapply f2_impl; [|exact F]; intros f g H; left; exact H|]. clear - F. revert gs F. induction hs as [|h hs IH]; intros gs F; cbn in F; inversion F; subst; constructor; [right; assumption|apply IH; assumption]. }
  destruct (f2_in _ _ _ Fa) as (F1 & F2). split; [|split; [|split; [|split]]].
  - split.
    + intros g Ig. destruct (F2 g Ig) as (f & If & H). exists f. split; [eapply Permutation_in; [apply Permutation_sym; exact P|exact If]|exact H].
    + intros f If. destruct (F1 f ltac:(eapply Permutation_in; eassumption)) as (g & Ig & H). exists g. split; [exact Ig|apply alike_sym; exact H].
  - destruct F as [F|F]; [exact (watertight_turned _ _ F Wh)|exact (watertight_turned _ _ F (watertight_flip _ Wh))].
  - intros z d. apply edges_apart_edges. intros g [a b] Ig Ie _. destruct F as [F|F]; destruct (proj2 (f2_in _ _ _ F) g Ig) as (f & If & H); apply (turned_edges _ _ H) in Ie.
    + exists f. split; [eapply Permutation_in; [apply Permutation_sym; exact P|exact If]|exact Ie].
    + apply in_map_iff in If. destruct If as (f' & <- & If). apply (proj1 (flip_edges _ _ _)) in Ie. destruct (proj1 Wh f' b a If Ie) as (h & Ih & Ih'). exists h. split; [eapply Permutation_in; [apply Permutation_sym; exact P|exact Ih]|exact Ih'].
  - intros z p. rewrite (in_solid_alike _ _ _ _ Fa). apply in_solid_perm. exact P.
  - rewrite (Permutation_length P). symmetry. clear - Fa. induction Fa; cbn; congruence.
Qed.

Lemma layers_counted {P : Type} (inside : path -> P -> bool) lib tangent fuel env o input text (r : finished lib tangent fuel env o input text) mn mx :
  exact inside lib ->
  let fs := f_faces _ _ _ _ _ _ _ r in let init := InitialLayerThickness (Print o) in let thick := LayerThickness (Print o) in let meld := MeldDistance (Slicing o) in let center := Center (Printer o) in
  0 <= init <= 2 ^ 30 -> 0 < thick <= 2 ^ 30 -> 0 < meld < 2 ^ 31 -> Z.abs (vx center) <= 2 ^ 19 -> Z.abs (vy center) <= 2 ^ 19 -> vz center = 0 ->
  printable meld init fs -> watertight fs -> tight_box3 (vertices fs) mn mx ->
  Z.of_nat (List.length (f_layers _ _ _ _ _ _ _ r)) = Z.quot (vz mx - vz mn - init) thick + 1.
Proof.
  intros X fs init thick meld center Hi Ht Hm Cx Cy Cz Pr W Tb. destruct (all_keeps _ _ _ _ _ _ _ r) as (names & K). rewrite (keeps_length _ _ _ K). clear K.
  assert (Eo := f_optimize _ _ _ _ _ _ _ r). assert (Es := f_slice _ _ _ _ _ _ _ r). fold fs meld center in Eo. set (om := f_model _ _ _ _ _ _ _ r) in *. set (open := f_open _ _ _ _ _ _ _ r) in *.
  destruct (printable_sliced meld center init thick fs om open mn mx Hi Ht Hm Cx Cy Cz Pr W Tb Eo) as (U & CM & SL & V).
  destruct (optimizer_placement _ _ _ _ _ U Eo) as ((mn' & mx' & Tb' & Sz) & _). destruct (box_unique _ _ _ _ _ Tb Tb') as (<- & <-).
  assert (Lc : layer_count init thick om = Z.quot (vz mx - vz mn - init) thick + 1) by (unfold layer_count; rewrite Sz; reflexivity).
  assert (High : init <= vz mx - vz mn). { destruct (p_high _ _ _ Pr) as (v & w & Iv & Iw & H). destruct (proj1 Tb v Iv) as (_ & _ & H1). destruct (proj1 Tb w Iw) as (_ & _ & H2). lia. }
  assert (Q0 : 0 <= Z.quot (vz mx - vz mn - init) thick) by (apply Z.quot_pos; lia).
  destruct (layer_parts_exact inside lib X o om _ Es) as (lps & El & Len & _). rewrite Len, <- Lc.
  destruct (slicing_layers init thick meld (JoinPolygonSnapDistance (Slicing o)) (FinishPolygonSnapDistance (Slicing o)) om _ SL ltac:(lia) V) as (lps' & El' & Ln & _).
  unfold polygons_at in El. fold init thick meld in El. rewrite El in El'. injection El' as <-. exact Ln.
Qed.

Section Orders.
Context {P : Type} (at_ : P -> rpt).
Let inside (c : path) (x : P) : bool := surrounded c (at_ x).
(** *** C104 *)
(** Two runs with the same options, on files with the same triangles in another order, from other corners on or all with the
    other side up, print the same number of layers, and the layers cover the same points, except near the surface, in dropped
    outlines and in slivers. *)
Theorem face_order : forall lib tangent fuel env env' o input input' text text'
  (r : finished lib tangent fuel env o input text) (r' : finished lib tangent fuel env' o input' text') mn mx, exact inside lib ->
  let fs := f_faces _ _ _ _ _ _ _ r in let d := back (plate_offset mn mx (Center (Printer o))) in
  let init := InitialLayerThickness (Print o) in let thick := LayerThickness (Print o) in let meld := MeldDistance (Slicing o) in
  let join := JoinPolygonSnapDistance (Slicing o) in let finish := FinishPolygonSnapDistance (Slicing o) in let center := Center (Printer o) in
  0 <= init <= 2 ^ 30 -> 0 < thick <= 2 ^ 30 -> 2 <= meld <= 2 ^ 30 -> 0 <= join <= 2 ^ 30 -> 0 <= finish <= 2 ^ 30 ->
  Z.abs (vx center) <= 2 ^ 19 -> Z.abs (vy center) <= 2 ^ 19 -> vz center = 0 -> Z.of_nat (List.length fs) < 2 ^ 56 ->
  printable meld init fs -> watertight fs -> tight_box3 (vertices fs) mn mx ->
  rearranged fs (f_faces _ _ _ _ _ _ _ r') ->
  List.length (f_layers _ _ _ _ _ _ _ r) = List.length (f_layers _ _ _ _ _ _ _ r') /\
  forall k l l', nth_error (f_layers _ _ _ _ _ _ _ r) k = Some l -> nth_error (f_layers _ _ _ _ _ _ _ r') k = Some l' ->
    let z := vz mn + init + Z.of_nat k * thick in
    (forall v, In v (vertices fs) -> vz v <> z) -> edges_apart z (meld + 3) fs ->
    exists small, (forall c, In c small -> path_len c <= finish \/ exists t, sliver t /\ c = triangle_of t) /\
      forall x y, at_ x = placed d y -> away fs z y -> (forall c, In c small -> surrounded c (at_ x) = false) ->
        (covered inside (LayerParts l) x <-> covered inside (LayerParts l') x).
Proof.
  intros lib tangent fuel env env' o input input' text text' r r' mn mx X fs d init thick meld join finish center Hi Ht Hm Hj Hf Cx Cy Cz N Pr W Tb Re.
  set (gs := f_faces _ _ _ _ _ _ _ r') in *. destruct (rearranged_good fs gs Re W) as (B & W' & Ea & So & Ln).
  pose proof (both_printable _ _ _ _ B Pr) as Pr'. pose proof (both_box _ _ _ _ B Tb) as Tb'.
  split.
  - apply Nat2Z.inj. transitivity (Z.quot (vz mx - vz mn - init) thick + 1); [|symmetry].
    + exact (layers_counted inside _ _ _ _ _ _ _ r mn mx X Hi Ht ltac:(fold meld; lia) Cx Cy Cz Pr W Tb).
    + exact (layers_counted inside _ _ _ _ _ _ _ r' mn mx X Hi Ht ltac:(fold meld; lia) Cx Cy Cz Pr' W' Tb').
  - intros k l l' El El' z NV Ap.
    destruct (printed_body at_ lib tangent fuel env o input text r mn mx k l X Hi Ht Hm Hj Hf Cx Cy Cz N Pr W Tb El NV Ap) as (d1 & s1 & D1 & S1 & H1).
    assert (NV' : forall v, In v (vertices gs) -> vz v <> z) by (intros v Iv; apply NV, (both_vertices _ _ B), Iv).
    assert (N' : Z.of_nat (List.length gs) < 2 ^ 56) by (rewrite Ln; exact N).
    destruct (printed_body at_ lib tangent fuel env' o input' text' r' mn mx k l' X Hi Ht Hm Hj Hf Cx Cy Cz N' Pr' W' Tb' El' NV' (Ea _ _ Ap)) as (d2 & s2 & D2 & S2 & H2).
    exists ((d1 ++ map triangle_of s1) ++ (d2 ++ map triangle_of s2)). split.
    + intros c Ic. rewrite !in_app_iff, !in_map_iff in Ic. destruct Ic as [[Ic|(t & <- & It)]|[Ic|(t & <- & It)]]; [left; auto|right; eauto|left; auto|right; eauto].
    + intros x y Exy Aw Sm. specialize (H1 x y Exy Aw). specialize (H2 x y Exy (both_away _ _ _ _ B Aw)). fold gs in H2. rewrite So in H2.
      rewrite (parity_none surrounded (d1 ++ map triangle_of s1)) in H1 by (intros c Ic; apply Sm, in_or_app; left; exact Ic).
      rewrite (parity_none surrounded (d2 ++ map triangle_of s2)) in H2 by (intros c Ic; apply Sm, in_or_app; right; exact Ic). etransitivity; [exact H1|symmetry; exact H2].
Qed.
End Orders.
Print Assumptions face_order.

(** the tetrahedron of 1 mm in a file with another order of faces and corners, and all normals pointing inwards *)
Definition other_file : files := Files (fun _ => StatOk)
  (fun _ => (let n := f32_of_Z 0 in let i := f32_of_Z 1 in let o := (n, n, n) in let x := (i, n, n) in let y := (n, i, n) in let z := (n, n, i) in
    [(y, z, o); (x, o, z); (z, y, x); (o, x, y)], None)).
Definition other_fs : list face := Eval vm_compute in match Read other_file "" with Ok fs => fs | _ => [] end.
Example other_rearranged : rearranged corner_fs other_fs /\ other_fs <> corner_fs.
Proof.
  split; [|discriminate]. unfold corner_fs. match goal with |- rearranged [?a; ?b; ?c; ?d] _ => exists [c; b; d; a]; split; [|right] end.
  - apply Permutation_sym. eapply perm_trans; [apply (Permutation_app_comm [_; _; _] [_])|]. cbn [app]. apply perm_skip. eapply perm_trans; [apply perm_swap|]. reflexivity.
  - repeat (constructor; [cbn; auto|]). constructor.
Qed.
Lemma tetra_runs fuel file fs : 2 ^ 24 < Z.of_nat fuel -> Read file "part.stl" = Ok fs -> printable 30 200 fs -> tight_box3 (vertices fs) (V3 0 0 0) (V3 1000 1000 1000) ->
  exists text (r : finished (one_lib spot) (fun _ => f64_of_Z 1) fuel file DefaultOptions "part.stl" text), f_faces _ _ _ _ _ _ _ r = fs.
Proof.
  intros Fuel Er Pr Tb.
  destruct (model_printed unit (fun c x => surrounded c (only spot x)) (one_lib spot) (fun _ => f64_of_Z 1) fuel file corner_os (fun _ => None) DefaultOptions "part.stl" "" fs (V3 0 0 0) (V3 1000 1000 1000)
    (one_exact spot) (one_capable spot) Fuel default_workable) as (_ & text & n & ks & [r] & _);
    [vm_compute; intuition discriminate..|repeat constructor|repeat constructor|exact Er|exact Pr|exact Tb|reflexivity|intros k; split; [reflexivity|discriminate]|].
  exists text, r. assert (E := f_read _ _ _ _ _ _ _ r). congruence.
Qed.
Example face_order_ex : forall fuel, 2 ^ 24 < Z.of_nat fuel -> exists text text' (r : finished (one_lib spot) (fun _ => f64_of_Z 1) fuel corner_file DefaultOptions "part.stl" text)
  (r' : finished (one_lib spot) (fun _ => f64_of_Z 1) fuel other_file DefaultOptions "part.stl" text') l l' small,
  nth_error (f_layers _ _ _ _ _ _ _ r) 1 = Some l /\ nth_error (f_layers _ _ _ _ _ _ _ r') 1 = Some l' /\
  (forall c, In c small -> path_len c <= 1000 \/ exists t, sliver t /\ c = triangle_of t) /\
  ((forall c, In c small -> surrounded c spot = false) ->
    (covered (fun c x => surrounded c (only spot x)) (LayerParts l) tt <-> covered (fun c x => surrounded c (only spot x)) (LayerParts l') tt)).
Proof.
  intros fuel Fuel. destruct other_rearranged as (Re & _). destruct (rearranged_good _ _ Re corner_watertight) as (B & _).
  assert (Pr : printable 30 200 corner_fs) by (apply corner_printable; left; reflexivity). assert (Tb : tight_box3 (vertices corner_fs) (V3 0 0 0) (V3 1000 1000 1000)) by (apply corner_box; left; reflexivity).
  destruct (tetra_runs fuel corner_file corner_fs Fuel ltac:(vm_compute; reflexivity) Pr Tb) as (text & r & Ff).
  destruct (tetra_runs fuel other_file other_fs Fuel ltac:(vm_compute; reflexivity) (both_printable _ _ _ _ B Pr) (both_box _ _ _ _ B Tb)) as (text' & r' & Ff').
  exists text, text', r, r'.
  assert (Ln : Z.of_nat (List.length (f_layers _ _ _ _ _ _ _ r)) = 5).
  { rewrite (layers_counted _ _ _ _ _ _ _ _ r (V3 0 0 0) (V3 1000 1000 1000) (one_exact spot)); rewrite ?Ff; [reflexivity|vm_compute; intuition discriminate..|exact Pr|exact corner_watertight|exact Tb]. }
  destruct (face_order (only spot) (one_lib spot) _ fuel corner_file other_file DefaultOptions "part.stl" "part.stl" text text' r r' (V3 0 0 0) (V3 1000 1000 1000) (one_exact spot)) as (Le & H);
    rewrite ?Ff, ?Ff'; [vm_compute; intuition discriminate..|vm_compute; reflexivity|exact Pr|exact corner_watertight|exact Tb|exact Re|].
  destruct (nth_error (f_layers _ _ _ _ _ _ _ r) 1) as [l|] eqn:E1; [|apply nth_error_None in E1; lia].
  destruct (nth_error (f_layers _ _ _ _ _ _ _ r') 1) as [l'|] eqn:E2; [|apply nth_error_None in E2; lia].
  destruct (H 1%nat l l' E1 E2) as (small & Sm & C).
  - rewrite Ff. intros v Iv. repeat (destruct Iv as [<-|Iv]; [vm_compute; discriminate|]). destruct Iv.
  - rewrite Ff. exact corner_apart.
  - exists l, l', small. split; [reflexivity|]. split; [reflexivity|]. split; [exact Sm|]. intros None. apply (C tt (100, 100)%R); [|rewrite Ff; exact corner_spot_away|exact None].
    change (back (plate_offset (V3 0 0 0) (V3 1000 1000 1000) (Center (Printer DefaultOptions)))) with (V3 99500 99500 0). unfold placed, only, spot. cbn [fst snd vx vy]. f_equal; lra.
Qed.
