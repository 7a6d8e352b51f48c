(** Property C90: the outlines of a layer are the cross section of the body. *)
From Coq Require Import Reals Lra Permutation Sorted.
From Verif Require Import M_Option M_Layer M_Process P_Pipeline.
From Verif Require Import GoBase GoFloat M_Micrometer M_Geom2D M_Model M_Clip M_Slicer S_Geom S_Clip S_Model S_Slicer S_Area L_Model L_Slicer L_SliceLoop L_Chains L_Join L_Polygons L_Closed L_SliceAll P_Model P_Slicer S_Simplify P_Data S_Solid L_Ray L_Solid L_Hit L_Sliver.
Local Open Scope Z_scope.

Section Layer.
Context (z : Z) (fs : list face) (touch : Z -> res (Z * Z * Z)) (l : slayer) (meld join finish : Z).
Hypothesis CS : closed_surface fs touch.
Hypothesis L : layer_of z fs l.
Hypothesis W : wf_layer touch l.
Hypothesis Sm : small_faces fs.
Hypothesis NV : forall f v, In f fs -> In v (facePoints f) -> vz v <> z.
Hypothesis Hn : Z.of_nat (List.length fs) < 2 ^ 56.
Hypothesis Hm : 2 <= meld <= 2 ^ 30.
Hypothesis Hj : 0 <= join <= 2 ^ 30.
Hypothesis Hf : 0 <= finish <= 2 ^ 30.
Hypothesis Un : unambiguous z fs touch l meld.

Lemma continues_inj s s' t : continues z fs l s t -> continues z fs l s' t -> s = s'.
Proof.
  intros (a & b & f & g & u & v & Ea & Eb & If & Ig & Iu & Ru & Iv) (a' & b' & f' & g' & u' & v' & Ea' & Eb' & If' & Ig' & Iu' & Ru' & Iv').
  assert (b' = b) by congruence. subst b'. assert (g' = g) by congruence. subst g'.
  destruct (seg_face z fs l L b t Eb) as (g'' & Ig'' & _ & ((x & y & F) & _) & _). assert (g'' = g) by congruence. subst g''.
  assert (E1 : (v, u) = (x, y)) by (apply F; split; [exact Iv|unfold rises, falls in *; cbn in *; lia]). assert (E2 : (v', u') = (x, y)) by (apply F; split; [exact Iv'|unfold rises, falls in *; cbn in *; lia]).
  injection E1 as -> ->. injection E2 as -> ->. assert (Ef : sface a = sface a') by (exact (proj2 CS _ _ _ _ _ If If' Iu Iu')).
  destruct (seg_face z fs l L a s Ea) as (_ & _ & _ & _ & T). destruct (seg_face z fs l L a' s' Ea') as (_ & _ & _ & _ & T'). rewrite Ef in T. congruence.
Qed.

Lemma solid_layer : exists pbs cs ps, makePolygons touch meld join finish l = Ok ps /\
  chained (follows touch l meld) (idx (lsegs l)) [] pbs cs /\ Permutation (concat cs) (zseq (List.length (lsegs l))) /\
  (forall p b, In (p, b) pbs -> b = true) /\ Permutation ps (filter (fun c => finish <? path_len c) (map fst pbs)).
Proof.
  pose proof (layer_length _ _ _ L) as Ll.
  destruct (make_spec touch l meld join finish W (layer_bounded _ _ _ Sm L) ltac:(lia) Hj Hf ltac:(lia)) as (pbs & cs & pieces & C & P & PO & PP & _ & _ & E).
  assert (TOT : forall s, 0 <= s < Z.of_nat (List.length (lsegs l)) -> exists t, follows touch l meld s t).
  { intros s Rs. destruct (idx_in_range (lsegs l) s Rs) as (a & Ea & _). apply (succ_exists z fs touch l meld CS L NV) with (a := a); [lia|exact Ea]. }
  assert (INJ : forall s s' t, follows touch l meld s t -> follows touch l meld s' t -> s = s') by (intros s s' t F F'; exact (continues_inj s s' t (Un _ _ F) (Un _ _ F'))).
  assert (AC : forall p b, In (p, b) pbs -> b = true).
  { apply (all_closed touch l meld TOT INJ [] pbs cs C).
    - cbn [app]. eapply Permutation_NoDup; [apply Permutation_sym, P|apply zseq_nodup].
    - intros i I. eapply Permutation_in in I; [|exact P]. apply in_zseq, I.
    - intros t []. }
  exists pbs, cs, (map pc_path (filter (keep finish) pieces)). split; [exact E|]. split; [exact C|]. split; [exact P|]. split; [exact AC|].
  set (path_at := fun i => match idx pbs i with Ok q => fst q | _ => [] end).
  assert (G : forall g, In g pieces -> pc_closed g = true /\ exists i, pc_chains g = [i] /\ pc_path g = path_at i).
  { intros g Ig. destruct (PO g Ig) as (qs & F & Eq & _ & Q).
    assert (Iq : forall q, In q qs -> In q pbs) by (intros q I; clear -F I; induction F; [destruct I|]; destruct I as [->|I]; [eapply idx_In; eauto|auto]).
    destruct qs as [|[q b] [|q2 qs]]; [contradiction| |].
    - inversion F as [|i ? r ? Ei F']; subst. inversion F'; subst. split; [rewrite Q; exact (AC q b (Iq _ (or_introl eq_refl)))|]. exists i. split; [reflexivity|]. unfold path_at. rewrite Ei. cbn in *. rewrite Eq, app_nil_r. reflexivity.
    - exfalso. destruct Q as (_ & Q). pose proof (Q _ (or_introl eq_refl)) as Qb. cbn in Qb. subst b. pose proof (AC _ _ (Iq _ (or_introl eq_refl))). discriminate. }
  assert (M : Permutation (map pc_path pieces) (map fst pbs)).
  { replace (map pc_path pieces) with (map path_at (flat_map pc_chains pieces)).
    - replace (map fst pbs) with (map path_at (zseq (List.length pbs))); [apply Permutation_map, PP|].
      unfold zseq, path_at. assert (X : forall pre ms, (pre ++ ms)%list = pbs -> map (fun i => match idx pbs i with Ok q => fst q | _ => [] end) (map Z.of_nat (seq (List.length pre) (List.length ms))) = map fst ms).
      { intros pre ms. revert pre. induction ms as [|m ms IH]; intros pre Ep; [reflexivity|]. cbn [List.length seq map]. f_equal.
        - rewrite <- Ep. unfold idx. destruct (Z.ltb_spec (Z.of_nat (List.length pre)) 0); [lia|]. rewrite Nat2Z.id, nth_error_app2, Nat.sub_diag by lia. reflexivity.
        - specialize (IH (pre ++ [m])%list). rewrite app_length in IH. cbn [List.length] in IH. rewrite Nat.add_1_r in IH. apply IH. rewrite <- app_assoc. exact Ep. }
      exact (X [] pbs eq_refl).
    - clear -G. induction pieces as [|g pieces IH]; [reflexivity|]. cbn [flat_map map]. destruct (G g (or_introl eq_refl)) as (_ & i & -> & ->). cbn [app map]. f_equal. apply IH. intros g' I. apply G. right. exact I. }
  replace (map pc_path (filter (keep finish) pieces)) with (filter (fun c => finish <? path_len c) (map pc_path pieces)); [apply perm_filter, M|].
  clear -G. induction pieces as [|g pieces IH]; [reflexivity|]. cbn [map filter]. destruct (G g (or_introl eq_refl)) as (Cg & _). unfold keep at 1. rewrite Cg. cbn [orb andb].
  rewrite IH by (intros g' I; apply G; right; exact I). destruct (finish <? path_len (pc_path g)); reflexivity.
Qed.
End Layer.

(** *** C90 *)
(** Inside and outside: where no edge of the surface is touched, the ray hits a triangle if and only if it has a
    point in common with it. *)
Theorem hit_is_ray : forall f z p, (forall u v, In (u, v) (fedges f) -> misses (IZR z) (snd p) u v) ->
  (hit z p f = true <-> exists x, (fst p < x)%R /\ on_face f x (snd p) (IZR z)).
Proof. exact hit_point. Qed.
Print Assumptions hit_is_ray.
(** The outlines of a layer of a closed surface, those not longer than [finish] included, surround exactly the points
    inside the surface at the height of the layer, except for points that are closer than the diagonal of 1 um to it. *)
Theorem outlines_surround_solid : forall z fs touch l meld join finish, closed_surface fs touch -> layer_of z fs l ->
  layer_usable touch l meld join finish -> small_faces fs -> Z.of_nat (List.length fs) < 2 ^ 56 ->
  (forall f v, In f fs -> In v (facePoints f) -> vz v <> z) -> 2 <= meld -> unambiguous z fs touch l meld ->
  exists outlines ps, makePolygons touch meld join finish l = Ok ps /\ Permutation ps (filter (fun c => finish <? path_len c) outlines) /\
    (forall c q, In c outlines -> In q c -> exists s, In s (lsegs l) /\ (q = sstart s \/ q = send s)) /\
    forall p, away fs z p -> parity surrounded outlines p = in_solid fs z p.
Proof.
  intros z fs touch l meld join finish CS L (W & _ & _ & Hm & Hj & Hf) Sm N NV H2 Un.
  destruct (solid_layer z fs touch l meld join finish CS L W Sm NV N ltac:(lia) Hj Hf Un) as (pbs & cs & ps & E & C & P & AC & Pm).
  exists (map fst pbs), ps. split; [exact E|]. split; [exact Pm|]. split.
  { intros c q Ic Iq. apply in_map_iff in Ic. destruct Ic as ([c' b] & <- & Ic). exact (proj2 (proj2 (proj2 (chained_facts touch l meld join ltac:(lia) [] pbs cs C c' b Ic))) q Iq). }
  intros p Aw.
  rewrite (chains_surround z fs l L p Aw (follows touch l meld) [] pbs cs Un C AC), (xsum_perm _ _ _ P). apply cuts_are_hits; assumption.
Qed.
Print Assumptions outlines_surround_solid.
(** If the starting points of the segments are far from each other, no two segments can be confused. *)
Theorem spread_unambiguous : forall z fs touch l meld, closed_surface fs touch -> layer_of z fs l ->
  (forall f v, In f fs -> In v (facePoints f) -> vz v <> z) -> 2 <= meld -> spread l (2 * meld) -> unambiguous z fs touch l meld.
Proof.
  intros z fs touch l meld CS L NV Hm Sp s t F. assert (G : exists a, idx (lsegs l) s = Ok a) by (destruct F as (a & _ & _ & _ & Ia & _); eauto). destruct G as (a & Ia).
  destruct (seg_face z fs l L a s Ia) as (f & If & Cr & Cu & _).
  destruct Cu as (_ & (u & v & Ex) & _ & On). destruct (proj2 (Ex (u, v)) eq_refl) as (Iuv & Ruv).
  destruct (proj1 CS _ _ If) as (ts & Et & Nb). destruct (Nb u v Iuv) as (j & g & Uj & Ig & Ivu).
  assert (Nv : vz v <> z) by (apply (NV f); [eapply idx_In; eauto|apply (fedges_points f u v Iuv)]).
  assert (Cg : crosses z g).
  { unfold rises in Ruv. cbn [fst snd] in Ruv. clear -Ivu Ruv Nv NV Ig.
    assert (N : forall w, In w (facePoints g) -> vz w <> z) by (intros w; apply NV; eapply idx_In; eauto).
    destruct g as [[p0 p1] p2]. unfold crosses, nbelow, nabove. cbn [facePoints filter fedges] in *.
    pose proof (N p0 (or_introl eq_refl)). pose proof (N p1 (or_intror (or_introl eq_refl))). pose proof (N p2 (or_intror (or_intror (or_introl eq_refl)))).
    destruct Ivu as [I|[I|[I|[]]]]; injection I as <- <-;
    destruct (Z.ltb_spec (vz p0) z), (Z.ltb_spec (vz p1) z), (Z.ltb_spec (vz p2) z); try lia; cbn [List.length]; auto;
    destruct (Z.ltb_spec z (vz p0)), (Z.ltb_spec z (vz p1)), (Z.ltb_spec z (vz p2)); try lia; cbn [List.length]; auto. }
  destruct (face_seg z fs l L g j Ig Cg) as (b & t' & Ib & Eb & (_ & _ & On' & _) & T).
  assert (F' : follows touch l meld s t').
  { exists a, b, ts, j. split; [exact Ia|]. split; [exact Ib|]. split; [exact Et|]. split; [exact Uj|].
    split; [pose proof (idx_range _ _ _ Ig); lia|]. split; [exact T|].
    assert (D : dist2 (send a) (sstart b) <= 2).
    { apply (meet z u v); [apply On; auto|]. apply On'; [exact Ivu|]. unfold rises, falls in *. cbn [fst snd] in *. lia. }
    nia. }
  assert (t = t') by (eapply (succ_unique touch l meld); eauto). subst t'.
  exists a, b, f, g, u, v. rewrite Eb. repeat split; try assumption; apply Ruv.
Qed.
Print Assumptions spread_unambiguous.

(** From the input model on. *)
Theorem model_outlines_surround_solid : forall meld0 center fs0 om open fs init thick meld join finish k,
  usable meld0 center fs0 -> Optimize meld0 center fs0 = Ok (om, open) -> closed_model om -> sliceable init thick om fs ->
  0 <= k < layer_count init thick om -> (forall j, 0 <= j < layer_count init thick om -> exists f, In f fs /\ visited init thick j f) ->
  Z.of_nat (List.length fs) < 2 ^ 56 -> 2 <= meld <= 2 ^ 30 -> 0 <= join <= 2 ^ 30 -> 0 <= finish <= 2 ^ 30 ->
  (forall f v, In f fs -> In v (facePoints f) -> vz v <> height init thick k) ->
  (forall l, layer_of (height init thick k) fs l -> unambiguous (height init thick k) fs (touch_of om) l meld) ->
  exists lps outlines ps, SlicePolygons init thick meld join finish om = Ok lps /\ idx lps k = Ok ps /\
    Permutation ps (filter (fun c => finish <? path_len c) outlines) /\
    (forall c q, In c outlines -> In q c -> pt_bounded (2 ^ 24) q) /\
    forall p, away fs (height init thick k) p -> parity surrounded outlines p = in_solid fs (height init thick k) p.
Proof.
  intros meld0 center fs0 om open fs init thick meld join finish k Us Eo CM SL Hk V N Hm Hj Hf NV Un.
  destruct (slicing_layers init thick meld join finish om fs SL ltac:(lia) V) as (lps & E & Ln & G).
  destruct SL as (_ & _ & _ & Ef & Sm & _).
  destruct (idx_in_range lps k) as (ps & Ik & _); [lia|]. destruct (G k ps Ik) as (l & L & Mk).
  pose proof (closed_model_surface _ _ _ _ _ _ Us Eo Ef CM) as CS.
  pose proof (layer_bounded _ _ _ Sm L) as B. pose proof (layer_length _ _ _ L) as Ll.
  destruct (outlines_surround_solid _ fs _ l meld join finish CS L) as (outlines & ps' & E' & Pm & Pt & In_); auto; try lia.
  { split; [exact (layer_wf _ _ _ _ Ef L)|]. split; [exact B|]. lia. }
  rewrite Mk in E'. injection E' as <-. exists lps, outlines, ps. repeat split; auto; intros; destruct (Pt c q) as (s & Is & [-> | ->]); auto; apply (B s Is).
Qed.
Print Assumptions model_outlines_surround_solid.

(** *** C91 *)
(** Simplifying a polygon only cuts off or fills slivers. *)
Theorem simplify_only_slivers : forall p, (forall a b, In a p -> In b p -> dist2 a b < 2 ^ 61) -> exists ts, (forall t, In t ts -> sliver t) /\
  (forall a c n, In (a, c, n) ts -> In a p /\ In c p /\ In n p) /\
  forall x, surrounded (Simplify p (-1) (-1)) x = xorb (surrounded p x) (parity surrounded (map triangle_of ts) x).
Proof.
  intros p D. destruct (simplify_slivers p D) as (ts & I & E). exists ts. split; [|split; [|exact E]].
  - intros [[a c] n] It. destruct (I _ _ _ It) as (_ & _ & _ & rm & [M|[(M & _)|(M & M' & _)]]); cbn; auto.
  - intros a c n It. destruct (I _ _ _ It) as (Ia & Ic & In_ & _). auto.
Qed.
Print Assumptions simplify_only_slivers.

Section Parts.
Context {P : Type} (at_ : P -> rpt).
Let inside (c : path) (x : P) : bool := surrounded c (at_ x).
(** The parts of layer k cover exactly the points that are inside the body at the height of the layer, except for points
    closer than the diagonal of 1 um to its surface, for the dropped outlines and for the slivers. *)
Theorem layer_cross_section : forall lib meld0 center fs0 om open fs o layers k l, exact inside lib ->
  usable meld0 center fs0 -> Optimize meld0 center fs0 = Ok (om, open) -> closed_model om ->
  let init := InitialLayerThickness (Print o) in let thick := LayerThickness (Print o) in let z := height init thick (Z.of_nat k) in
  let meld := MeldDistance (Slicing o) in let join := JoinPolygonSnapDistance (Slicing o) in let finish := FinishPolygonSnapDistance (Slicing o) in
  sliceable init thick om fs -> (forall j, 0 <= j < layer_count init thick om -> exists f, In f fs /\ visited init thick j f) ->
  Z.of_nat (List.length fs) < 2 ^ 56 -> 2 <= meld <= 2 ^ 30 -> 0 <= join <= 2 ^ 30 -> 0 <= finish <= 2 ^ 30 ->
  (forall f v, In f fs -> In v (facePoints f) -> vz v <> z) ->
  (forall sl, layer_of z fs sl -> unambiguous z fs (touch_of om) sl meld) ->
  Slice lib o om = Ok layers -> nth_error layers k = Some l ->
  exists dropped slivers, (forall c, In c dropped -> path_len c <= finish) /\ (forall t, In t slivers -> sliver t) /\
    forall x, away fs z (at_ x) -> (covered inside (LayerParts l) x <->
      xorb (in_solid fs z (at_ x)) (parity surrounded (dropped ++ map triangle_of slivers) (at_ x)) = true).
Proof.
  intros lib meld0 center fs0 om open fs o layers k l X Us Eo CM init thick z meld join finish SL V N Hm Hj Hf NV Un Sl El.
  destruct (layer_parts_exact inside lib X o om layers Sl) as (lps & Ep & Len & Pa). destruct (Pa k l El) as (ps & Eps & _ & _ & Cov).
  assert (Hk : 0 <= Z.of_nat k < layer_count init thick om).
  { assert (Lc : 0 <= layer_count init thick om).
    { destruct (Z_lt_le_dec (layer_count init thick om) 0) as [Neg|]; [|assumption]. exfalso. unfold polygons_at in Ep. destruct (proj1 (slicing_panics init thick meld join finish om fs SL) Neg) as (m & Pm). unfold init, thick, meld, join, finish in Pm. congruence. }
    destruct (slicing_layers init thick meld join finish om fs SL Lc V) as (lps' & E' & Ln & _). unfold polygons_at in Ep. unfold init, thick, meld, join, finish in E', Ln. rewrite E' in Ep. injection Ep as ->.
    assert (k < List.length lps)%nat by (apply nth_error_Some; congruence). fold init thick in Ln. lia. }
  destruct (model_outlines_surround_solid meld0 center fs0 om open fs init thick meld join finish (Z.of_nat k) Us Eo CM SL Hk V N Hm Hj Hf NV Un) as (lps' & outlines & ps' & E' & Ik & Pm & B & In_).
  unfold polygons_at in Ep. unfold init, thick, meld, join, finish in E'. rewrite E' in Ep. injection Ep as ->.
  assert (ps' = ps). { unfold idx in Ik. destruct (Z.ltb_spec (Z.of_nat k) 0); [lia|]. rewrite Nat2Z.id, Eps in Ik. congruence. } subst ps'.
  destruct (simplify_all ps) as (slivers & Is & Es).
  { intros p a b Ip Ia Ib. eapply Permutation_in in Ip; [|exact Pm]. apply filter_In in Ip. destruct Ip as (Ip & _). pose proof (B p a Ip Ia) as Ba. pose proof (B p b Ip Ib) as Bb.
    unfold pt_bounded in *. unfold dist2. nia. }
  exists (filter (fun c => negb (finish <? path_len c)) outlines), slivers. split; [|split; [exact Is|]].
  - intros c Ic. apply filter_In in Ic. destruct Ic as (_ & Ic). destruct (Z.ltb_spec finish (path_len c)); [discriminate|assumption].
  - change (height init thick (Z.of_nat k)) with z in In_. intros x Aw. rewrite Cov. unfold inside. rewrite parity_at, Es, (parity_perm _ _ _ _ Pm), parity_app, <- (In_ _ Aw), (parity_filter surrounded (fun c => finish <? path_len c) outlines).
    destruct (parity surrounded (filter (fun c => finish <? path_len c) outlines) (at_ x)), (parity surrounded (filter (fun c => negb (finish <? path_len c)) outlines) (at_ x)), (parity surrounded (map triangle_of slivers) (at_ x)); cbn; tauto.
Qed.
End Parts.
Print Assumptions layer_cross_section.
(** a library that is exact for one point *)
Definition one_clip (q : rpt) (t : clip_type) (sub cl : list path) : list node :=
  if op t (parity surrounded sub q) (parity surrounded cl q) then match find (fun c => surrounded c q) (sub ++ cl) with Some c => [Node c []] | None => [] end else [].
Definition closed_of (t : poly_type) (l : list added) : list path :=
  flat_map (fun a => match a, t with (PtSubject, true, p), PtSubject => [p] | (PtClip, true, p), PtClip => [p] | _, _ => [] end) l.
Definition one_lib (q : rpt) : clib := CLib (fun _ t l => Some (one_clip q t (closed_of PtSubject l) (closed_of PtClip l), 0)) (fun _ cs => one_clip q CtUnion cs []) (fun p => p) (fun _ => f64_of_Z 0) (fun _ => f64_of_Z 1).
Definition only (q : rpt) (_ : unit) : rpt := q.
Lemma closed_of_as t l m : closed_of t (closed_as PtSubject l ++ closed_as PtClip m) = match t with PtSubject => l | PtClip => m end.
Proof.
  unfold closed_of, closed_as. rewrite flat_map_app, !flat_map_concat_map, !map_map.
  assert (G : forall k : list path, concat (map (fun x => [x]) k) = k) by (induction k as [|a k IH]; [reflexivity|cbn; f_equal; exact IH]).
  assert (G' : forall k : list path, concat (map (fun x : path => @nil path) k) = []) by (induction k as [|a k IH]; [reflexivity|exact IH]).
  destruct t; cbn; rewrite ?G, ?G', ?app_nil_r; reflexivity.
Qed.
Lemma one_nested q t sub cl : nested_tree (fun c (x : unit) => surrounded c (only q x)) (one_clip q t sub cl).
Proof.
  unfold one_clip. destruct (op _ _ _); [|split; [intros n []|intros x; exact I]]. destruct (find _ _); [|split; [intros n []|intros x; exact I]].
  split; [|intros x; split; [intros _ b []|exact I]]. intros n [<-|[]]. constructor; [intros n []|intros n x []|intros x; exact I].
Qed.
Lemma parity_none {P} (inside : path -> P -> bool) l x : (forall c, In c l -> inside c x = false) -> parity inside l x = false.
Proof. induction l as [|a l IH]; intros H; [reflexivity|]. cbn [parity]. rewrite (H a (or_introl eq_refl)), IH by (intros c Ic; apply H; right; exact Ic). reflexivity. Qed.
Lemma one_exact_clip q t sub cl : parity surrounded (flat_map contours (one_clip q t sub cl)) q = op t (parity surrounded sub q) (parity surrounded cl q).
Proof.
  unfold one_clip. destruct (op t _ _) eqn:O; [|reflexivity]. destruct (find _ _) as [c|] eqn:F.
  - apply find_some in F. destruct F as (_ & F). cbn. rewrite F. reflexivity.
  - exfalso. assert (N : forall c, In c (sub ++ cl) -> surrounded c q = false) by (intros c Ic; exact (find_none _ _ F c Ic)).
    rewrite !parity_none in O by (intros c Ic; apply N, in_or_app; auto). destruct t; discriminate.
Qed.
Example one_exact : forall q, exact (fun c (x : unit) => surrounded c (only q x)) (one_lib q).
Proof.
  intros q. assert (A : forall l x, parity (fun c (x : unit) => surrounded c (only q x)) l x = parity surrounded l q) by (intros l x; apply (parity_at (only q))).
  constructor.
  - intros t sub cl. cbn [execute one_lib]. rewrite !closed_of_as. do 2 eexists. split; [reflexivity|]. split; [apply one_nested|]. intros x. rewrite !A. apply one_exact_clip.
  - intros d cs. apply one_nested.
  - intros d cs x _ H. cbn [offset one_lib]. rewrite A in *. rewrite one_exact_clip, H. reflexivity.
  - intros d cs x _ H. cbn [offset one_lib] in H. rewrite A in *. rewrite one_exact_clip in H. cbn in H. rewrite orb_false_r in H. exact H.
Qed.
(** the tetrahedron cut at 400 um: a point in it, away from its surface *)
Definition spot : rpt := (99600, 99600)%R.
Example spot_away : away tetra_fs 400 spot.
Proof.
  intros f x y If. unfold tetra_fs in If.
  destruct If as [<-|[<-|[<-|[<-|[]]]]]; intros (s & t & u & Hs & Ht & Hu & S & X & Y & Hz); cbn [vx vy vz] in *; unfold spot; cbn [fst snd].
  - lra.
  - assert (E : y = 99500%R) by lra. rewrite E. pose proof (pow2_ge_0 (x - 99600)). lra.
  - assert (E : x = 99500%R) by lra. rewrite E. pose proof (pow2_ge_0 (y - 99600)). lra.
  - assert (E : y = (199600 - x)%R) by lra. rewrite E. pose proof (pow2_ge_0 (x - 99800)). nra.
Qed.
Lemma spot_edges a b c : a = (99500, 99500)%R -> b = (100100, 99500)%R -> c = (99500, 100100)%R ->
  crossed spot a b = false /\ crossed spot b c = true /\ crossed spot c a = false.
Proof.
  intros -> -> ->. split; [|split].
  - unfold crossed, lower, spot. cbn [fst snd]. destruct (Rlt_dec 99500 99600)%R; reflexivity.
  - destruct (crossed_side 1 1 spot (100100, 99500)%R (99500, 100100)%R) as (_ & ->); unfold side, lower, spot; cbn [fst snd]; try lra.
    destruct (Rlt_dec 99500 99600)%R; [|lra]. destruct (Rlt_dec 100100 99600)%R; [lra|reflexivity].
  - apply (crossed_side (-1)%R 0%R spot); unfold side, spot; cbn [fst snd]; lra.
Qed.
Example spot_inside : in_solid tetra_fs 400 spot = true.
Proof.
  unfold in_solid, tetra_fs. cbn [map fold_right]. unfold hit. cbn [fedges filter fst snd vz Z.ltb Z.compare Pos.compare Pos.compare_cont xorb].
  assert (A : passes 400 (V3 99500 99500 1000) (V3 99500 99500 0) = (99500, 99500)%R) by (unfold passes; cbn [vx vy vz]; f_equal; field).
  assert (A' : passes 400 (V3 99500 99500 0) (V3 99500 99500 1000) = (99500, 99500)%R) by (unfold passes; cbn [vx vy vz]; f_equal; field).
  assert (B : passes 400 (V3 99500 99500 1000) (V3 100500 99500 0) = (100100, 99500)%R) by (unfold passes; cbn [vx vy vz]; f_equal; field).
  assert (B' : passes 400 (V3 100500 99500 0) (V3 99500 99500 1000) = (100100, 99500)%R) by (unfold passes; cbn [vx vy vz]; f_equal; field).
  assert (C : passes 400 (V3 99500 99500 1000) (V3 99500 100500 0) = (99500, 100100)%R) by (unfold passes; cbn [vx vy vz]; f_equal; field).
  assert (C' : passes 400 (V3 99500 100500 0) (V3 99500 99500 1000) = (99500, 100100)%R) by (unfold passes; cbn [vx vy vz]; f_equal; field).
  rewrite ?A, ?A', ?B, ?B', ?C, ?C'. destruct (spot_edges _ _ _ eq_refl eq_refl eq_refl) as (E1 & E2 & E3).
  pose proof E1 as F1. pose proof E2 as F2. pose proof E3 as F3. rewrite crossed_sym in F1, F2, F3. rewrite ?E1, ?E2, ?E3, ?F1, ?F2, ?F3. reflexivity.
Qed.
Example tetra_cross_section : exists layers l, Slice (one_lib spot) DefaultOptions tetra_om = Ok layers /\ nth_error layers 1 = Some l /\
  covered (fun c x => surrounded c (only spot x)) (LayerParts l) tt.
Proof.
  assert (Ep : polygons_at DefaultOptions tetra_om = Ok
    [[[Pt 99500 99500; Pt 100300 99500; Pt 99500 100300; Pt 99500 99500]];
     [[Pt 99500 99500; Pt 100100 99500; Pt 99500 100100; Pt 99500 99500]];
     [[Pt 99500 99500; Pt 99900 99500; Pt 99500 99900; Pt 99500 99500]]; []; []]) by (vm_compute; reflexivity).
  destruct (slicing_fails_only_without_polygons _ _ (one_exact spot) _ _ _ Ep) as (layers & Sl). exists layers.
  destruct (layer_parts_exact _ _ (one_exact spot) _ _ _ Sl) as (lps & Ep' & Len & Pa). rewrite Ep in Ep'. injection Ep' as <-.
  destruct (nth_error layers 1) as [l|] eqn:El; [|apply nth_error_None in El; rewrite Len in El; cbn [List.length] in El; lia]. exists l. split; [exact Sl|]. split; [exact eq_refl|].
  destruct (Pa 1%nat l El) as (ps & Eps & _ & _ & Cov). injection Eps as <-. apply Cov. cbn [map].
  change (Simplify [Pt 99500 99500; Pt 100100 99500; Pt 99500 100100; Pt 99500 99500] (-1) (-1)) with [Pt 99500 99500; Pt 100100 99500; Pt 99500 100100].
  unfold surrounded. cbn [parity app firstn map crossings]. unfold only, exactly. cbn [px py].
  destruct (spot_edges _ _ _ eq_refl eq_refl eq_refl) as (-> & -> & ->). reflexivity.
Qed.
Example tetra_unambiguous : forall l, layer_of (height 200 200 1) tetra_fs l -> unambiguous (height 200 200 1) tetra_fs (touch_of tetra_om) l 30.
Proof.
  intros l L. apply spread_unambiguous; [|exact L|exact (proj1 tetra_generic)|lia|exact (proj2 tetra_generic l L)].
  destruct tetra_sliceable as ((_ & _ & _ & Ef & _) & _). exact (closed_model_surface _ _ _ _ _ _ (proj1 usable_ex) tetra_optimized Ef tetra_closed).
Qed.
