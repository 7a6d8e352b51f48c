(** Slicing a whole model. *)
From Coq Require Import Permutation Sorted.
From Verif Require Import GoBase GoFloat M_Micrometer M_Geom2D M_Model M_Slicer S_Geom S_Model S_Slicer L_Vec L_Model L_Slicer L_SliceLoop L_Chains L_Join L_Polygons L_Closed L_Optimize P_Model.
Local Open Scope Z_scope.

Lemma omFaces_forall2 om : forall ofs fs, omFaces om ofs = Ok fs -> Forall2 (fun o f => oPoints om o = Ok f) ofs fs.
Proof.
  induction ofs as [|o ofs IH]; intros fs E; cbn [omFaces] in E; [injection E as <-; constructor|].
  apply bind_Ok in E. destruct E as (x & Ex & E). apply bind_Ok in E. destruct E as (r & Er & E). injection E as <-. constructor; auto.
Qed.
Lemma forall2_idx {A B} (R : A -> B -> Prop) l m : Forall2 R l m -> forall i b, idx m i = Ok b -> exists a, idx l i = Ok a /\ R a b.
Proof.
  induction 1 as [|x y l m r F IH]; intros i b I; [apply idx_range in I; cbn in I; lia|].
  rewrite idx_cons in I. rewrite idx_cons. destruct (i =? 0); [|eauto]. assert (y = b) by congruence. subst. eauto.
Qed.
Lemma forall2_idx_l {A B} (R : A -> B -> Prop) l m : Forall2 R l m -> forall i a, idx l i = Ok a -> exists b, idx m i = Ok b /\ R a b.
Proof.
  induction 1 as [|x y l m r F IH]; intros i b I; [apply idx_range in I; cbn in I; lia|].
  rewrite idx_cons in I. rewrite idx_cons. destruct (i =? 0); [|eauto]. assert (x = b) by congruence. subst. eauto.
Qed.

Definition small_faces (fs : list face) : Prop := forall f v, In f fs -> In v (facePoints f) -> vec_bounded (2 ^ 24) v.
Lemma small_near fs : small_faces fs -> Forall near_face fs.
Proof.
  intros H. apply Forall_forall. intros f If. apply Forall_forall. intros v Iv. destruct (H f v If Iv) as (A & B & C).
  unfold near, vec_bounded. lia.
Qed.

Lemma layer_seg z fs l : layer_of z fs l -> forall s, In s (lsegs l) -> exists f, idx fs (sface s) = Ok f /\ cuts z f (sstart s) (send s).
Proof.
  intros (F & _) s I. destruct (Forall2_in_l _ _ _ _ F I) as ([n f] & J & Es & Cu). apply filter_In in J. destruct J as (J & _).
  apply number_idx in J. rewrite Z.sub_0_r in J. cbn [fst snd] in *. subst n. eauto.
Qed.
Lemma layer_wf z fs l om : omFaces om (om_faces om) = Ok fs -> layer_of z fs l -> wf_layer (touch_of om) l.
Proof.
  intros E L. split.
  - intros i j T. apply (proj2 L) in T. destruct T as (s & I & _). apply idx_range in I. exact I.
  - intros s I. destruct (layer_seg _ _ _ L s I) as (f & If & _).
    destruct (forall2_idx _ _ _ (omFaces_forall2 _ _ _ E) _ _ If) as (o & Io & _). unfold touch_of. rewrite Io. cbn. eauto.
Qed.
Lemma layer_bounded z fs l : small_faces fs -> layer_of z fs l -> segs_bounded (2 ^ 24) l.
Proof.
  intros H L s I. destruct (layer_seg _ _ _ L s I) as (f & If & ((a & b & Ex1) & (c & d & Ex2) & S & E)).
  assert (G : forall x y p, In (x, y) (fedges f) -> on_edge z x y p -> pt_bounded (2 ^ 24) p).
  { intros x y p Ie (B1 & B2 & _). destruct (fedges_points _ _ _ Ie) as (Ix & Iy). apply idx_In in If.
    destruct (H f x If Ix) as (X1 & X2 & _). destruct (H f y If Iy) as (Y1 & Y2 & _). unfold between, pt_bounded in *. lia. }
  destruct (proj2 (Ex1 (a, b)) eq_refl) as (I1 & R1). destruct (proj2 (Ex2 (c, d)) eq_refl) as (I2 & R2). split; eauto.
Qed.
Lemma filter_le {A} (f : A -> bool) m : (List.length (filter f m) <= List.length m)%nat.
Proof. induction m as [|y m IH]; cbn; [lia|destruct (f y); cbn; lia]. Qed.
Lemma number_length {A} (l : list A) : forall i, List.length (number i l) = List.length l.
Proof. induction l as [|a l IH]; intros i; cbn; [reflexivity|f_equal; apply IH]. Qed.
Lemma layer_length z fs l : layer_of z fs l -> (List.length (lsegs l) <= List.length fs)%nat.
Proof.
  intros (F & _). apply Forall2_length' in F. rewrite F. etransitivity; [apply filter_le|].
  rewrite number_length. reflexivity.
Qed.

Lemma make_all_ok touch meld join finish layers : (forall l, In l layers -> exists x, l = Some x /\ wf_layer touch x) ->
  exists lps, make_all touch meld join finish layers = Ok lps /\ List.length lps = List.length layers /\
    forall k p, idx lps k = Ok p -> exists l, idx layers k = Ok (Some l) /\ makePolygons touch meld join finish l = Ok p.
Proof.
  induction layers as [|ol layers IH]; intros H.
  - exists []. split; [reflexivity|]. split; [reflexivity|]. intros k p I. apply idx_range in I. cbn in I. lia.
  - destruct (H ol (or_introl eq_refl)) as (l & -> & W). cbn [make_all].
    destruct (make_total touch l meld join finish W) as (p & E). rewrite E. cbn [bind].
    destruct IH as (lps & -> & L & G); [intros x Hx; apply H; right; exact Hx|]. cbn [bind].
    exists (p :: lps). split; [reflexivity|]. split; [cbn; congruence|]. intros k q I. rewrite idx_cons in I. rewrite idx_cons.
    destruct (k =? 0); [|eauto]. assert (p = q) by congruence. subst. eauto.
Qed.
Lemma make_all_nil touch meld join finish layers : (forall x, In (Some x) layers -> wf_layer touch x) -> In None layers ->
  exists m, make_all touch meld join finish layers = Panic m.
Proof.
  induction layers as [|ol layers IH]; intros W I; [destruct I|]. cbn [make_all]. destruct ol as [l|]; [|eauto].
  destruct (make_total touch l meld join finish (W l (or_introl eq_refl))) as (p & E). rewrite E. cbn [bind].
  destruct I as [I|I]; [discriminate|]. destruct IH as (m & Em); [intros x Hx; apply W; right; exact Hx|exact I|]. rewrite Em. cbn [bind]. eauto.
Qed.

Section All.
Context (init thick meld join finish : Z) (om : omodel) (fs : list face).
Hypothesis Hi : Z.abs init <= 2 ^ 30.
Hypothesis Ht : 0 < thick <= 2 ^ 30.
Hypothesis Ef : omFaces om (om_faces om) = Ok fs.
Hypothesis Sm : small_faces fs.
Hypothesis Top : forall f, In f fs -> MaxZ f <= vz (om_size om).
Hypothesis Bt : Z.abs (vz (om_size om)) <= 2 ^ 30.
Let n := Z.quot (vz (om_size om) - init) thick + 1.

Lemma count_go : add64 (quot64 (sub64 (vz (om_size om)) init) thick) 1 = n.
Proof.
  rewrite sub64_id by (unfold int64; lia). unfold quot64.
  pose proof (quot_err (vz (om_size om) - init) thick ltac:(lia)) as (_ & B & _).
  assert (Z.abs (Z.quot (vz (om_size om) - init) thick) <= 2 ^ 31) by nia.
  rewrite wrap_id by (unfold int64; lia). apply add64_id. unfold int64. lia.
Qed.

Lemma slice_too_low : n < 0 -> exists m, SlicePolygons init thick meld join finish om = Panic m.
Proof.
  intros H. unfold SlicePolygons. destruct (Z.eqb_spec thick 0); [lia|]. rewrite count_go. destruct (Z.ltb_spec n 0); [eauto|lia].
Qed.

Lemma slice_layers : 0 <= n -> exists layers, slice_faces init thick 0 fs (repeat None (Z.to_nat n)) = Ok layers /\ Z.of_nat (List.length layers) = n /\
    (forall k ol, idx layers k = Ok ol -> acc_ok init thick fs k ol).
Proof. intros H. eapply slice_all; eauto using small_near. Qed.

Lemma slice_ok : 0 <= n -> (forall k, 0 <= k < n -> exists f, In f fs /\ visited init thick k f) ->
  exists lps, SlicePolygons init thick meld join finish om = Ok lps /\ Z.of_nat (List.length lps) = n /\
    forall k p, idx lps k = Ok p -> exists l, layer_of (height init thick k) fs l /\ makePolygons (touch_of om) meld join finish l = Ok p.
Proof.
  intros Hn V. destruct (slice_layers Hn) as (layers & E & Ln & A).
  unfold SlicePolygons. destruct (Z.eqb_spec thick 0); [lia|]. rewrite count_go. destruct (Z.ltb_spec n 0); [lia|].
  rewrite Ef. cbn [bind]. rewrite E. cbn [bind]. fold (touch_of om).
  destruct (make_all_ok (touch_of om) meld join finish layers) as (lps & Em & Lm & G).
  - intros ol I. apply In_idx in I. destruct I as (k & I). pose proof (A k ol I) as Ak. pose proof (idx_range _ _ _ I) as Rk.
    destruct ol as [l|]; cbn [acc_ok] in Ak.
    + exists l. split; [reflexivity|]. eapply layer_wf; [exact Ef|apply Ak].
    + exfalso. destruct (V k) as (f & If & Vf); [lia|]. exact (Ak f If Vf).
  - exists lps. change (fun i : Z => let* f := idx (om_faces om) i in Ok (otouch f)) with (touch_of om). split; [exact Em|]. split; [lia|].
    intros k p I. destruct (G k p I) as (l & Il & Mk). exists l. split; [|exact Mk]. exact (proj2 (A _ _ Il)).
Qed.
Lemma slice_gap k : 0 <= k < n -> (forall f, In f fs -> ~ visited init thick k f) ->
  exists m, SlicePolygons init thick meld join finish om = Panic m.
Proof.
  intros Hk V. destruct (slice_layers ltac:(lia)) as (layers & E & Ln & A).
  unfold SlicePolygons. destruct (Z.eqb_spec thick 0); [lia|]. rewrite count_go. destruct (Z.ltb_spec n 0); [lia|].
  rewrite Ef. cbn [bind]. rewrite E. cbn [bind]. apply make_all_nil.
  - intros l I. apply In_idx in I. destruct I as (j & I). eapply layer_wf; [exact Ef|]. exact (proj2 (A _ _ I)).
  - destruct (idx_in_range layers k) as (ol & I & _); [lia|]. pose proof (A k ol I) as Ak. destruct ol as [l|]; [|eapply idx_In; eauto].
    exfalso. destruct Ak as ((f & If & Vf) & _). exact (V f If Vf).
Qed.
End All.

(** *** closed surfaces *)
Lemma closed_layer z fs touch l meld join finish : closed_surface fs touch -> layer_of z fs l -> wf_layer touch l ->
  small_faces fs -> (forall f v, In f fs -> In v (facePoints f) -> vz v <> z) -> Z.of_nat (List.length fs) < 2 ^ 56 ->
  2 <= meld <= 2 ^ 30 -> 0 <= join <= 2 ^ 30 -> 0 <= finish <= 2 ^ 30 ->
  (forall i j a b, idx (lsegs l) i = Ok a -> idx (lsegs l) j = Ok b -> i <> j -> (2 * meld) ^ 2 < dist2 (sstart a) (sstart b)) ->
  exists pbs cs ps, makePolygons touch meld join finish l = Ok ps /\
    chained (follows touch l meld) (idx (lsegs l)) [] pbs cs /\ Permutation (concat cs) (zseq (List.length (lsegs l))) /\
    (forall p b, In (p, b) pbs -> b = true) /\
    (forall p, In p ps <-> In (p, true) pbs /\ finish < path_len p).
Proof.
  intros CS L W Sm NV Hn Hm Hj Hf SEP.
  pose proof (layer_length _ _ _ L) as Ll.
  destruct (make_spec touch l meld join finish W (layer_bounded _ _ _ Sm L) ltac:(lia) Hj Hf ltac:(lia)) as (pbs & cs & pieces & C & P & PO & PP & _ & K & E).
  assert (RG : forall s t, follows touch l meld s t -> 0 <= s < Z.of_nat (List.length (lsegs l)) /\ 0 <= t < Z.of_nat (List.length (lsegs l))).
  { intros s t (a & b & ts & f & Ea & Eb & _). split; eapply idx_range; eauto. }
  assert (TOT : forall s, 0 <= s < Z.of_nat (List.length (lsegs l)) -> exists t, follows touch l meld s t).
  { intros s Rs. destruct (idx_in_range (lsegs l) s Rs) as (a & Ea & _). apply (succ_exists z fs touch l meld CS L NV) with (a := a); [lia|exact Ea]. }
  assert (FUN : forall s t t', follows touch l meld s t -> follows touch l meld s t' -> t = t').
  { apply (succ_unique touch l meld SEP). }
  assert (SUR : forall t, 0 <= t < Z.of_nat (List.length (lsegs l)) -> exists s, follows touch l meld s t).
  { intros s Rs. destruct (idx_in_range (lsegs l) s Rs) as (a & Ea & _). apply (pred_exists z fs touch l meld CS L NV) with (b := a); [lia|exact Ea]. }
  pose proof (pigeon _ _ RG TOT FUN SUR) as INJ.
  assert (AC : forall p b, In (p, b) pbs -> b = true).
  { apply (all_closed touch l meld TOT INJ [] pbs cs C).
    - cbn [app]. eapply Permutation_NoDup; [apply Permutation_sym, P|apply zseq_nodup].
    - intros i I. eapply Permutation_in in I; [|exact P]. apply in_zseq, I.
    - intros t []. }
  exists pbs, cs, (map pc_path (filter (keep finish) pieces)). split; [exact E|]. split; [exact C|]. split; [exact P|]. split; [exact AC|].
  intros p. rewrite in_map_iff. split.
  - intros (g & <- & Ig). apply filter_In in Ig. destruct Ig as (Ig & Kg). apply andb_true_iff in Kg. destruct Kg as (_ & Kl).
    split; [|apply Z.ltb_lt, Kl]. destruct (PO g Ig) as (qs & F & Eq & _ & Q).
    assert (Iq : forall q, In q qs -> In q pbs).
    { intros q I. clear -F I. induction F; [destruct I|]. destruct I as [->|I]; [eapply idx_In; eauto|auto]. }
    destruct qs as [|[q b] [|q2 qs]]; [contradiction| |].
    + pose proof (Iq _ (or_introl eq_refl)) as I. cbn in Eq. rewrite app_nil_r in Eq. rewrite Eq. rewrite (AC q b I) in I. exact I.
    + exfalso. destruct Q as (_ & Q). pose proof (Q _ (or_introl eq_refl)) as Qb. cbn in Qb. subst b.
      pose proof (AC _ _ (Iq _ (or_introl eq_refl))). discriminate.
  - intros (I & Len). destruct (K p I) as (g & Ig & <- & Cg). exists g. split; [reflexivity|]. apply filter_In. split; [exact Ig|].
    unfold keep. rewrite Cg. cbn [orb andb]. apply Z.ltb_lt, Len.
Qed.

Lemma edge_uses t k : (k < 3)%nat -> uses t (fst (edge t k)) /\ uses t (snd (edge t k)).
Proof. destruct t as [[a b] c]. intros H. destruct k as [|[|[|k]]]; [| | |lia]; cbn; auto. Qed.
Lemma uses_edge t a b : a <> b -> uses t a -> uses t b -> exists k, (k < 3)%nat /\ (edge t k = (a, b) \/ edge t k = (b, a)).
Proof.
  destruct t as [[x y] w]. cbn [uses]. intros N [->|[->| ->]] [->|[->| ->]]; try congruence.
  - exists 0%nat. cbn. auto. - exists 2%nat. cbn. auto. - exists 0%nat. cbn. auto. - exists 1%nat. cbn. auto. - exists 2%nat. cbn. auto. - exists 1%nat. cbn. auto.
Qed.
Lemma sel3_uses t k : uses t (sel3 t k).
Proof. destruct t as [[a b] c]. destruct k as [|[|k]]; cbn; auto. Qed.

(** an optimized closed model gives a closed surface *)
Lemma closed_model_surface meld center fs0 om open fs : usable meld center fs0 -> Optimize meld center fs0 = Ok (om, open) ->
  omFaces om (om_faces om) = Ok fs -> closed_model om -> closed_surface fs (touch_of om).
Proof.
  intros Us Eo Ef (C1 & C2).
  pose proof (omFaces_forall2 _ _ _ Ef) as F2.
  destruct (optimizer_separation _ _ _ _ _ Us Eo) as (mn & mx & _ & Sep).
  assert (PI : forall i j p q, idx (om_points om) i = Ok p -> idx (om_points om) j = Ok q -> opos p = opos q -> i = j).
  { intros i j p q Ip Iq E. destruct (Z.eq_dec i j) as [|N]; [assumption|exfalso].
    pose proof (Sep i j p q N Ip Iq) as S. rewrite E in S. specialize (S (conj eq_refl (conj eq_refl eq_refl))).
    unfold dist3 in S. rewrite !Z.sub_diag in S. destruct Us as (Hm & _). nia. }
  (* positions of the edges of a face *)
  assert (PE : forall o f, oPoints om o = Ok f -> forall e, In e (fedges f) <->
     exists k p q, (k < 3)%nat /\ idx (om_points om) (fst (edge (oi o) k)) = Ok p /\ idx (om_points om) (snd (edge (oi o) k)) = Ok q /\ e = (opos p, opos q)).
  { intros o f E e. unfold oPoints in E. destruct (oi o) as [[a b] c]. apply bind_Ok in E. destruct E as (p & Ep & E).
    apply bind_Ok in E. destruct E as (q & Eq & E). apply bind_Ok in E. destruct E as (r & Er & E). injection E as <-. cbn [fedges In]. split.
    - intros [<-|[<-|[<-|[]]]]; [exists 0%nat, p, q|exists 1%nat, q, r|exists 2%nat, r, p]; cbn [edge fst snd]; repeat split; auto; lia.
    - intros (k & p' & q' & Hk & E1 & E2 & ->). destruct k as [|[|[|k]]]; [| | |lia]; cbn [edge fst snd] in *.
      + left. congruence. + right; left. congruence. + right; right; left. congruence. }
  split.
  - intros i f If. destruct (forall2_idx _ _ _ F2 _ _ If) as (o & Io & Po).
    exists (otouch o). split; [unfold touch_of; rewrite Io; reflexivity|].
    intros a b Ie. apply (PE _ _ Po) in Ie. destruct Ie as (k & p & q & Hk & Ep & Eq & E). injection E as -> ->.
    destruct (C1 i o k Io Hk) as (j & og & m & Ig & Hmm & Em).
    destruct (edge (oi o) k) as [x y] eqn:Ek. cbn [fst snd] in *.
    destruct (forall2_idx_l _ _ _ F2 _ _ Ig) as (g & Igg & Pg).
    assert (Nxy : x <> y).
    { intros ->. destruct (proj1 (optimizer_faces_proper _ _ _ _ _ Us Eo) i o Io) as (Nd & _). apply Nd.
      destruct (oi o) as [[u v] w]. destruct k as [|[|[|k]]]; [| | |lia]; cbn in Ek |- *; injection Ek as -> ->; auto. }
    assert (Nij : i <> j).
    { intros <-. assert (og = o) by congruence. subst og.
      destruct (proj1 (optimizer_faces_proper _ _ _ _ _ Us Eo) i o Io) as (Nd & _). apply Nd.
      destruct (oi o) as [[u v] w]. destruct k as [|[|[|k]]]; [| | |lia]; destruct m as [|[|[|m]]]; try lia; cbn in Ek, Em |- *; injection Ek as -> ->; injection Em; intros; subst; auto. }
    exists j, g. split; [|split; [exact Igg|]].
    + rewrite <- (optimizer_touching_pair _ _ _ _ _ Us Eo i j o og k x y Io Ig Nij Hk Ek).
      * apply sel3_uses.
      * pose proof (edge_uses (oi og) m Hmm) as U. rewrite Em in U. apply U.
      * pose proof (edge_uses (oi og) m Hmm) as U. rewrite Em in U. apply U.
      * intros h oh Ih Ux Uy. destruct (uses_edge _ _ _ Nxy Ux Uy) as (r & Hr & [Er|Er]).
        -- left. apply (C2 h i oh o r k Ih Io Hr Hk). congruence.
        -- right. apply (C2 h j oh og r m Ih Ig Hr Hmm). congruence.
    + apply (PE _ _ Pg). exists m, q, p. rewrite Em. cbn [fst snd]. auto.
  - intros i j f g e If Ig I1 I2. destruct (forall2_idx _ _ _ F2 _ _ If) as (o & Io & Po). destruct (forall2_idx _ _ _ F2 _ _ Ig) as (o' & Io' & Po').
    apply (PE _ _ Po) in I1. apply (PE _ _ Po') in I2. destruct I1 as (k & p & q & Hk & Ep & Eq & ->). destruct I2 as (m & p' & q' & Hmm & Ep' & Eq' & E).
    injection E as E1 E2. apply (C2 i j o o' k m Io Io' Hk Hmm).
    pose proof (PI _ _ _ _ Ep Ep' E1) as X1. pose proof (PI _ _ _ _ Eq Eq' E2) as X2.
    destruct (edge (oi o) k), (edge (oi o') m). cbn [fst snd] in *. congruence.
Qed.
