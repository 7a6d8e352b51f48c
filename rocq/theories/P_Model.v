(** Properties C16-C22: loaded model and optimizer. *)
From Coq Require Import Reals Sorted.
From Verif Require Import GoBase GoFloat M_Micrometer M_Model S_Geom S_Model L_Vec L_Model L_Stl L_Optimize.
From Flocq Require Import Core BinarySingleNaN.
Local Open Scope Z_scope.

(** *** C16 *)
Theorem model_bounds_tight : forall fs, fs <> [] ->
  exists mn mx, ModelMin fs = Ok mn /\ ModelMax fs = Ok mx /\ tight_box3 (vertices fs) mn mx.
Proof. exact model_bounds. Qed.
Print Assumptions model_bounds_tight.
Theorem model_bounds_no_faces : (exists m, ModelMin [] = Panic m) /\ exists m, ModelMax [] = Panic m.
Proof. exact model_bounds_empty. Qed.
Print Assumptions model_bounds_no_faces.
(** an STL coordinate of up to 8.388 m is converted with an error of at most 0.75 um *)
Theorem stl_coordinate_close : forall x : f32, valid32 x = true -> is_finite_SF x = true ->
  (Rabs (SF2R radix2 x) <= 8388)%R -> (Rabs (IZR (ToMicrometer x) - 1000 * SF2R radix2 x) <= 3 / 4)%R.
Proof. exact stl_close. Qed.
Print Assumptions stl_coordinate_close.
Example stl_coordinate_ex : valid32 (f32_of_Z 17) = true /\ ToMicrometer (f32_of_Z 17) = 17000.
Proof. vm_compute. split; reflexivity. Qed.

(** Models with coordinates up to 2^29 um (536 m) and meld distances below 2^31 um. *)
Definition usable (meld : Z) (center : vec3) (fs : list face) : Prop :=
  0 < meld < 2 ^ 31 /\ Forall (vec_bounded (2 ^ 29)) (vertices fs) /\ vec_bounded (2 ^ 60) center.

Definition tetra : list face :=
  [(V3 0 0 0, V3 0 1000 0, V3 1000 0 0); (V3 0 0 0, V3 1000 0 0, V3 0 0 1000);
   (V3 0 0 0, V3 0 0 1000, V3 0 1000 0); (V3 1000 0 0, V3 0 1000 0, V3 0 0 1003); (V3 5 0 0, V3 1000 0 0, V3 0 3 1000)].
Example usable_ex : usable 30 (V3 100000 100000 0) tetra /\
  Optimize 30 (V3 100000 100000 0) tetra = Ok (OModel
    [OPoint (V3 99500 99500 0) [0; 1; 2]; OPoint (V3 99500 100500 0) [0; 2; 3];
     OPoint (V3 100500 99500 0) [0; 1; 3]; OPoint (V3 99500 99500 1000) [1; 2; 3]]
    [OFace (0, 1, 2) (2, 3, 1) 0; OFace (0, 2, 3) (0, 3, 2) 1; OFace (0, 3, 1) (1, 3, 0) 2; OFace (2, 1, 3) (0, 2, 1) 3]
    (V3 1000 1000 1003), 0).
Proof.
  split; [|vm_compute; reflexivity]. split; [lia|]. split; [repeat constructor; vm_compute; discriminate|].
  repeat split; vm_compute; discriminate.
Qed.

Theorem optimizer_total : forall meld center fs, usable meld center fs -> fs <> [] ->
  exists om open, Optimize meld center fs = Ok (om, open).
Proof.
  intros meld center fs (Hm & Hg & Hc) Hf.
  destruct (optimize_spec meld center fs Hm Hg Hc Hf) as (om & open & _ & _ & _ & E & _). eauto.
Qed.
Print Assumptions optimizer_total.
Theorem optimizer_panics : (forall center fs, fs <> [] -> exists m, Optimize 0 center fs = Panic m) /\
  (forall meld center, exists m, Optimize meld center [] = Panic m).
Proof. split; [exact optimize_zero|exact optimize_empty]. Qed.
Print Assumptions optimizer_panics.

(** *** C17, C18: there is one numbering [num] of the input vertices by output points such that every vertex
    is within the meld distance of its point (up to the common translation), the output faces are the
    numbered input faces in input order, and no face is lost unless two of its vertices were melded. *)
Theorem optimizer_melding : forall meld center fs om open, usable meld center fs -> Optimize meld center fs = Ok (om, open) ->
  exists mn mx, tight_box3 (vertices fs) mn mx /\
  exists num : vec3 -> Z,
    (forall v, In v (vertices fs) -> exists p, idx (om_points om) (num v) = Ok p /\
       dist3 (shift3 (opos p) (plate_offset mn mx center)) v <= meld ^ 2) /\
    (forall p, In p (om_points om) -> In (shift3 (opos p) (plate_offset mn mx center)) (vertices fs)) /\
    subseq (map oi (om_faces om)) (map (num3 num) fs) /\
    (forall f, In f fs -> degenerate (num3 num f) \/ exists g, In g (om_faces om) /\ same_set (oi g) (num3 num f)).
Proof.
  intros meld center fs om open (Hm & Hg & Hc) E.
  destruct (optimize_inv _ _ _ _ _ Hm Hg Hc E) as (_ & num & mn & mx & O).
  exists mn, mx. split; [exact (o_box _ _ _ _ _ _ _ _ O)|]. exists num.
  split; [exact (o_meld _ _ _ _ _ _ _ _ O)|]. split; [exact (o_src _ _ _ _ _ _ _ _ O)|].
  split; [exact (o_order _ _ _ _ _ _ _ _ O)|exact (o_all _ _ _ _ _ _ _ _ O)].
Qed.
Print Assumptions optimizer_melding.

(** *** C19 *)
Theorem optimizer_faces_proper : forall meld center fs om open, usable meld center fs -> Optimize meld center fs = Ok (om, open) ->
  (forall j f, idx (om_faces om) j = Ok f -> ~ degenerate (oi f) /\ forall p, uses (oi f) p -> exists q, idx (om_points om) p = Ok q) /\
  (forall j k f g, idx (om_faces om) j = Ok f -> idx (om_faces om) k = Ok g -> same_set (oi f) (oi g) -> j = k).
Proof.
  intros meld center fs om open (Hm & Hg & Hc) E. destruct (optimize_inv _ _ _ _ _ Hm Hg Hc E) as (_ & num & mn & mx & O).
  split; [|exact (o_nodup _ _ _ _ _ _ _ _ O)]. intros j f Ef. exact (proj2 (o_face _ _ _ _ _ _ _ _ O j f Ef)).
Qed.
Print Assumptions optimizer_faces_proper.
Theorem optimizer_incidence : forall meld center fs om open, usable meld center fs -> Optimize meld center fs = Ok (om, open) ->
  forall i p, idx (om_points om) i = Ok p -> StronglySorted Z.lt (ofaces p) /\
    forall j, In j (ofaces p) <-> exists f, idx (om_faces om) j = Ok f /\ uses (oi f) i.
Proof.
  intros meld center fs om open (Hm & Hg & Hc) E. destruct (optimize_inv _ _ _ _ _ Hm Hg Hc E) as (_ & num & mn & mx & O).
  exact (o_lists _ _ _ _ _ _ _ _ O).
Qed.
Print Assumptions optimizer_incidence.

(** *** C20 *)
Theorem optimizer_touching : forall meld center fs om open, usable meld center fs -> Optimize meld center fs = Ok (om, open) ->
  forall i f k a b, idx (om_faces om) i = Ok f -> (k < 3)%nat -> edge (oi f) k = (a, b) ->
  let t := sel3 (otouch f) k in
  (t = -1 <-> ~ exists j g, j <> i /\ idx (om_faces om) j = Ok g /\ uses (oi g) a /\ uses (oi g) b) /\
  (t <> -1 -> t <> i /\ exists g, idx (om_faces om) t = Ok g /\ uses (oi g) a /\ uses (oi g) b).
Proof.
  intros meld center fs om open (Hm & Hg & Hc) E i f k a b Ef Hk Ed. cbv zeta.
  destruct (optimize_inv _ _ _ _ _ Hm Hg Hc E) as (_ & num & mn & mx & O).
  pose proof (o_touch _ _ _ _ _ _ _ _ O i f k Ef Hk) as T. rewrite Ed in T. cbn [fst snd] in T.
  destruct T as [[Et T]|[T (g & Eg & U1 & U2)]].
  - split; [|intros C; contradiction]. split; [|intros _; exact Et]. intros _ (j & g & Nj & Eg & U1 & U2). apply Nj. eapply T; eassumption.
  - assert (0 <= sel3 (otouch f) k) by (apply idx_Ok in Eg; lia). split; [|intros _; split; [exact T|eauto]].
    split; [lia|]. intros C. exfalso. apply C. eauto 10.
Qed.
Print Assumptions optimizer_touching.
Theorem optimizer_touching_pair : forall meld center fs om open, usable meld center fs -> Optimize meld center fs = Ok (om, open) ->
  forall i j f g k a b, idx (om_faces om) i = Ok f -> idx (om_faces om) j = Ok g -> i <> j ->
    (k < 3)%nat -> edge (oi f) k = (a, b) -> uses (oi g) a -> uses (oi g) b ->
    (forall h x, idx (om_faces om) h = Ok x -> uses (oi x) a -> uses (oi x) b -> h = i \/ h = j) ->
    sel3 (otouch f) k = j.
Proof.
  intros meld center fs om open (Hm & Hg & Hc) E i j f g k a b Ef Eg Nij Hk Ed Ua Ub Two.
  destruct (optimize_inv _ _ _ _ _ Hm Hg Hc E) as (_ & num & mn & mx & O).
  pose proof (o_touch _ _ _ _ _ _ _ _ O i f k Ef Hk) as T. rewrite Ed in T. cbn [fst snd] in T.
  destruct T as [[Et T]|[T (x & Ex & U1 & U2)]].
  - exfalso. apply Nij. symmetry. eapply T; eassumption.
  - destruct (Two _ _ Ex U1 U2); [contradiction|assumption].
Qed.
Print Assumptions optimizer_touching_pair.
(** the logged number is the number of -1 entries *)
Theorem optimizer_open_count : forall meld center fs om open, usable meld center fs -> Optimize meld center fs = Ok (om, open) ->
  open = Z.of_nat (List.length (filter (fun t => t =? -1)
           (flat_map (fun f => [sel3 (otouch f) 0; sel3 (otouch f) 1; sel3 (otouch f) 2]) (om_faces om)))).
Proof.
  intros meld center fs om open (Hm & Hg & Hc) E. destruct (optimize_inv _ _ _ _ _ Hm Hg Hc E) as (_ & num & mn & mx & O).
  rewrite (o_open _ _ _ _ _ _ _ _ O). clear. induction (om_faces om) as [|f l IH]; [reflexivity|].
  cbn [map fold_right flat_map]. rewrite filter_app, app_length, Nat2Z.inj_add, <- IH. f_equal.
  unfold open3, sel3. destruct (otouch f) as [[a b] c]. unfold open1. cbn [filter].
  destruct (a =? -1), (b =? -1), (c =? -1); reflexivity.
Qed.
Print Assumptions optimizer_open_count.

(** *** C21 *)
Theorem optimizer_placement : forall meld center fs om open, usable meld center fs -> Optimize meld center fs = Ok (om, open) ->
  (exists mn mx, tight_box3 (vertices fs) mn mx /\ om_size om = V3 (vx mx - vx mn) (vy mx - vy mn) (vz mx - vz mn)) /\
  (forall p, In p (om_points om) ->
     2 * Z.abs (vx (opos p) - vx center) <= vx (om_size om) + 1 /\
     2 * Z.abs (vy (opos p) - vy center) <= vy (om_size om) + 1 /\
     vz center <= vz (opos p) <= vz center + vz (om_size om)) /\
  (exists p, In p (om_points om) /\ vz (opos p) <= vz center + meld) /\
  (exists p, In p (om_points om) /\ vz center + vz (om_size om) - meld <= vz (opos p)).
Proof. intros meld center fs om open (Hm & Hg & Hc). apply placement; assumption. Qed.
Print Assumptions optimizer_placement.

(** *** C22 *)
Theorem optimizer_separation : forall meld center fs om open, usable meld center fs -> Optimize meld center fs = Ok (om, open) ->
  exists mn mx, tight_box3 (vertices fs) mn mx /\
  forall i j p q, i <> j -> idx (om_points om) i = Ok p -> idx (om_points om) j = Ok q ->
    same_cell meld (shift3 (opos p) (plate_offset mn mx center)) (shift3 (opos q) (plate_offset mn mx center)) ->
    meld ^ 2 < dist3 (opos p) (opos q).
Proof.
  intros meld center fs om open (Hm & Hg & Hc) E. destruct (optimize_inv _ _ _ _ _ Hm Hg Hc E) as (_ & num & mn & mx & O).
  exists mn, mx. split; [exact (o_box _ _ _ _ _ _ _ _ O)|exact (o_sep _ _ _ _ _ _ _ _ O)].
Qed.
Print Assumptions optimizer_separation.
(** near points are not always melded *)
Theorem optimizer_melds_all_near_refuted : exists om open p q, Optimize 30 (V3 0 0 0) near_faces = Ok (om, open) /\
  In p (om_points om) /\ In q (om_points om) /\ dist3 (opos p) (opos q) = 1.
Proof. exact near_not_melded. Qed.
Print Assumptions optimizer_melds_all_near_refuted.
