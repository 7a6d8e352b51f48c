(** Properties C94 and C95: faces that add nothing and the position of the model in its file have no influence on the print. *)
From Verif Require Import GoBase GoFloat GoStr M_Micrometer M_Geom2D M_Model M_Slicer M_Clip M_Builder M_Option M_Layer M_Render M_Modifier M_Process
  S_Geom S_Model S_Place S_Process L_Model L_Optimize L_Place L_LineLib P_Model P_Pipeline P_Complete P_EndToEnd.
Local Open Scope string_scope.
Local Open Scope list_scope.
Local Open Scope Z_scope.

(** runs differ only through the optimized model *)
Lemma same_optimized lib tangent fuel env env' o input input' text fs fs' : Read env input = Ok fs -> Read env' input' = Ok fs' ->
  Optimize (MeldDistance (Slicing o)) (Center (Printer o)) fs = Optimize (MeldDistance (Slicing o)) (Center (Printer o)) fs' ->
  inhabited (finished lib tangent fuel env o input text) -> inhabited (finished lib tangent fuel env' o input' text).
Proof.
  intros R R' E [[fs0 om open l0 l1 l2 l3 l4 l5 l6 mn mx rs E1 E4 E5 M1 M2 M3 M4 M5 M6 B E7 E8]].
  assert (fs0 = fs) by congruence. subst fs0. rewrite E in E4. constructor.
  exact (Finished lib tangent fuel env' o input' text fs' om open l0 l1 l2 l3 l4 l5 l6 mn mx rs R' E4 E5 M1 M2 M3 M4 M5 M6 B E7 E8).
Qed.

(** *** C94 *)
(** Faces of the model file that add nothing to the faces before them - a repetition of an earlier face, in whatever order its
    points are given, or a face two points of which coincide - have no influence on the optimized model, ... *)
Theorem repeated_faces : forall meld center full short, 0 < meld < 2 ^ 31 -> without_repeats full short ->
  Optimize meld center full = Optimize meld center short.
Proof. intros meld center full short Hm W. exact (optimize_without meld center full short Hm W). Qed.
Print Assumptions repeated_faces.
(** ... and the G-code of a run is the same with and without them. *)
Theorem repeated_faces_run : forall lib tangent fuel env env' o input input' text full short,
  0 < MeldDistance (Slicing o) < 2 ^ 31 -> Read env input = Ok full -> Read env' input' = Ok short -> without_repeats full short ->
  (inhabited (finished lib tangent fuel env o input text) <-> inhabited (finished lib tangent fuel env' o input' text)).
Proof.
  intros lib tangent fuel env env' o input input' text full short Hm R R' W.
  pose proof (repeated_faces _ (Center (Printer o)) _ _ Hm W) as E. split; [apply (same_optimized _ _ _ _ _ _ _ _ _ _ _ R R' E)|].
  symmetry in E. apply (same_optimized _ _ _ _ _ _ _ _ _ _ _ R' R E).
Qed.
Print Assumptions repeated_faces_run.

(** the corner with its first face repeated in another order, and with a face of two points *)
Definition corner_twice : files := Files (fun _ => StatOk)
  (fun _ => (let l := fst (copy_file corner_file "") in match l with (a, b, c) :: _ => l ++ [(b, a, c); (a, a, c)] | [] => l end, snd (copy_file corner_file ""))).
Definition corner_twice_fs : list face := Eval vm_compute in match Read corner_twice "" with Ok fs => fs | _ => [] end.
Lemma corner_twice_short : without_repeats corner_twice_fs corner_fs.
Proof.
  assert (In1 : forall g r, corner_twice_fs = corner_fs ++ g :: r -> adds_nothing corner_fs g).
  { intros g r [= <- <-]. split.
    - intros v [<-|[<-|[<-|[]]]]; vm_compute; tauto.
    - right. right. right. exists (nth 0 corner_fs (V3 0 0 0, V3 0 0 0, V3 0 0 0)). split; [left; reflexivity|]. intros v. cbn. tauto. }
  assert (In2 : forall g h, corner_twice_fs = corner_fs ++ [g; h] -> adds_nothing corner_fs h).
  { intros g h [= <- <-]. split; [|left; reflexivity]. intros v [<-|[<-|[<-|[]]]]; vm_compute; tauto. }
  change corner_twice_fs with (corner_fs ++ [nth 4 corner_twice_fs (V3 0 0 0, V3 0 0 0, V3 0 0 0); nth 5 corner_twice_fs (V3 0 0 0, V3 0 0 0, V3 0 0 0)]).
  apply wr_drop; [exact (In1 _ _ eq_refl)|]. apply wr_drop; [exact (In2 _ _ eq_refl)|]. rewrite app_nil_r. apply wr_same.
Qed.
Example repeated_faces_ex : List.length corner_twice_fs = 6%nat /\ List.length corner_fs = 4%nat /\ exists text, inhabited (corner_run text) /\
  inhabited (finished line_lib (fun _ => f64_of_Z 1) (Z.to_nat (2 ^ 24 + 1)) corner_twice DefaultOptions "part.stl" text).
Proof.
  split; [reflexivity|]. split; [reflexivity|]. destruct corner_finished as (text & R). exists text. split; [exact R|].
  apply (repeated_faces_run line_lib (fun _ => f64_of_Z 1) (Z.to_nat (2 ^ 24 + 1)) corner_twice corner_file DefaultOptions "part.stl" "part.stl" text corner_twice_fs corner_fs); [split; reflexivity|reflexivity..|exact corner_twice_short|exact R].
Qed.

(** *** C95 *)
(** Where the model lies in its file does not matter: moving all of it by [d] has the effect of moving the center of the print
    by at most a micrometer in x and y - by nothing if the middle of the model is a whole micrometer or stays on its side of
    the origin - as long as no two different vertices are within the meld distance of each other. *)
Theorem position_in_file : forall meld center fs d mn mx, usable meld center fs -> usable meld center (moved d fs) -> apart meld fs ->
  tight_box3 (vertices fs) mn mx ->
  exists ex ey, Optimize meld center (moved d fs) = Optimize meld (V3 (vx center + ex) (vy center + ey) (vz center)) fs /\
    Z.abs ex <= 1 /\ Z.abs ey <= 1 /\
    (forall sum move e, sum = vx mn + vx mx /\ move = vx d /\ e = ex \/ sum = vy mn + vy mx /\ move = vy d /\ e = ey ->
       Z.Even sum \/ 0 <= sum /\ 0 <= sum + 2 * move \/ sum <= 0 /\ sum + 2 * move <= 0 -> e = 0).
Proof.
  intros meld center fs d mn mx (Hm & Hg & Hc) (_ & Hg' & _) Ap Box.
  exists (lag (vx mn) (vx mx) (vx d)), (lag (vy mn) (vy mx) (vy d)). split; [exact (optimize_moved meld center fs d mn mx Hm Hg Hg' Hc Ap Box)|].
  split; [apply lag_small|]. split; [apply lag_small|].
  intros sum mv e [(-> & -> & ->)|(-> & -> & ->)] [E|S]; [apply lag_even, E|apply lag_sign, S|apply lag_even, E|apply lag_sign, S].
Qed.
Print Assumptions position_in_file.
(** A run prints the same G-code for the moved model. *)
Theorem position_in_file_run : forall lib tangent fuel env env' o input input' text fs d mn mx,
  Read env input = Ok fs -> Read env' input' = Ok (moved d fs) ->
  usable (MeldDistance (Slicing o)) (Center (Printer o)) fs -> usable (MeldDistance (Slicing o)) (Center (Printer o)) (moved d fs) -> apart (MeldDistance (Slicing o)) fs ->
  tight_box3 (vertices fs) mn mx ->
  (Z.Even (vx mn + vx mx) \/ 0 <= vx mn + vx mx /\ 0 <= vx mn + vx mx + 2 * vx d) -> (Z.Even (vy mn + vy mx) \/ 0 <= vy mn + vy mx /\ 0 <= vy mn + vy mx + 2 * vy d) ->
  (inhabited (finished lib tangent fuel env o input text) <-> inhabited (finished lib tangent fuel env' o input' text)).
Proof.
  intros lib tangent fuel env env' o input input' text fs d mn mx R R' U U' Ap Box Ex Ey.
  destruct (position_in_file _ _ fs d mn mx U U' Ap Box) as (ex & ey & E & _ & _ & K).
  assert (ex = 0). { apply (K (vx mn + vx mx) (vx d)); [auto|]. tauto. }
  assert (ey = 0). { apply (K (vy mn + vy mx) (vy d)); [auto|]. tauto. }
  subst ex ey. rewrite !Z.add_0_r in E. replace (V3 _ _ _) with (Center (Printer o)) in E by (destruct (Center (Printer o)); reflexivity).
  split; [|apply (same_optimized _ _ _ _ _ _ _ _ _ _ _ R' R E)]. symmetry in E. apply (same_optimized _ _ _ _ _ _ _ _ _ _ _ R R' E).
Qed.
Print Assumptions position_in_file_run.

(** the corner of the examples, elsewhere in the file *)
Definition corner_away : files := Files (fun _ => StatOk)
  (fun _ => (let f := f32_of_Z in let o := (f (-7), f 4, f 12) in let x := (f (-6), f 4, f 12) in let y := (f (-7), f 5, f 12) in let z := (f (-7), f 4, f 13) in
    [(o, y, x); (o, x, z); (o, z, y); (x, y, z)], None)).
Lemma corner_apart : apart 30 corner_fs.
Proof.
  intros v w Iv Iw.
  assert (K : forallb (fun v => forallb (fun w => if vec_dec v w then true else 30 ^ 2 <? dist3 v w) (vertices corner_fs)) (vertices corner_fs) = true) by (vm_compute; reflexivity).
  rewrite forallb_forall in K. specialize (K v Iv). rewrite forallb_forall in K. specialize (K w Iw). destruct (vec_dec v w); [contradiction|]. intros _. apply Z.ltb_lt, K.
Qed.
Example position_in_file_ex : exists text, inhabited (corner_run text) /\
  inhabited (finished line_lib (fun _ => f64_of_Z 1) (Z.to_nat (2 ^ 24 + 1)) corner_away DefaultOptions "moved.stl" text).
Proof.
  destruct corner_finished as (text & R). exists text. split; [exact R|].
  assert (U : usable 30 (V3 100000 100000 0) corner_fs /\ usable 30 (V3 100000 100000 0) (moved (V3 (-7000) 4000 12000) corner_fs)).
  { split; (split; [lia|]); (split; [repeat constructor; vm_compute; discriminate|]); repeat split; vm_compute; discriminate. }
  assert (Box : tight_box3 (vertices corner_fs) (V3 0 0 0) (V3 1000 1000 1000)).
  { destruct (model_bounds corner_fs ltac:(discriminate)) as (mn & mx & E1 & E2 & T). vm_compute in E1, E2. injection E1 as <-. injection E2 as <-. exact T. }
  apply (position_in_file_run line_lib (fun _ => f64_of_Z 1) (Z.to_nat (2 ^ 24 + 1)) corner_file corner_away DefaultOptions "part.stl" "moved.stl" text corner_fs (V3 (-7000) 4000 12000) (V3 0 0 0) (V3 1000 1000 1000));
    [vm_compute; reflexivity..|exact (proj1 U)|exact (proj2 U)|exact corner_apart|exact Box|left; exists 500; reflexivity|left; exists 500; reflexivity|exact R].
Qed.

(** The micrometer is really lost when the middle of the model is no whole micrometer and passes the origin, ... *)
Definition odd_face : list face := [(V3 0 0 0, V3 1001 0 0, V3 0 1000 0)].
Example position_micrometer_ex : apart 30 odd_face /\
  Optimize 30 (V3 0 0 0) odd_face = Ok (OModel [OPoint (V3 (-500) (-500) 0) [0]; OPoint (V3 501 (-500) 0) [0]; OPoint (V3 (-500) 500 0) [0]] [OFace (0, 1, 2) (-1, -1, -1) 0] (V3 1001 1000 0), 3) /\
  Optimize 30 (V3 0 0 0) (moved (V3 (-1001) 0 0) odd_face) = Ok (OModel [OPoint (V3 (-501) (-500) 0) [0]; OPoint (V3 500 (-500) 0) [0]; OPoint (V3 (-501) 500 0) [0]] [OFace (0, 1, 2) (-1, -1, -1) 0] (V3 1001 1000 0), 3).
Proof.
  split; [|split; vm_compute; reflexivity]. intros v w Iv Iw N.
  repeat (destruct Iv as [<-|Iv]; [repeat (destruct Iw as [<-|Iw]; [try contradiction; vm_compute; reflexivity|]); destruct Iw|]). destruct Iv.
Qed.
(** ... and without the distance between vertices the position matters: two vertices 10 micrometers apart are one point of the
    printed model or two, depending on where the model lies. *)
Definition close_faces : list face := [(V3 0 0 0, V3 1000 0 0, V3 0 1000 0); (V3 10 0 0, V3 0 1000 1000, V3 1000 0 0)].
Theorem position_in_file_close_refuted : exists meld center fs d, usable meld center fs /\ usable meld center (moved d fs) /\
  exists om open om' open', Optimize meld center fs = Ok (om, open) /\ Optimize meld center (moved d fs) = Ok (om', open') /\
    List.length (om_points om) = 4%nat /\ List.length (om_points om') = 5%nat.
Proof.
  exists 30, (V3 0 0 0), close_faces, (V3 10 0 0).
  split; [split; [lia|]; split; [repeat constructor; vm_compute; discriminate|]; repeat split; vm_compute; discriminate|].
  split; [split; [lia|]; split; [repeat constructor; vm_compute; discriminate|]; repeat split; vm_compute; discriminate|].
  eexists _, _, _, _. repeat split; vm_compute; reflexivity.
Qed.
Print Assumptions position_in_file_close_refuted.
