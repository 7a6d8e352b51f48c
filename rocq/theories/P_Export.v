(** Property C87: the export of the optimized model. *)
From Verif Require Import GoBase GoFloat M_Micrometer M_Model M_Export S_Model L_Model P_Data P_Model.
Local Open Scope Z_scope.

Lemma export_vertex v : vec_bounded 8192010 v -> stlToVec (vecToStl v) = v.
Proof. intros (A & B & C). destruct v as [x y z]. cbn [vx vy vz] in *. unfold stlToVec, vecToStl. cbn [vx vy vz]. rewrite !micrometer_round_trip by assumption. reflexivity. Qed.
(** Reading the exported triangles again gives the faces of the optimized model: all of them, in their order, each with its
    three points at the same place and in the same order. *)
Theorem export_read_again : forall meld center fs om open, usable meld center fs -> Optimize meld center fs = Ok (om, open) ->
  vec_bounded 4000000 center -> Forall (vec_bounded 2000000) (vertices fs) ->
  exists ts, (forall write, SaveDebugSTL write om = match write ts with Some e => Err e | None => Ok tt end) /\
    Forall2 (fun f t => oPoints om f = Ok (stlTriangleToFace t)) (om_faces om) ts.
Proof.
  intros meld center fs om open U E Bc Bf. destruct (optimizer_placement _ _ _ _ _ U E) as ((mn & mx & T & Es) & Pl & _). destruct (optimizer_faces_proper _ _ _ _ _ U E) as (Fp & _).
  assert (Sz : 0 <= vx (om_size om) <= 4000000 /\ 0 <= vy (om_size om) <= 4000000 /\ 0 <= vz (om_size om) <= 4000000).
  { rewrite Es. cbn [vx vy vz]. destruct T as (In_ & (v1 & I1 & E1) & (v2 & I2 & E2) & (v3 & I3 & E3) & (v4 & I4 & E4) & (v5 & I5 & E5) & (v6 & I6 & E6)). rewrite Forall_forall in Bf.
    pose proof (In_ v1 I1). pose proof (Bf v1 I1) as (? & _ & _). pose proof (Bf v2 I2) as (? & _ & _). pose proof (Bf v3 I3) as (_ & ? & _). pose proof (Bf v4 I4) as (_ & ? & _).
    pose proof (Bf v5 I5) as (_ & _ & ?). pose proof (Bf v6 I6) as (_ & _ & ?). lia. }
  assert (Bp : forall i q, idx (om_points om) i = Ok q -> vec_bounded 8192010 (opos q)).
  { intros i q Eq. apply idx_In in Eq. destruct (Pl q Eq) as (A & B & C). destruct Bc as (C1 & C2 & C3). repeat split; lia. }
  assert (G : forall l, (forall f, In f l -> In f (om_faces om)) -> exists ts, exportTriangles om l = Ok ts /\ Forall2 (fun f t => oPoints om f = Ok (stlTriangleToFace t)) l ts).
  { induction l as [|f l IH]; intros Sub; [exists []; split; [reflexivity|constructor]|]. destruct (IH (fun g I => Sub g (or_intror I))) as (ts & Et & Ft).
    destruct (In_idx _ _ (Sub f (or_introl eq_refl))) as (j & Ej). destruct (Fp j f Ej) as (_ & Us). cbn [exportTriangles]. unfold oPoints. destruct (oi f) as [[a b] c] eqn:Eo.
    destruct (Us a) as (pa & Ea); [left; reflexivity|]. destruct (Us b) as (pb & Eb); [right; left; reflexivity|]. destruct (Us c) as (pc & Ec); [right; right; reflexivity|].
    rewrite Ea, Eb, Ec. cbn [bind]. rewrite Et. cbn [bind]. eexists. split; [reflexivity|]. constructor; [|exact Ft]. rewrite Eo, Ea, Eb, Ec. cbn [bind stlTriangleToFace].
    rewrite !export_vertex by eauto. reflexivity. }
  destruct (G (om_faces om) (fun f I => I)) as (ts & Et & Ft). exists ts. split; [|exact Ft]. intros write. unfold SaveDebugSTL. rewrite Et. reflexivity.
Qed.
Print Assumptions export_read_again.
Example export_ex : exists om open, usable 30 (V3 100000 100000 0) tetra /\ Optimize 30 (V3 100000 100000 0) tetra = Ok (om, open) /\
  vec_bounded 4000000 (V3 100000 100000 0) /\ Forall (vec_bounded 2000000) (vertices tetra) /\
  (exists ts, exportTriangles om (om_faces om) = Ok ts /\ map stlTriangleToFace ts <> []).
Proof.
  eexists. eexists. split; [exact (proj1 usable_ex)|]. split; [exact (proj2 usable_ex)|]. split; [repeat split; vm_compute; discriminate|].
  split; [repeat constructor; vm_compute; discriminate|]. eexists. split; [vm_compute; reflexivity|]. discriminate.
Qed.
