(** Outlines of a layer surround what is inside of the surface. *)
From Coq Require Import Reals Lra Permutation Sorted.
From Verif Require Import GoBase GoFloat M_Micrometer M_Geom2D M_Model M_Clip M_Slicer S_Geom S_Model S_Slicer S_Area L_Model L_Slicer L_SliceLoop L_Chains L_Join L_Polygons L_Closed L_SliceAll S_Solid L_Ray.
Local Open Scope Z_scope.

(** *** sums modulo 2 *)
Definition xsum {A} (f : A -> bool) (l : list A) : bool := fold_right xorb false (map f l).
Lemma xsum_app {A} (f : A -> bool) l m : xsum f (l ++ m) = xorb (xsum f l) (xsum f m).
Proof. unfold xsum. induction l as [|a l IH]; cbn; [symmetry; apply xorb_false_l|]. rewrite IH, xorb_assoc. reflexivity. Qed.
Lemma xsum_perm {A} (f : A -> bool) l m : Permutation l m -> xsum f l = xsum f m.
Proof.
  unfold xsum. induction 1 as [|a l m P IH|a b l|l m n P IH P' IH']; cbn; [reflexivity|congruence| |congruence].
  destruct (f a), (f b), (fold_right xorb false (map f l)); reflexivity.
Qed.
Lemma xsum_ext {A B} (f : A -> bool) (g : B -> bool) l m : Forall2 (fun a b => f a = g b) l m -> xsum f l = xsum g m.
Proof. unfold xsum. induction 1; cbn; congruence. Qed.
Lemma xsum_filter {A} (f : A -> bool) (k : A -> bool) l : (forall a, In a l -> k a = false -> f a = false) -> xsum f (filter k l) = xsum f l.
Proof.
  unfold xsum. induction l as [|a l IH]; intros H; [reflexivity|]. cbn [filter]. destruct (k a) eqn:E; cbn [map fold_right]; rewrite IH by (intros; apply H; [right|]; assumption); [reflexivity|].
  rewrite (H a (or_introl eq_refl) E). symmetry. apply xorb_false_l.
Qed.
Lemma perm_filter {A} (k : A -> bool) l m : Permutation l m -> Permutation (filter k l) (filter k m).
Proof.
  induction 1 as [|a l m P IH|a b l|l m n P IH P' IH']; cbn; [constructor| | |eapply perm_trans; eassumption].
  - destruct (k a); [constructor|]; assumption.
  - destruct (k a), (k b); try reflexivity. apply perm_swap.
Qed.

Lemma crossings_snoc p l x d : l <> [] -> crossings p (l ++ [x]) = xorb (crossings p l) (crossed p (last l d) x).
Proof.
  induction l as [|a [|b l] IH]; intros N; [congruence|cbn; destruct (crossed p a x); reflexivity|].
  change (crossings p ((a :: b :: l) ++ [x])) with (xorb (crossed p a b) (crossings p ((b :: l) ++ [x]))). rewrite IH by discriminate.
  change (crossings p (a :: b :: l)) with (xorb (crossed p a b) (crossings p (b :: l))). change (last (a :: b :: l) d) with (last (b :: l) d). rewrite xorb_assoc. reflexivity.
Qed.

(** *** cut points *)
Lemma passes_sym z a b : vz a <> vz b -> passes z a b = passes z b a.
Proof.
  intros N. apply not_eq_sym in N. apply IZR_neq in N. unfold passes. f_equal; field; split; lra.
Qed.
Lemma on_edge_near z a b p : vz a <> vz b -> on_edge z a b p -> (Rabs (IZR (px p) - fst (passes z a b)) < 1 /\ Rabs (IZR (py p) - snd (passes z a b)) < 1)%R.
Proof.
  intros N (_ & _ & X & Y).
  assert (G : forall c ca cb, Z.abs ((c - ca) * (vz b - vz a) - (cb - ca) * (z - vz a)) < Z.abs (vz b - vz a) ->
    (Rabs (IZR c - (IZR ca + (IZR z - IZR (vz a)) / (IZR (vz b) - IZR (vz a)) * (IZR cb - IZR ca))) < 1)%R).
  { intros c ca cb H. apply IZR_lt in H. rewrite !abs_IZR, !minus_IZR, !mult_IZR, !minus_IZR in H.
    apply not_eq_sym in N. apply IZR_neq in N. set (d := (IZR (vz b) - IZR (vz a))%R) in *. assert (D : (d <> 0)%R) by (unfold d; lra).
    replace (IZR c - (IZR ca + (IZR z - IZR (vz a)) / d * (IZR cb - IZR ca)))%R with (((IZR c - IZR ca) * d - (IZR cb - IZR ca) * (IZR z - IZR (vz a))) / d)%R by (field; exact D).
    unfold Rdiv. rewrite Rabs_mult, Rabs_inv. apply (Rmult_lt_reg_r (Rabs d)); [apply Rabs_pos_lt, D|]. rewrite Rmult_assoc, Rinv_l by (apply Rabs_no_R0, D). lra. }
  unfold passes. cbn [fst snd]. split; apply G; assumption.
Qed.

Section Layer.
Context (z : Z) (fs : list face) (touch : Z -> res (Z * Z * Z)) (l : slayer).
Hypothesis CS : closed_surface fs touch.
Hypothesis L : layer_of z fs l.
Hypothesis NV : forall f v, In f fs -> In v (facePoints f) -> vz v <> z.

Definition fallsb (e : vec3 * vec3) : bool := (vz (snd e) <? z) && (z <=? vz (fst e)).
Definition risesb (e : vec3 * vec3) : bool := (vz (fst e) <? z) && (z <=? vz (snd e)).
Definition at_edge (k : vec3 * vec3 -> bool) (a : segment) : rpt :=
  match idx fs (sface a) with Ok f => match filter k (fedges f) with (u, v) :: _ => passes z u v | _ => (0, 0)%R end | _ => (0, 0)%R end.
Definition start_of := at_edge fallsb.
Definition end_of := at_edge risesb.
Lemma fallsb_spec e : fallsb e = true <-> falls z e.
Proof. unfold fallsb, falls. rewrite andb_true_iff, Z.ltb_lt, Z.leb_le. tauto. Qed.
Lemma risesb_spec e : risesb e = true <-> rises z e.
Proof. unfold risesb, rises. rewrite andb_true_iff, Z.ltb_lt, Z.leb_le. tauto. Qed.
(** exactly one falling and one rising edge *)
Lemma only_edge k (P : vec3 * vec3 -> Prop) f e : (forall e, k e = true <-> P e) -> (forall e', In e' (fedges f) /\ P e' <-> e' = e) -> exists r, filter k (fedges f) = e :: r.
Proof.
  intros K H. assert (I : In e (filter k (fedges f))) by (apply filter_In; destruct (proj2 (H e) eq_refl); split; [assumption|apply K; assumption]).
  destruct (filter k (fedges f)) as [|e' r] eqn:E; [destruct I|]. exists r. f_equal. apply H. assert (I' : In e' (filter k (fedges f))) by (rewrite E; left; reflexivity). apply filter_In in I'. destruct I'. split; [assumption|apply K; assumption].
Qed.
Lemma start_at a f u v : idx fs (sface a) = Ok f -> cuts z f (sstart a) (send a) -> In (u, v) (fedges f) -> falls z (u, v) -> start_of a = passes z u v.
Proof.
  intros If ((x & y & H) & _) I F. unfold start_of, at_edge. rewrite If. destruct (only_edge fallsb (falls z) f (x, y) fallsb_spec H) as (r & ->).
  assert (E : (u, v) = (x, y)) by (apply H; auto). injection E as -> ->. reflexivity.
Qed.
Lemma end_at a f u v : idx fs (sface a) = Ok f -> cuts z f (sstart a) (send a) -> In (u, v) (fedges f) -> rises z (u, v) -> end_of a = passes z u v.
Proof.
  intros If (_ & (x & y & H) & _) I F. unfold end_of, at_edge. rewrite If. destruct (only_edge risesb (rises z) f (x, y) risesb_spec H) as (r & ->).
  assert (E : (u, v) = (x, y)) by (apply H; auto). injection E as -> ->. reflexivity.
Qed.

Lemma hit_cut p f s e u v x y : cuts z f s e -> In (u, v) (fedges f) -> falls z (u, v) -> In (x, y) (fedges f) -> rises z (x, y) -> hit z p f = crossed p (passes z u v) (passes z x y).
Proof.
  intros (_ & _ & _ & _) Iu Fu Ix Rx. destruct f as [[a b] c]. unfold hit. cbn [fedges filter fst snd] in *. unfold falls, rises in *. cbn [fst snd] in *.
  destruct (Z.ltb_spec (vz a) z), (Z.ltb_spec (vz b) z), (Z.ltb_spec (vz c) z); cbn [xorb];
  destruct Iu as [Iu|[Iu|[Iu|[]]]]; injection Iu as <- <-; try lia; destruct Ix as [Ix|[Ix|[Ix|[]]]]; injection Ix as <- <-; try lia; first [reflexivity|apply crossed_sym].
Qed.
Lemma hit_none p f : (forall v, In v (facePoints f) -> vz v <> z) -> crossesb z f = false -> hit z p f = false.
Proof.
  intros N C. destruct f as [[a b] c]. unfold crossesb, nbelow, nabove in C. unfold hit. cbn [fedges filter facePoints fst snd] in *.
  pose proof (N a (or_introl eq_refl)). pose proof (N b (or_intror (or_introl eq_refl))). pose proof (N c (or_intror (or_intror (or_introl eq_refl)))).
  destruct (Z.ltb_spec (vz a) z), (Z.ltb_spec (vz b) z), (Z.ltb_spec (vz c) z); cbn [xorb]; try reflexivity; cbn [List.length Nat.eqb orb andb] in C; try discriminate;
  destruct (Z.ltb_spec z (vz a)), (Z.ltb_spec z (vz b)), (Z.ltb_spec z (vz c)); try lia; cbn [List.length Nat.eqb orb andb] in C; discriminate.
Qed.

Context (p : rpt).
Hypothesis Aw : away fs z p.

Lemma edge_on_face f u v t : In (u, v) (fedges f) -> (0 <= t <= 1)%R ->
  on_face f (IZR (vx u) + t * (IZR (vx v) - IZR (vx u))) (IZR (vy u) + t * (IZR (vy v) - IZR (vy u))) (IZR (vz u) + t * (IZR (vz v) - IZR (vz u))).
Proof.
  intros I T. destruct f as [[a b] c]. cbn [fedges] in I. unfold on_face. destruct I as [I|[I|[I|[]]]]; injection I as <- <-.
  - exists (1 - t)%R, t, 0%R. repeat split; lra || ring.
  - exists 0%R, (1 - t)%R, t. repeat split; lra || ring.
  - exists t, 0%R, (1 - t)%R. repeat split; lra || ring.
Qed.
Lemma on_face_between f x y x' y' h t : on_face f x y h -> on_face f x' y' h -> (0 <= t <= 1)%R -> on_face f (x + t * (x' - x)) (y + t * (y' - y)) h.
Proof.
  destruct f as [[a b] c]. intros (s1 & s2 & s3 & P1 & P2 & P3 & PS & -> & -> & Hh) (q1 & q2 & q3 & Q1 & Q2 & Q3 & QS & -> & -> & Hh') (T0 & T1).
  exists (s1 + t * (q1 - s1))%R, (s2 + t * (q2 - s2))%R, (s3 + t * (q3 - s3))%R.
  assert (G : forall s q, (0 <= s -> 0 <= q -> 0 <= s + t * (q - s))%R).
  { intros s q S Q. replace (s + t * (q - s))%R with ((1 - t) * s + t * q)%R by ring. apply Rplus_le_le_0_compat; apply Rmult_le_pos; lra. }
  split; [apply G; assumption|]. split; [apply G; assumption|]. split; [apply G; assumption|]. split.
  { replace (s1 + t * (q1 - s1) + (s2 + t * (q2 - s2)) + (s3 + t * (q3 - s3)))%R with (s1 + s2 + s3 + t * ((q1 + q2 + q3) - (s1 + s2 + s3)))%R by ring. rewrite PS, QS. lra. }
  split; [ring|]. split; [ring|]. 
  transitivity (h + t * (h - h))%R; [ring|]. rewrite Hh at 1. rewrite Hh' at 1. rewrite Hh. ring.
Qed.
Lemma passes_on_face f u v : In (u, v) (fedges f) -> falls z (u, v) \/ rises z (u, v) -> on_face f (fst (passes z u v)) (snd (passes z u v)) (IZR z).
Proof.
  intros I H. assert (N : vz u <> vz v) by (unfold falls, rises in H; cbn in H; lia). assert (N' : (IZR (vz v) - IZR (vz u) <> 0)%R) by (apply not_eq_sym, IZR_neq in N; lra).
  unfold passes. cbn [fst snd]. set (t := ((IZR z - IZR (vz u)) / (IZR (vz v) - IZR (vz u)))%R).
  assert (T : (0 <= t <= 1)%R).
  { unfold t. unfold falls, rises in H. cbn [fst snd] in H. destruct H as [(A & B)|(A & B)]; apply IZR_lt in A; apply IZR_le in B.
    - replace ((IZR z - IZR (vz u)) / (IZR (vz v) - IZR (vz u)))%R with ((IZR (vz u) - IZR z) / (IZR (vz u) - IZR (vz v)))%R by (field; split; lra).
      split; [apply Rmult_le_pos; [lra|left; apply Rinv_0_lt_compat; lra]|]. apply (Rmult_le_reg_r (IZR (vz u) - IZR (vz v))); [lra|]. unfold Rdiv. rewrite Rmult_assoc, Rinv_l by lra. lra.
    - split; [apply Rmult_le_pos; [lra|left; apply Rinv_0_lt_compat; lra]|]. apply (Rmult_le_reg_r (IZR (vz v) - IZR (vz u))); [lra|]. unfold Rdiv. rewrite Rmult_assoc, Rinv_l by lra. lra. }
  replace (IZR z) with (IZR (vz u) + t * (IZR (vz v) - IZR (vz u)))%R by (unfold t; field; exact N'). apply edge_on_face; assumption.
Qed.

(** what is known about a segment *)
Lemma segment_facts j a : idx (lsegs l) j = Ok a -> exists f, idx fs (sface a) = Ok f /\ far p (start_of a) (end_of a) /\ hit z p f = crossed p (start_of a) (end_of a) /\
  around (start_of a) (end_of a) (exactly (sstart a)) /\ around (start_of a) (end_of a) (exactly (send a)) /\
  (Rabs (fst (exactly (send a)) - fst (end_of a)) < 1)%R /\ (Rabs (snd (exactly (send a)) - snd (end_of a)) < 1)%R.
Proof.
  intros Ia. destruct (seg_face z fs l L a j Ia) as (f & If & Cr & Cu & _). exists f. split; [exact If|].
  pose proof Cu as ((u & v & Eu) & (x & y & Ex) & Os & Oe). destruct (proj2 (Eu (u, v)) eq_refl) as (Iu & Fu). destruct (proj2 (Ex (x, y)) eq_refl) as (Ix & Rx).
  rewrite (start_at a f u v If Cu Iu Fu), (end_at a f x y If Cu Ix Rx).
  assert (Nu : vz u <> vz v) by (unfold falls in Fu; cbn in Fu; lia). assert (Nx : vz x <> vz y) by (unfold rises in Rx; cbn in Rx; lia).
  destruct (on_edge_near z u v _ Nu (Os u v Iu Fu)) as (S1 & S2). destruct (on_edge_near z x y _ Nx (Oe x y Ix Rx)) as (E1 & E2).
  pose proof (passes_on_face f u v Iu (or_introl Fu)) as Qs. pose proof (passes_on_face f x y Ix (or_intror Rx)) as Qe.
  split. { intros t T. apply (Aw f); [eapply idx_In; eauto|]. apply on_face_between; assumption. }
  split. { apply (hit_cut p f _ _ u v x y Cu Iu Fu Ix Rx). }
  split; [apply around_l; assumption|]. split; [apply around_r; assumption|]. split; assumption.
Qed.
Lemma continues_meet s t a b : continues z fs l s t -> idx (lsegs l) s = Ok a -> idx (lsegs l) t = Ok b -> end_of a = start_of b.
Proof.
  intros (a' & b' & f & g & u & v & Ea & Eb & If & Ig & Iu & Ru & Iv) Ia Ib. assert (a' = a) by congruence. assert (b' = b) by congruence. subst a' b'.
  destruct (seg_face z fs l L a s Ia) as (f' & If' & _ & Cf & _). destruct (seg_face z fs l L b t Ib) as (g' & Ig' & _ & Cg & _).
  assert (f' = f) by congruence. assert (g' = g) by congruence. subst f' g'.
  rewrite (end_at a f u v If Cf Iu Ru). assert (Fv : falls z (v, u)) by (unfold rises, falls in *; cbn in *; lia). rewrite (start_at b g v u Ig Cg Iv Fv). apply passes_sym.
  unfold rises in Ru. cbn in Ru. lia.
Qed.

Definition cut (a : segment) : bool := crossed p (start_of a) (end_of a).
Definition off (a : segment) : bool := crossed p (exactly (send a)) (end_of a).
Lemma step s t a b : continues z fs l s t -> idx (lsegs l) s = Ok a -> idx (lsegs l) t = Ok b ->
  crossed p (exactly (send a)) (exactly (send b)) = xorb (off a) (xorb (cut b) (off b)) /\
  crossed p (exactly (send a)) (exactly (sstart b)) = xorb (off a) (crossed p (exactly (sstart b)) (start_of b)).
Proof.
  intros C Ia Ib. destruct (segment_facts s a Ia) as (f & _ & _ & _ & _ & _ & X & Y). destruct (segment_facts t b Ib) as (g & _ & F & _ & As & Ae & _ & _).
  unfold off, cut. rewrite (continues_meet s t a b C Ia Ib) in *.
  assert (Aa : around (start_of b) (end_of b) (exactly (send a))) by (apply around_l; assumption).
  pose proof (around_self_l (start_of b) (end_of b)) as A1. pose proof (around_self_r (start_of b) (end_of b)) as A2. split.
  - rewrite (far_triangle p _ _ _ _ _ F Aa A1 Ae), (far_triangle p _ _ _ _ _ F A1 A2 Ae), (crossed_sym p (end_of b)). reflexivity.
  - rewrite (far_triangle p _ _ _ _ _ F Aa A1 As), (crossed_sym p (start_of b) (exactly (sstart b))). reflexivity.
Qed.
Lemma steps c ss i a : Forall2 (fun i s => idx (lsegs l) i = Ok s) (i :: c) (a :: ss) -> Sorted (continues z fs l) (i :: c) ->
  crossings p (map exactly (map send (a :: ss))) = xorb (off a) (xorb (xsum cut ss) (off (last (a :: ss) a))).
Proof.
  intros F S. inversion F as [|? ? ? ? Ea F']; subst. clear F. revert i a Ea S. induction F' as [|j b c ss Eb F' IH]; intros i a Ea S.
  - cbn. destruct (off a); reflexivity.
  - inversion S as [|? ? S' HR]; subst. inversion HR as [|? ? R]; subst. destruct (step i j a b R Ea Eb) as (St & _).
    change (map exactly (map send (a :: b :: ss))) with (exactly (send a) :: map exactly (map send (b :: ss))).
    change (crossings p (exactly (send a) :: map exactly (map send (b :: ss)))) with (xorb (crossed p (exactly (send a)) (exactly (send b))) (crossings p (map exactly (map send (b :: ss))))).
    rewrite (IH j b Eb S'), St. change (last (a :: b :: ss) a) with (last (b :: ss) a). rewrite (last_default (b :: ss) a b) by discriminate.
    unfold xsum. cbn [map fold_right]. destruct (off a), (off b), (cut b), (fold_right xorb false (map cut ss)), (off (last (b :: ss) b)); reflexivity.
Qed.
(** a closed chain surrounds p as often as its faces are hit *)
Lemma chain_surrounds c ss : c <> [] -> Forall2 (fun i s => idx (lsegs l) i = Ok s) c ss -> Sorted (continues z fs l) c -> continues z fs l (last c 0) (hd 0 c) ->
  surrounded (chain_points ss) p = xsum cut ss.
Proof.
  intros N F S Cl. destruct F as [|i a c ss Ea F]; [congruence|]. cbn [hd] in Cl.
  pose proof (forall2_last _ (i :: c) (a :: ss) 0 a (Forall2_cons _ _ Ea F) ltac:(discriminate)) as El. cbn beta in El.
  destruct (step _ _ _ _ Cl El Ea) as (_ & Cs). pose proof (steps c ss i a (Forall2_cons _ _ Ea F) S) as St.
  unfold surrounded. change (firstn 1 (chain_points (a :: ss))) with [sstart a]. rewrite map_app. set (E := map exactly (map send (a :: ss))) in *.
  change (map exactly [sstart a]) with [exactly (sstart a)]. change (map exactly (chain_points (a :: ss))) with (exactly (sstart a) :: E).
  rewrite (crossings_snoc p _ _ (exactly (send a))) by discriminate.
  replace (last (exactly (sstart a) :: E) (exactly (send a))) with (exactly (send (last (a :: ss) a))).
  2:{ change (last (exactly (sstart a) :: E) (exactly (send a))) with (last E (exactly (send a))). unfold E. rewrite (last_map exactly (map send (a :: ss)) (send a)), (last_map send (a :: ss) a). reflexivity. }
  rewrite Cs. change (crossings p (exactly (sstart a) :: E)) with (xorb (crossed p (exactly (sstart a)) (exactly (send a))) (crossings p E)). rewrite St.
  destruct (segment_facts i a Ea) as (g & _ & Fr & _ & As & Ae & _ & _).
  pose proof (around_self_l (start_of a) (end_of a)) as A1. pose proof (around_self_r (start_of a) (end_of a)) as A2.
  rewrite (far_triangle p _ _ _ _ _ Fr As A1 Ae), (far_triangle p _ _ _ _ _ Fr A1 A2 Ae), (crossed_sym p (end_of a)). fold (off a). fold (cut a).
  unfold xsum. cbn [map fold_right]. destruct (crossed p (exactly (sstart a)) (start_of a)), (off a), (cut a), (fold_right xorb false (map cut ss)), (off (last (a :: ss) a)); reflexivity.
Qed.

Definition cut_no (i : Z) : bool := match idx (lsegs l) i with Ok a => cut a | _ => false end.
Lemma chains_surround (R : Z -> Z -> Prop) U pbs cs : (forall s t, R s t -> continues z fs l s t) -> chained R (idx (lsegs l)) U pbs cs -> (forall q b, In (q, b) pbs -> b = true) ->
  parity surrounded (map fst pbs) p = xsum cut_no (concat cs).
Proof.
  intros Un. induction 1 as [|U c ss b pbs cs Nc F S B M C IH]; intros Cl; [reflexivity|]. cbn [map fst parity concat]. rewrite xsum_app, IH by (intros q b' I; apply (Cl q b'); right; exact I).
  rewrite (chain_surrounds c ss Nc F).
  - f_equal. symmetry. apply xsum_ext. clear -F. induction F as [|i a c ss E F IH]; constructor; [unfold cut_no; rewrite E; reflexivity|exact IH].
  - clear -S Un. induction S as [|i c S IH H]; constructor; [exact IH|]. destruct H; constructor. auto.
  - apply Un, B, (Cl _ _ (or_introl eq_refl)).
Qed.
Lemma cuts_are_hits : xsum cut_no (zseq (List.length (lsegs l))) = in_solid fs z p.
Proof.
  transitivity (xsum cut (lsegs l)).
  { apply xsum_ext. unfold cut_no. assert (G : forall pre ms, (pre ++ ms)%list = lsegs l -> Forall2 (fun i a => match idx (lsegs l) i with Ok a => cut a | _ => false end = cut a) (map Z.of_nat (seq (List.length pre) (List.length ms))) ms).
    { intros pre ms. revert pre. induction ms as [|m ms IH]; intros pre E; [constructor|]. cbn [List.length seq map]. constructor.
      - rewrite <- E. unfold idx. destruct (Z.ltb_spec (Z.of_nat (List.length pre)) 0); [lia|]. rewrite Nat2Z.id, nth_error_app2, Nat.sub_diag by lia. reflexivity.
      - specialize (IH (pre ++ [m])%list). rewrite app_length in IH. cbn [List.length] in IH. rewrite Nat.add_1_r in IH. apply IH. rewrite <- app_assoc. exact E. }
    exact (G [] (lsegs l) eq_refl). }
  transitivity (xsum (fun nf : Z * face => hit z p (snd nf)) (filter (fun nf => crossesb z (snd nf)) (number 0 fs))).
  { apply xsum_ext. assert (G : forall a, In a (lsegs l) -> exists f, idx fs (sface a) = Ok f /\ hit z p f = cut a).
    { intros a I. apply In_idx in I. destruct I as (j & Ij). destruct (segment_facts j a Ij) as (f & If & _ & H & _). eauto. }
    assert (Nm : forall nf, In nf (filter (fun nf => crossesb z (snd nf)) (number 0 fs)) -> idx fs (fst nf) = Ok (snd nf)).
    { intros [n f] I. apply filter_In in I. destruct I as (I & _). apply number_idx in I. rewrite Z.sub_0_r in I. exact I. }
    destruct L as (F & _). revert G Nm. generalize (lsegs l) F. generalize (filter (fun nf => crossesb z (snd nf)) (number 0 fs)). clear. intros ns ls F.
    induction F as [|a nf ls ns (E & _) F IH]; intros G Nm; constructor; [|apply IH; intros; [apply G|apply Nm]; right; assumption].
    destruct (G a (or_introl eq_refl)) as (f & If & H). rewrite E, (Nm nf (or_introl eq_refl)) in If. injection If as ->. symmetry. exact H. }
  rewrite xsum_filter.
  - unfold in_solid, xsum. f_equal. generalize 0. clear. induction fs as [|f r IH]; intros k; [reflexivity|]. cbn [number map snd]. rewrite IH. reflexivity.
  - intros [n f] I C. cbn [snd] in *. apply number_idx in I. rewrite Z.sub_0_r in I. apply hit_none; [|exact C]. intros v. apply NV. eapply idx_In; eauto.
Qed.
End Layer.
