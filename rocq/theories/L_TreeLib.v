(** The strips of L_Strip.v, but a union has a single outermost contour with the gaps as its children. *)
From Coq Require Import Sorting.Sorted Permutation.
From Coq Require Import Reals.
From Flocq Require Import Core.
From Verif Require Import GoBase GoFloat L_Float M_Micrometer M_Geom2D M_Clip S_Clip S_Area L_Area L_Strip S_Brim.
Local Open Scope Z_scope.

Definition tree_of (ts : list Z) : list node :=
  match ts with [] => [] | t0 :: rest => [Node [Pt t0 0; Pt (last rest t0) 0] (map strip (pairs (removelast rest)))] end.
Definition tree_execute (_ : bool) (t : clip_type) (l : list added) : option (list node * Z) :=
  let s := paths_of PtSubject l in
  let c := paths_of PtClip l in
  Some (tree_of (toggles (fun x => op t (parity in_strips s x) (parity in_strips c x)) (flat_map ends (s ++ c))), 1).
Definition span (p : path) : path :=
  match map px p with [] => [] | a :: l => [Pt (fold_right Z.min a l) 0; Pt (fold_right Z.max a l) 0] end.
Definition tree_lib : clib := CLib tree_execute strip_offset span (fun _ => f64_of_Z 0) (fun _ => f64_of_Z 1).

Lemma odd_perm a b x : Permutation a b -> odd_le a x = odd_le b x.
Proof. induction 1; cbn; [reflexivity|congruence| |congruence]. destruct (x0 <=? x), (y <=? x), (odd_le l x); reflexivity. Qed.
Lemma last_split (r : list Z) d : r <> [] -> r = removelast r ++ [last r d].
Proof. intros H. apply app_removelast_last, H. Qed.
Lemma sorted_app_l a b : StronglySorted Z.lt (a ++ b) -> StronglySorted Z.lt a.
Proof. induction a as [|x a IH]; cbn [app]; intros S; [constructor|]. inversion S as [|? ? S1 F]; subst. constructor; [exact (IH S1)|]. apply Forall_app in F. apply F. Qed.
Lemma sorted_app_lt a b : StronglySorted Z.lt (a ++ [b]) -> forall x, In x a -> x < b.
Proof.
  induction a as [|y a IH]; cbn [app]; intros S x I; [destruct I|]. inversion S as [|? ? S1 F]; subst. destruct I as [<-|I]; [|exact (IH S1 x I)].
  rewrite Forall_forall in F. apply F. apply in_or_app. right. left. reflexivity.
Qed.
Lemma strips_one l x : StronglySorted Z.lt l -> at_most_one (fun n => in_strips (contour n) x = true) (map strip (pairs l)).
Proof.
  assert (A : forall n l, (List.length l <= n)%nat -> StronglySorted Z.lt l -> at_most_one (fun n => in_strips (contour n) x = true) (map strip (pairs l))).
  { clear l. induction n as [|n IH]; intros [|a [|b r]] H S; cbn [List.length pairs map at_most_one] in *; try exact Logic.I; try lia.
    inversion S as [|a' l' S1 F1]; subst. inversion S1 as [|b' l'' S2 F2]; subst. inversion F1 as [|b' l'' Hab F3]; subst. split; [|apply IH; [lia|exact S2]].
    intros Hx q Iq Hq. apply in_map_iff in Iq. destruct Iq as (cd & <- & Icd). destruct (pairs_in r S2 cd Icd) as (H1 & H2 & _).
    apply (strip_inside (a, b)) in Hx; [|exact Hab]. apply strip_inside in Hq; [|exact H1]. cbn [fst snd] in Hx. rewrite Forall_forall in F2. specialize (F2 _ H2). lia. }
  exact (A _ l (le_n _)).
Qed.
Lemma tree_nested ts : StronglySorted Z.lt ts -> nested_tree in_strips (tree_of ts).
Proof.
  intros S. destruct ts as [|t0 rest]; [split; [intros n []|intros x; exact I]|]. cbn [tree_of]. split.
  - intros n [<-|[]]. inversion S as [|? ? S1 F]; subst. destruct rest as [|t1 rest]; [constructor; [intros n []|intros n x []|intros x; exact I]|].
    set (r := t1 :: rest) in *. assert (N : r <> []) by discriminate. rewrite (last_split r t0 N) in S1, F.
    pose proof (sorted_app_lt _ _ S1) as Hl. apply sorted_app_l in S1. apply Forall_app in F. destruct F as [F _]. rewrite Forall_forall in F.
    constructor.
    + intros n I. apply in_map_iff in I. destruct I as (ab & <- & _). constructor; [intros n []|intros n x []|intros x; exact Logic.I].
    + intros n x I H. apply in_map_iff in I. destruct I as (ab & <- & Iab). destruct (pairs_in _ S1 ab Iab) as (H1 & H2 & H3). apply strip_inside in H; [|exact H1].
      specialize (F _ H2). specialize (Hl _ H3). unfold in_strips. cbn [ends px odd_le]. destruct (Z.leb_spec t0 x), (Z.leb_spec (last r t0) x); try lia; try reflexivity.
    + intros x. apply strips_one, S1.
  - intros x. split; [intros _ b []|exact I].
Qed.
Lemma tree_parity f bps x : stepfun f bps -> parity in_strips (flat_map contours (tree_of (toggles f bps))) x = f x.
Proof.
  intros S. rewrite <- (toggles_odd f bps x S). pose proof (toggles_even f bps S) as E. rewrite parity_odd. destruct (toggles f bps) as [|t0 rest]; [reflexivity|]. cbn [tree_of flat_map contours app ends px].
  rewrite app_nil_r. destruct rest as [|t1 rest]; [discriminate|]. set (r := t1 :: rest) in *. assert (N : r <> []) by discriminate.
  assert (Er : Nat.even (List.length (removelast r)) = true).
  { cbn [List.length] in E. rewrite (last_split r t0 N), app_length, Nat.add_1_r in E. exact E. }
  cbn [flat_map ends px]. rewrite pairs_ends by exact Er. cbn [app]. apply odd_perm. apply perm_skip. rewrite (last_split r t0 N) at 3. apply Permutation_cons_append.
Qed.
Lemma span_inside p x : in_strips (span p) x = true <-> (exists e, In e (map px p) /\ e <= x) /\ (exists e, In e (map px p) /\ x < e).
Proof.
  assert (Mn : forall a l, In (fold_right Z.min a l) (a :: l) /\ forall e, In e (a :: l) -> fold_right Z.min a l <= e).
  { intros a l. induction l as [|b l (I1 & H1)]; cbn [fold_right]; [split; [left; reflexivity|intros e [<-|[]]; lia]|]. split.
    - destruct (Z.min_spec b (fold_right Z.min a l)) as [(_ & ->)|(_ & ->)]; [right; left; reflexivity|]. destruct I1 as [I1|I1]; [left; exact I1|right; right; exact I1].
    - intros e [<-|[<-|I]]; [pose proof (H1 a (or_introl eq_refl))|pose proof (H1 a (or_introl eq_refl))|pose proof (H1 e (or_intror I))]; lia. }
  assert (Mx : forall a l, In (fold_right Z.max a l) (a :: l) /\ forall e, In e (a :: l) -> e <= fold_right Z.max a l).
  { intros a l. induction l as [|b l (I1 & H1)]; cbn [fold_right]; [split; [left; reflexivity|intros e [<-|[]]; lia]|]. split.
    - destruct (Z.max_spec b (fold_right Z.max a l)) as [(_ & ->)|(_ & ->)]; [destruct I1 as [I1|I1]; [left; exact I1|right; right; exact I1]|right; left; reflexivity].
    - intros e [<-|[<-|I]]; [pose proof (H1 a (or_introl eq_refl))|pose proof (H1 a (or_introl eq_refl))|pose proof (H1 e (or_intror I))]; lia. }
  unfold span. destruct (map px p) as [|a l]; [split; [discriminate|intros ((e & [] & _) & _)]|].
  destruct (Mn a l) as (I1 & H1). destruct (Mx a l) as (I2 & H2). unfold in_strips. cbn [ends px odd_le]. set (lo := fold_right Z.min a l) in *. set (hi := fold_right Z.max a l) in *. split.
  - intros H. pose proof (H1 hi I2). destruct (Z.leb_spec lo x), (Z.leb_spec hi x); try discriminate; [|lia]. split; [exists lo; split; [exact I1|lia]|exists hi; split; [exact I2|lia]].
  - intros ((e & Ie & He) & (e' & Ie' & He')). specialize (H1 e Ie). specialize (H2 e' Ie'). destruct (Z.leb_spec lo x), (Z.leb_spec hi x); try lia; try reflexivity.
Qed.
Lemma ends_px p e : In e (ends p) -> In e (map px p).
Proof.
  assert (A : forall n p, (List.length p <= n)%nat -> In e (ends p) -> In e (map px p)).
  { clear p. induction n as [|n IH]; intros [|a [|b r]] H I; cbn [ends List.length map In] in *; try contradiction; try lia. destruct I as [I|[I|I]]; auto. right. right. apply IH; [lia|exact I]. }
  exact (A _ p (le_n _)).
Qed.
Lemma inside_between p x : in_strips p x = true -> (exists e, In e (ends p) /\ e <= x) /\ (exists e, In e (ends p) /\ x < e).
Proof.
  unfold in_strips. intros H. split.
  - destruct (existsb (fun e => e <=? x) (ends p)) eqn:E; [apply existsb_exists in E; destruct E as (e & I & L); exists e; split; [exact I|apply Z.leb_le, L]|].
    rewrite odd_below in H; [discriminate|]. intros e I. destruct (Z.leb_spec e x) as [L|L]; [|exact L]. assert (existsb (fun e => e <=? x) (ends p) = true) by (apply existsb_exists; exists e; split; [exact I|apply Z.leb_le, L]). congruence.
  - destruct (existsb (fun e => x <? e) (ends p)) eqn:E; [apply existsb_exists in E; destruct E as (e & I & L); exists e; split; [exact I|apply Z.ltb_lt, L]|].
    rewrite odd_above in H; [rewrite <- Nat.negb_even, ends_even in H; discriminate|]. intros e I. destruct (Z.ltb_spec x e) as [L|L]; [|exact L]. assert (existsb (fun e => x <? e) (ends p) = true) by (apply existsb_exists; exists e; split; [exact I|apply Z.ltb_lt, L]). congruence.
Qed.

Theorem tree_exact : exact in_strips tree_lib.
Proof.
  destruct strip_exact as [_ E2 E3 E4]. split; [|exact E2|exact E3|exact E4].
  intros t A B. cbn [execute tree_lib]. unfold tree_execute. rewrite paths_subject, paths_clip. eexists. eexists. split; [reflexivity|]. split; [apply tree_nested, toggles_sorted|].
  intros x. rewrite flat_map_app. exact (tree_parity (fun x => op t (parity in_strips A x) (parity in_strips B x)) _ x (op_stepfun t _ _ _ _ (parity_stepfun A) (parity_stepfun B))).
Qed.
Lemma whole_id z : 0 <= z <= 2 ^ 53 -> whole (f64_of_Z z) = z.
Proof.
  intros H. pose proof (normalize_sign false z (proj1 H)) as N. pose proof (fin64_of_Z z ltac:(lia)) as F. destruct F as (F1 & F2 & F3). unfold f64_of_Z in *. unfold whole.
  destruct (SpecFloat.binary_normalize 53 1024 z 0 false) as [s|s| |[|] m e]; try discriminate; try contradiction.
  - cbn in F3. apply eq_IZR in F3. lia.
  - rewrite trunc_Z_correct. change (Float radix2 (Zpos m) e) with (Float radix2 (cond_opp false (Zpos m)) e). rewrite F2R_cond. rewrite F3. rewrite Ztrunc_IZR. lia.
Qed.
Lemma pair_end f bps : stepfun f bps -> forall ab, In ab (pairs (toggles f bps)) -> f (snd ab) = false.
Proof.
  intros S ab I. destruct (pairs_in _ (toggles_sorted f bps) ab I) as (L & _ & I2). apply (toggles_in f bps _ S) in I2.
  assert (T : f (snd ab - 1) = true) by (apply (pairs_cover f bps _ S); exists ab; split; [exact I|lia]). rewrite T in I2. destruct (f (snd ab)); congruence.
Qed.
Theorem tree_grows : grows_evenly in_strips tree_lib.
Proof.
  intros a b d d' x Sub Hd Hd' H. cbn [offset tree_lib] in *. apply offset_parity in H. apply offset_parity. rewrite whole_id in H by lia. rewrite whole_id by lia.
  pose proof (parity_stepfun [a]) as Sa. pose proof (parity_stepfun [b]) as Sb. destruct H as ([s e] & I & Hx). cbn [fst snd] in Hx.
  destruct (pairs_in _ (toggles_sorted _ _) _ I) as (L & _). cbn [fst snd] in L.
  assert (Q : forall y, s <= y < e -> parity in_strips [b] y = true).
  { intros y Hy. assert (P : parity in_strips [a] y = true) by (apply (pairs_cover _ _ _ Sa); exists (s, e); auto). cbn [parity] in *. rewrite xorb_false_r in *. exact (Sub y P). }
  pose proof (Q s ltac:(lia)) as Qs. apply (pairs_cover _ _ _ Sb) in Qs. destruct Qs as ([c g] & I' & H'). cbn [fst snd] in H'. exists (c, g). split; [exact I'|]. cbn [fst snd].
  pose proof (pair_end _ _ Sb _ I') as E. cbn [snd] in E. destruct (Z.lt_ge_cases g e) as [G|G]; [rewrite (Q g) in E by lia; discriminate|]. lia.
Qed.
Theorem tree_hulls : hulls in_strips tree_lib.
Proof.
  split.
  - intros cs c x I H. cbn [hull tree_lib]. apply span_inside. destruct (inside_between c x H) as ((e & Ie & He) & (e' & Ie' & He')).
    assert (In_c : forall v, In v (ends c) -> In v (map px (concat cs))).
    { intros v Iv. apply ends_px in Iv. apply in_map_iff in Iv. destruct Iv as (q & <- & Iq). apply in_map. apply in_concat. exists c. auto. }
    split; [exists e|exists e']; auto.
  - intros cs some tree n t x Inc E It H. cbn [execute hull tree_lib] in *. unfold tree_execute in E. injection E as <- _.
    pose proof (paths_subject some []) as Ps. pose proof (paths_clip some []) as Pc. cbn [closed_as map] in Ps, Pc. rewrite app_nil_r in Ps, Pc. unfold closed_as in *. rewrite Ps, Pc, app_nil_r in It.
    apply span_inside.
    assert (T : forall v, In v (toggles (fun x => op CtUnion (parity in_strips some x) (parity in_strips [] x)) (flat_map ends some)) -> In v (map px (concat cs))).
    { intros v Iv. unfold toggles in Iv. apply filter_In in Iv. destruct Iv as [Iv _]. apply (proj1 (sort_in _ _)) in Iv. apply in_flat_map in Iv. destruct Iv as (c & Ic & Iv). apply ends_px in Iv.
      apply in_map_iff in Iv. destruct Iv as (q & <- & Iq). apply in_map, in_concat. exists c. split; [apply Inc, Ic|exact Iq]. }
    destruct (toggles _ _) as [|t0 rest]; [destruct It|]. destruct It as [<-|[]]. cbn [contour] in H. unfold in_strips in H. cbn [ends px odd_le] in H.
    assert (In (last rest t0) (t0 :: rest)). { destruct rest as [|r1 rest]; [left; reflexivity|]. right. rewrite (app_removelast_last t0 (l := r1 :: rest)) at 2 by discriminate. apply in_or_app. right. left. reflexivity. }
    pose proof (T t0 (or_introl eq_refl)). pose proof (T (last rest t0) ltac:(assumption)).
    destruct (Z.leb_spec t0 x), (Z.leb_spec (last rest t0) x); try discriminate; split; eauto.
Qed.
(** a lies in the interval b *)
Definition strictly_in (a b : path) : Prop := exists lo hi y y', b = [Pt lo y; Pt hi y'] /\ forall e, In e (ends a) -> lo < e < hi.
Theorem tree_outermost : outermost in_strips strictly_in tree_lib.
Proof.
  intros before c after tree n E H x Hx. cbn [execute tree_lib] in E. unfold tree_execute in E. injection E as <- _.
  pose proof (paths_subject (before ++ c :: after) []) as Ps. pose proof (paths_clip (before ++ c :: after) []) as Pc. cbn [closed_as map] in Ps, Pc. rewrite app_nil_r in Ps, Pc.
  unfold closed_as. unfold closed_as in Ps, Pc. rewrite Ps, Pc, app_nil_r.
  set (cs := before ++ c :: after) in *. set (f := fun y => op CtUnion (parity in_strips cs y) (parity in_strips [] y)).
  assert (Sf : stepfun f (flat_map ends cs)).
  { pose proof (op_stepfun CtUnion _ _ _ _ (parity_stepfun cs) (parity_stepfun [])) as S. cbn [flat_map] in S. rewrite app_nil_r in S. exact S. }
  assert (Par : forall y, in_strips c y = true -> (forall d, In d (before ++ after) -> in_strips d y = false) -> f y = true).
  { intros y Hy Hd. unfold f, op. cbn [parity]. rewrite orb_false_r. unfold cs. rewrite parity_app. cbn [parity]. rewrite Hy.
    assert (Z : forall l, (forall d, In d l -> in_strips d y = false) -> parity in_strips l y = false).
    { intros l Hl. induction l as [|d l IH]; [reflexivity|]. cbn [parity]. rewrite (Hl d (or_introl eq_refl)), IH; [reflexivity|]. intros d' I. apply Hl. right. exact I. }
    rewrite !Z; [reflexivity| |]; intros d I; apply Hd, in_or_app; auto. }
  assert (Ex : exists y y', y <= x <= y' /\ f y = true /\ f y' = true).
  { destruct (existsb (fun d => in_strips d x) (before ++ after)) eqn:Ed.
    - apply existsb_exists in Ed. destruct Ed as (d0 & I0 & H0). destruct (H d0 I0) as [D|(lo & hi & v & v' & -> & _)]; [rewrite (D x H0) in Hx; discriminate|].
      assert (Hc : forall z, in_strips [Pt lo v; Pt hi v'] z = xorb (lo <=? z) (hi <=? z)) by (intros z; unfold in_strips; cbn [ends px odd_le]; destruct (lo <=? z), (hi <=? z); reflexivity).
      rewrite Hc in Hx.
      assert (B : forall d, In d (before ++ after) -> (forall z, in_strips d z = true -> in_strips [Pt lo v; Pt hi v'] z = false) \/ (forall e, In e (ends d) -> lo < e < hi)).
      { intros d Id. destruct (H d Id) as [D|(lo' & hi' & u & u' & Eq & D)]; [left; exact D|right]. injection Eq as -> _ -> _. exact D. }
      assert (L : lo <= x < hi \/ hi <= x < lo) by (destruct (Z.leb_spec lo x), (Z.leb_spec hi x); try discriminate; lia).
      assert (lo < hi) as Lh. { destruct (H d0 I0) as [D|(lo' & hi' & u & u' & Eq & D)]; [specialize (D x H0); rewrite Hc in D; congruence|]. injection Eq as -> _ -> _. destruct (inside_between d0 x H0) as ((e & Ie & _) & _). specialize (D e Ie). lia. }
      exists lo, (hi - 1). split; [lia|]. split; apply Par.
      + rewrite Hc. destruct (Z.leb_spec lo lo), (Z.leb_spec hi lo); try lia; try reflexivity.
      + intros d Id. destruct (B d Id) as [D|D].
        * destruct (in_strips d lo) eqn:Q; [|reflexivity]. specialize (D lo Q). rewrite Hc in D. destruct (Z.leb_spec lo lo), (Z.leb_spec hi lo); try lia; discriminate.
        * unfold in_strips. apply odd_below. intros e Ie. specialize (D e Ie). lia.
      + rewrite Hc. destruct (Z.leb_spec lo (hi - 1)), (Z.leb_spec hi (hi - 1)); try lia; try reflexivity.
      + intros d Id. destruct (B d Id) as [D|D].
        * destruct (in_strips d (hi - 1)) eqn:Q; [|reflexivity]. specialize (D _ Q). rewrite Hc in D. destruct (Z.leb_spec lo (hi - 1)), (Z.leb_spec hi (hi - 1)); try lia; discriminate.
        * unfold in_strips. rewrite odd_above; [rewrite <- Nat.negb_even, ends_even; reflexivity|]. intros e Ie. specialize (D e Ie). lia.
    - exists x, x. split; [lia|]. assert (f x = true); [|auto]. apply Par; [exact Hx|]. intros d Id. destruct (in_strips d x) eqn:Q; [|reflexivity].
      assert (existsb (fun d => in_strips d x) (before ++ after) = true) by (apply existsb_exists; exists d; auto). congruence. }
  destruct Ex as (y & y' & Hyy & Fy & Fy'). rewrite <- (toggles_odd f _ y Sf) in Fy. rewrite <- (toggles_odd f _ y' Sf) in Fy'. pose proof (toggles_even f _ Sf) as Ev. pose proof (toggles_sorted f (flat_map ends cs)) as St.
  change (exists t, In t (tree_of (toggles f (flat_map ends cs))) /\ in_strips (contour t) x = true).
  destruct (toggles f (flat_map ends cs)) as [|t0 rest]; [discriminate|]. cbn [tree_of]. eexists. split; [left; reflexivity|]. cbn [contour]. unfold in_strips. cbn [ends px odd_le].
  destruct rest as [|t1 rest]; [discriminate|]. set (r := t1 :: rest) in *. assert (N : r <> []) by discriminate.
  assert (t0 <= x). { destruct (Z.le_gt_cases t0 x) as [L|L]; [exact L|]. rewrite odd_below in Fy; [discriminate|]. inversion St as [|? ? _ F]; subst. rewrite Forall_forall in F. intros e [<-|Ie]; [lia|specialize (F e Ie); lia]. }
  assert (x < last r t0).
  { destruct (Z.lt_ge_cases x (last r t0)) as [L|L]; [exact L|]. rewrite odd_above in Fy'; [rewrite <- Nat.negb_even, Ev in Fy'; discriminate|]. 
    assert (St' := St). rewrite (last_split r t0 N) in St'. change (t0 :: removelast r ++ [last r t0]) with ((t0 :: removelast r) ++ [last r t0]) in St'. pose proof (sorted_app_lt _ _ St') as Hl.
    intros e Ie. rewrite (last_split r t0 N) in Ie. change (t0 :: removelast r ++ [last r t0]) with ((t0 :: removelast r) ++ [last r t0]) in Ie. apply in_app_iff in Ie. destruct Ie as [Ie|[<-|[]]]; [specialize (Hl e Ie)|]; lia. }
  destruct (Z.leb_spec t0 x), (Z.leb_spec (last r t0) x); try lia; try reflexivity.
Qed.
