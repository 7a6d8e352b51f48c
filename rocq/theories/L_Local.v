(** Lemmas: walls and infill of a layer depend on the layers around it only. *)
From Verif Require Import GoBase GoFloat GoStr M_Micrometer M_Geom2D M_Option M_Clip M_Builder M_Layer M_Modifier S_Modifier S_Local L_Modifier L_Infill.
Local Open Scope string_scope.
Local Open Scope list_scope.
Local Open Scope Z_scope.

Lemma at_nth layers n : at_layer layers (Z.of_nat n) = nth_error layers n.
Proof. unfold at_layer. destruct (Z.ltb_spec (Z.of_nat n) 0); [lia|]. rewrite Nat2Z.id. reflexivity. Qed.
Lemma at_some layers k l : at_layer layers k = Some l -> 0 <= k < Z.of_nat (List.length layers).
Proof.
  unfold at_layer. destruct (Z.ltb_spec k 0); [discriminate|]. intros E. assert (N : nth_error layers (Z.to_nat k) <> None) by congruence. apply nth_error_Some in N. lia.
Qed.
Lemma at_none layers k : at_layer layers k = None -> k < 0 \/ Z.of_nat (List.length layers) <= k.
Proof. unfold at_layer. destruct (Z.ltb_spec k 0); [auto|]. intros E. apply nth_error_None in E. lia. Qed.
Lemma at_idx layers k : idx layers k = match at_layer layers k with Some l => Ok l | None => idx layers k end.
Proof. unfold at_layer, idx. destruct (k <? 0); [reflexivity|]. destruct (nth_error layers (Z.to_nat k)); reflexivity. Qed.
Lemma at_exists layers layers' k k' : at_layer layers k = at_layer layers' k' ->
  (0 <= k < Z.of_nat (List.length layers) <-> 0 <= k' < Z.of_nat (List.length layers')).
Proof.
  intros E. destruct (at_layer layers k) as [l|] eqn:E1; symmetry in E.
  - apply at_some in E1, E. tauto.
  - apply at_none in E1, E. lia.
Qed.

Section Local.
Variables (lib : clib) (o : options).
Variables (a b : list layer) (n n' : nat) (p : part).
Hypothesis Hn : (n < List.length a)%nat.
Hypothesis Hn' : (n' < List.length b)%nat.

Lemma bottom_local : forall k i acc, 0 <= i -> (forall j, - (i + Z.of_nat k) <= j <= 0 -> at_layer a (Z.of_nat n + j) = at_layer b (Z.of_nat n' + j)) ->
  bottom_loop lib a (Z.of_nat n) p k i acc = bottom_loop lib b (Z.of_nat n') p k i acc.
Proof.
  induction k as [|k IH]; intros i acc Hi W; cbn [bottom_loop]; [reflexivity|].
  pose proof (at_exists _ _ _ _ (W (- i) ltac:(lia))) as X. pose proof (at_exists _ _ _ _ (W (- 1 - i) ltac:(lia))) as Y.
  assert (IH' : forall acc, bottom_loop lib a (Z.of_nat n) p k (i + 1) acc = bottom_loop lib b (Z.of_nat n') p k (i + 1) acc).
  { intros acc'. apply IH; [lia|]. intros j Hj. apply W. lia. }
  assert (E1 : (Z.of_nat n - i =? 0) = (Z.of_nat n' - i =? 0)). { apply eq_true_iff_eq. rewrite !Z.eqb_eq. lia. }
  assert (E2 : (Z.of_nat n <? i) = (Z.of_nat n' <? i)). { apply eq_true_iff_eq. rewrite !Z.ltb_lt. lia. }
  rewrite E1, E2. destruct (Z.eqb_spec (Z.of_nat n' - i) 0).
  - destruct (union_up lib _ acc [p]); cbn [bind]; auto.
  - destruct (Z.ltb_spec (Z.of_nat n') i); [reflexivity|]. specialize (W (- 1 - i) ltac:(lia)).
    replace (Z.of_nat n - 1 - i) with (Z.of_nat n + (- 1 - i)) by lia. replace (Z.of_nat n' - 1 - i) with (Z.of_nat n' + (- 1 - i)) by lia.
    rewrite (at_idx a), (at_idx b), <- W. destruct (at_layer a (Z.of_nat n + (- 1 - i))) as [l|] eqn:E.
    + cbn [bind]. destruct (partDifference lib p l); cbn [bind]; auto. destruct (union_up lib _ acc a0); cbn [bind]; auto.
    + apply at_none in E. symmetry in W. apply at_none in W. lia.
Qed.
Lemma top_local : forall k i acc, 0 <= i -> (forall j, 0 <= j <= i + Z.of_nat k -> at_layer a (Z.of_nat n + j) = at_layer b (Z.of_nat n' + j)) ->
  top_loop lib a (Z.of_nat n) p k i acc = top_loop lib b (Z.of_nat n') p k i acc.
Proof.
  induction k as [|k IH]; intros i acc Hi W; cbn [top_loop]; [reflexivity|].
  pose proof (at_exists _ _ _ _ (W i ltac:(lia))) as X. pose proof (at_exists _ _ _ _ (W (i + 1) ltac:(lia))) as Y.
  assert (IH' : forall acc, top_loop lib a (Z.of_nat n) p k (i + 1) acc = top_loop lib b (Z.of_nat n') p k (i + 1) acc).
  { intros acc'. apply IH; [lia|]. intros j Hj. apply W. lia. }
  assert (E1 : (Z.of_nat n + i =? Z.of_nat (List.length a) - 1) = (Z.of_nat n' + i =? Z.of_nat (List.length b) - 1)). { apply eq_true_iff_eq. rewrite !Z.eqb_eq. lia. }
  assert (E2 : (Z.of_nat (List.length a) <=? Z.of_nat n + 1 + i) = (Z.of_nat (List.length b) <=? Z.of_nat n' + 1 + i)). { apply eq_true_iff_eq. rewrite !Z.leb_le. lia. }
  rewrite E1, E2. destruct (Z.eqb_spec (Z.of_nat n' + i) (Z.of_nat (List.length b) - 1)).
  - destruct (union_up lib _ acc [p]); cbn [bind]; auto.
  - destruct (Z.leb_spec (Z.of_nat (List.length b)) (Z.of_nat n' + 1 + i)); [reflexivity|]. specialize (W (i + 1) ltac:(lia)).
    replace (Z.of_nat n + 1 + i) with (Z.of_nat n + (i + 1)) by lia. replace (Z.of_nat n' + 1 + i) with (Z.of_nat n' + (i + 1)) by lia.
    rewrite (at_idx a), (at_idx b), <- W. destruct (at_layer a (Z.of_nat n + (i + 1))) as [l|] eqn:E.
    + cbn [bind]. destruct (partDifference lib p l); cbn [bind]; auto. destruct (union_up lib _ acc a0); cbn [bind]; auto.
    + apply at_none in E. symmetry in W. apply at_none in W. lia.
Qed.
End Local.

Section Layers.
Variables (lib : clib) (o : options) (a b : list layer) (n n' : nat).
Notation NB := (NumberBottomLayers (Print o)).
Notation NT := (NumberTopLayers (Print o)).
Hypothesis Hn : (n < List.length a)%nat.
Hypothesis Hn' : (n' < List.length b)%nat.
Hypothesis W : same_around (Z.max 0 NB) (Z.max 0 NT) a b n n'.

Lemma infill_parts_local ov k : forall ps s, infill_parts lib o a (Z.of_nat n) ov k ps s = infill_parts lib o b (Z.of_nat n') ov k ps s.
Proof.
  induction ps as [|p ps IH]; intros s; cbn [infill_parts]; [reflexivity|].
  assert (H : infill_part lib o a (Z.of_nat n) ov k p s = infill_part lib o b (Z.of_nat n') ov k p s).
  { unfold infill_part. destruct s as [s1 s2].
    rewrite (bottom_local lib a b n n' p Hn Hn' (Z.to_nat NB) 0 []) by (try lia; intros j Hj; apply W; lia).
    rewrite (top_local lib a b n n' p Hn Hn' (Z.to_nat NT) 0 []) by (try lia; intros j Hj; apply W; lia). reflexivity. }
  rewrite H. destruct (infill_part lib o b (Z.of_nat n') ov k p s); cbn [bind]; auto.
Qed.
Lemma infill_entries_local ov : forall pe k s, infill_entries lib o a (Z.of_nat n) ov k pe s = infill_entries lib o b (Z.of_nat n') ov k pe s.
Proof.
  induction pe as [|e pe IH]; intros k s; cbn [infill_entries]; [reflexivity|].
  destruct (idx e (Z.of_nat (List.length e) - 1)) as [inner| | |]; cbn [bind]; try reflexivity. rewrite infill_parts_local.
  destruct (infill_parts lib o b (Z.of_nat n') ov k inner s); cbn [bind]; auto.
Qed.
Lemma infill_layer_local l : infill_layer lib o a n l = infill_layer lib o b n' l.
Proof.
  unfold infill_layer. destruct (OverlapPerimeters l) as [[|ov0 ov]| | |]; cbn [bind]; try reflexivity. destruct (Perimeters l) as [[|pe0 pe]| | |]; cbn [bind]; try reflexivity.
  rewrite infill_entries_local. reflexivity.
Qed.
End Layers.

Lemma around_perimeter lib o layers layers' l1 l1' n n' below above : PerimeterModify lib o layers = Ok l1 -> PerimeterModify lib o layers' = Ok l1' ->
  same_around below above layers layers' n n' -> same_around below above l1 l1' n n'.
Proof.
  intros H H' W j Hj. specialize (W j Hj). pose proof (perimeter_spec lib o _ _ H) as F. pose proof (perimeter_spec lib o _ _ H') as F'. revert W.
  generalize (Z.of_nat n + j) (Z.of_nat n' + j). intros k k' E. pose proof (f2_len _ _ _ F) as L. pose proof (f2_len _ _ _ F') as L'. unfold at_layer in *.
  assert (G : forall ls ms m, Forall2 (fun l l' => perimeter_layer lib o l = Ok l') ls ms -> nth_error ms m = match nth_error ls m with Some l => match perimeter_layer lib o l with Ok l' => Some l' | _ => None end | None => None end).
  { clear. intros ls ms m F. destruct (nth_error ls m) as [l|] eqn:El.
    - destruct (f2_nth _ _ _ _ _ F El) as (l' & -> & ->). reflexivity.
    - apply nth_error_None. rewrite <- (f2_len _ _ _ F). apply nth_error_None, El. }
  rewrite (G _ _ _ F), (G _ _ _ F').
  destruct (k <? 0), (k' <? 0); [reflexivity|rewrite <- E; reflexivity|rewrite E; reflexivity|rewrite E; reflexivity].
Qed.

Lemma stack_local lib o layers layers' l1 l1' l2 l2' l3 l3' n n' :
  PerimeterModify lib o layers = Ok l1 -> InfillModify lib o l1 = Ok l2 -> InternalInfillModify lib o l2 = Ok l3 ->
  PerimeterModify lib o layers' = Ok l1' -> InfillModify lib o l1' = Ok l2' -> InternalInfillModify lib o l2' = Ok l3' ->
  same_around (Z.max 0 (NumberBottomLayers (Print o))) (Z.max 0 (NumberTopLayers (Print o))) layers layers' n n' -> (filled layers n <-> filled layers' n') ->
  nth_error l1 n = nth_error l1' n' /\ nth_error l3 n = nth_error l3' n'.
Proof.
  intros H1 H2 H3 H1' H2' H3' W F. pose proof (around_perimeter _ _ _ _ _ _ _ _ _ _ H1 H1' W) as W1.
  assert (E1 : nth_error l1 n = nth_error l1' n'). { specialize (W1 0 ltac:(lia)). rewrite !Z.add_0_r, !at_nth in W1. exact W1. }
  split; [exact E1|].
  destruct (infill_stop lib o layers l1 l2 H1 H2) as (s2 & S2 & G2). destruct (internal_stop lib o layers l1 l2 l3 H1 H2 H3) as (s3 & S3 & G3).
  destruct (infill_stop lib o layers' l1' l2' H1' H2') as (s2' & S2' & G2'). destruct (internal_stop lib o layers' l1' l2' l3' H1' H2' H3') as (s3' & S3' & G3').
  destruct (Nat.lt_ge_cases n s2) as [Lt|Ge].
  - assert (Fn : filled layers n) by (apply G2, Lt). assert (Fn' : filled layers' n') by (apply F, Fn).
    pose proof (proj2 (G3 n) Fn) as N3. pose proof (proj2 (G2' n') Fn') as N2'. pose proof (proj2 (G3' n') Fn') as N3'.
    assert (Ln : (n < List.length l1)%nat) by (pose proof (sw_stop _ _ _ _ S2); lia). assert (Ln' : (n' < List.length l1')%nat) by (pose proof (sw_stop _ _ _ _ S2'); lia).
    destruct (nth_error l1 n) as [x|] eqn:Ex; [|apply nth_error_None in Ex; lia]. symmetry in E1.
    destruct (sw_before _ _ _ _ S2 n x Lt Ex) as (y & Ey & Fy). destruct (sw_before _ _ _ _ S2' n' x N2' E1) as (y' & Ey' & Fy').
    rewrite (infill_layer_local lib o l1 l1' n n' Ln Ln' W1 x), Fy' in Fy. injection Fy as ->.
    destruct (sw_before _ _ _ _ S3 n y N3 Ey) as (z & Ez & Fz). destruct (sw_before _ _ _ _ S3' n' y N3' Ey') as (z' & Ez' & Fz').
    unfold internal_layer in Fz, Fz'. rewrite Fz' in Fz. injection Fz as ->. rewrite Ez, Ez'. reflexivity.
  - assert (Fn : ~ filled layers n) by (rewrite <- G2; lia). assert (Fn' : ~ filled layers' n') by (rewrite <- F; exact Fn).
    assert (~ (n < s3)%nat) by (rewrite G3; exact Fn). assert (~ (n' < s2')%nat) by (rewrite G2'; exact Fn'). assert (~ (n' < s3')%nat) by (rewrite G3'; exact Fn').
    rewrite (sw_after _ _ _ _ S3), (sw_after _ _ _ _ S2), (sw_after _ _ _ _ S3'), (sw_after _ _ _ _ S2') by lia. exact E1.
Qed.

Lemma brim_local lib o layers layers' r r' n : BrimModify lib o layers = Ok r -> BrimModify lib o layers' = Ok r' ->
  nth_error layers n = nth_error layers' n -> nth_error r n = nth_error r' n.
Proof.
  intros H H' E. destruct n as [|n].
  - unfold BrimModify in *. destruct (s_BrimCount (BrimSkirt (Print o)) =? 0); [congruence|].
    destruct layers as [|l ls], layers' as [|l' ls']; cbn in E; try discriminate. injection E as <-.
    change (idx (l :: ls) 0) with (Ok l) in H. change (idx (l :: ls') 0) with (Ok l) in H'. cbn [bind] in H, H'.
    destruct (Perimeters l) as [pe| | |]; try discriminate. cbn [bind] in H, H'. destruct pe as [|e pe]; [injection H as <-; injection H' as <-; reflexivity|].
    destruct (map (fun p => Part p []) _) as [|q qs]; [injection H as <-; injection H' as <-; reflexivity|].
    apply bind_Ok in H. destruct H as (brim & Eb & H). rewrite Eb in H'. cbn [bind] in H'.
    apply bind_Ok in H. destruct H as (outer & Eo & H). rewrite Eo in H'. cbn [bind] in H'.
    apply put_Ok in H. apply put_Ok in H'. destruct H as (_ & ->). destruct H' as (_ & ->). reflexivity.
  - destruct (brim_keeps lib o _ _ H) as (_ & K). destruct (brim_keeps lib o _ _ H') as (_ & K').
    assert (T : forall (m : list layer), nth_error m (S n) = nth_error (skipn 1 m) n) by (intros [|x m]; [destruct n; reflexivity|reflexivity]).
    rewrite (T r), K, <- T, E, (T layers'), <- K', <- T. reflexivity.
Qed.
