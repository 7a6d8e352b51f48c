(** PerpendicularDistance2, Douglas-Peucker, Simplify, Bounds. *)
From Coq Require Import ZifyBool.
From Verif Require Import GoBase GoFloat M_Micrometer M_Geom2D S_Geom L_Vec.
Local Open Scope Z_scope.

Lemma dist2_nonneg a b : 0 <= dist2 a b. Proof. unfold dist2; nia. Qed.
Lemma dist2_sym a b : dist2 a b = dist2 b a. Proof. unfold dist2; ring. Qed.
Lemma dist2_0 a b : dist2 a b = 0 <-> a = b.
Proof.
  split.
  - unfold dist2. rewrite !Z.pow_2_r. intros H.
    pose proof (Z.square_nonneg (px b - px a)). pose proof (Z.square_nonneg (py b - py a)).
    assert (E1 : (px b - px a) * (px b - px a) = 0) by lia. assert (E2 : (py b - py a) * (py b - py a) = 0) by lia.
    apply Z.mul_eq_0 in E1. apply Z.mul_eq_0 in E2. apply pt_eta; lia.
  - intros ->. unfold dist2. rewrite !Z.sub_diag. reflexivity.
Qed.
Lemma dist2_refl a : dist2 a a = 0. Proof. apply dist2_0; reflexivity. Qed.

Lemma quot64_pos a b : 0 <= a < 2 ^ 63 -> 0 < b -> quot64 a b = a / b.
Proof.
  intros Ha Hb. unfold quot64. rewrite Z.quot_div_nonneg by lia. apply wrap_id. unfold int64.
  assert (a / b <= a) by (apply Z.div_le_upper_bound; nia). pose proof (Z.div_pos a b ltac:(lia) Hb). lia.
Qed.

(** Lagrange identity *)
Lemma lagrange a b p :
  cross a b p ^ 2 + ((px b - px a) * (px p - px a) + (py b - py a) * (py p - py a)) ^ 2
  = dist2 a b * dist2 a p.
Proof. unfold cross, dist2. ring. Qed.

Definition dot (a b p : pt) : Z := (px b - px a) * (px p - px a) + (py b - py a) * (py p - py a).

Lemma dot_bound a b p : dot a b p ^ 2 <= dist2 a b * dist2 a p.
Proof. unfold dot. rewrite <- lagrange. pose proof (Z.square_nonneg (cross a b p)). rewrite (Z.pow_2_r (cross a b p)). lia. Qed.

Lemma amgm x u : 2 * Z.abs (x * u) <= x * x + u * u.
Proof.
  pose proof (Z.square_nonneg (x - u)). pose proof (Z.square_nonneg (x + u)).
  destruct (Z.abs_spec (x * u)) as [[_ ->]|[_ ->]]; lia.
Qed.

Lemma Dot_exact a b p : dist2 a b < 2 ^ 61 -> dist2 a p < 2 ^ 61 ->
  DotProduct (ptSub b a) (ptSub p a) = dot a b p.
Proof.
  intros H1 H2. rewrite (ptSub_dist b a) by lia. rewrite (ptSub_dist p a) by lia.
  unfold DotProduct, dot; cbn [px py]. unfold dist2 in *. rewrite !Z.pow_2_r in *.
  set (x := px b - px a) in *. set (y := py b - py a) in *. set (u := px p - px a) in *. set (v := py p - py a) in *.
  assert (A1 : Z.abs (x * u) <= 2 ^ 61).
  { pose proof (amgm x u). pose proof (Z.square_nonneg y). pose proof (Z.square_nonneg v). lia. }
  assert (A2 : Z.abs (y * v) <= 2 ^ 61).
  { pose proof (amgm y v). pose proof (Z.square_nonneg x). pose proof (Z.square_nonneg u). lia. }
  rewrite !mul64_id by (unfold int64; lia). apply add64_id. unfold int64; lia.
Qed.

Lemma norm2_sub a b : norm2 (Pt (px b - px a) (py b - py a)) = dist2 a b.
Proof. reflexivity. Qed.

(** exact value for lines and points up to about 55 mm *)
Lemma perp_exact a b p : dist2 a b <= 3037000499 -> dist2 a p <= 3037000499 -> a <> b ->
  PerpendicularDistance2 a b p = dist2 a p - dot a b p ^ 2 / dist2 a b.
Proof.
  intros H1 H2 Hne.
  assert (Hpos : 0 < dist2 a b).
  { pose proof (dist2_nonneg a b). assert (dist2 a b <> 0) by (rewrite dist2_0; exact Hne). lia. }
  unfold PerpendicularDistance2. rewrite Dot_exact by lia.
  rewrite (ptSub_dist b a), (ptSub_dist p a) by lia.
  rewrite !ptSize2_exact by (rewrite norm2_sub; lia). rewrite !norm2_sub.
  destruct (Z.eqb_spec (dist2 a b) 0); [lia|].
  pose proof (dot_bound a b p) as D. pose proof (dist2_nonneg a p) as Np.
  assert (D2 : 0 <= dot a b p ^ 2 < 2 ^ 63) by (rewrite Z.pow_2_r in *; nia).
  rewrite mul64_id by (unfold int64; rewrite Z.pow_2_r in D2; lia). rewrite <- Z.pow_2_r.
  rewrite quot64_pos by lia.
  assert (Q : dot a b p ^ 2 / dist2 a b <= dist2 a p) by (apply Z.div_le_upper_bound; lia).
  assert (Q0 : 0 <= dot a b p ^ 2 / dist2 a b) by (apply Z.div_pos; lia).
  rewrite sub64_id by (unfold int64; lia). unfold Max. destruct (Z.ltb_spec (dist2 a p - dot a b p ^ 2 / dist2 a b) 0); lia.
Qed.

Lemma perp_bounds a b p : dist2 a b <= 3037000499 -> dist2 a p <= 3037000499 -> a <> b ->
  cross a b p ^ 2 <= PerpendicularDistance2 a b p * dist2 a b < cross a b p ^ 2 + dist2 a b.
Proof.
  intros H1 H2 Hne. rewrite perp_exact by assumption.
  assert (Hpos : 0 < dist2 a b).
  { pose proof (dist2_nonneg a b). assert (dist2 a b <> 0) by (rewrite dist2_0; exact Hne). lia. }
  pose proof (lagrange a b p) as L. fold (dot a b p) in L.
  pose proof (Z.div_mod (dot a b p ^ 2) (dist2 a b) ltac:(lia)).
  pose proof (Z.mod_pos_bound (dot a b p ^ 2) (dist2 a b) Hpos). nia.
Qed.

Lemma perp_same a p : dist2 a p < 2 ^ 62 -> PerpendicularDistance2 a a p = dist2 a p.
Proof.
  intros H. unfold PerpendicularDistance2. rewrite (ptSub_dist a a) by (rewrite dist2_refl; lia).
  rewrite !Z.sub_diag. cbn [ptSize2 px py]. change (ptSize2 {| px := 0; py := 0 |} =? 0) with true. cbn iota.
  rewrite ptSub_dist by lia. rewrite ptSize2_exact; rewrite norm2_sub; lia.
Qed.

(** Without the 55 mm bound the result can only be too large. *)
Lemma quot64_wrap_le a b : 0 <= a -> 0 < b -> quot64 (wrap a) b <= a / b.
Proof.
  intros Ha Hb.
  pose proof (wrap_int64 a) as W. unfold int64 in W.
  assert (Ht : wrap a <= a).
  { unfold wrap. destruct (Z_lt_dec a (2 ^ 63)).
    - rewrite Z.mod_small; lia.
    - pose proof (Z.mod_pos_bound (a + 2 ^ 63) (2 ^ 64) ltac:(lia)). lia. }
  unfold quot64. destruct (Z_le_dec 0 (wrap a)) as [C|C].
  - rewrite Z.quot_div_nonneg by lia.
    assert (wrap a / b <= wrap a) by (apply Z.div_le_upper_bound; nia).
    pose proof (Z.div_pos (wrap a) b C Hb).
    rewrite wrap_id by (unfold int64; lia). apply Z.div_le_mono; lia.
  - pose proof (Z.div_pos a b Ha Hb) as P.
    assert (Q : - 2 ^ 63 <= Z.quot (wrap a) b <= 0).
    { replace (wrap a) with (- - wrap a) by lia. rewrite Z.quot_opp_l by lia.
      rewrite Z.quot_div_nonneg by lia. pose proof (Z.div_pos (- wrap a) b ltac:(lia) Hb).
      assert (- wrap a / b <= - wrap a) by (apply Z.div_le_upper_bound; nia). lia. }
    rewrite wrap_id by (unfold int64; lia). lia.
Qed.
Lemma quot64_wrap_ge a b : 0 < b -> - 2 ^ 63 <= quot64 (wrap a) b * b.
Proof.
  intros Hb. pose proof (wrap_int64 a) as W. unfold int64 in W. unfold quot64.
  assert (Q : - 2 ^ 63 <= Z.quot (wrap a) b * b /\ - 2 ^ 63 <= Z.quot (wrap a) b < 2 ^ 63).
  { destruct (Z_le_dec 0 (wrap a)) as [C|C].
    - rewrite Z.quot_div_nonneg by lia. pose proof (Z.div_pos (wrap a) b C Hb).
      assert (wrap a / b <= wrap a) by (apply Z.div_le_upper_bound; nia). nia.
    - replace (wrap a) with (- - wrap a) by lia. rewrite Z.quot_opp_l by lia. rewrite Z.quot_div_nonneg by lia.
      pose proof (Z.div_mod (- wrap a) b ltac:(lia)). pose proof (Z.mod_pos_bound (- wrap a) b Hb).
      pose proof (Z.div_pos (- wrap a) b ltac:(lia) Hb). nia. }
  rewrite wrap_id by (unfold int64; lia). lia.
Qed.

Lemma perp_upper a b p : dist2 a b < 2 ^ 61 -> dist2 a p < 2 ^ 61 -> a <> b ->
  cross a b p ^ 2 <= PerpendicularDistance2 a b p * dist2 a b.
Proof.
  intros H1 H2 Hne.
  assert (Hpos : 0 < dist2 a b).
  { pose proof (dist2_nonneg a b). assert (dist2 a b <> 0) by (rewrite dist2_0; exact Hne). lia. }
  unfold PerpendicularDistance2. rewrite Dot_exact by lia.
  rewrite (ptSub_dist b a), (ptSub_dist p a) by lia.
  rewrite !ptSize2_exact by (rewrite norm2_sub; lia). rewrite !norm2_sub.
  destruct (Z.eqb_spec (dist2 a b) 0); [lia|].
  pose proof (lagrange a b p) as L. fold (dot a b p) in L.
  pose proof (dist2_nonneg a p) as Np. unfold mul64. rewrite <- Z.pow_2_r.
  assert (D0 : 0 <= dot a b p ^ 2) by (rewrite Z.pow_2_r; nia).
  pose proof (quot64_wrap_le (dot a b p ^ 2) (dist2 a b) D0 Hpos) as Q.
  set (ax := quot64 (wrap (dot a b p ^ 2)) (dist2 a b)) in *.
  pose proof (Z.div_mod (dot a b p ^ 2) (dist2 a b) ltac:(lia)).
  pose proof (Z.mod_pos_bound (dot a b p ^ 2) (dist2 a b) Hpos).
  assert (E : cross a b p ^ 2 <= (dist2 a p - ax) * dist2 a b) by nia.
  assert (C0 : 0 <= cross a b p ^ 2) by (rewrite Z.pow_2_r; nia).
  assert (Hs : 0 <= dist2 a p - ax) by nia.
  pose proof (quot64_wrap_ge (dot a b p ^ 2) (dist2 a b) Hpos) as G. fold ax in G.
  destruct (Z_lt_dec (dist2 a p - ax) (2 ^ 63)) as [S|S].
  - rewrite sub64_id by (unfold int64; lia). unfold Max. destruct (Z.ltb_spec (dist2 a p - ax) 0); lia.
  - (* impossible: ax >= -2^63 / dist2 a b would have to be below -2^63 + 2^61 *)
    exfalso.
    assert (dist2 a b = 1).
    { destruct (Z_le_dec 2 (dist2 a b)); [|lia]. nia. }
    (* then the dot product is at most |ap| and does not wrap *)
    pose proof (dot_bound a b p) as DB.
    assert (Ew : wrap (dot a b p ^ 2) = dot a b p ^ 2) by (apply wrap_id; unfold int64; nia).
    unfold ax in S. rewrite Ew, quot64_pos in S by nia.
    pose proof (Z.div_pos (dot a b p ^ 2) (dist2 a b) D0 Hpos). lia.
Qed.

(** *** seekMostDistantPoint *)
Definition small_path (l : path) : Prop := forall p q, In p l -> In q l -> dist2 p q <= 3037000499.

Lemma perp_range a b p : dist2 a b <= 3037000499 -> dist2 a p <= 3037000499 ->
  0 <= PerpendicularDistance2 a b p <= 3037000499.
Proof.
  intros H1 H2. pose proof (dist2_nonneg a b). pose proof (dist2_nonneg a p).
  destruct (Z.eq_dec (dist2 a b) 0) as [E|E].
  - apply dist2_0 in E. subst b. rewrite perp_same by lia. lia.
  - assert (a <> b) by (rewrite <- dist2_0; exact E). rewrite perp_exact by assumption.
    pose proof (dot_bound a b p).
    assert (dot a b p ^ 2 / dist2 a b <= dist2 a p) by (apply Z.div_le_upper_bound; lia).
    assert (0 <= dot a b p ^ 2 / dist2 a b) by (apply Z.div_pos; [rewrite Z.pow_2_r; nia|lia]). lia.
Qed.

Lemma seek_spec a b l : forall i best m r M,
  dist2 a b <= 3037000499 -> (forall p, In p l -> dist2 a p <= 3037000499) ->
  0 <= m <= 3037000499 ->
  seek_from a b i l best m = (r, M) ->
  m <= M <= 3037000499 /\ (forall p, In p l -> PerpendicularDistance2 a b p <= M ^ 2).
Proof.
  induction l as [|p l IH]; intros i best m r M Hab Hl Hm E; cbn [seek_from] in E.
  - injection E as <- <-. split; [lia|]. intros p [].
  - assert (R : 0 <= PerpendicularDistance2 a b p <= 3037000499).
    { apply perp_range; [exact Hab|]. apply Hl; left; reflexivity. }
    rewrite mul64_id in E by (unfold int64; nia).
    destruct (Z.ltb_spec (m * m) (PerpendicularDistance2 a b p)) as [C|C].
    + apply IH in E; [|exact Hab|intros q Hq; apply Hl; right; exact Hq|exact R].
      destruct E as [E1 E2]. split; [nia|]. intros q [<-|Hq]; [rewrite Z.pow_2_r; nia|apply E2; exact Hq].
    + apply IH in E; [|exact Hab|intros q Hq; apply Hl; right; exact Hq|exact Hm].
      destruct E as [E1 E2]. split; [lia|]. intros q [<-|Hq]; [rewrite Z.pow_2_r; nia|apply E2; exact Hq].
Qed.

(** index range: the returned index is the given one or a valid position of the list *)
Lemma seek_index a b l : forall i best m r M, seek_from a b i l best m = (r, M) ->
  (r = best /\ M = m) \/ (i <= r < i + List.length l)%nat.
Proof.
  induction l as [|p l IH]; intros i best m r M E; cbn [seek_from] in E.
  - injection E as <- <-. left; split; reflexivity.
  - destruct (mul64 m m <? PerpendicularDistance2 a b p).
    + apply IH in E. cbn [List.length]. right. lia.
    + apply IH in E. cbn [List.length]. lia.
Qed.

(** *** subsequence lemmas *)
Lemma subseq_refl {A} (l : list A) : subseq l l.
Proof. induction l; constructor; assumption. Qed.
Lemma subseq_nil {A} (l : list A) : subseq [] l.
Proof. induction l; constructor; assumption. Qed.
Lemma subseq_app {A} (a b c d : list A) : subseq a b -> subseq c d -> subseq (a ++ c) (b ++ d).
Proof. intros H; induction H; intros Hc; cbn; auto; constructor; auto. Qed.
Lemma subseq_In {A} (a b : list A) x : subseq a b -> In x a -> In x b.
Proof. intros H; induction H; cbn; intros Hi; auto. destruct Hi; auto. Qed.

(** *** the [simplifies] relation *)
Lemma simplifies_refl ok a l : simplifies ok (a :: l) (a :: l).
Proof.
  revert a; induction l as [|b l IH]; intros a; [constructor|].
  apply (simp_step ok a [] b l l); [intros p []|apply IH].
Qed.
Lemma simplifies_two (ok : pt -> pt -> pt -> Prop) a mid b : (forall p, In p mid -> ok a b p) -> simplifies ok (a :: mid ++ [b]) [a; b].
Proof. intros H. apply simp_step; [exact H|constructor]. Qed.
Lemma simplifies_join ok l o x l2 o2 : simplifies ok l o ->
  forall l1 o1, l = l1 ++ [x] -> o = o1 ++ [x] -> simplifies ok (x :: l2) (x :: o2) ->
  simplifies ok (l1 ++ x :: l2) (o1 ++ x :: o2).
Proof.
  intros H; induction H as [a|a removed b rest out Hr Hs IH]; intros l1 o1 El Eo H2.
  - destruct l1 as [|u [|v l1]]; try discriminate. destruct o1 as [|u' [|v' o1]]; try discriminate.
    exact H2.
  - destruct o1 as [|a' o1]; [discriminate|]. cbn in Eo. injection Eo as <- Eo.
    assert (Hne : o1 = [] \/ exists o1', o1 = b :: o1').
    { destruct o1 as [|b' o1']; [left; reflexivity|]. right. injection Eo as -> _. eauto. }
    (* decompose l1 *)
    assert (El' : exists l1', l1 = a :: removed ++ l1' /\ b :: rest = l1' ++ [x]).
    { destruct (@exists_last _ (b :: rest) ltac:(discriminate)) as (l1' & y & Ey).
      exists l1'. rewrite Ey in El. rewrite app_assoc in El.
      assert (El2 : (a :: removed ++ l1') ++ [y] = l1 ++ [x]) by exact El.
      apply app_inj_tail in El2 as [<- ->]. split; [reflexivity|exact Ey]. }
    destruct El' as (l1' & -> & Eb).
    destruct Hne as [->|(o1' & ->)].
    + (* out = [] and b = x *)
      injection Eo as -> ->. inversion Hs; subst.
      destruct l1' as [|u l1']; [|destruct l1'; discriminate].
      rewrite app_nil_r. cbn. apply simp_step; assumption.
    + destruct l1' as [|b' l1''].
      * cbn in Eb. injection Eb as -> ->. inversion Hs; subst.
        -- destruct o1'; discriminate.
        -- destruct removed0; discriminate.
      * injection Eb as <- Eb. cbn. rewrite <- app_assoc. cbn. apply simp_step; [exact Hr|].
        apply (IH (b :: l1'') (b :: o1')); [cbn; f_equal; exact Eb|cbn in Eo; injection Eo as ->; reflexivity|exact H2].
Qed.
Lemma simplifies_ends ok l o : simplifies ok l o ->
  exists a, hd_error l = Some a /\ hd_error o = Some a /\ forall d, last l d = last o d.
Proof.
  intros H; induction H as [a|a removed b rest out Hr Hs IH].
  - exists a; repeat split.
  - exists a; repeat split. intros d. destruct IH as (b' & _ & _ & IH).
    specialize (IH d). change (a :: b :: out) with ([a] ++ b :: out).
    replace (a :: removed ++ b :: rest) with ((a :: removed) ++ b :: rest) by reflexivity.
    assert (Hl : forall (u v : list pt) x d0, last (u ++ x :: v) d0 = last (x :: v) d0).
    { intros u v x d0. induction u as [|y u IHu]; [reflexivity|]. cbn [app].
      rewrite <- IHu. destruct (u ++ x :: v) eqn:E; [destruct u; discriminate|reflexivity]. }
    rewrite !Hl. exact IH.
Qed.
Lemma simplifies_subseq ok l o : simplifies ok l o -> subseq o l.
Proof.
  intros H; induction H as [a|a removed b rest out Hr Hs IH]; [repeat constructor|].
  constructor. change (subseq ([] ++ b :: out) (removed ++ b :: rest)). apply subseq_app; [apply subseq_nil|exact IH].
Qed.
Lemma simplifies_mono (ok ok' : pt -> pt -> pt -> Prop) l o :
  (forall a b p, In a l -> In b l -> In p l -> ok a b p -> ok' a b p) -> simplifies ok l o -> simplifies ok' l o.
Proof.
  intros Hm H; induction H as [a|a removed b rest out Hr Hs IH]; [constructor|].
  apply simp_step.
  - intros p Hp. apply Hm; [left; reflexivity|right; apply in_or_app; right; left; reflexivity| |apply Hr; exact Hp].
    right; apply in_or_app; left; exact Hp.
  - apply IH. intros u v p Hu Hv Hp. apply Hm; right; apply in_or_app; right; assumption.
Qed.

(** splitting a path at index i: points[:i+1] and points[i:] *)
Lemma split_at (l : path) i x : nth_error l i = Some x ->
  firstn (S i) l = firstn i l ++ [x] /\ skipn i l = x :: skipn (S i) l /\ l = firstn i l ++ x :: skipn (S i) l.
Proof.
  revert i; induction l as [|h t IH]; intros [|i] H; cbn in *; try discriminate.
  - injection H as ->. repeat split.
  - destruct (IH i H) as (H1 & H2 & H3). cbn in H1. repeat split.
    + f_equal. rewrite <- H1. reflexivity.
    + exact H2.
    + f_equal. exact H3.
Qed.

Lemma simp_out_last ok l o x : simplifies ok (l ++ [x]) o -> exists o1, o = o1 ++ [x].
Proof.
  intros H. destruct (simplifies_ends ok _ _ H) as (a & _ & Ho & E).
  destruct o as [|a' o'] using rev_ind; [discriminate|]. exists o'. specialize (E x).
  rewrite !last_last in E. congruence.
Qed.
Lemma simp_nonnil ok a l o : simplifies ok (a :: l) o -> exists o', o = a :: o'.
Proof. intros H. inversion H; subst; eauto. Qed.

Definition okdp (ep : Z) (a b p : pt) : Prop :=
  exists l M i, In p l /\ seekMostDistantPoint a b l = (i, M) /\ M < ep.

(** The structural part holds without any bound. *)
Lemma dp_simplifies (R : path -> pt -> pt -> pt -> Prop) ep :
  (forall l a b i M, hd_error l = Some a -> last l a = b -> seekMostDistantPoint a b l = (i, M) -> M < ep ->
     forall p, In p l -> R l a b p) ->
  forall fuel l a, hd_error l = Some a -> 
  simplifies (fun a b p => exists l', (forall x, In x l' -> In x l) /\ hd_error l' = Some a /\ last l' a = b /\ In p l' /\ R l' a b p)
     l (douglasPeucker fuel l ep).
Proof.
  intros HR fuel; induction fuel as [|fuel IH]; intros l a Ha.
  - destruct l; [discriminate|]. apply simplifies_refl.
  - destruct l as [|p0 [|p1 [|p2 rest]]]; [discriminate|apply simplifies_refl..|].
    injection Ha as ->. cbn [douglasPeucker].
    set (l := a :: p1 :: p2 :: rest). set (pl := last l a).
    destruct (seekMostDistantPoint a pl l) as [i M] eqn:E.
    destruct (Z.leb_spec ep M) as [C|C].
    + assert (Hi : (i < List.length l)%nat).
      { unfold seekMostDistantPoint in E. apply seek_index in E. destruct E as [[-> _]|E]; [unfold l; cbn [List.length]; lia|lia]. }
      destruct (nth_error l i) as [x|] eqn:Ex; [|apply nth_error_None in Ex; lia].
      destruct (split_at l i x Ex) as (S1 & S2 & S3).
      assert (HL : simplifies (fun a b p => exists l', (forall x, In x l' -> In x l) /\ hd_error l' = Some a /\ last l' a = b /\ In p l' /\ R l' a b p) (firstn (S i) l) (douglasPeucker fuel (firstn (S i) l) ep)).
      { eapply simplifies_mono; [|apply (IH _ a); reflexivity].
        intros u v p _ _ _ (l' & Hl' & Hrest). exists l'. split; [|exact Hrest].
        intros y Hy. apply Hl' in Hy. rewrite <- (firstn_skipn (S i) l). apply in_or_app. left; exact Hy. }
      assert (HRt : simplifies (fun a b p => exists l', (forall x, In x l' -> In x l) /\ hd_error l' = Some a /\ last l' a = b /\ In p l' /\ R l' a b p) (skipn i l) (douglasPeucker fuel (skipn i l) ep)).
      { eapply simplifies_mono; [|apply (IH _ x); rewrite S2; reflexivity].
        intros u v p _ _ _ (l' & Hl' & Hrest). exists l'. split; [|exact Hrest].
        intros y Hy. apply Hl' in Hy. rewrite <- (firstn_skipn i l). apply in_or_app. right; exact Hy. }
      rewrite S1 in HL. destruct (simp_out_last _ _ _ _ HL) as (o1 & Eo1).
      rewrite S2 in HRt. destruct (simp_nonnil _ _ _ _ HRt) as (o2 & Eo2).
      rewrite <- S1 in Eo1. rewrite <- S2 in Eo2. rewrite Eo1, Eo2.
      rewrite app_length. cbn [List.length]. rewrite Nat.add_sub. rewrite firstn_app, firstn_all, Nat.sub_diag, firstn_O, app_nil_r.
      match goal with |- simplifies ?ok l ?o => cut (simplifies ok (firstn i l ++ x :: skipn (S i) l) o) end;
        [rewrite <- S3; auto|].
      rewrite S1 in Eo1. rewrite S2 in Eo2. rewrite Eo1 in HL. rewrite Eo2 in HRt.
      eapply simplifies_join; [exact HL|reflexivity|reflexivity|exact HRt].
    + assert (El : exists mid, l = a :: mid ++ [pl]).
      { unfold pl, l. destruct (@exists_last _ (p1 :: p2 :: rest) ltac:(discriminate)) as (mid & y & Ey).
        exists mid. rewrite Ey. f_equal. f_equal. f_equal. change (a :: mid ++ [y]) with ((a :: mid) ++ [y]). rewrite last_last. reflexivity. }
      destruct El as (mid & El). assert (Hm : forall p, In p mid -> R l a pl p /\ In p l).
      { intros p Hp. assert (In p l) by (rewrite El; right; apply in_or_app; left; exact Hp).
        split; [|assumption]. eapply HR; [reflexivity|reflexivity|exact E|exact C|assumption]. }
      match goal with |- simplifies ?ok l ?o => cut (simplifies ok (a :: mid ++ [pl]) o) end;
        [rewrite <- El; auto|].
      apply simplifies_two. intros p Hp. destruct (Hm p Hp) as [Hm1 Hm2]. exists l. repeat split; auto.
Qed.

Lemma dp_subseq fuel l ep : subseq (douglasPeucker fuel l ep) l.
Proof.
  destruct l as [|a l]; [destruct fuel; apply subseq_refl|].
  eapply simplifies_subseq. apply (dp_simplifies (fun _ _ _ _ => True) ep) with (a := a); auto.
Qed.
Lemma dp_ends fuel a l ep : exists o, douglasPeucker fuel (a :: l) ep = a :: o /\
  forall d, last (douglasPeucker fuel (a :: l) ep) d = last (a :: l) d.
Proof.
  assert (H : simplifies (fun u v p => exists l', (forall x, In x l' -> In x (a :: l)) /\ hd_error l' = Some u /\ last l' u = v /\ In p l' /\ True)
     (a :: l) (douglasPeucker fuel (a :: l) ep)).
  { apply (dp_simplifies (fun _ _ _ _ => True) ep) with (a := a); auto. }
  destruct (simp_nonnil _ _ _ _ H) as (o & Eo). exists o. split; [exact Eo|].
  destruct (simplifies_ends _ _ _ H) as (u & _ & _ & E). intros d. symmetry. apply E.
Qed.

Lemma last_In {A} (l : list A) d : l <> [] -> In (last l d) l.
Proof.
  intros H. destruct l as [|x l'] using rev_ind; [contradiction|]. rewrite last_last. apply in_or_app; right; left; reflexivity.
Qed.

Lemma dp_near fuel l ep : 0 < ep -> small_path l ->
  simplifies (near_line (ep - 1)) l (douglasPeucker fuel l ep) \/ l = [].
Proof.
  intros Hep Hs. destruct l as [|a0 l0]; [right; reflexivity|left].
  eapply simplifies_mono; [|apply (dp_simplifies (fun l' a b p => small_path l' -> near_line (ep - 1) a b p) ep) with (a := a0); [|reflexivity]].
  - intros a b p _ _ _ (l' & Hsub & Hhd & Hla & Hp & HR). apply HR.
    intros u v Hu Hv. apply Hs; apply Hsub; assumption.
  - intros l a b i M Hhd Hla E HM p Hp Hsm.
    assert (Ia : In a l) by (destruct l; [discriminate|injection Hhd as ->; left; reflexivity]).
    assert (Ib : In b l) by (rewrite <- Hla; apply last_In; destruct l; discriminate).
    unfold seekMostDistantPoint in E. apply seek_spec in E; [|apply Hsm; assumption|intros q Hq; apply Hsm; assumption|lia].
    destruct E as [E1 E2]. specialize (E2 p Hp).
    pose proof (Hsm a b Ia Ib) as Dab. pose proof (Hsm a p Ia Hp) as Dap.
    assert (M2 : M ^ 2 <= (ep - 1) ^ 2) by (rewrite !Z.pow_2_r; nia).
    split; intros Hab.
    + rewrite <- Hab in E2. rewrite perp_same in E2 by lia. lia.
    + pose proof (perp_bounds a b p Dab Dap Hab) as [PB _]. pose proof (dist2_nonneg a b). nia.
Qed.

(** *** Bounds *)
Lemma ex_new (f : pt -> Z) x y l p :
  x = f p \/ (exists q, In q l /\ f q = x) -> x = y \/ (exists q, In q (p :: l) /\ f q = x).
Proof.
  intros [H|(q & Hq & E)]; right; [exists p|exists q]; cbn; auto.
Qed.
Lemma ex_keep (f : pt -> Z) x y l p :
  x = y \/ (exists q, In q l /\ f q = x) -> x = y \/ (exists q, In q (p :: l) /\ f q = x).
Proof.
  intros [H|(q & Hq & E)]; [left; exact H|right; exists q; cbn; auto].
Qed.
Lemma bounds_fold l : forall acc,
  let '(mn, mx) := fold_left bounds_step l acc in
  px mn <= px (fst acc) /\ py mn <= py (fst acc) /\ px (snd acc) <= px mx /\ py (snd acc) <= py mx /\
  (forall p, In p l -> px mn <= px p <= px mx /\ py mn <= py p <= py mx) /\
  (px mn = px (fst acc) \/ exists p, In p l /\ px p = px mn) /\
  (py mn = py (fst acc) \/ exists p, In p l /\ py p = py mn) /\
  (px mx = px (snd acc) \/ exists p, In p l /\ px p = px mx) /\
  (py mx = py (snd acc) \/ exists p, In p l /\ py p = py mx).
Proof.
  induction l as [|p l IH]; intros [mn0 mx0]; cbn [fold_left].
  - cbn. repeat split; auto with zarith; try (intros p []); try lia.
  - specialize (IH (bounds_step (mn0, mx0) p)).
    destruct (fold_left bounds_step l (bounds_step (mn0, mx0) p)) as [mn mx].
    cbn [bounds_step fst snd px py] in IH |- *.
    revert IH.
    destruct (Z.ltb_spec (px p) (px mn0)); destruct (Z.ltb_spec (py p) (py mn0));
    destruct (Z.ltb_spec (px mx0) (px p)); destruct (Z.ltb_spec (py mx0) (py p));
    intros (I1 & I2 & I3 & I4 & I5 & I6 & I7 & I8 & I9);
    (split; [lia|]; split; [lia|]; split; [lia|]; split; [lia|];
     split; [intros q [<-|Hq]; [lia|apply I5; exact Hq]|];
     repeat split;
     first [ apply (ex_keep px); assumption | apply (ex_keep py); assumption
           | apply (ex_new px); assumption | apply (ex_new py); assumption ]).
Qed.

Lemma bounds_tight l : l <> [] -> Forall wf_pt l ->
  let '(mn, mx) := fold_left bounds_step l bounds_init in tight_box l mn mx.
Proof.
  intros Hne Hwf. pose proof (bounds_fold l bounds_init) as H.
  destruct (fold_left bounds_step l bounds_init) as [mn mx].
  destruct H as (I1 & I2 & I3 & I4 & I5 & I6 & I7 & I8 & I9). cbn in I6, I7, I8, I9.
  destruct l as [|p0 l0]; [contradiction|].
  assert (Hp0 : wf_pt p0) by (inversion Hwf; assumption).
  pose proof (I5 p0 ltac:(left; reflexivity)) as B0. unfold wf_pt, int64, MaxMicrometer, MinMicrometer, maxInt64, minInt64 in *.
  rewrite Forall_forall in Hwf.
  split; [exact I5|]. repeat split.
  - destruct I6 as [I6|I6]; [|exact I6]. exists p0. split; [left; reflexivity|lia].
  - destruct I8 as [I8|I8]; [|exact I8]. exists p0. split; [left; reflexivity|lia].
  - destruct I7 as [I7|I7]; [|exact I7]. exists p0. split; [left; reflexivity|lia].
  - destruct I9 as [I9|I9]; [|exact I9]. exists p0. split; [left; reflexivity|lia].
Qed.
Lemma PathBounds_tight l : l <> [] -> Forall wf_pt l -> tight_box l (fst (PathBounds l)) (snd (PathBounds l)).
Proof.
  intros Hne Hwf. pose proof (bounds_tight l Hne Hwf) as H. unfold PathBounds.
  destruct l as [|p l]; [contradiction|]. destruct (fold_left bounds_step (p :: l) bounds_init); exact H.
Qed.
Lemma fold_concat (ps : paths) acc :
  fold_left (fun acc p => fold_left bounds_step p acc) ps acc = fold_left bounds_step (concat ps) acc.
Proof. revert acc; induction ps as [|p ps IH]; intros acc; cbn; [reflexivity|]. rewrite fold_left_app. apply IH. Qed.
Lemma PathsBounds_eq ps : PathsBounds ps = PathBounds (concat ps).
Proof.
  unfold PathsBounds. destruct ps as [|p ps]; [reflexivity|].
  destruct (existsb _ (p :: ps)) eqn:E.
  - rewrite fold_concat. apply existsb_exists in E as (q & Hq & Eq). destruct q as [|x q]; [discriminate|].
    assert (Hin : In x (concat (p :: ps))) by (apply in_concat; exists (x :: q); split; [exact Hq|left; reflexivity]).
    unfold PathBounds. destruct (concat (p :: ps)) eqn:Ec; [destruct Hin|reflexivity].
  - assert (Hc : concat (p :: ps) = []).
    { destruct (concat (p :: ps)) as [|x c] eqn:Ec; [reflexivity|]. exfalso.
      assert (Hin : In x (concat (p :: ps))) by (rewrite Ec; left; reflexivity).
      apply in_concat in Hin as (q & Hq & Hx).
      assert (Ht : existsb (fun p0 : path => match p0 with [] => false | _ => true end) (p :: ps) = true).
      { apply existsb_exists. exists q. split; [exact Hq|destruct q; [destruct Hx|reflexivity]]. }
      congruence. }
    rewrite Hc. reflexivity.
Qed.

(** *** collapsing almost straight paths *)
Lemma seek_max a b l : forall i best m r M, seek_from a b i l best m = (r, M) ->
  M = m \/ exists p, In p l /\ M = PerpendicularDistance2 a b p.
Proof.
  induction l as [|p l IH]; intros i best m r M E; cbn [seek_from] in E.
  - injection E as <- <-. left; reflexivity.
  - destruct (mul64 m m <? PerpendicularDistance2 a b p).
    + apply IH in E. right. destruct E as [->|(q & Hq & ->)]; [exists p; split; [left|]; reflexivity|exists q; split; [right; exact Hq|reflexivity]].
    + apply IH in E. destruct E as [->|(q & Hq & ->)]; [left; reflexivity|right; exists q; split; [right; exact Hq|reflexivity]].
Qed.
Lemma dp_collapse fuel a l b ep : 0 < ep -> l <> [] -> small_path (a :: l ++ [b]) ->
  (forall p, In p (a :: l ++ [b]) -> (a = b -> dist2 a p < ep) /\ cross a b p ^ 2 <= (ep - 1) * dist2 a b) ->
  douglasPeucker (S fuel) (a :: l ++ [b]) ep = [a; b].
Proof.
  intros Hep Hl Hs Hd. destruct l as [|c l]; [contradiction|].
  assert (El : last (a :: (c :: l) ++ [b]) a = b) by (change (a :: (c :: l) ++ [b]) with ((a :: c :: l) ++ [b]); apply last_last).
  assert (E : forall pl, last (a :: (c :: l) ++ [b]) a = pl -> douglasPeucker (S fuel) (a :: (c :: l) ++ [b]) ep =
    let '(i, M) := seekMostDistantPoint a pl (a :: (c :: l) ++ [b]) in
    if ep <=? M then
      let left := douglasPeucker fuel (firstn (S i) (a :: (c :: l) ++ [b])) ep in
      let right := douglasPeucker fuel (skipn i (a :: (c :: l) ++ [b])) ep in
      firstn (List.length left - 1) left ++ right
    else [a; pl]).
  { intros pl <-. destruct l; reflexivity. }
  rewrite (E b El). destruct (seekMostDistantPoint a b (a :: (c :: l) ++ [b])) as [i M] eqn:Es.
  assert (M < ep).
  { unfold seekMostDistantPoint in Es. apply seek_max in Es. destruct Es as [->|(p & Hp & ->)]; [exact Hep|].
    destruct (Hd p Hp) as [D1 D2]. assert (Ia : In a (a :: (c :: l) ++ [b])) by (left; reflexivity).
    assert (Ib : In b (a :: (c :: l) ++ [b])) by (right; apply in_or_app; right; left; reflexivity).
    pose proof (Hs a b Ia Ib). pose proof (Hs a p Ia Hp).
    destruct (Z.eq_dec (dist2 a b) 0) as [D0|D0].
    - apply dist2_0 in D0. rewrite <- D0. rewrite perp_same by lia. apply D1, D0.
    - assert (Hne : a <> b) by (rewrite <- dist2_0; exact D0).
      pose proof (perp_bounds a b p ltac:(lia) ltac:(lia) Hne) as [_ PB]. pose proof (dist2_nonneg a b).
      assert (PerpendicularDistance2 a b p * dist2 a b < ep * dist2 a b) by lia. nia. }
  destruct (Z.leb_spec ep M); [lia|reflexivity].
Qed.
