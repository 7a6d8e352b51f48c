(** Proofs about makePolygons as a whole. *)
From Coq Require Import Permutation Sorted.
From Verif Require Import GoBase GoFloat M_Micrometer M_Geom2D M_Model M_Slicer S_Geom S_Model S_Slicer L_Vec L_Model L_Slicer L_SliceLoop L_Chains L_Join.
Local Open Scope Z_scope.

Lemma Sorted_iff {A} (R R' : A -> A -> Prop) l : (forall a b, R a b <-> R' a b) -> Sorted R l -> Sorted R' l.
Proof. intros H. induction 1 as [|a l S IH HR]; constructor; auto. destruct HR; constructor. apply H; auto. Qed.
Lemma chained_iff R R' seg U pbs cs : (forall s t, R s t <-> R' s t) -> chained R seg U pbs cs -> chained R' seg U pbs cs.
Proof.
  intros H. induction 1 as [|U c ss b pbs cs Nc F S B M C IH]; [constructor|]. constructor; auto.
  - eapply Sorted_iff; eauto.
  - rewrite B. apply H.
  - intros t Ht. apply M, H, Ht.
Qed.

Lemma Forall2_length' {A B} (R : A -> B -> Prop) l m : Forall2 R l m -> List.length l = List.length m.
Proof. induction 1; cbn; congruence. Qed.

Lemma chained_points R l U pbs cs : chained R (idx (lsegs l)) U pbs cs ->
  (List.length (flat_map fst pbs) <= 2 * List.length (concat cs))%nat.
Proof.
  induction 1 as [|U c ss b pbs cs Nc F S B M C IH]; [cbn; lia|]. cbn [flat_map fst concat]. rewrite !app_length.
  apply Forall2_length' in F. destruct c; [congruence|]. destruct ss as [|s ss]; [discriminate|].
  unfold chain_points. cbn [List.length] in *. rewrite map_length. cbn [List.length]. lia.
Qed.
Lemma chained_bounded R l U pbs cs : segs_bounded (2 ^ 24) l -> chained R (idx (lsegs l)) U pbs cs ->
  forall p b, In (p, b) pbs -> bounded_path p.
Proof.
  intros Hb. induction 1 as [|U c ss b pbs cs Nc F S B M C IH]; intros p b' I; [destruct I|]. destruct I as [E|I]; [|eauto].
  injection E as <- <-. assert (X : Forall (fun s => In s (lsegs l)) ss).
  { clear -F. induction F; constructor; auto. eapply idx_In; eauto. }
  destruct ss as [|s ss]; [inversion F; congruence|]. split; [discriminate|]. unfold chain_points.
  constructor; [inversion X; subst; apply Hb; auto|]. apply Forall_map. revert X. apply Forall_impl. intros a Ha. apply Hb, Ha.
Qed.

(** initial pieces *)
Definition init_pieces (i : Z) (pbs : list (path * bool)) : list (option piece) :=
  map (fun nq : Z * (path * bool) => Some (Piece [fst nq] (fst (snd nq)) (snd (snd nq)))) (number i pbs).
Lemma init_view pbs : forall i, map view (init_pieces i pbs) = map (fun c : path * bool => (Some (fst c), snd c)) pbs.
Proof. induction pbs as [|q pbs IH]; intros i; [reflexivity|]. cbn. f_equal. apply IH. Qed.
Lemma number_idx {A} (l : list A) : forall i n a, In (n, a) (number i l) <-> idx l (n - i) = Ok a.
Proof.
  induction l as [|x l IH]; intros i n a; cbn [number].
  - split; [intros []|]. intros I. apply idx_range in I. cbn in I. lia.
  - cbn [In]. rewrite idx_cons, IH. destruct (Z.eqb_spec (n - i) 0) as [E|E].
    + split; [intros [Q|Q]; [congruence|apply idx_range in Q; lia]|]. intros Q. injection Q as ->. left. f_equal. lia.
    + replace (n - i - 1) with (n - (i + 1)) by lia. split; [intros [Q|Q]; [injection Q; lia|exact Q]|auto].
Qed.
Lemma zseq_from n : forall i, map (fun k => i + Z.of_nat k) (seq 0 n) = map fst (number i (repeat tt n)).
Proof.
  induction n as [|n IH]; intros i; [reflexivity|]. cbn [seq map repeat number fst]. f_equal; [lia|].
  rewrite <- seq_shift, map_map, <- IH. apply map_ext. intros k. lia.
Qed.
Lemma number_fst {A} (l : list A) : forall i, map fst (number i l) = map (fun k => i + Z.of_nat k) (seq 0 (List.length l)).
Proof.
  induction l as [|a l IH]; intros i; [reflexivity|]. cbn [number map fst List.length seq]. f_equal; [lia|].
  rewrite IH, <- seq_shift, map_map. apply map_ext. intros k. lia.
Qed.
Lemma init_inv pbs snap : inv pbs snap (init_pieces 0 pbs).
Proof.
  split; [|split].
  - intros g I. unfold init_pieces in I. apply in_map_iff in I. destruct I as ([n q] & E & I). injection E as <-. cbn [fst snd].
    apply number_idx in I. rewrite Z.sub_0_r in I. exists [q]. cbn [pc_chains pc_path pc_closed map concat].
    split; [repeat constructor; exact I|]. split; [rewrite app_nil_r; reflexivity|]. split; [repeat constructor|reflexivity].
  - unfold init_pieces. assert (E : forall i, flat_map och (map (fun nq : Z * (path * bool) => Some (Piece [fst nq] (fst (snd nq)) (snd (snd nq)))) (number i pbs)) = map fst (number i pbs)).
    { induction pbs as [|q pbs IH]; intros i; [reflexivity|]. cbn. f_equal. apply IH. }
    rewrite E, number_fst. unfold zseq. erewrite map_ext; [reflexivity|]. intros k. cbn. lia.
  - unfold init_pieces. assert (E : forall i, flat_map opa (map (fun nq : Z * (path * bool) => Some (Piece [fst nq] (fst (snd nq)) (snd (snd nq)))) (number i pbs)) = flat_map fst pbs).
    { induction pbs as [|q pbs IH]; intros i; [reflexivity|]. cbn. f_equal. apply IH. }
    rewrite E. reflexivity.
Qed.

Lemma somes_in gs g : In g (somes gs) <-> In (Some g) gs.
Proof.
  unfold somes. rewrite in_flat_map. split.
  - intros ([x|] & I & J); [destruct J as [<-|[]]; exact I|destruct J].
  - intros I. exists (Some g). split; [exact I|left; reflexivity].
Qed.
Lemma somes_och gs : flat_map och gs = flat_map pc_chains (somes gs).
Proof. induction gs as [|[g|] gs IH]; [reflexivity| |]; cbn; [rewrite IH; reflexivity|exact IH]. Qed.
Lemma somes_pos gs : forall i j a b, i <> j -> nth_error (somes gs) i = Some a -> nth_error (somes gs) j = Some b ->
  exists i' j', i' <> j' /\ nth_error gs i' = Some (Some a) /\ nth_error gs j' = Some (Some b).
Proof.
  induction gs as [|[g|] gs IH]; intros i j a b N Ha Hb.
  - destruct i; discriminate.
  - cbn in Ha, Hb.
    assert (X : forall k c, nth_error (somes gs) k = Some c -> exists k', nth_error gs k' = Some (Some c)).
    { intros k c Hk. apply nth_error_In in Hk. apply somes_in in Hk. apply In_nth_error in Hk. exact Hk. }
    destruct i as [|i], j as [|j]; cbn in Ha, Hb; [congruence| | |].
    + injection Ha as ->. destruct (X _ _ Hb) as (k & Hk). exists O, (S k). split; [discriminate|]. split; [reflexivity|exact Hk].
    + injection Hb as ->. destruct (X _ _ Ha) as (k & Hk). exists (S k), O. split; [discriminate|]. split; [exact Hk|reflexivity].
    + destruct (IH i j a b) as (i' & j' & N' & P & Q); auto. exists (S i'), (S j'). auto.
  - cbn in Ha, Hb. destruct (IH i j a b) as (i' & j' & N' & P & Q); auto. exists (S i'), (S j'). auto.
Qed.
Lemma nth_idx {A} (l : list A) n a : nth_error l n = Some a -> idx l (Z.of_nat n) = Ok a.
Proof. intros H. unfold idx. destruct (Z.ltb_spec (Z.of_nat n) 0); [lia|]. rewrite Nat2Z.id, H. reflexivity. Qed.

Theorem make_spec touch l meld join finish : wf_layer touch l -> segs_bounded (2 ^ 24) l ->
  0 <= meld <= 2 ^ 30 -> 0 <= join <= 2 ^ 30 -> 0 <= finish <= 2 ^ 30 -> Z.of_nat (List.length (lsegs l)) < 2 ^ 56 ->
  exists pbs cs pieces,
    chained (follows touch l meld) (idx (lsegs l)) [] pbs cs /\
    Permutation (concat cs) (zseq (List.length (lsegs l))) /\
    (forall g, In g pieces -> piece_ok pbs join g) /\
    Permutation (flat_map pc_chains pieces) (zseq (List.length pbs)) /\
    (forall i j a b, i <> j -> nth_error pieces i = Some a -> nth_error pieces j = Some b -> pc_closed a = false -> pc_closed b = false ->
       ~ joins join (pc_path a) (pc_path b)) /\
    (forall p, In (p, true) pbs -> exists g, In g pieces /\ pc_path g = p /\ pc_closed g = true) /\
    makePolygons touch meld join finish l = Ok (map pc_path (filter (keep finish) pieces)).
Proof.
  intros W B Hm Hj Hf Hn. unfold makePolygons.
  destruct (chains_all touch l meld W) as (pbs & cs & -> & C & P). cbn [bind].
  pose proof (chained_points _ _ _ _ _ C) as Lp. rewrite (Permutation_length P), zseq_length in Lp.
  pose proof (chained_bounded _ _ _ _ _ B C) as Bp.
  rewrite <- (init_view pbs 0). rewrite map_length.
  destruct (join_spec pbs join Hj Bp ltac:(lia) (S (List.length (init_pieces 0 pbs))) (init_pieces 0 pbs)) as (gs & E & (I1 & I2 & I3) & K & Fin).
  - apply init_inv.
  - unfold count. clear. induction (init_pieces 0 pbs) as [|x r IH]; cbn; [lia|]. destruct x; cbn; lia.
  - rewrite E. cbn [bind].
    exists pbs, cs, (somes gs). split; [|split; [exact P|split; [|split; [|split; [|split]]]]].
    + eapply chained_iff; [|exact C]. apply hits_follows; auto.
    + intros g I. apply I1, somes_in, I.
    + rewrite <- somes_och. exact I2.
    + intros i j a b N Ha Hb Ca Cb. destruct (somes_pos gs i j a b N Ha Hb) as (i' & j' & N' & Ia & Ib).
      apply (Fin (Z.of_nat i') (Z.of_nat j') a b); auto using nth_idx. lia.
    + intros p I. apply In_idx in I. destruct I as (n & I). exists (Piece [n] p true). split; [|auto]. apply somes_in, K; [|reflexivity].
      unfold init_pieces. apply in_map_iff. exists (n, (p, true)). split; [reflexivity|]. apply number_idx. rewrite Z.sub_0_r. exact I.
    + apply clear_spec; auto. intros g I. eapply piece_bounded; eauto.
Qed.

(** *** termination for arbitrary coordinates *)
Definition nonempty_pool (ps : pool) : Prop := forall p b, In (Some p, b) ps -> p <> [].
Lemma best_weak i lastp snap : forall ps j best score, let r := best_match ps i j lastp snap best score in
  r = best \/ (j <= r /\ r <> i /\ exists q, open_at ps (r - j) q).
Proof.
  assert (Shift : forall x ps j r, (j + 1 <= r /\ r <> i /\ exists q, open_at ps (r - (j + 1)) q) -> j <= r /\ r <> i /\ exists q, open_at (x :: ps) (r - j) q).
  { intros x ps j r (A & Ni & q & O). split; [lia|]. split; [exact Ni|]. exists q. unfold open_at in *. rewrite idx_cons.
    destruct (Z.eqb_spec (r - j) 0); [lia|]. rewrite <- O. f_equal. lia. }
  induction ps as [|[op b] ps IH]; intros j best score; cbn [best_match]; [left; reflexivity|].
  assert (Skip : let r := best_match ps i (j + 1) lastp snap best score in
    r = best \/ (j <= r /\ r <> i /\ exists q, open_at ((op, b) :: ps) (r - j) q)).
  { destruct (IH (j + 1) best score) as [R|R]; [left; exact R|right; apply Shift, R]. }
  destruct op as [[|q0 rest]|]; [|destruct b|]; try exact Skip.
  destruct (Z.eqb_spec i j) as [<-|Nij]; [exact Skip|].
  destruct (ptShorterThanOrEqual _ _); [|exact Skip].
  match goal with |- context [?s <? score] => destruct (s <? score) end; [|exact Skip].
  right. match goal with |- context [best_match ps i (j + 1) lastp snap j ?s] => destruct (IH (j + 1) j s) as [R|R] end.
  - rewrite R. split; [lia|]. split; [lia|]. exists (q0 :: rest). unfold open_at. rewrite idx_cons, Z.sub_diag. reflexivity.
  - apply Shift, R.
Qed.
Lemma find_weak snap all : nonempty_pool all -> forall ps i, 0 <= i -> (forall k x, idx ps k = Ok x -> idx all (i + k) = Ok x) ->
  forall a b, find_join all ps i snap = Some (a, b) -> a <> b /\ exists p q, open_at all a p /\ open_at all b q.
Proof.
  intros Na. induction ps as [|[op b0] ps IH]; intros i Hi Hall a b E; [discriminate|]. cbn [find_join] in E.
  assert (Hall' : forall k x, idx ps k = Ok x -> idx all (i + 1 + k) = Ok x).
  { intros k x I. replace (i + 1 + k) with (i + (k + 1)) by lia. apply Hall. rewrite idx_cons.
    pose proof (idx_range _ _ _ I). destruct (Z.eqb_spec (k + 1) 0); [lia|]. rewrite <- I. f_equal. lia. }
  destruct op as [[|p0 rest]|]; [|destruct b0|]; try exact (IH (i + 1) ltac:(lia) Hall' _ _ E).
  - pose proof (best_weak i (last (p0 :: rest) p0) snap all 0 (-1) (add64 snap 1)) as R. cbv zeta in R.
    set (r := best_match _ _ _ _ _ _ _) in *.
    destruct (Z.ltb_spec (-1) r).
    + injection E as <- <-. destruct R as [R|(R1 & R2 & q & O)]; [lia|]. split; [auto|]. exists (p0 :: rest), q.
      split; [unfold open_at; rewrite <- (Z.add_0_r i); apply Hall; rewrite idx_cons; reflexivity|]. rewrite Z.sub_0_r in O. exact O.
    + apply (IH (i + 1) ltac:(lia) Hall' _ _ E).
Qed.
Definition pcount (ps : pool) : nat := List.length (filter (fun x : option path * bool => match fst x with Some _ => true | None => false end) ps).
Lemma pcount_set n ps p b c : nth_error ps n = Some (Some p, b) -> pcount ps = S (pcount (set_nth n (None, c) ps)).
Proof.
  revert ps. induction n as [|n IH]; intros [|x ps] H; try discriminate; cbn in H.
  - injection H as ->. reflexivity.
  - unfold pcount in *. cbn [set_nth filter]. specialize (IH ps H). destruct (fst x); cbn [List.length]; lia.
Qed.
Lemma pcount_some n ps p b p' c : nth_error ps n = Some (Some p, b) -> pcount (set_nth n (Some p', c) ps) = pcount ps.
Proof.
  revert ps. induction n as [|n IH]; intros [|x ps] H; try discriminate; cbn in H.
  - injection H as ->. reflexivity.
  - unfold pcount in *. cbn [set_nth filter]. specialize (IH ps H). destruct (fst x); cbn [List.length]; lia.
Qed.
Lemma join_total snap fuel : forall ps, nonempty_pool ps -> (pcount ps < fuel)%nat -> exists ps', join_all fuel snap ps = Ok ps' /\ nonempty_pool ps'.
Proof.
  induction fuel as [|fuel IH]; intros ps N L; [lia|]. cbn [join_all].
  destruct (find_join ps ps 0 snap) as [[i j]|] eqn:F; [|eauto].
  destruct (find_weak snap ps N ps 0 ltac:(lia) (fun k x H => H) i j F) as (Nij & p & q & Op & Oq).
  unfold open_at in *. rewrite Op, Oq. cbn [bind].
  destruct (IsAlmostFinished (p ++ q) snap) as [fin| | |] eqn:EF.
  2-4: destruct p as [|p0 p]; [exfalso; apply idx_In in Op; exact (N _ _ Op eq_refl)|discriminate].
  cbn [bind]. apply idx_Ok in Op, Oq. destruct Op as (Ri & Op). destruct Oq as (Rj & Oq).
  assert (Z.to_nat i <> Z.to_nat j) by lia.
  assert (Oq' : forall x, nth_error (set_nth (Z.to_nat i) x ps) (Z.to_nat j) = Some (Some q, false)) by (intros x; rewrite nth_error_set_nth_neq by auto; exact Oq).
  apply IH.
  - intros x b I. apply set_nth_In in I. destruct I as [I|I]; [discriminate|]. apply set_nth_In in I. destruct I as [I|I].
    + injection I as -> _. destruct p; [exfalso; apply nth_error_In in Op; exact (N _ _ Op eq_refl)|discriminate].
    + exact (N _ _ I).
  - match goal with |- context [set_nth (Z.to_nat i) (Some ?a, ?c) ps] => pose proof (pcount_set _ _ _ _ false (Oq' (Some a, c))) as Q; pose proof (pcount_some _ _ _ _ a c Op) as Q2 end.
    unfold pool, path in *. lia.
Qed.
Lemma clear_total finish ps : nonempty_pool ps -> exists r, clear_polygons finish ps = Ok r.
Proof.
  induction ps as [|[[p|] b] ps IH]; intros N; [eexists; reflexivity| |].
  - destruct IH as (r & E). { intros x c I. apply (N x c). right; exact I. }
    cbn [clear_polygons]. destruct p as [|a p]; [exfalso; exact (N [] b (or_introl eq_refl) eq_refl)|].
    unfold IsAlmostFinished. cbn [bind]. rewrite E. cbn [bind]. eauto.
  - cbn [clear_polygons]. apply IH. intros x c I. apply (N x c). right; exact I.
Qed.
Theorem make_total touch l meld join finish : wf_layer touch l -> exists ps, makePolygons touch meld join finish l = Ok ps.
Proof.
  intros W. unfold makePolygons. destruct (chains_all touch l meld W) as (pbs & cs & -> & C & P). cbn [bind].
  match goal with |- context [join_all _ _ ?p] => destruct (join_total join (S (List.length p)) p) as (ps & E & N) end.
  - assert (G : forall p b, In (p, b) pbs -> p <> []).
    { clear P. induction C as [|U c ss b pbs cs Nc F S B M C IH]; intros p b' I; [destruct I|]. destruct I as [E|I]; [|eauto].
      injection E as <- <-. destruct ss; [inversion F; congruence|discriminate]. }
    intros p b I. apply in_map_iff in I. destruct I as ([p' b'] & E & I). injection E as <- <-. eauto.
  - unfold pcount. match goal with |- (List.length (filter _ ?x) < _)%nat => generalize x end. clear.
    intros r0. induction r0 as [|x r IH]; cbn [filter List.length]; [lia|]. destruct (fst x); cbn [List.length]; lia.
  - rewrite E. cbn [bind]. apply clear_total, N.
Qed.
