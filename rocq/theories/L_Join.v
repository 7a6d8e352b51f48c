(** Proofs about makePolygons: joining and clearing. *)
From Coq Require Import Permutation Sorted.
From Verif Require Import GoBase GoFloat M_Micrometer M_Geom2D M_Model M_Slicer S_Geom S_Model S_Slicer L_Vec L_Model L_Slicer L_SliceLoop L_Chains.
Local Open Scope Z_scope.

Lemma shorter_exact a b d : pt_bounded (2 ^ 24) a -> pt_bounded (2 ^ 24) b -> 0 <= d <= 2 ^ 30 ->
  ptShorterThanOrEqual (ptSub a b) d = (dist2 a b <=? d ^ 2).
Proof.
  intros (A1 & A2) (B1 & B2) Hd.
  assert (H : Z.abs (px b - px a) <= 2 ^ 25) by lia. assert (H0 : Z.abs (py b - py a) <= 2 ^ 25) by lia.
  assert (dist2 a b < 2 ^ 62).
  { unfold dist2. pose proof (sq_bound _ _ H). pose proof (sq_bound _ _ H0). rewrite !Z.pow_2_r. lia. }
  rewrite ptSub_exact by (unfold int64; lia).
  assert (N : norm2 (Pt (px a - px b) (py a - py b)) = dist2 a b) by (unfold dist2, norm2; cbn [px py]; lia).
  apply eq_true_iff_eq. rewrite Z.leb_le, ptShorter_exact; rewrite ?N; lia || reflexivity.
Qed.
Lemma size_exact a b : pt_bounded (2 ^ 24) a -> pt_bounded (2 ^ 24) b -> ptSize (ptSub a b) = Z.sqrt (dist2 a b) /\ 0 <= Z.sqrt (dist2 a b) <= 2 ^ 26.
Proof.
  intros (A1 & A2) (B1 & B2).
  assert (H : Z.abs (px b - px a) <= 2 ^ 25) by lia. assert (H0 : Z.abs (py b - py a) <= 2 ^ 25) by lia.
  assert (L : 0 <= dist2 a b < 2 ^ 52).
  { unfold dist2. pose proof (sq_bound _ _ H). pose proof (sq_bound _ _ H0). rewrite !Z.pow_2_r. lia. }
  rewrite ptSub_exact by (unfold int64; lia).
  assert (N : norm2 (Pt (px a - px b) (py a - py b)) = dist2 a b) by (unfold dist2, norm2; cbn [px py]; lia).
  pose proof (ptSize_exact (Pt (px a - px b) (py a - py b))) as S. rewrite N in S. destruct S as (S1 & S2); [lia|].
  split. { symmetry. apply Z.sqrt_unique. unfold Z.succ. rewrite !Z.pow_2_r in S2. lia. }
  split; [apply Z.sqrt_nonneg|]. pose proof (Z.sqrt_le_mono (dist2 a b) (2 ^ 26 * 2 ^ 26) ltac:(lia)) as Q.
  rewrite Z.sqrt_square in Q by lia. exact Q.
Qed.
Lemma dist2_sym a b : dist2 a b = dist2 b a.
Proof. unfold dist2. lia. Qed.

Definition bounded_path (p : path) : Prop := p <> [] /\ Forall (pt_bounded (2 ^ 24)) p.
Lemma last_in {A} (l : list A) d : l <> [] -> In (last l d) l.
Proof. induction l as [|a [|b l] IH]; [congruence|cbn; auto|]. intros _. right. apply IH. discriminate. Qed.
Lemma last_default {A} (l : list A) d d' : l <> [] -> last l d = last l d'.
Proof. induction l as [|a [|b l] IH]; [congruence|reflexivity|]. intros _. apply (IH ltac:(discriminate)). Qed.
Lemma first_bounded p : bounded_path p -> pt_bounded (2 ^ 24) (first_point p).
Proof. intros (N & F). destruct p; [congruence|]. inversion F; auto. Qed.
Lemma final_bounded p : bounded_path p -> pt_bounded (2 ^ 24) (final_point p).
Proof. intros (N & F). rewrite Forall_forall in F. apply F, last_in, N. Qed.
Lemma finished_exact p d : bounded_path p -> 0 <= d <= 2 ^ 30 -> IsAlmostFinished p d = Ok (closesb d p).
Proof.
  intros B Hd. pose proof (first_bounded p B) as F. pose proof (final_bounded p B) as L. destruct B as (N & _).
  destruct p as [|a p]; [congruence|]. unfold IsAlmostFinished, closesb.
  rewrite (last_default _ _ (Pt 0 0)) by discriminate. fold (final_point (a :: p)). change a with (first_point (a :: p)) at 1.
  rewrite shorter_exact by auto. reflexivity.
Qed.
Lemma bounded_app p q : bounded_path p -> bounded_path q -> bounded_path (p ++ q).
Proof. intros (A & B) (C & D). split; [destruct p; [congruence|discriminate]|apply Forall_app; auto]. Qed.
Lemma first_app p q : p <> [] -> first_point (p ++ q) = first_point p.
Proof. destruct p; [congruence|reflexivity]. Qed.
Lemma final_app p q : q <> [] -> final_point (p ++ q) = final_point q.
Proof.
  intros H. unfold final_point. induction p as [|a p IH]; [reflexivity|]. cbn [app]. rewrite <- IH.
  destruct (p ++ q)%list eqn:E; [apply app_eq_nil in E; tauto|reflexivity].
Qed.

(** *** the search *)
Definition open_at (ps : pool) (i : Z) (p : path) : Prop := idx ps i = Ok (Some p, false).
Definition bounded_pool (ps : pool) : Prop := forall p b, In (Some p, b) ps -> bounded_path p /\ Z.of_nat (List.length p) < 2 ^ 58.

Lemma idx_cons {A} (x : A) l i : idx (x :: l) i = if i =? 0 then Ok x else idx l (i - 1).
Proof.
  unfold idx. destruct (Z.eqb_spec i 0) as [->|N]; [reflexivity|]. destruct (Z.ltb_spec i 0).
  - destruct (Z.ltb_spec (i - 1) 0); [reflexivity|lia].
  - destruct (Z.ltb_spec (i - 1) 0); [lia|]. replace (Z.to_nat i) with (S (Z.to_nat (i - 1))) by lia. reflexivity.
Qed.
Lemma idx_nil {A} i : @idx A [] i = Panic "index out of range"%string \/ exists m, @idx A [] i = Panic m.
Proof. right. unfold idx. destruct (i <? 0); [eauto|]. destruct (Z.to_nat i); cbn; eauto. Qed.

(** the best match is an open polygon close enough; -1 only if there is none.  Scores are below
    [join + 1], so the first candidate is always taken. *)
Lemma best_spec (snap : Z) i lastp : 0 <= snap <= 2 ^ 30 -> pt_bounded (2 ^ 24) lastp ->
  forall ps j best score, bounded_pool ps -> 0 <= j ->
  (best = -1 /\ score = snap + 1 \/ 0 <= best < j) ->
  let r := best_match ps i j lastp snap best score in
  (r = best \/ (j <= r /\ r <> i /\ exists q, open_at ps (r - j) q /\ dist2 lastp (first_point q) <= snap ^ 2)) /\
  (r = -1 -> forall k q, open_at ps k q -> k + j <> i -> ~ dist2 lastp (first_point q) <= snap ^ 2).
Proof.
  intros Hs Bl. induction ps as [|[op b] ps IH]; intros j best score Bp Hj Hb; cbn [best_match].
  - split; [left; reflexivity|]. intros _ k q O. exfalso. unfold open_at in O. apply idx_range in O. cbn in O. lia.
  - assert (Bp' : bounded_pool ps) by (intros q c I; apply (Bp q c); right; exact I).
    assert (Skip : (forall q, (op, b) <> (Some q, false) \/ j = i \/ ~ dist2 lastp (first_point q) <= snap ^ 2 \/ op <> Some q) ->
       forall best' score', (best' = -1 /\ score' = snap + 1 \/ 0 <= best' < j + 1) ->
       (best' = best \/ (best' = j)) -> (best' = j -> j <> i /\ exists q, (op,b) = (Some q, false) /\ dist2 lastp (first_point q) <= snap ^ 2) ->
       let r := best_match ps i (j + 1) lastp snap best' score' in
       (r = best \/ (j <= r /\ r <> i /\ exists q, open_at ((op, b) :: ps) (r - j) q /\ dist2 lastp (first_point q) <= snap ^ 2)) /\
       (r = -1 -> forall k q, open_at ((op, b) :: ps) k q -> k + j <> i -> ~ dist2 lastp (first_point q) <= snap ^ 2)).
    { intros NH best' score' Hb' Hd Hj'. destruct (IH (j + 1) best' score' Bp' ltac:(lia) Hb') as (R & N). split.
      - destruct R as [R|(R1 & R2 & q & O & D)].
        + rewrite R. destruct Hd as [->| ->]; [left; reflexivity|]. right. destruct (Hj' eq_refl) as (Ni & q & Eq & D).
          split; [lia|]. split; [exact Ni|]. exists q. split; [unfold open_at; rewrite idx_cons, Z.sub_diag; cbn; congruence|exact D].
        + right. split; [lia|]. split; [exact R2|]. exists q. split; [|exact D]. unfold open_at in *. rewrite idx_cons.
          match goal with |- context [?x =? 0] => destruct (Z.eqb_spec x 0); [lia|] end.
          rewrite <- O. f_equal. lia.
      - intros E k q O Nk. unfold open_at in O. rewrite idx_cons in O. destruct (Z.eqb_spec k 0) as [->|Nz].
        + injection O as -> ->. destruct (NH q) as [X|[X|[X|X]]]; [congruence|lia|exact X|congruence].
        + apply (N E (k - 1) q); [exact O|lia]. }
    destruct op as [[|q0 rest]|]; [|destruct b|]; try (apply Skip; [|lia|left; reflexivity|intros ->; lia]; intros q).
    + left. intros E. injection E as <- _. destruct (Bp [] b (or_introl eq_refl)) as ((X & _) & _). congruence.
    + left; discriminate.
    + destruct (Z.eqb_spec i j) as [<-|Nij]. { apply Skip; [intros q; right; left; reflexivity|lia|left; reflexivity|intros ->; lia]. }
      destruct (Bp (q0 :: rest) false (or_introl eq_refl)) as (Bq & Lq).
      pose proof (first_bounded _ Bq) as Bf. cbn [first_point hd] in Bf.
      rewrite shorter_exact by auto.
      destruct (Z.leb_spec (dist2 lastp q0) (snap ^ 2)) as [D|D].
      2:{ apply Skip; [|lia|left; reflexivity|intros ->; lia].
          intros q. destruct (list_eq_dec (fun a b : pt => ltac:(decide equality; apply Z.eq_dec)) q (q0 :: rest)) as [->|Nq].
          - right; right; left. cbn. lia. - right; right; right. congruence. }
      destruct (size_exact lastp q0 Bl Bf) as (-> & Sz).
      match goal with |- context [?s <? score] => set (sc := s); destruct (Z.ltb_spec sc score) as [L|L] end.
      * destruct (IH (j + 1) j sc Bp' ltac:(lia) ltac:(lia)) as (R & N). split.
        -- right. destruct R as [->|(R1 & R2 & q & O & D')].
           ++ split; [lia|]. split; [lia|]. exists (q0 :: rest). split; [unfold open_at; rewrite idx_cons, Z.sub_diag; reflexivity|exact D].
           ++ split; [lia|]. split; [exact R2|]. exists q. split; [|exact D']. unfold open_at in *. rewrite idx_cons.
              match goal with |- context [?x =? 0] => destruct (Z.eqb_spec x 0); [lia|] end. rewrite <- O. f_equal. lia.
        -- intros E. destruct R as [R|(R & _)]; lia.
      * assert (Hbest : 0 <= best < j).
        { destruct Hb as [(_ & ->)|Hb]; [|exact Hb]. exfalso.
          (* the score of a candidate within the snap distance is below snap + 1 *)
          assert (Z.sqrt (dist2 lastp q0) <= snap).
          { pose proof (Z.sqrt_le_mono _ _ D) as Q. rewrite Z.pow_2_r, Z.sqrt_square in Q by lia. exact Q. }
          unfold sc in L. rewrite mul64_id in L by (unfold int64; lia). rewrite sub64_id in L by (unfold int64; lia). lia. }
        destruct (IH (j + 1) best score Bp' ltac:(lia) ltac:(lia)) as (R & N). split.
        -- destruct R as [->|(R1 & R2 & q & O & D')]; [left; reflexivity|]. right.
           split; [lia|]. split; [exact R2|]. exists q. split; [|exact D']. unfold open_at in *. rewrite idx_cons.
           match goal with |- context [?x =? 0] => destruct (Z.eqb_spec x 0); [lia|] end. rewrite <- O. f_equal. lia.
        -- intros E. destruct R as [R|(R & _)]; lia.
    + left; discriminate.
Qed.

Lemma find_spec snap all : 0 <= snap <= 2 ^ 30 -> bounded_pool all ->
  forall ps i, 0 <= i -> (forall k x, idx ps k = Ok x -> idx all (i + k) = Ok x) ->
  match find_join all ps i snap with
  | Some (a, b) => a <> b /\ exists p q, open_at all a p /\ open_at all b q /\ joins snap p q
  | None => forall k p, open_at ps k p -> forall b q, open_at all b q -> b <> i + k -> ~ joins snap p q
  end.
Proof.
  intros Hs Ba. induction ps as [|[op b] ps IH]; intros i Hi Hall; cbn [find_join].
  - intros k p O. exfalso. unfold open_at in O. apply idx_range in O. cbn in O. lia.
  - pose proof (Hall 0 (op, b)) as H0. rewrite idx_cons in H0. specialize (H0 eq_refl). rewrite Z.add_0_r in H0.
    assert (Hall' : forall k x, idx ps k = Ok x -> idx all (i + 1 + k) = Ok x).
    { intros k x I. replace (i + 1 + k) with (i + (k + 1)) by lia. apply Hall. rewrite idx_cons.
      pose proof (idx_range _ _ _ I). destruct (Z.eqb_spec (k + 1) 0); [lia|]. rewrite <- I. f_equal. lia. }
    specialize (IH (i + 1) ltac:(lia) Hall').
    assert (Skip : (forall p, (op, b) = (Some p, false) -> forall j q, open_at all j q -> j <> i -> ~ joins snap p q) ->
      match find_join all ps (i + 1) snap with
      | Some (a, b) => a <> b /\ exists p q, open_at all a p /\ open_at all b q /\ joins snap p q
      | None => forall k p, open_at ((op, b) :: ps) k p -> forall b q, open_at all b q -> b <> i + k -> ~ joins snap p q
      end).
    { intros NH. destruct (find_join all ps (i + 1) snap) as [[a c]|]; [exact IH|].
      intros k p O c q Oq Nc. unfold open_at in O. rewrite idx_cons in O. destruct (Z.eqb_spec k 0) as [->|Nk].
      - injection O as -> ->. apply (NH p eq_refl c q Oq). lia.
      - apply (IH (k - 1) p O c q Oq). lia. }
    destruct op as [[|p0 rest]|]; [|destruct b|]; try (apply Skip; intros p Ep; discriminate).
    + apply Skip. intros p Ep. injection Ep as <- ->. apply idx_In in H0. destruct (Ba _ _ H0) as ((X & _) & _). congruence.
    + destruct (Ba _ _ (idx_In _ _ _ H0)) as (Bp & _).
      assert (EL : last (p0 :: rest) p0 = final_point (p0 :: rest)) by (apply last_default; discriminate).
      rewrite EL. rewrite add64_id by (unfold int64; lia).
      pose proof (best_spec snap i (final_point (p0 :: rest)) Hs (final_bounded _ Bp) all 0 (-1) (snap + 1) Ba ltac:(lia) ltac:(lia)) as (R & N).
      set (r := best_match _ _ _ _ _ _ _) in *. destruct (Z.ltb_spec (-1) r) as [L|L].
      * destruct R as [R|(_ & Ni & q & O & D)]; [lia|]. split; [auto|]. exists (p0 :: rest), q. split; [exact H0|].
        rewrite Z.sub_0_r in O. split; [exact O|exact D].
      * apply Skip. intros p Ep j q Oq Nj. injection Ep as <-. apply (N ltac:(lia) j q Oq). lia.
Qed.

(** *** bookkeeping *)
Section Perm.
Context {A B : Type} (f : A -> list B).
Lemma flat_take n l x e : nth_error l n = Some x -> f e = [] -> Permutation (flat_map f l) (f x ++ flat_map f (set_nth n e l)).
Proof.
  intros H E. revert l H. induction n as [|n IH]; intros [|a l] H; try discriminate; cbn in H.
  - injection H as ->. cbn [set_nth flat_map]. rewrite E. reflexivity.
  - cbn [set_nth flat_map]. rewrite (IH l H). rewrite !app_assoc. apply Permutation_app_tail, Permutation_app_comm.
Qed.
End Perm.
Lemma set_nth_In {A} n (x y : A) l : In y (set_nth n x l) -> y = x \/ In y l.
Proof. revert l. induction n as [|n IH]; intros [|a l]; cbn; intuition. destruct (IH l); auto. Qed.
Lemma set_nth_comm {A} (l : list A) : forall i j x y, i <> j -> set_nth i x (set_nth j y l) = set_nth j y (set_nth i x l).
Proof. induction l as [|a l IH]; intros [|i] [|j] x y N; cbn [set_nth]; try reflexivity; try congruence. f_equal. apply IH. congruence. Qed.
Lemma set_nth_twice {A} (l : list A) : forall i x y, set_nth i x (set_nth i y l) = set_nth i x l.
Proof. induction l as [|a l IH]; intros [|i] x y; cbn [set_nth]; try reflexivity. f_equal. apply IH. Qed.

Lemma flat_join {A B} (f : A -> list B) l i j a b c e : nth_error l i = Some a -> nth_error l j = Some b -> i <> j -> f e = [] ->
  f c = (f a ++ f b)%list -> Permutation (flat_map f (set_nth j e (set_nth i c l))) (flat_map f l).
Proof.
  intros Ha Hb N E Ec.
  rewrite (flat_take f i l a e Ha E).
  assert (Hb' : nth_error (set_nth i e l) j = Some b) by (rewrite nth_error_set_nth_neq by auto; exact Hb).
  rewrite (flat_take f j _ b e Hb' E).
  assert (Hc : nth_error (set_nth j e (set_nth i c l)) i = Some c).
  { rewrite nth_error_set_nth_neq by auto. apply nth_error_set_nth_eq. apply nth_error_Some. rewrite Ha; discriminate. }
  rewrite (flat_take f i _ c e Hc E). rewrite Ec, <- app_assoc. do 2 apply Permutation_app_head.
  rewrite (set_nth_comm _ i j) by auto. rewrite set_nth_twice. reflexivity.
Qed.

Section Joining.
Context (pbs : list (path * bool)) (snap : Z).
Hypothesis Hs : 0 <= snap <= 2 ^ 30.
Hypothesis Hb : forall p b, In (p, b) pbs -> bounded_path p.
Hypothesis Hn : Z.of_nat (List.length (flat_map fst pbs)) < 2 ^ 58.

Definition view (og : option piece) : option path * bool :=
  match og with Some g => (Some (pc_path g), pc_closed g) | None => (None, false) end.
Definition och (og : option piece) : list Z := match og with Some g => pc_chains g | None => [] end.
Definition opa (og : option piece) : path := match og with Some g => pc_path g | None => [] end.
Definition inv (gs : list (option piece)) : Prop :=
  (forall g, In (Some g) gs -> piece_ok pbs snap g) /\
  Permutation (flat_map och gs) (zseq (List.length pbs)) /\
  Permutation (flat_map opa gs) (flat_map fst pbs).

Lemma piece_bounded g : piece_ok pbs snap g -> bounded_path (pc_path g).
Proof.
  intros (qs & F & -> & _ & Q).
  assert (B : forall q, In q qs -> bounded_path (fst q)).
  { intros q I. clear Q. induction F as [|i x is xs E F IH]; [destruct I|]. destruct I as [<-|I]; [|auto].
    destruct x as [p b]. apply (Hb p b). eapply idx_In; eauto. }
  destruct qs as [|q qs]; [contradiction|]. clear Q F. revert B. revert q. induction qs as [|q' qs IH]; intros q B.
  - cbn [map concat]. rewrite app_nil_r. apply B. left; reflexivity.
  - cbn [map concat]. apply bounded_app; [apply B; left; reflexivity|]. apply (IH q'). intros x Hx. apply B. right; exact Hx.
Qed.
Lemma inv_bounded gs : inv gs -> bounded_pool (map view gs).
Proof.
  intros (P & _ & T) p b I. apply in_map_iff in I. destruct I as ([g|] & E & I); [|discriminate]. injection E as <- <-.
  split; [apply piece_bounded, P, I|]. apply Permutation_length in T.
  assert (L : (List.length (pc_path g) <= List.length (flat_map opa gs))%nat).
  { clear -I. induction gs as [|x gs IH]; [destruct I|]. cbn [flat_map]. rewrite app_length. destruct I as [->|I]; [cbn [opa]; lia|]. specialize (IH I). lia. }
  lia.
Qed.

Lemma sorted_app {A} (R : A -> A -> Prop) l m d : l <> [] -> Sorted R l -> Sorted R m -> (m <> [] -> R (last l d) (hd d m)) -> Sorted R (l ++ m).
Proof.
  induction l as [|a [|b l] IH]; intros N S1 S2 H; [congruence| |].
  - cbn [app]. constructor; [exact S2|]. destruct m; constructor. apply H. discriminate.
  - cbn [app]. inversion S1 as [|? ? S1' HR]; subst. constructor; [apply IH; auto; discriminate|]. inversion HR; subst. constructor; auto.
Qed.
Lemma concat_first ps : (forall p, In p ps -> p <> []) -> ps <> [] -> first_point (concat ps) = first_point (hd [] ps).
Proof. intros H N. destruct ps as [|p ps]; [congruence|]. cbn [concat hd]. apply first_app, H. left; reflexivity. Qed.
Lemma concat_final ps : (forall p, In p ps -> p <> []) -> ps <> [] -> final_point (concat ps) = final_point (last ps []).
Proof.
  induction ps as [|p [|q ps] IH]; intros H N; [congruence| |].
  - cbn [concat last]. rewrite app_nil_r. reflexivity.
  - change (concat (p :: q :: ps)) with (p ++ concat (q :: ps))%list. rewrite final_app.
    + apply IH; [intros x Hx; apply H; right; exact Hx|discriminate].
    + cbn [concat]. intros E. apply app_eq_nil in E. apply (H q); [right; left; reflexivity|tauto].
Qed.

Lemma piece_join a b : piece_ok pbs snap a -> piece_ok pbs snap b -> pc_closed a = false -> pc_closed b = false ->
  joins snap (pc_path a) (pc_path b) ->
  piece_ok pbs snap (Piece (pc_chains a ++ pc_chains b) (pc_path a ++ pc_path b) (closesb snap (pc_path a ++ pc_path b))).
Proof.
  intros (qa & Fa & Ea & Sa & Ca) (qb & Fb & Eb & Sb & Cb) Oa Ob J. exists (qa ++ qb)%list. cbn [pc_chains pc_path pc_closed].
  assert (Bd : forall c qs, Forall2 (fun i q => idx pbs i = Ok q) c qs -> forall p, In p (map fst qs) -> p <> []).
  { intros c qs F p I. apply in_map_iff in I. destruct I as ([p' b'] & <- & I). induction F as [|i x is xs E F IH]; [destruct I|].
    destruct I as [->|I]; [|auto]. apply idx_In in E. apply (Hb _ _ E). }
  assert (Na : qa <> []) by (intros ->; contradiction). assert (Nb : qb <> []) by (intros ->; contradiction).
  split; [apply Forall2_app; assumption|]. split; [rewrite map_app, concat_app; congruence|]. split.
  - rewrite map_app. apply sorted_app with (d := []); auto; [destruct qa; [congruence|discriminate]|]. intros _.
    unfold joins in *. rewrite Ea, Eb in J. 
    rewrite (concat_first (map fst qb)) in J; [|exact (Bd _ _ Fb)|destruct qb; [congruence|discriminate]].
    rewrite (concat_final (map fst qa)) in J; [|exact (Bd _ _ Fa)|destruct qa; [congruence|discriminate]].
    exact J.
  - assert (Q : (forall q, In q qa -> snd q = false) /\ (forall q, In q qb -> snd q = false)).
    { split.
      - destruct qa as [|x [|y qa]]; [congruence| |apply Ca]. intros q [<-|[]]. congruence.
      - destruct qb as [|x [|y qb]]; [congruence| |apply Cb]. intros q [<-|[]]. congruence. }
    destruct Q as (Qa & Qb). destruct qa as [|x qa]; [congruence|]. destruct qb as [|y qb]; [congruence|].
    cbn [app]. destruct (qa ++ y :: qb)%list eqn:E; [destruct qa; discriminate|]. rewrite <- E. split; [reflexivity|].
    intros q [<-|I]; [apply Qa; left; reflexivity|]. apply in_app_or in I. destruct I as [I|I]; [apply Qa; right; exact I|apply Qb; exact I].
Qed.

Definition count (gs : list (option piece)) : nat := List.length (filter (fun og => match og with Some _ => true | None => false end) gs).
Lemma count_set n gs g : nth_error gs n = Some (Some g) -> count gs = S (count (set_nth n None gs)).
Proof.
  revert gs. induction n as [|n IH]; intros [|x gs] H; try discriminate; cbn in H.
  - injection H as ->. reflexivity.
  - unfold count in *. cbn [set_nth filter]. specialize (IH gs H). destruct x; cbn [List.length]; lia.
Qed.
Lemma count_some n gs g g' : nth_error gs n = Some (Some g) -> count (set_nth n (Some g') gs) = count gs.
Proof.
  revert gs. induction n as [|n IH]; intros [|x gs] H; try discriminate; cbn in H.
  - injection H as ->. reflexivity.
  - unfold count in *. cbn [set_nth filter]. specialize (IH gs H). destruct x; cbn [List.length]; lia.
Qed.

Lemma join_spec fuel : forall gs, inv gs -> (count gs < fuel)%nat ->
  exists gs', join_all fuel snap (map view gs) = Ok (map view gs') /\ inv gs' /\
    (forall g, In (Some g) gs -> pc_closed g = true -> In (Some g) gs') /\
    (forall i j a b, idx gs' i = Ok (Some a) -> idx gs' j = Ok (Some b) -> i <> j -> pc_closed a = false -> pc_closed b = false ->
       ~ joins snap (pc_path a) (pc_path b)).
Proof.
  induction fuel as [|fuel IH]; intros gs I L; [lia|]. cbn [join_all].
  pose proof (inv_bounded gs I) as Bp.
  pose proof (find_spec snap (map view gs) Hs Bp (map view gs) 0 ltac:(lia) (fun k x H => H)) as F.
  destruct (find_join _ _ _ _) as [[i j]|].
  - destruct F as (Nij & p & q & Op & Oq & J). unfold open_at in *. rewrite Op, Oq. cbn [bind].
    rewrite idx_map in Op, Oq.
    apply bind_Ok in Op. destruct Op as (oa & Ia & Va). apply bind_Ok in Oq. destruct Oq as (ob & Ib & Vb).
    destruct oa as [a|]; [|discriminate]. destruct ob as [b|]; [|discriminate]. cbn [view] in Va, Vb.
    assert (pc_path a = p /\ pc_closed a = false) as (<- & Ca) by (split; congruence).
    assert (pc_path b = q /\ pc_closed b = false) as (<- & Cb) by (split; congruence). clear Va Vb.
    destruct I as (I1 & I2 & I3).
    pose proof (I1 a (idx_In _ _ _ Ia)) as Pa. pose proof (I1 b (idx_In _ _ _ Ib)) as Pb.
    rewrite finished_exact by (auto; apply bounded_app; apply piece_bounded; auto). cbn [bind].
    set (g := Piece (pc_chains a ++ pc_chains b) (pc_path a ++ pc_path b) (closesb snap (pc_path a ++ pc_path b))).
    set (gs1 := set_nth (Z.to_nat j) None (set_nth (Z.to_nat i) (Some g) gs)).
    assert (EV : set_nth (Z.to_nat j) (None, false) (set_nth (Z.to_nat i) (Some (pc_path a ++ pc_path b)%list, if closesb snap (pc_path a ++ pc_path b) then true else false) (map view gs)) = map view gs1).
    { unfold gs1. rewrite !set_nth_map. cbn [view g pc_path pc_closed]. destruct (closesb _ _); reflexivity. }
    rewrite EV.
    apply idx_Ok in Ia, Ib. destruct Ia as (Ri & Na). destruct Ib as (Rj & Nb).
    assert (Nij' : Z.to_nat i <> Z.to_nat j) by lia.
    assert (Nb' : nth_error (set_nth (Z.to_nat i) (Some g) gs) (Z.to_nat j) = Some (Some b)) by (rewrite nth_error_set_nth_neq by auto; exact Nb).
    destruct (IH gs1) as (gs' & E & I' & K & Fin).
    + split; [|split].
      * intros x Hx. apply set_nth_In in Hx. destruct Hx as [Hx|Hx]; [discriminate|]. apply set_nth_In in Hx.
        destruct Hx as [Hx|Hx]; [injection Hx as ->; apply piece_join; auto|auto].
      * etransitivity; [|exact I2]. eapply flat_join; eauto.
      * etransitivity; [|exact I3]. eapply flat_join; eauto.
    + unfold gs1. pose proof (count_set _ _ _ Nb'). rewrite (count_some _ _ _ g Na) in *. lia.
    + exists gs'. split; [exact E|]. split; [exact I'|]. split; [|exact Fin].
      intros x Hx Cx. apply K; auto. unfold gs1.
      apply In_nth_error in Hx. destruct Hx as (m & Hm).
      assert (m <> Z.to_nat i) by (intros ->; congruence). assert (m <> Z.to_nat j) by (intros ->; congruence).
      eapply nth_error_In with (n := m). rewrite !nth_error_set_nth_neq by auto. exact Hm.
  - exists gs. split; [reflexivity|]. split; [exact I|]. split; [auto|]. intros i j a b Ia Ib N Ca Cb J.
    apply (F i (pc_path a)) with (b := j) (q := pc_path b); auto.
    + unfold open_at. rewrite idx_map, Ia. cbn. rewrite Ca. reflexivity.
    + unfold open_at. rewrite idx_map, Ib. cbn. rewrite Cb. reflexivity.
Qed.
End Joining.

(** *** clearing *)
Lemma path_len_nonneg p : 0 <= path_len p.
Proof. induction p as [|a [|b p] IH]; cbn [path_len] in *; try lia. pose proof (Z.sqrt_nonneg (dist2 a b)). lia. Qed.
Lemma poly_length_spec finish : 0 <= finish <= 2 ^ 30 -> forall rest prev acc, Forall (pt_bounded (2 ^ 24)) (prev :: rest) -> 0 <= acc <= finish ->
  (finish <? poly_length true finish prev rest acc) = (finish <? acc + path_len (prev :: rest)).
Proof.
  intros Hf. induction rest as [|q rest IH]; intros prev acc B Ha; cbn [poly_length].
  - cbn [path_len]. rewrite Z.add_0_r. reflexivity.
  - inversion B as [|? ? B1 B2]; subst. inversion B2 as [|? ? B3 B4]; subst.
    destruct (size_exact q prev B3 B1) as (-> & Sz). rewrite (dist2_sym q prev) in *.
    rewrite add64_id by (unfold int64; lia).
    change (path_len (prev :: q :: rest)) with (Z.sqrt (dist2 prev q) + path_len (q :: rest)).
    pose proof (path_len_nonneg (q :: rest)). cbn [andb].
    destruct (Z.ltb_spec finish (acc + Z.sqrt (dist2 prev q))) as [L|L].
    + destruct (Z.ltb_spec finish (acc + Z.sqrt (dist2 prev q))); [|lia]. destruct (Z.ltb_spec finish (acc + (Z.sqrt (dist2 prev q) + path_len (q :: rest)))); lia.
    + rewrite IH by (auto; lia). f_equal. lia.
Qed.

Definition somes (gs : list (option piece)) : list piece := flat_map (fun og => match og with Some g => [g] | None => [] end) gs.
Lemma clear_spec finish gs : 0 <= finish <= 2 ^ 30 -> (forall g, In (Some g) gs -> bounded_path (pc_path g)) ->
  clear_polygons finish (map view gs) = Ok (map pc_path (filter (keep finish) (somes gs))).
Proof.
  intros Hf. induction gs as [|[g|] gs IH]; intros B; [reflexivity| |].
  - cbn [map view clear_polygons]. pose proof (B g (or_introl eq_refl)) as Bg.
    rewrite finished_exact by auto. cbn [bind].
    rewrite IH by (intros x Hx; apply B; right; exact Hx). cbn [bind somes flat_map app filter map]. fold (somes gs).
    f_equal.
    assert (EK : keep finish g = (pc_closed g || closesb finish (pc_path g)) && (finish <? path_len (pc_path g))) by reflexivity.
    rewrite EK.
    assert (EC : (if closesb finish (pc_path g) then true else pc_closed g) = pc_closed g || closesb finish (pc_path g)) by (destruct (closesb _ _), (pc_closed g); reflexivity).
    rewrite EC. destruct (pc_closed g || closesb finish (pc_path g)).
    + destruct Bg as (N & Bg). destruct (pc_path g) as [|p rest] eqn:Ep; [congruence|].
      rewrite poly_length_spec by (auto; lia). rewrite Z.add_0_l, andb_true_r. cbn [andb].
      destruct (finish <? path_len (p :: rest)); [|reflexivity]. cbn [map]. rewrite Ep. reflexivity.
    + rewrite andb_false_r. reflexivity.
  - cbn [map view clear_polygons somes flat_map app]. apply IH. intros x Hx. apply B. right; exact Hx.
Qed.
