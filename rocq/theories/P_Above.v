(** Property C111: the support of a layer depends on this layer and on those above it only. *)
From Verif Require Import GoBase GoFloat GoStr M_Micrometer M_Geom2D M_Model M_Slicer M_Clip M_Builder M_Option M_Layer M_Render M_Modifier M_Process
  S_Geom S_Model S_Slicer S_Modifier S_Support S_Above S_Process S_Fill L_Modifier L_Support L_Strip L_LineLib P_Model P_Slicer P_Modifier P_Support P_Process P_Pipeline P_Complete P_EndToEnd P_Local.
Local Open Scope string_scope.
Local Open Scope list_scope.
Local Open Scope Z_scope.

Definition both (R : layer -> layer -> Prop) (a b : option layer) : Prop := match a, b with Some l, Some l' => R l l' | None, None => True | _, _ => False end.
Definition agree (n n' : nat) (a b : list layer) : Prop := forall j, both looks_same (nth_error a (n + j)) (nth_error b (n' + j)).
Lemma forall2_impl {A B} (R S : A -> B -> Prop) a b : (forall x y, R x y -> S x y) -> Forall2 R a b -> Forall2 S a b.
Proof. intros H F. induction F; constructor; auto. Qed.
Lemma nth_skip {A} n : forall (l : list A) j, nth_error (skipn n l) j = nth_error l (n + j).
Proof. induction n as [|n IH]; intros l j; [reflexivity|]. destruct l as [|a l]; [destruct j; reflexivity|]. apply IH. Qed.
Lemma both_forall (R : layer -> layer -> Prop) : forall a b, Forall2 R a b <-> forall j, both R (nth_error a j) (nth_error b j).
Proof.
  induction a as [|x a IH]; intros [|y b]; split; intros H; try constructor; try (inversion H; fail).
  - intros [|j]; exact I.
  - destruct (H O).
  - destruct (H O).
  - inversion H; subst. intros [|j]; [assumption|]. cbn [nth_error]. apply (proj1 (IH b)). assumption.
  - exact (H O).
  - apply (proj2 (IH b)). intros j. exact (H (S j)).
Qed.
Lemma agree_skip n n' a b : Forall2 looks_same (skipn n a) (skipn n' b) <-> agree n n' a b.
Proof. rewrite both_forall. unfold agree. split; intros H j; specialize (H j); rewrite !nth_skip in *; exact H. Qed.
Lemma agree_some n n' a b j l : agree n n' a b -> nth_error a (n + j) = Some l -> exists l', nth_error b (n' + j) = Some l' /\ looks_same l l'.
Proof. intros H E. specialize (H j). rewrite E in H. destruct (nth_error b (n' + j)) as [l'|]; [eauto|destruct H]. Qed.
Lemma agree_length n n' a b j : agree n n' a b -> ((n + j < List.length a)%nat <-> (n' + j < List.length b)%nat).
Proof.
  intros H. specialize (H j). rewrite <- !nth_error_Some. unfold both in H. destruct (nth_error a (n + j)), (nth_error b (n' + j)); try destruct H; split; intros; congruence.
Qed.
Lemma agree_rest n n' a b j : agree n n' a b -> (n + j < List.length a)%nat -> (List.length a + n' = List.length b + n)%nat.
Proof.
  intros H L. pose proof (agree_length n n' a b (List.length a - n - 1) H) as H1. pose proof (agree_length n n' a b (List.length a - n) H) as H2. lia.
Qed.
Lemma agree_set n n' a b j x y : agree n n' a b -> (n + j < List.length a)%nat -> looks_same x y -> agree n n' (set_nth (n + j) x a) (set_nth (n' + j) y b).
Proof.
  intros H L S i. pose proof (proj1 (agree_length n n' a b j H) L) as L'. rewrite !nth_set by assumption.
  destruct (Nat.eqb_spec (n + j) (n + i)) as [E|E]; destruct (Nat.eqb_spec (n' + j) (n' + i)) as [E'|E']; try lia; [exact S|exact (H i)].
Qed.
Lemma look_parts l l' name : looks_same l l' -> In name ["support"; "supportInterface"; "fullSupport"; "outerBrim"] -> PartsAttribute l name = PartsAttribute l' name.
Proof. intros [_ H] I. unfold PartsAttribute. rewrite (H name I). reflexivity. Qed.
Lemma look_brim l l' : looks_same l l' -> BrimOuterDimension l = BrimOuterDimension l'.
Proof. intros [_ H]. unfold BrimOuterDimension. rewrite (H "outerBrim") by (cbn; auto). reflexivity. Qed.
Lemma look_set l l' name ps : looks_same l l' -> looks_same (set_parts name ps l) (set_parts name ps l').
Proof.
  intros [H1 H2]. split; [rewrite !parts_parts; exact H1|]. intros n I. rewrite !lookup_parts. rewrite (H2 n I). reflexivity.
Qed.
Lemma look_new l l' : looks_same l l' -> looks_same (newExtendedLayer l) (newExtendedLayer l').
Proof. intros [H1 H2]. split; [exact H1|]. intros n I. rewrite !lookup_new. exact (H2 n I). Qed.
Lemma look_attr l l' name a : looks_same l l' -> looks_same (set_attribute name a l) (set_attribute name a l').
Proof. intros [H1 H2]. split; [exact H1|]. intros n I. rewrite !lookup_set, (H2 n I). reflexivity. Qed.
Lemma ok_or_Ok {A} m (r : res (option A)) x : ok_or m r = Ok x -> r = Ok (Some x).
Proof. unfold ok_or. intros E. apply bind_Ok in E. destruct E as ([y|] & E & F); [|discriminate F]. injection F as ->. exact E. Qed.

Section Above.
Variables (lib : clib) (o : options) (tangent : f64 -> f64).
Notation sup := (Support (Print o)).
Hypothesis TG : 0 <= s_TopGapLayers sup.
Hypothesis IL : 0 <= s_InterfaceLayers sup.

Lemma split_agree n n' a b k t t' S r r' : agree n n' a b -> looks_same t t' -> (n + Datatypes.S k < List.length a)%nat ->
  split_support lib o a (Z.of_nat (n + Datatypes.S k)) t S = Ok r -> split_support lib o b (Z.of_nat (n' + Datatypes.S k)) t' S = Ok r' -> r = r'.
Proof.
  intros H T L. pose proof (agree_rest n n' a b _ H L) as Len. unfold split_support. destruct S as [|s S]; [congruence|]. cbv zeta.
  set (i := s_InterfaceLayers sup). assert (Hi : 0 <= i) by exact IL.
  set (A := if Z.of_nat (List.length a) <=? Z.of_nat (n + Datatypes.S k) + i - 1 then Z.of_nat (List.length a) - 1 else Z.of_nat (n + Datatypes.S k) + i - 1).
  set (B := if Z.of_nat (List.length b) <=? Z.of_nat (n' + Datatypes.S k) + i - 1 then Z.of_nat (List.length b) - 1 else Z.of_nat (n' + Datatypes.S k) + i - 1).
  assert (HAB : exists j, A = Z.of_nat (n + j) /\ B = Z.of_nat (n' + j)).
  { exists (Z.to_nat (A - Z.of_nat n)). unfold A, B. destruct (Z.leb_spec (Z.of_nat (List.length a)) (Z.of_nat (n + Datatypes.S k) + i - 1)); destruct (Z.leb_spec (Z.of_nat (List.length b)) (Z.of_nat (n' + Datatypes.S k) + i - 1)); lia. }
  destruct HAB as (j & -> & ->). rewrite !idx_nth. intros E E'.
  apply bind_Ok in E. destruct E as (la & El & E). apply bind_Ok in E'. destruct E' as (lb & El' & E').
  destruct (nth_error a (n + j)) as [x|] eqn:Ex; [|discriminate El]. injection El as ->. destruct (agree_some n n' a b j la H Ex) as (y & Ey & Q). rewrite Ey in El'. injection El' as ->.
  rewrite <- (look_parts _ _ "fullSupport" Q) in E' by (cbn; auto). rewrite <- (look_brim _ _ T) in E'. congruence.
Qed.
Lemma gen_low : forall m last a r n, generator_loop lib o m last a = Ok r -> (m <= n)%nat -> forall j, nth_error r (n + j) = nth_error a (n + j).
Proof.
  induction m as [|m IH]; intros last a r n E Hm j; [injection E as ->; reflexivity|]. cbn [generator_loop] in E.
  apply bind_Ok in E. destruct E as (l & _ & E). apply bind_Ok in E. destruct E as (cs & _ & E). apply bind_Ok in E. destruct E as (t & _ & E). apply bind_Ok in E. destruct E as (bs & _ & E).
  assert (K : generator_loop lib o m last a = Ok r \/ exists last' x, (m < List.length a)%nat /\ generator_loop lib o m last' (set_nth m x a) = Ok r).
  { destruct cs as [|c cs]; [destruct bs as [|b bs]; [left; exact E|]|]; right;
      apply bind_Ok in E; destruct E as (res & _ & E); cbv zeta in E; apply bind_Ok in E; destruct E as (big & _ & E); apply bind_Ok in E; destruct E as (act & _ & E);
      apply bind_Ok in E; destruct E as ([i w] & _ & E); apply bind_Ok in E; destruct E as (ls & Ep & E); apply put_Ok in Ep; destruct Ep as (Hr & ->);
      replace (Z.to_nat (Z.of_nat (S m) - 1)) with m in E by lia; eexists act, _; (split; [lia|exact E]). }
  destruct K as [K|(last' & x & Hl & K)].
  - exact (IH _ _ _ n K ltac:(lia) j).
  - rewrite (IH _ _ _ n K ltac:(lia) j), nth_set by exact Hl. destruct (Nat.eqb_spec m (n + j)); [lia|reflexivity].
Qed.
Lemma gen_agree n n' : forall k last a b r r', agree n n' a b -> generator_loop lib o (n + k) last a = Ok r -> generator_loop lib o (n' + k) last b = Ok r' -> agree n n' r r'.
Proof.
  induction k as [|k IH]; intros last a b r r' H E E'.
  - intros j. rewrite (gen_low _ _ _ _ n E ltac:(lia) j), (gen_low _ _ _ _ n' E' ltac:(lia) j). exact (H j).
  - rewrite <- plus_n_Sm in E, E'. cbn [generator_loop] in E, E'. rewrite plus_n_Sm in E, E'.
    apply bind_Ok in E. destruct E as (l & El & E). apply bind_Ok in E. destruct E as (cs & Ec & E). apply bind_Ok in E. destruct E as (t & Et & E). apply bind_Ok in E. destruct E as (bs & Eb & E).
    apply bind_Ok in E'. destruct E' as (l' & El' & E'). apply bind_Ok in E'. destruct E' as (cs' & Ec' & E'). apply bind_Ok in E'. destruct E' as (t' & Et' & E'). apply bind_Ok in E'. destruct E' as (bs' & Eb' & E').
    replace (Z.of_nat (n + S k) - 1) with (Z.of_nat (n + k)) in * by lia. replace (Z.of_nat (n' + S k) - 1) with (Z.of_nat (n' + k)) in * by lia. rewrite idx_nth in El, Et, El', Et'.
    destruct (nth_error a (n + S k)) as [x|] eqn:Ex; [|discriminate El]. injection El as ->. destruct (agree_some _ _ _ _ _ _ H Ex) as (x' & Ex' & Qx). rewrite Ex' in El'. injection El' as ->.
    destruct (nth_error a (n + k)) as [y|] eqn:Ey; [|discriminate Et]. injection Et as ->. destruct (agree_some _ _ _ _ _ _ H Ey) as (y' & Ey' & Qy). rewrite Ey' in Et'. injection Et' as ->.
    assert (Hk : (n + S k < List.length a)%nat) by (apply nth_error_Some; congruence).
    assert (cs' = cs). { destruct last; [|congruence]. rewrite (look_parts _ _ "support" Qx) in Ec by (cbn; auto). congruence. } subst cs'.
    assert (bs' = bs). { rewrite (look_parts _ _ "support" Qy) in Eb by (cbn; auto). congruence. } subst bs'. clear Ec Ec' Eb Eb'.
    assert (K : (generator_loop lib o (n + k) last a = Ok r /\ generator_loop lib o (n' + k) last b = Ok r') \/
       exists last2 x2 x2', looks_same x2 x2' /\ generator_loop lib o (n + k) last2 (set_nth (n + k) x2 a) = Ok r /\ generator_loop lib o (n' + k) last2 (set_nth (n' + k) x2' b) = Ok r').
    { destruct cs as [|c cs]; [destruct bs as [|b0 bs]; [left; split; [exact E|exact E']|]|]; right.
      all: apply bind_Ok in E; destruct E as (res & Er & E); apply bind_Ok in E'; destruct E' as (res' & Er' & E'); apply ok_or_Ok in Er, Er'; rewrite Er in Er'; injection Er' as <-; cbv zeta in E, E'.
      all: apply bind_Ok in E; destruct E as (big & Ebg & E); apply bind_Ok in E'; destruct E' as (big' & Ebg' & E'); unfold enlarged in Ebg, Ebg'; rewrite <- (LayerParts_eq _ _ (proj1 Qy)) in Ebg'; rewrite Ebg in Ebg'; injection Ebg' as <-.
      all: apply bind_Ok in E; destruct E as (act & Ea & E); apply bind_Ok in E'; destruct E' as (act' & Ea' & E'); apply ok_or_Ok in Ea, Ea'; rewrite Ea in Ea'; injection Ea' as <-.
      all: apply bind_Ok in E; destruct E as ([i w] & Es & E); apply bind_Ok in E'; destruct E' as ([i' w'] & Es' & E'); pose proof (split_agree n n' a b k _ _ _ _ _ H Qy Hk Es Es') as Q; injection Q as <- <-.
      all: apply bind_Ok in E; destruct E as (ls & Ep & E); apply bind_Ok in E'; destruct E' as (ls' & Ep' & E'); apply put_Ok in Ep, Ep'; destruct Ep as (_ & ->); destruct Ep' as (_ & ->).
      all: rewrite Nat2Z.id in E, E'; eexists act, _, _; split; [|split; [exact E|exact E']].
      all: apply look_attr, look_set, look_set, look_new, Qy. }
    destruct K as [(K & K')|(last2 & x2 & x2' & Q & K & K')]; [exact (IH _ _ _ _ _ H K K')|]. refine (IH _ _ _ _ _ _ K K'). apply agree_set; [exact H|lia|exact Q].
Qed.
Lemma generator_agree n n' a b r r' : agree n n' a b -> SupportGeneratorModify lib o a = Ok r -> SupportGeneratorModify lib o b = Ok r' -> agree n n' r r'.
Proof.
  intros H. unfold SupportGeneratorModify. destruct (negb (s_Enabled sup)); [intros [= <-] [= <-]; exact H|]. intros E E'. destruct (le_lt_dec (List.length a) (n + 2)) as [L|L].
  - assert (L' : (List.length b <= n' + 2)%nat). { pose proof (agree_length n n' a b 2 H). lia. }
    intros j. rewrite (gen_low _ _ _ _ n E ltac:(lia) j), (gen_low _ _ _ _ n' E' ltac:(lia) j). exact (H j).
  - pose proof (agree_rest n n' a b 2 H L) as R. replace (List.length a - 2)%nat with (n + (List.length a - 2 - n))%nat in E by lia.
    replace (List.length b - 2)%nat with (n' + (List.length a - 2 - n))%nat in E' by lia. exact (gen_agree n n' _ _ _ _ _ _ H E E').
Qed.
Lemma detector_agree n n' a b r r' : agree n n' a b -> SupportDetectorModify lib o tangent a = Ok r -> SupportDetectorModify lib o tangent b = Ok r' -> agree n n' r r'.
Proof.
  intros H E E'. destruct (s_Enabled sup) eqn:En.
  - destruct (detector_spec lib o tangent a En TG r E) as (L & D). destruct (detector_spec lib o tangent b En TG r' E') as (L' & D'). intros j.
    destruct (nth_error a (n + j)) as [l|] eqn:El.
    + destruct (agree_some n n' a b j l H El) as (l' & El' & Q). assert (Hl : (n + j < List.length a)%nat) by (apply nth_error_Some; congruence). pose proof (agree_rest n n' a b j H Hl) as R.
      destruct (D _ _ El) as (D1 & D2). destruct (D' _ _ El') as (D1' & D2'). set (T := Z.to_nat (s_TopGapLayers sup)) in *.
      destruct (lt_dec (n + j + T + 1) (List.length a)) as [Lt|Lt].
      * destruct D1 as (x & y & s & Ex & Ey & Eo & Ec); [lia|]. destruct D1' as (x' & y' & s' & Ex' & Ey' & Eo' & Ec'); [lia|]. rewrite Ec, Ec'. cbn [both].
        replace (n + j + T)%nat with (n + (j + T))%nat in Ex by lia. replace (n' + j + T)%nat with (n' + (j + T))%nat in Ex' by lia.
        replace (n + j + T + 1)%nat with (n + (j + T + 1))%nat in Ey by lia. replace (n' + j + T + 1)%nat with (n' + (j + T + 1))%nat in Ey' by lia.
        destruct (agree_some _ _ _ _ _ _ H Ex) as (x2 & Ex2 & Qx). destruct (agree_some _ _ _ _ _ _ H Ey) as (y2 & Ey2 & Qy). assert (x2 = x') by congruence. assert (y2 = y') by congruence. subst x2 y2.
        rewrite (overhang_ext lib o tangent x x' y y' (proj1 Qx) (proj1 Qy)), Eo' in Eo. injection Eo as <-. apply look_set, look_new, Q.
      * rewrite D2, D2' by lia. exact Q.
    + pose proof (H j) as Hj. rewrite El in Hj. destruct (nth_error b (n' + j)) as [|] eqn:El'; [destruct Hj|]. apply nth_error_None in El, El'. rewrite <- L in El. rewrite <- L' in El'. apply nth_error_None in El, El'. rewrite El, El'. exact I.
  - destruct (support_disabled lib o tangent a En) as [E1 _]. destruct (support_disabled lib o tangent b En) as [E2 _]. rewrite E1 in E. injection E as <-. rewrite E2 in E'. injection E' as <-. exact H.
Qed.
End Above.

Lemma looks_trans a b c : looks_same a b -> looks_same b c -> looks_same a c.
Proof. intros [H1 H2] [H3 H4]. split; [congruence|]. intros name I. rewrite (H2 name I). exact (H4 name I). Qed.
Lemma looks_sym a b : looks_same a b -> looks_same b a.
Proof. intros [H1 H2]. split; [congruence|]. intros name I. symmetry. exact (H2 name I). Qed.
Lemma agree_trans n n' n'' a b c : agree n n' a b -> agree n' n'' b c -> agree n n'' a c.
Proof.
  intros H H' j. specialize (H j). specialize (H' j). destruct (nth_error a (n + j)), (nth_error b (n' + j)), (nth_error c (n'' + j)); try destruct H; try destruct H'; try exact I. cbn [both].
  eapply looks_trans; split; eassumption.
Qed.
Lemma agree_sym n n' a b : agree n n' a b -> agree n' n b a.
Proof. intros H j. specialize (H j). destruct (nth_error a (n + j)), (nth_error b (n' + j)); try destruct H; try exact I. apply looks_sym. split; assumption. Qed.
Lemma agree_keeps names n a b : (forall name, In name ["support"; "supportInterface"; "fullSupport"; "outerBrim"] -> ~ In name names) -> keeps names a b -> agree n n a b.
Proof.
  intros D K. apply agree_skip. revert a b K. induction n as [|n IH]; intros a b K.
  - cbn [skipn]. eapply forall2_impl; [|exact K]. intros l l' [H1 H2]. split; [congruence|]. intros name I. symmetry. exact (H2 name (D name I)).
  - destruct K as [|x y a b Q K]; [constructor|]. exact (IH a b K).
Qed.

(** *** C111 *)
(** Two stacks of layers that look the same from the layers n and n' upwards, whatever is below: the support modifiers give
    them the same support from there upwards. *)
Theorem support_from_above : forall lib o tangent layers layers' d d' r r' n n', 0 <= s_TopGapLayers (Support (Print o)) -> 0 <= s_InterfaceLayers (Support (Print o)) ->
  SupportDetectorModify lib o tangent layers = Ok d -> SupportGeneratorModify lib o d = Ok r ->
  SupportDetectorModify lib o tangent layers' = Ok d' -> SupportGeneratorModify lib o d' = Ok r' ->
  Forall2 looks_same (skipn n layers) (skipn n' layers') -> Forall2 looks_same (skipn n r) (skipn n' r').
Proof.
  intros lib o tangent layers layers' d d' r r' n n' TG IL E1 E2 E1' E2' H. apply agree_skip in H. apply agree_skip.
  exact (generator_agree lib o IL n n' d d' r r' (detector_agree lib o tangent TG n n' layers layers' d d' H E1 E1') E2 E2').
Qed.
Print Assumptions support_from_above.

(** In two runs with the same settings, for models with the same outlines from some layer upwards - counted from the top, so
    one model may be higher than the other - these layers get the same support and the same support interface.  (The lowest
    layer has a brim, so it is not compared with a higher one.) *)
Theorem support_of_run_from_above : forall lib tangent fuel env env' o input input' text text' (r : finished lib tangent fuel env o input text) (r' : finished lib tangent fuel env' o input' text') n n',
  0 <= s_TopGapLayers (Support (Print o)) -> 0 <= s_InterfaceLayers (Support (Print o)) -> (n = O <-> n' = O) ->
  skipn n (f_sliced _ _ _ _ _ _ _ r) = skipn n' (f_sliced _ _ _ _ _ _ _ r') ->
  Forall2 (fun l l' => LayerParts l = LayerParts l' /\ forall name, In name ["support"; "supportInterface"] -> PartsAttribute l name = PartsAttribute l' name)
    (skipn n (f_layers _ _ _ _ _ _ _ r)) (skipn n' (f_layers _ _ _ _ _ _ _ r')).
Proof.
  intros lib tangent fuel env env' o input input' text text' r r' n n' TG IL N0 H.
  destruct r as [fs om open l0 l1 l2 l3 l4 l5 l6 mn mx rs E1 E4 E5 M1 M2 M3 M4 M5 M6 B E7 E8].
  destruct r' as [fs' om' open' l0' l1' l2' l3' l4' l5' l6' mn' mx' rs' E1' E4' E5' M1' M2' M3' M4' M5' M6' B' E7' E8'].
  cbn [f_sliced f_layers] in *.
  assert (A : agree n n' l4 l4').
  { destruct n as [|n].
    - rewrite (proj1 N0 eq_refl) in *. cbn [skipn] in H. subst l0'. assert (l4' = l4) as -> by congruence. intros j. destruct (nth_error l4 (0 + j)); [split; auto|exact I].
    - destruct n' as [|n']; [discriminate (proj2 N0 eq_refl)|].
      assert (K : forall m k0 k1 k2 k3 k4, PerimeterModify lib o k0 = Ok k1 -> InfillModify lib o k1 = Ok k2 -> InternalInfillModify lib o k2 = Ok k3 -> BrimModify lib o k3 = Ok k4 -> agree (S m) (S m) k0 k4).
      { intros m k0 k1 k2 k3 k4 P1 P2 P3 P4. apply (agree_trans _ (S m) _ _ k3).
        - eapply agree_keeps; [|exact (keeps_trans _ _ _ _ _ (keeps_trans _ _ _ _ _ (perimeter_keeps lib o k0 k1 P1) (infill_keeps_all lib o k1 k2 P2)) (internal_keeps_all lib o k2 k3 P3))].
          cbn [app In]. intros name [<-|[<-|[<-|[<-|[]]]]] C; repeat (destruct C as [C|C]; [discriminate C|]); destruct C.
        - intros j. destruct (brim_keeps lib o k3 k4 P4) as (_ & Kb). assert (T : forall (m0 : list layer) i, nth_error m0 (S i) = nth_error (skipn 1 m0) i) by (intros [|x m0] i; [destruct i; reflexivity|reflexivity]).
          cbn [Nat.add]. rewrite !T, Kb. destruct (nth_error (skipn 1 k3) (m + j)); [split; auto|exact I]. }
      apply (agree_trans _ (S n) _ _ l0); [apply agree_sym, (K n l0 l1 l2 l3 l4); assumption|]. apply (agree_trans _ (S n') _ _ l0'); [|apply (K n' l0' l1' l2' l3' l4'); assumption].
      apply agree_skip. rewrite H. clear. induction (skipn (S n') l0') as [|x l IH]; constructor; [split; auto|exact IH]. }
  pose proof (proj2 (agree_skip _ _ _ _) (generator_agree lib o IL n n' _ _ _ _ (detector_agree lib o tangent TG n n' _ _ _ _ A M5 M5') M6 M6')) as Q.
  eapply forall2_impl; [|exact Q]. intros l l' Ql. split; [exact (LayerParts_eq _ _ (proj1 Ql))|]. intros name I. apply (look_parts _ _ name Ql). cbn in *. intuition auto.
Qed.
Print Assumptions support_of_run_from_above.

(** a high shed, and one with a shorter pillar on a wide foot with a gap in it: the upper eight layers get the same support, the
    one below them does not *)
Definition high_shed : list layer := [pillar; pillar] ++ repeat pillar 6 ++ [roof; roof].
Definition foot_shed : list layer := [roof; roof; plain_layer [bar 0 1000; bar 4000 9000]] ++ repeat pillar 6 ++ [roof; roof].
Example support_from_above_ex : exists d r d' r' s i, SupportDetectorModify strip_lib supported tan60 high_shed = Ok d /\ SupportGeneratorModify strip_lib supported d = Ok r /\
  SupportDetectorModify strip_lib supported tan60 foot_shed = Ok d' /\ SupportGeneratorModify strip_lib supported d' = Ok r' /\
  skipn 2 high_shed = skipn 3 foot_shed /\ has r 3 "support" s /\ s <> [] /\ has r' 4 "support" s /\ has r 5 "supportInterface" i /\ i <> [] /\ has r' 6 "supportInterface" i /\
  has r 1 "support" s /\ ~ has r' 2 "support" s.
Proof.
  eexists _, _, _, _, _, _. split; [vm_compute; reflexivity|]. split; [vm_compute; reflexivity|]. split; [vm_compute; reflexivity|]. split; [vm_compute; reflexivity|].
  split; [reflexivity|]. split; [eexists; split; [vm_compute; reflexivity|vm_compute; reflexivity]|]. split; [discriminate|]. split; [eexists; split; [vm_compute; reflexivity|vm_compute; reflexivity]|].
  split; [eexists; split; [vm_compute; reflexivity|vm_compute; reflexivity]|]. split; [discriminate|]. split; [eexists; split; [vm_compute; reflexivity|vm_compute; reflexivity]|].
  split; [eexists; split; [vm_compute; reflexivity|vm_compute; reflexivity]|].
  intros (l & El & Ps). vm_compute in El. injection El as <-. vm_compute in Ps. discriminate Ps.
Qed.

(** the same through whole runs: two towers that lean out above 2 mm, one of which stands on a narrower foot *)
Definition foot_faces (e : Z) : list triangle :=
  let v (x y z : Z) := (f32_of_Z x, f32_of_Z y, f32_of_Z z) in
  let ring a b z a' b' z' := let up x := if x =? a then a' else b' in
    let wall x1 y1 x2 y2 := [(v x1 y1 z, v x2 y2 z, v (up x2) y2 z'); (v x1 y1 z, v (up x2) y2 z', v (up x1) y1 z')] in
    wall a 0 b 0 ++ wall b 0 b 4 ++ wall b 4 a 4 ++ wall a 4 a 0 in
  [(v e 0 0, v e 4 0, v 4 4 0); (v e 0 0, v 4 4 0, v 4 0 0)] ++ ring e 4 0 0 4 2 ++ ring 0 4 2 0 10 4 ++
  [(v 0 0 4, v 10 0 4, v 10 4 4); (v 0 0 4, v 10 4 4, v 0 4 4)].
Definition foot_file (e : Z) : files := Files (fun _ => StatOk) (fun _ => (foot_faces e, None)).
Definition foot_fs (e : Z) : list face := match Read (foot_file e) "" with Ok fs => fs | _ => [] end.
Definition foot_om (e : Z) : omodel := match Optimize 30 (V3 100000 100000 0) (foot_fs e) with Ok (om, _) => om | _ => OModel [] [] (V3 0 0 0) end.
Definition foot_ofs (e : Z) : list face := match omFaces (foot_om e) (om_faces (foot_om e)) return list face with Ok fs => fs | _ => [] end.
Definition tan_one (_ : f64) : f64 := f64_of_Z 1.
Definition foot_run (e : Z) (text : string) := finished line_lib tan_one (Z.to_nat (2 ^ 24 + 1)) (foot_file e) supported "part.stl" text.
Definition no_foot_fs : list face := Eval vm_compute in foot_fs 0.
Definition no_foot_om : omodel := Eval vm_compute in foot_om 0.
Definition no_foot_ofs : list face := Eval vm_compute in foot_ofs 0.
Definition thin_foot_fs : list face := Eval vm_compute in foot_fs 1.
Definition thin_foot_om : omodel := Eval vm_compute in foot_om 1.
Definition thin_foot_ofs : list face := Eval vm_compute in foot_ofs 1.
Definition no_foot_layers : list layer := Eval vm_compute in match Slice line_lib supported no_foot_om return list layer with Ok ls => ls | _ => [] end.
Definition thin_foot_layers : list layer := Eval vm_compute in match Slice line_lib supported thin_foot_om return list layer with Ok ls => ls | _ => [] end.
Definition no_foot_support : list part := Eval vm_compute in
  match (let* a := PerimeterModify line_lib supported no_foot_layers in let* a := InfillModify line_lib supported a in let* a := InternalInfillModify line_lib supported a in
         let* a := BrimModify line_lib supported a in let* a := SupportDetectorModify line_lib supported tan_one a in let* a := SupportGeneratorModify line_lib supported a in
         let* l := idx a 12 in PartsAttribute l "support") return list part with Ok s => s | _ => [] end.
Lemma supported_workable : workable supported.
Proof. split; vm_compute; intuition discriminate. Qed.
Lemma foot_finished e fs om ofs : Read (foot_file e) "part.stl" = Ok fs -> usable 30 (V3 100000 100000 0) fs -> Optimize 30 (V3 100000 100000 0) fs = Ok (om, 0) ->
  (forall p, In p (om_points om) -> vec_bounded (2 ^ 21) (opos p)) -> omFaces om (om_faces om) = Ok ofs -> connected ofs -> 1 <= layer_count 200 200 om ->
  (exists f, In f ofs /\ MinZ f <= 200) -> (exists f, In f ofs /\ S_Slicer.height 200 200 (layer_count 200 200 om - 1) <= MaxZ f) -> exists text, inhabited (foot_run e text).
Proof.
  intros H1 H2 H3 H4 H5 H6 H7 H8 H9.
  assert (H : exists steps, Process (NewGoSlice line_lib tan_one (Z.to_nat (2 ^ 24 + 1)) (foot_file e) tower_os (fun _ => None) supported) "part.stl" "" = (steps, Ok tt)).
  { apply (run_succeeds Z in_strips) with (fs := fs) (om := om) (open := 0) (ofs := ofs); try assumption.
    - exact line_exact.
    - exact line_capable.
    - rewrite Z2Nat.id; [reflexivity|vm_compute; discriminate].
    - exact supported_workable.
    - reflexivity.
    - intros k. split; [reflexivity|discriminate]. }
  apply built_in_run in H. destruct H as (text & r & _). exists text. exact r.
Qed.
Ltac foot fs om ofs :=
  apply (foot_finished _ fs om ofs);
  [vm_compute; reflexivity|split; [vm_compute; intuition discriminate|]; split; [repeat constructor; vm_compute; discriminate|]; repeat split; vm_compute; discriminate|vm_compute; reflexivity
  |let p := fresh "p" in let Ip := fresh "Ip" in intros p Ip; repeat (destruct Ip as [<-|Ip]; [repeat split; vm_compute; discriminate|]); destruct Ip
  |vm_compute; reflexivity|apply (connected_within 3); vm_compute; reflexivity|vm_compute; discriminate
  |exists (nth 0 ofs (V3 0 0 0, V3 0 0 0, V3 0 0 0)); split; [apply nth_In; vm_compute; lia|vm_compute; discriminate]
  |exists (nth 18 ofs (V3 0 0 0, V3 0 0 0, V3 0 0 0)); split; [apply nth_In; vm_compute; lia|vm_compute; discriminate]].
Lemma foot_none : exists text, inhabited (foot_run 0 text).
Proof. foot no_foot_fs no_foot_om no_foot_ofs. Qed.
Lemma foot_thin : exists text, inhabited (foot_run 1 text).
Proof. foot thin_foot_fs thin_foot_om thin_foot_ofs. Qed.
Lemma foot_sliced lib tangent fuel e text fs om ls (r : finished lib tangent fuel (foot_file e) supported "part.stl" text) :
  Read (foot_file e) "part.stl" = Ok fs -> Optimize 30 (V3 100000 100000 0) fs = Ok (om, 0) -> Slice lib supported om = Ok ls -> f_sliced _ _ _ _ _ _ _ r = ls.
Proof.
  intros H1 H2 H3. destruct r as [fs0 om0 open l0 l1 l2 l3 l4 l5 l6 mn0 mx0 rs E1 E4 E5 M1 M2 M3 M4 M5 M6 B E7 E8]. cbn [f_sliced].
  assert (fs0 = fs) by congruence. subst fs0. change (Optimize 30 (V3 100000 100000 0) fs = Ok (om0, open)) in E4. assert (om0 = om) by congruence. subst om0. congruence.
Qed.
(** layer 12 gets the same support in both runs, although the layers 0 to 8 differ *)
Example support_of_run_from_above_ex : exists text text' (r : foot_run 0 text) (r' : foot_run 1 text') l l',
  nth_error (f_sliced _ _ _ _ _ _ _ r) 8 <> nth_error (f_sliced _ _ _ _ _ _ _ r') 8 /\ skipn 9 (f_sliced _ _ _ _ _ _ _ r) = skipn 9 (f_sliced _ _ _ _ _ _ _ r') /\
  nth_error (f_layers _ _ _ _ _ _ _ r) 12 = Some l /\ nth_error (f_layers _ _ _ _ _ _ _ r') 12 = Some l' /\
  no_foot_support <> [] /\ PartsAttribute l "support" = Ok no_foot_support /\ PartsAttribute l' "support" = Ok no_foot_support.
Proof.
  destruct foot_none as (text & [r]). destruct foot_thin as (text' & [r']). exists text, text', r, r'.
  pose proof (foot_sliced _ _ _ 0 text no_foot_fs no_foot_om no_foot_layers r ltac:(vm_compute; reflexivity) ltac:(vm_compute; reflexivity) ltac:(vm_compute; reflexivity)) as S1.
  pose proof (foot_sliced _ _ _ 1 text' thin_foot_fs thin_foot_om thin_foot_layers r' ltac:(vm_compute; reflexivity) ltac:(vm_compute; reflexivity) ltac:(vm_compute; reflexivity)) as S2.
  assert (Sk : skipn 9 (f_sliced _ _ _ _ _ _ _ r) = skipn 9 (f_sliced _ _ _ _ _ _ _ r')) by (rewrite S1, S2; reflexivity).
  pose proof (support_of_run_from_above _ _ _ _ _ _ _ _ _ _ r r' 9 9 ltac:(vm_compute; discriminate) ltac:(vm_compute; discriminate) ltac:(split; discriminate) Sk) as F.
  assert (G : exists l, nth_error (f_layers _ _ _ _ _ _ _ r) 12 = Some l /\ PartsAttribute l "support" = Ok no_foot_support).
  { clear F Sk S2 r'. destruct r as [fs om open l0 l1 l2 l3 l4 l5 l6 mn mx rs E1 E4 E5 M1 M2 M3 M4 M5 M6 B E7 E8]. cbn [f_sliced f_layers] in *. clear E1 E4 E5 E7 E8 B. subst l0.
    assert (X : (let* a := PerimeterModify line_lib supported no_foot_layers in let* a := InfillModify line_lib supported a in let* a := InternalInfillModify line_lib supported a in
         let* a := BrimModify line_lib supported a in let* a := SupportDetectorModify line_lib supported tan_one a in let* a := SupportGeneratorModify line_lib supported a in
         let* l := idx a 12 in PartsAttribute l "support") = Ok no_foot_support) by (vm_compute; reflexivity).
    rewrite M1 in X. cbn [bind] in X. rewrite M2 in X. cbn [bind] in X. rewrite M3 in X. cbn [bind] in X. rewrite M4 in X. cbn [bind] in X. rewrite M5 in X. cbn [bind] in X. rewrite M6 in X. cbn [bind] in X.
    apply bind_Ok in X. destruct X as (l & El & X). change 12 with (Z.of_nat 12) in El. rewrite idx_nth in El. destruct (nth_error l6 12) as [l'|]; [|discriminate El]. injection El as ->. exists l. auto. }
  destruct G as (l & El & Es). apply both_forall with (j := 3%nat) in F. rewrite !nth_skip in F. cbn [Nat.add] in F. rewrite El in F. destruct (nth_error (f_layers _ _ _ _ _ _ _ r') 12) as [l'|] eqn:El'; [|destruct F].
  exists l, l'. split; [rewrite S1, S2; intros X; vm_compute in X; discriminate X|]. split; [exact Sk|]. split; [exact El|]. split; [reflexivity|]. split; [discriminate|]. split; [exact Es|].
  destruct F as [_ F]. rewrite <- (F "support") by (cbn; auto). exact Es.
Qed.
