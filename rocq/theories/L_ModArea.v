(** Lemmas about the areas the modifiers compute with an exact clipping library. *)
From Coq Require Import Permutation.
From Verif Require Import GoBase GoFloat GoStr M_Micrometer M_Geom2D M_Option M_Clip M_Builder M_Layer M_Modifier S_Clip L_Clip S_Area L_Area S_Modifier L_Modifier L_Amount.
Local Open Scope list_scope.
Local Open Scope Z_scope.

Lemma quot_neg2 a : Z.abs a <= 2 ^ 62 -> quot64 (neg64 a) 2 = - Z.quot a 2.
Proof.
  intros H. unfold quot64, neg64. rewrite (wrap_id (- a)) by (unfold int64; lia). rewrite Z.quot_opp_l by lia. apply wrap_id. unfold int64.
  assert (Z.abs (Z.quot a 2) <= 2 ^ 62); [|lia]. rewrite <- Z.quot_abs by lia. change (Z.abs 2) with 2. rewrite Z.quot_div_nonneg by lia. apply Z.div_le_upper_bound; lia.
Qed.
Lemma amount_bound w p : amount_ok w p -> Z.abs (amount w p) <= 2 ^ 23.
Proof.
  intros (_ & _ & H). unfold amount. rewrite <- Z.quot_abs by lia. change (Z.abs 100) with 100. rewrite Z.quot_div_nonneg by lia. apply Z.div_le_upper_bound; lia.
Qed.

Section Area.
Context {P : Type} (inside : path -> P -> bool).
Notation parity := (parity inside).
Notation in_part := (in_part inside).
Notation covered := (covered inside).
Notation proper_part := (proper_part inside).
Notation proper := (proper inside).
Notation nested_tree := (nested_tree inside).
Definition par (ps : list part) (x : P) : bool := parity (contours_of ps) x.
Lemma par_app a b x : par (a ++ b) x = xorb (par a x) (par b x).
Proof. unfold par. rewrite contours_app. apply parity_app. Qed.
Lemma par_nil x : par [] x = false. Proof. reflexivity. Qed.
Lemma par_proper ps x : proper ps -> (par ps x = true <-> covered ps x).
Proof. apply proper_parity. Qed.
Lemma par_one p x : par [p] x = parity (outline p :: holes p) x.
Proof. unfold par, contours_of. cbn [flat_map]. rewrite app_nil_r. reflexivity. Qed.
Lemma proper_part_one p : proper [p] -> proper_part p.
Proof. intros [H _]. apply H. left. reflexivity. Qed.

Variable lib : clib.
Hypothesis E : exact inside lib.

(** *** clipping *)
Lemma closed_contours t ps : flat_map (fun p => closed_as t (outline p :: holes p)) ps = closed_as t (contours_of ps).
Proof. unfold closed_as, contours_of. induction ps as [|p ps IH]; [reflexivity|]. cbn [flat_map]. rewrite IH, map_app. reflexivity. Qed.
Lemma clip_ok t a b : exists r, clip_parts lib t a b = Ok (Some r) /\ proper r /\ clip_result lib r /\ forall x, par r x = op t (par a x) (par b x).
Proof.
  unfold clip_parts. rewrite !closed_contours. destruct (exact_clip inside lib E t (contours_of a) (contours_of b)) as (tree & n & Ex & N & Hp). rewrite Ex.
  destruct (tree_spec tree) as (ps & Ep & _). rewrite Ep. cbn [bind]. destruct (tree_parts inside tree ps N Ep) as (Pr & Hc). exists ps. split; [reflexivity|]. split; [exact Pr|].
  split; [exists t, (contours_of a), (contours_of b), tree, n; auto|]. intros x. pose proof (Hc x) as Hx. rewrite <- par_proper in Hx by exact Pr. rewrite Hp in Hx. unfold par in *.
  destruct (parity (contours_of ps) x), (op t (parity (contours_of a) x) (parity (contours_of b) x)); try reflexivity; [destruct (proj1 Hx eq_refl)|destruct (proj2 Hx eq_refl)]; reflexivity.
Qed.
Lemma run_ok t a b : exists r, runClipper lib t a b = Ok (Some r) /\ proper r /\ (r = [] \/ clip_result lib r) /\ forall x, par r x = op t (par a x) (par b x).
Proof.
  unfold runClipper. destruct a as [|p a]; [destruct b as [|q b]|].
  - exists []. split; [reflexivity|]. split; [apply proper_nil|]. split; [left; reflexivity|]. intros x. destruct t; reflexivity.
  - destruct (clip_ok t [] (q :: b)) as (r & H1 & H2 & H3 & H4). exists r. auto.
  - destruct (clip_ok t (p :: a) b) as (r & H1 & H2 & H3 & H4). exists r. auto.
Qed.
Lemma ok_run msg t a b : exists r, ok_or msg (runClipper lib t a b) = Ok r /\ proper r /\ (r = [] \/ clip_result lib r) /\ forall x, par r x = op t (par a x) (par b x).
Proof. destruct (run_ok t a b) as (r & H1 & H2). exists r. split; [|exact H2]. unfold ok_or. rewrite H1. reflexivity. Qed.

(** *** offsets *)
Lemma offset_ok d p : exists r, polyTreeToLayerParts (offset lib d (outline p :: holes p)) = Ok r /\ proper r /\
  forall x, par r x = parity (flat_map contours (offset lib d (outline p :: holes p))) x.
Proof.
  destruct (tree_spec (offset lib d (outline p :: holes p))) as (r & Er & _). exists r. split; [exact Er|].
  destruct (tree_parts inside _ r (exact_offset inside lib E d _) Er) as (Pr & Hc). split; [exact Pr|]. intros x. pose proof (Hc x) as Hx. rewrite <- par_proper in Hx by exact Pr.
  unfold par in *. destruct (parity (contours_of r) x), (parity (flat_map contours _) x); try reflexivity; [destruct (proj1 Hx eq_refl)|destruct (proj2 Hx eq_refl)]; reflexivity.
Qed.
Lemma moved_grow a p x : a <= 0 -> parity (outline p :: holes p) x = true -> moved inside lib a p x = true.
Proof.
  intros Ha H. unfold moved. destruct (a =? 0); [exact H|]. apply (exact_grow inside lib E); [|exact H].
  replace a with (- - a) by lia. rewrite Z.quot_opp_l by lia. rewrite Z.opp_involutive. apply Z.quot_pos; lia.
Qed.
Lemma moved_shrink a p x : 0 <= a -> moved inside lib a p x = true -> parity (outline p :: holes p) x = true.
Proof.
  intros Ha. unfold moved. destruct (a =? 0); [auto|]. apply (exact_shrink inside lib E). pose proof (Z.quot_pos a 2 Ha). lia.
Qed.
Lemma overlap_one p percent w : amount_ok w percent ->
  exists r, calculateOverlapPerimeter lib p percent w = Ok r /\ (proper_part p \/ amount w percent <> 0 -> proper r) /\ forall x, par r x = moved inside lib (amount w percent) p x.
Proof.
  intros H. unfold calculateOverlapPerimeter. rewrite (amount_correct w percent H). unfold moved. destruct (Z.eqb_spec (amount w percent) 0) as [Z0|NZ]; cbn [negb].
  - exists [p]. split; [reflexivity|]. split; [intros [Hp|N]; [apply proper_one; exact Hp|contradiction]|]. intros x. apply par_one.
  - pose proof (amount_bound w percent H). rewrite quot_neg2 by lia. unfold Inset. change (Z.to_nat 1) with 1%nat. cbn [inset_loop].
    destruct (offset_ok (f64_of_Z (- Z.quot (amount w percent) 2)) p) as (r & Er & Pr & Hr). rewrite Er. cbn [bind]. exists r. split; [reflexivity|]. split; [auto|exact Hr].
Qed.
(** exclusive or of all *)
Fixpoint xor_all {A} (f : A -> bool) (l : list A) : bool := match l with [] => false | a :: l' => xorb (f a) (xor_all f l') end.
Lemma xor_one {A} (f : A -> bool) l : at_most_one (fun a => f a = true) l -> (xor_all f l = true <-> exists a, In a l /\ f a = true).
Proof.
  induction l as [|a l IH]; cbn [xor_all at_most_one]; [intros _; split; [discriminate|intros (a & [] & _)]|]. intros [H A1]. specialize (IH A1). destruct (f a) eqn:Ea.
  - assert (xor_all f l = false) as ->.
    { destruct (xor_all f l); [|reflexivity]. destruct (proj1 IH eq_refl) as (b & Ib & Eb). exfalso. exact (H eq_refl b Ib Eb). }
    split; [intros _; exists a; split; [left; reflexivity|exact Ea]|reflexivity].
  - rewrite xorb_false_l, IH. split.
    + intros (b & Ib & Eb). exists b. split; [right; exact Ib|exact Eb].
    + intros (b & [<-|Ib] & Eb); [congruence|exists b; auto].
Qed.
Variable o : options.
Notation width := (ExtrusionWidth (Printer o)).
Lemma overlap_ok percent ps : amount_ok width percent -> exists r, overlap_all lib o percent ps = Ok r /\
  (forall x, par r x = xor_all (fun p => moved inside lib (amount width percent) p x) ps) /\
  ((forall p, In p ps -> proper_part p) -> (forall x, at_most_one (fun p => moved inside lib (amount width percent) p x = true) ps) -> proper r).
Proof.
  intros H. induction ps as [|p ps IH]; cbn [overlap_all xor_all].
  - exists []. split; [reflexivity|]. split; [reflexivity|]. intros _ _. apply proper_nil.
  - destruct (overlap_one p percent width H) as (r1 & -> & P1 & M1). cbn [bind]. destruct IH as (r & -> & M & Pr). cbn [bind]. exists (r1 ++ r). split; [reflexivity|]. split.
    + intros x. rewrite par_app, M1, M. reflexivity.
    + intros Hp A. assert (Q1 : proper r1) by (apply P1; left; apply Hp; left; reflexivity).
      assert (Q : proper r) by (apply Pr; [intros q Iq; apply Hp; right; exact Iq|intros x; exact (proj2 (A x))]).
      apply proper_app; [exact Q1|exact Q|]. intros x C1 C. apply (par_proper _ _ Q1) in C1. apply (par_proper _ _ Q) in C. rewrite M1 in C1. rewrite M in C.
      apply (xor_one _ _ (proj2 (A x))) in C. destruct C as (q & Iq & Eq). exact (proj1 (A x) C1 q Iq Eq).
Qed.
Lemma shrink_proper percent ps : amount_ok width percent -> 0 <= amount width percent -> proper ps -> exists r, overlap_all lib o percent ps = Ok r /\ proper r /\
  forall x, (covered r x <-> exists p, In p ps /\ moved inside lib (amount width percent) p x = true) /\ (covered r x -> covered ps x).
Proof.
  intros H G Pr. assert (A : forall x, at_most_one (fun p => moved inside lib (amount width percent) p x = true) ps).
  { intros x. destruct Pr as [Hp Ha]. specialize (Ha x). induction ps as [|p ps IH]; [exact I|]. cbn [at_most_one] in *. destruct Ha as [H1 H2]. split; [|apply IH; [intros q Iq; apply Hp; right; exact Iq|exact H2]].
    intros M q Iq Mq. apply moved_shrink in M; [|exact G]. apply moved_shrink in Mq; [|exact G].
    apply (H1 (proj1 (proper_part_parity inside p x (Hp p (or_introl eq_refl))) M) q Iq). exact (proj1 (proper_part_parity inside q x (Hp q (or_intror Iq))) Mq). }
  destruct (overlap_ok percent ps H) as (r & Er & Hx & Hp). exists r. split; [exact Er|]. assert (Q : proper r) by (apply Hp; [exact (proj1 Pr)|exact A]). split; [exact Q|].
  intros x. assert (C : covered r x <-> exists p, In p ps /\ moved inside lib (amount width percent) p x = true). { rewrite <- (par_proper r x Q), Hx. apply xor_one, A. }
  split; [exact C|]. rewrite C. intros (p & Ip & M). apply moved_shrink in M; [|exact G]. exists p. split; [exact Ip|]. exact (proj1 (proper_part_parity inside p x (proj1 Pr p Ip)) M).
Qed.

(** *** bottom and top areas *)
Lemma union_ok msg acc parts : exists r, union_up lib msg acc parts = Ok r /\ (forall x, par r x = par acc x || par parts x) /\ (r = parts \/ r = [] \/ clip_result lib r) /\ (proper parts -> proper r).
Proof.
  unfold union_up. destruct acc as [|a acc].
  - exists parts. auto.
  - destruct (ok_run msg CtUnion (a :: acc) parts) as (r & H1 & H2 & H3 & H4). exists r. split; [exact H1|]. split; [exact H4|]. split; [right; exact H3|auto].
Qed.
Lemma difference_ok p l : exists r, partDifference lib p l = Ok r /\ proper r /\ (r = [] \/ clip_result lib r) /\ forall x, par r x = par [p] x && negb (par (LayerParts l) x).
Proof. unfold partDifference. exact (ok_run _ CtDifference [p] (LayerParts l)). Qed.
(** the shapes the areas can have *)
Definition area (p : part) (r : list part) : Prop := (r = [p] \/ r = [] \/ clip_result lib r) /\ (proper_part p -> proper r).
Lemma area_union msg p acc parts : area p acc -> area p parts -> exists r, union_up lib msg acc parts = Ok r /\ area p r /\ forall x, par r x = par acc x || par parts x.
Proof.
  intros [A1 A2] [B1 B2]. destruct (union_ok msg acc parts) as (r & H1 & H2 & H3 & H4). exists r. split; [exact H1|]. split; [|exact H2]. split.
  - destruct H3 as [->|H3]; [exact B1|right; exact H3].
  - intros Hp. apply H4. exact (B2 Hp).
Qed.
Lemma area_one p : area p [p].
Proof. split; [left; reflexivity|apply proper_one]. Qed.
Lemma area_nil p : area p [].
Proof. split; [right; left; reflexivity|]. intros _. apply proper_nil. Qed.
Lemma bottom_ok layers n p : (n < List.length layers)%nat -> forall k i acc, area p acc ->
  exists r, bottom_loop lib layers (Z.of_nat n) p k (Z.of_nat i) acc = Ok r /\ area p r /\ forall x, par r x = true <->
    par acc x = true \/ par [p] x = true /\ exists j, (i <= j < i + k)%nat /\ (j = n \/ exists l, (j < n)%nat /\ nth_error layers (n - 1 - j) = Some l /\ par (LayerParts l) x = false).
Proof.
  intros Hn. induction k as [|k IH]; intros i acc A; cbn [bottom_loop].
  - exists acc. split; [reflexivity|]. split; [exact A|]. intros x. split; [auto|]. intros [H|(_ & j & Hj & _)]; [exact H|lia].
  - destruct (Z.eqb_spec (Z.of_nat n - Z.of_nat i) 0) as [Z0|NZ].
    + assert (i = n) by lia. subst i. destruct (area_union "could not union bottom parts" p acc [p] A (area_one p)) as (r1 & -> & A1 & H1). cbn [bind].
      replace (Z.of_nat n + 1) with (Z.of_nat (S n)) by lia. destruct (IH (S n) r1 A1) as (r & Er & Ar & Hr). exists r. split; [exact Er|]. split; [exact Ar|].
      intros x. rewrite Hr, H1, orb_true_iff. split.
      * intros [[H|H]|(H & j & Hj & [->|(l & Hl & _)])]; [left; exact H|right; split; [exact H|exists n; split; [lia|left; reflexivity]]|lia|lia].
      * intros [H|(H & j & Hj & D)]; [left; left; exact H|]. left. right. exact H.
    + destruct (Z.ltb_spec (Z.of_nat n) (Z.of_nat i)) as [Lt|Ge].
      * exists acc. split; [reflexivity|]. split; [exact A|]. intros x. split; [auto|]. intros [H|(_ & j & Hj & [->|(l & Hl & _)])]; [exact H|lia|lia].
      * replace (Z.of_nat n - 1 - Z.of_nat i) with (Z.of_nat (n - 1 - i)) by lia. rewrite idx_nth.
        destruct (nth_error layers (n - 1 - i)) as [l|] eqn:El; [|apply nth_error_None in El; lia]. cbn [bind].
        destruct (difference_ok p l) as (parts & -> & Pd & Sd & Hd). cbn [bind]. destruct (area_union "could not union bottom parts" p acc parts A (conj (or_intror Sd) (fun _ => Pd))) as (r1 & -> & A1 & H1). cbn [bind].
        replace (Z.of_nat i + 1) with (Z.of_nat (S i)) by lia. destruct (IH (S i) r1 A1) as (r & Er & Ar & Hr). exists r. split; [exact Er|]. split; [exact Ar|].
        intros x. rewrite Hr, H1, Hd, orb_true_iff, andb_true_iff, negb_true_iff. split.
        -- intros [[H|(H & Hl)]|(H & j & Hj & D)]; [left; exact H|right; split; [exact H|]; exists i; split; [lia|]; right; exists l; repeat split; [lia|exact El|exact Hl]|].
           right. split; [exact H|]. exists j. split; [lia|exact D].
        -- intros [H|(H & j & Hj & D)]; [left; left; exact H|]. destruct (Nat.eq_dec j i) as [->|N].
           ++ destruct D as [->|(l2 & _ & E2 & H2)]; [lia|]. rewrite El in E2. injection E2 as <-. left. right. auto.
           ++ right. split; [exact H|]. exists j. split; [lia|exact D].
Qed.
Lemma top_ok layers n p : (n < List.length layers)%nat -> forall k i acc, area p acc ->
  exists r, top_loop lib layers (Z.of_nat n) p k (Z.of_nat i) acc = Ok r /\ area p r /\ forall x, par r x = true <->
    par acc x = true \/ par [p] x = true /\ exists j, (i <= j < i + k)%nat /\ (n + j + 1 = List.length layers \/ exists l, nth_error layers (n + 1 + j) = Some l /\ par (LayerParts l) x = false)%nat.
Proof.
  intros Hn. induction k as [|k IH]; intros i acc A; cbn [top_loop].
  - exists acc. split; [reflexivity|]. split; [exact A|]. intros x. split; [auto|]. intros [H|(_ & j & Hj & _)]; [exact H|lia].
  - destruct (Z.eqb_spec (Z.of_nat n + Z.of_nat i) (Z.of_nat (List.length layers) - 1)) as [Z0|NZ].
    + destruct (area_union "could not union top parts" p acc [p] A (area_one p)) as (r1 & -> & A1 & H1). cbn [bind].
      replace (Z.of_nat i + 1) with (Z.of_nat (S i)) by lia. destruct (IH (S i) r1 A1) as (r & Er & Ar & Hr). exists r. split; [exact Er|]. split; [exact Ar|].
      intros x. rewrite Hr, H1, orb_true_iff. split.
      * intros [[H|H]|(H & j & Hj & D)]; [left; exact H|right; split; [exact H|exists i; split; [lia|left; lia]]|right; split; [exact H|exists j; split; [lia|exact D]]].
      * intros [H|(H & j & Hj & D)]; [left; left; exact H|]. left. right. exact H.
    + destruct (Z.leb_spec (Z.of_nat (List.length layers)) (Z.of_nat n + 1 + Z.of_nat i)) as [Lt|Ge].
      * exists acc. split; [reflexivity|]. split; [exact A|]. intros x. split; [auto|]. intros [H|(_ & j & Hj & [D|(l & Hl & _)])]; [exact H|lia|].
        assert (n + 1 + j < List.length layers)%nat by (apply nth_error_Some; congruence). lia.
      * replace (Z.of_nat n + 1 + Z.of_nat i) with (Z.of_nat (n + 1 + i)) by lia. rewrite idx_nth.
        destruct (nth_error layers (n + 1 + i)) as [l|] eqn:El; [|apply nth_error_None in El; lia]. cbn [bind].
        destruct (difference_ok p l) as (parts & -> & Pd & Sd & Hd). cbn [bind]. destruct (area_union "could not union top parts" p acc parts A (conj (or_intror Sd) (fun _ => Pd))) as (r1 & -> & A1 & H1). cbn [bind].
        replace (Z.of_nat i + 1) with (Z.of_nat (S i)) by lia. destruct (IH (S i) r1 A1) as (r & Er & Ar & Hr). exists r. split; [exact Er|]. split; [exact Ar|].
        intros x. rewrite Hr, H1, Hd, orb_true_iff, andb_true_iff, negb_true_iff. split.
        -- intros [[H|(H & Hl)]|(H & j & Hj & D)]; [left; exact H|right; split; [exact H|]; exists i; split; [lia|]; right; exists l; split; [exact El|exact Hl]|].
           right. split; [exact H|]. exists j. split; [lia|exact D].
        -- intros [H|(H & j & Hj & D)]; [left; left; exact H|]. destruct (Nat.eq_dec j i) as [->|N].
           ++ destruct D as [D|(l2 & E2 & H2)]; [lia|]. rewrite El in E2. injection E2 as <-. left. right. auto.
           ++ right. split; [exact H|]. exists j. split; [lia|exact D].
Qed.

(** *** the infill of a layer *)
Notation full := (add64 (InfillOverlapPercent (Print o)) (AdditionalInternalInfillOverlapPercent (Print o))).
Hypothesis Hfull : amount_ok width full.
(** a part's solid area, before and after moving its borders *)
Definition solid_area (loop : list layer -> Z -> part -> nat -> Z -> list part -> res (list part)) (layers : list layer) (n : nat) (p : part) (count : Z) (x : P) : Prop :=
  exists r e, loop layers (Z.of_nat n) p (Z.to_nat count) 0 [] = Ok r /\ overlap_all lib o full r = Ok e /\ par e x = true.
Notation NB := (NumberBottomLayers (Print o)).
Notation NT := (NumberTopLayers (Print o)).
Definition solid_b layers n p x := solid_area (bottom_loop lib) layers n p NB x.
Definition solid_t layers n p x := solid_area (top_loop lib) layers n p NT x.

Lemma clip_into_ok bd internal acc : proper acc -> exists r, clip_into lib bd internal acc = Ok r /\ proper r /\ forall x, covered r x <-> covered acc x \/ par internal x = true /\ par bd x = true.
Proof.
  intros A. unfold clip_into. destruct internal as [|i0 internal].
  - exists acc. split; [reflexivity|]. split; [exact A|]. intros x. rewrite par_nil. split; [auto|]. intros [H|(H & _)]; [exact H|discriminate].
  - destruct (ok_run "error while intersecting infill areas by the overlapping border" CtIntersection (i0 :: internal) bd) as (c & H1 & P1 & _ & M1).
    change (Intersection lib (i0 :: internal) bd) with (runClipper lib CtIntersection (i0 :: internal) bd). rewrite H1. cbn [bind].
    destruct (ok_run "error while calculating the union of new infill with already existing one" CtUnion acc c) as (r & H2 & P2 & _ & M2).
    change (Union lib acc c) with (runClipper lib CtUnion acc c). rewrite H2. exists r. split; [reflexivity|]. split; [exact P2|].
    intros x. rewrite <- (par_proper r x P2), M2. cbn [op]. rewrite orb_true_iff, M1. cbn [op]. rewrite andb_true_iff, (par_proper acc x A). reflexivity.
Qed.
Lemma infill_part_ok layers n ov k bd p bs ts : (n < List.length layers)%nat -> idx ov k = Ok bd -> proper bs -> proper ts ->
  exists bs' ts', infill_part lib o layers (Z.of_nat n) ov k p (bs, ts) = Ok (bs', ts') /\ proper bs' /\ proper ts' /\
    (forall x, covered bs' x <-> covered bs x \/ solid_b layers n p x /\ par bd x = true) /\
    (forall x, covered ts' x <-> covered ts x \/ solid_t layers n p x /\ par bd x = true).
Proof.
  intros Hn Hb Pb Pt. unfold infill_part.
  destruct (bottom_ok layers n p Hn (Z.to_nat NB) 0 [] (area_nil p)) as (rb & Eb & _ & _). change (Z.of_nat 0) with 0 in Eb. rewrite Eb. cbn [bind].
  destruct (top_ok layers n p Hn (Z.to_nat NT) 0 [] (area_nil p)) as (rt & Et & _ & _). change (Z.of_nat 0) with 0 in Et. rewrite Et. cbn [bind]. cbv zeta.
  destruct (overlap_ok full rb Hfull) as (eb & Ob & _). rewrite Ob. cbn [bind]. destruct (overlap_ok full rt Hfull) as (et & Ot & _). rewrite Ot. cbn [bind]. rewrite Hb.
  assert (Sb : forall x, solid_b layers n p x <-> par eb x = true).
  { intros x. unfold solid_b, solid_area. split; [intros (r & e & E1 & E2 & E3); rewrite Eb in E1; injection E1 as <-; rewrite Ob in E2; injection E2 as <-; exact E3|]. intros H. exists rb, eb. auto. }
  assert (St : forall x, solid_t layers n p x <-> par et x = true).
  { intros x. unfold solid_t, solid_area. split; [intros (r & e & E1 & E2 & E3); rewrite Et in E1; injection E1 as <-; rewrite Ot in E2; injection E2 as <-; exact E3|]. intros H. exists rt, et. auto. }
  destruct (clip_into_ok bd eb bs Pb) as (bs' & Cb & Pb' & Hb'). destruct (clip_into_ok bd et ts Pt) as (ts' & Ct & Pt' & Ht').
  exists bs', ts'. split.
  - assert (Xb : match eb with [] => Ok bs | _ => let* bd0 := Ok bd in clip_into lib bd0 eb bs end = Ok bs') by (destruct eb; [exact Cb|exact Cb]).
    assert (Xt : match et with [] => Ok ts | _ => let* bd0 := Ok bd in clip_into lib bd0 et ts end = Ok ts') by (destruct et; [exact Ct|exact Ct]).
    cbn [bind] in Xb, Xt |- *. rewrite Xb. cbn [bind]. rewrite Xt. reflexivity.
  - split; [exact Pb'|]. split; [exact Pt'|]. split; intros x; [rewrite Hb', Sb|rewrite Ht', St]; reflexivity.
Qed.
Lemma infill_parts_ok layers n ov k bd : (n < List.length layers)%nat -> idx ov k = Ok bd -> forall ps bs ts, proper bs -> proper ts ->
  exists bs' ts', infill_parts lib o layers (Z.of_nat n) ov k ps (bs, ts) = Ok (bs', ts') /\ proper bs' /\ proper ts' /\
    (forall x, covered bs' x <-> covered bs x \/ exists p, In p ps /\ solid_b layers n p x /\ par bd x = true) /\
    (forall x, covered ts' x <-> covered ts x \/ exists p, In p ps /\ solid_t layers n p x /\ par bd x = true).
Proof.
  intros Hn Hb. induction ps as [|p ps IH]; intros bs ts Pb Pt; cbn [infill_parts].
  - exists bs, ts. split; [reflexivity|]. split; [exact Pb|]. split; [exact Pt|]. split; intros x; (split; [auto|intros [H|(q & [] & _)]; exact H]).
  - destruct (infill_part_ok layers n ov k bd p bs ts Hn Hb Pb Pt) as (bs1 & ts1 & -> & Pb1 & Pt1 & Hb1 & Ht1). cbn [bind].
    destruct (IH bs1 ts1 Pb1 Pt1) as (bs' & ts' & -> & Pb' & Pt' & Hb' & Ht'). exists bs', ts'. split; [reflexivity|]. split; [exact Pb'|]. split; [exact Pt'|]. split; intros x.
    + rewrite Hb', Hb1. split.
      * intros [[H|H]|(q & Iq & H)]; [left; exact H|right; exists p; split; [left; reflexivity|exact H]|right; exists q; split; [right; exact Iq|exact H]].
      * intros [H|(q & [<-|Iq] & H)]; [left; left; exact H|left; right; exact H|right; exists q; auto].
    + rewrite Ht', Ht1. split.
      * intros [[H|H]|(q & Iq & H)]; [left; exact H|right; exists p; split; [left; reflexivity|exact H]|right; exists q; split; [right; exact Iq|exact H]].
      * intros [H|(q & [<-|Iq] & H)]; [left; left; exact H|left; right; exact H|right; exists q; auto].
Qed.
Lemma idx_last {A} (e : list A) d : e <> [] -> idx e (Z.of_nat (List.length e) - 1) = Ok (last e d).
Proof.
  intros N. destruct (exists_last N) as (l & a & ->). rewrite last_last, app_length. cbn [List.length]. replace (Z.of_nat (List.length l + 1) - 1) with (Z.of_nat (List.length l)) by lia.
  rewrite idx_nth, nth_error_app2, Nat.sub_diag by lia. reflexivity.
Qed.
Lemma infill_entries_ok layers n ov : (n < List.length layers)%nat -> forall pe k bs ts, (k + List.length pe <= List.length ov)%nat -> (forall e, In e pe -> e <> []) -> proper bs -> proper ts ->
  exists bs' ts', infill_entries lib o layers (Z.of_nat n) ov (Z.of_nat k) pe (bs, ts) = Ok (bs', ts') /\ proper bs' /\ proper ts' /\
    (forall x, covered bs' x <-> covered bs x \/ exists j e bd p, nth_error pe j = Some e /\ nth_error ov (k + j) = Some bd /\ In p (last e []) /\ solid_b layers n p x /\ par bd x = true) /\
    (forall x, covered ts' x <-> covered ts x \/ exists j e bd p, nth_error pe j = Some e /\ nth_error ov (k + j) = Some bd /\ In p (last e []) /\ solid_t layers n p x /\ par bd x = true).
Proof.
  intros Hn. induction pe as [|e pe IH]; intros k bs ts Hk He Pb Pt; cbn [infill_entries].
  - exists bs, ts. split; [reflexivity|]. split; [exact Pb|]. split; [exact Pt|]. split; intros x; (split; [auto|intros [H|(j & e & bd & p & Hj & _)]; [exact H|destruct j; discriminate]]).
  - cbn [List.length] in Hk. rewrite (idx_last e []) by (apply He; left; reflexivity). cbn [bind].
    destruct (nth_error ov k) as [bd|] eqn:Ebd; [|apply nth_error_None in Ebd; lia].
    destruct (infill_parts_ok layers n ov (Z.of_nat k) bd Hn ltac:(rewrite idx_nth, Ebd; reflexivity) (last e []) bs ts Pb Pt) as (bs1 & ts1 & -> & Pb1 & Pt1 & Hb1 & Ht1). cbn [bind].
    replace (Z.of_nat k + 1) with (Z.of_nat (S k)) by lia.
    destruct (IH (S k) bs1 ts1 ltac:(lia) (fun e' I' => He e' (or_intror I')) Pb1 Pt1) as (bs' & ts' & -> & Pb' & Pt' & Hb' & Ht'). exists bs', ts'. split; [reflexivity|]. split; [exact Pb'|]. split; [exact Pt'|].
    split; intros x.
    + rewrite Hb', Hb1. split.
      * intros [[H|(p & Ip & H)]|(j & e' & bd' & p & Hj & Hbd & H)]; [left; exact H|right; exists O, e, bd, p; rewrite Nat.add_0_r; auto|].
        right. exists (S j), e', bd', p. rewrite Nat.add_succ_r. auto.
      * intros [H|([|j] & e' & bd' & p & Hj & Hbd & Ip & H)]; [left; left; exact H| |].
        -- cbn in Hj. injection Hj as <-. rewrite Nat.add_0_r, Ebd in Hbd. injection Hbd as <-. left. right. exists p. auto.
        -- right. exists j, e', bd', p. rewrite Nat.add_succ_r in Hbd. auto.
    + rewrite Ht', Ht1. split.
      * intros [[H|(p & Ip & H)]|(j & e' & bd' & p & Hj & Hbd & H)]; [left; exact H|right; exists O, e, bd, p; rewrite Nat.add_0_r; auto|].
        right. exists (S j), e', bd', p. rewrite Nat.add_succ_r. auto.
      * intros [H|([|j] & e' & bd' & p & Hj & Hbd & Ip & H)]; [left; left; exact H| |].
        -- cbn in Hj. injection Hj as <-. rewrite Nat.add_0_r, Ebd in Hbd. injection Hbd as <-. left. right. exists p. auto.
        -- right. exists j, e', bd', p. rewrite Nat.add_succ_r in Hbd. auto.
Qed.
End Area.
