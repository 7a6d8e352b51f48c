(** An exact clipping library for the examples: areas are unions of vertical strips, a contour with the points
    a, b, c, d, ... surrounds the points x with an odd number of a, b, c, d, ... to their left. *)
From Coq Require Import Sorting.Sorted.
From Verif Require Import GoBase GoFloat M_Micrometer M_Geom2D M_Clip S_Clip S_Area L_Area.
Local Open Scope Z_scope.

Fixpoint ends (p : path) : list Z := match p with a :: b :: r => px a :: px b :: ends r | _ => [] end.
Fixpoint odd_le (l : list Z) (x : Z) : bool := match l with [] => false | e :: l' => xorb (e <=? x) (odd_le l' x) end.
Definition in_strips (p : path) (x : Z) : bool := odd_le (ends p) x.
Fixpoint insert (a : Z) (l : list Z) : list Z :=
  match l with [] => [a] | b :: l' => if a <? b then a :: l else if a =? b then l else b :: insert a l' end.
Definition sort (l : list Z) : list Z := fold_right insert [] l.
(** where a function changes *)
Definition toggles (f : Z -> bool) (bps : list Z) : list Z := filter (fun b => xorb (f b) (f (b - 1))) (sort bps).
Fixpoint pairs (l : list Z) : list (Z * Z) := match l with a :: b :: r => (a, b) :: pairs r | _ => [] end.
Definition strip (ab : Z * Z) : node := Node [Pt (fst ab) 0; Pt (snd ab) 0] [].
Definition strips (f : Z -> bool) (bps : list Z) : list node := map strip (pairs (toggles f bps)).

Definition paths_of (t : poly_type) (l : list added) : list path :=
  flat_map (fun a => match a with (t', _, p) => match t, t' with PtSubject, PtSubject | PtClip, PtClip => [p] | _, _ => [] end end) l.
Definition strip_execute (_ : bool) (t : clip_type) (l : list added) : option (list node * Z) :=
  let s := paths_of PtSubject l in
  let c := paths_of PtClip l in
  let r := strips (fun x => op t (parity in_strips s x) (parity in_strips c x)) (flat_map ends (s ++ c)) in
  Some (r, Z.of_nat (List.length r)).
Definition whole (d : f64) : Z :=
  match d with S754_finite s m e => if s then - Z.abs (trunc_Z (Zpos m) e) else Z.abs (trunc_Z (Zpos m) e) | _ => 0 end.
Definition strip_offset (d : f64) (cs : list path) : list node :=
  let k := whole d in
  let ss := map (fun ab => (fst ab - k, snd ab + k)) (pairs (toggles (parity in_strips cs) (flat_map ends cs))) in
  strips (fun x => existsb (fun ab => (fst ab <=? x) && (x <? snd ab)) ss) (flat_map (fun ab => [fst ab; snd ab]) ss).
Definition strip_lib : clib := CLib strip_execute strip_offset (fun p => p) (fun _ => f64_of_Z 0) (fun _ => f64_of_Z 1).

(** *** *)
Lemma odd_app a b x : odd_le (a ++ b) x = xorb (odd_le a x) (odd_le b x).
Proof. induction a as [|e a IH]; cbn; [destruct (odd_le b x); reflexivity|]. rewrite IH, xorb_assoc. reflexivity. Qed.
Lemma parity_odd cs x : parity in_strips cs x = odd_le (flat_map ends cs) x.
Proof. induction cs as [|c cs IH]; cbn; [reflexivity|]. rewrite odd_app, IH. reflexivity. Qed.
Lemma odd_step l x : NoDup l -> xorb (odd_le l x) (odd_le l (x - 1)) = if in_dec Z.eq_dec x l then true else false.
Proof.
  induction 1 as [|e l N D IH]; cbn [odd_le]; [reflexivity|].
  replace (xorb (xorb (e <=? x) (odd_le l x)) (xorb (e <=? x - 1) (odd_le l (x - 1)))) with (xorb (xorb (e <=? x) (e <=? x - 1)) (xorb (odd_le l x) (odd_le l (x - 1))))
    by (destruct (e <=? x), (e <=? x - 1), (odd_le l x), (odd_le l (x - 1)); reflexivity).
  rewrite IH. cbn [In in_dec]. destruct (Z.eq_dec e x) as [->|Ne].
  - assert (x <=? x = true) as -> by (apply Z.leb_le; lia). assert (x <=? x - 1 = false) as -> by (apply Z.leb_gt; lia).
    destruct (in_dec Z.eq_dec x l); [contradiction|]. destruct (in_dec Z.eq_dec x (x :: l)) as [|C]; [reflexivity|destruct C; left; reflexivity].
  - assert ((e <=? x) = (e <=? x - 1)) as ->. { destruct (Z.leb_spec e x), (Z.leb_spec e (x - 1)); try reflexivity; lia. }
    rewrite xorb_nilpotent, xorb_false_l. destruct (in_dec Z.eq_dec x l) as [I|I]; destruct (in_dec Z.eq_dec x (e :: l)) as [J|J]; try reflexivity.
    + destruct J. right. exact I.
    + destruct J as [J|J]; contradiction.
Qed.
Lemma odd_change l x : odd_le l x <> odd_le l (x - 1) -> In x l.
Proof.
  induction l as [|e l IH]; cbn [odd_le]; [congruence|]. intros H. destruct (Z.eq_dec e x) as [->|Ne]; [left; reflexivity|]. right. apply IH. intros C. apply H. rewrite C. f_equal.
  destruct (Z.leb_spec e x), (Z.leb_spec e (x - 1)); try reflexivity; lia.
Qed.
Lemma odd_below l x : (forall e, In e l -> x < e) -> odd_le l x = false.
Proof.
  induction l as [|e l IH]; cbn [odd_le]; intros H; [reflexivity|]. rewrite IH by (intros e' I; apply H; right; exact I).
  assert (e <=? x = false) as -> by (apply Z.leb_gt, H; left; reflexivity). reflexivity.
Qed.
Lemma odd_above l x : (forall e, In e l -> e <= x) -> odd_le l x = Nat.odd (List.length l).
Proof.
  induction l as [|e l IH]; intros H; [reflexivity|]. cbn [odd_le List.length]. rewrite IH by (intros e' I; apply H; right; exact I).
  assert (e <=? x = true) as -> by (apply Z.leb_le, H; left; reflexivity). rewrite Nat.odd_succ, <- Nat.negb_odd. destruct (Nat.odd (List.length l)); reflexivity.
Qed.
Lemma ends_even p : Nat.even (List.length (ends p)) = true.
Proof.
  assert (A : forall n p, (List.length p <= n)%nat -> Nat.even (List.length (ends p)) = true).
  { induction n as [|n IH]; intros [|a [|b r]] H; cbn [ends List.length] in *; try reflexivity; try lia. apply (IH r). lia. }
  exact (A _ p (le_n _)).
Qed.
Lemma flat_ends_even cs : Nat.even (List.length (flat_map ends cs)) = true.
Proof. induction cs as [|c cs IH]; [reflexivity|]. cbn [flat_map]. rewrite app_length, Nat.even_add, IH, ends_even. reflexivity. Qed.
Lemma max_list l : exists m, forall e, In e l -> e < m.
Proof. induction l as [|e l (m & H)]; [exists 0; intros e []|]. exists (Z.max m (e + 1)). intros e' [<-|I]; [lia|specialize (H e' I); lia]. Qed.
Lemma min_list l : exists m, forall e, In e l -> m < e.
Proof. induction l as [|e l (m & H)]; [exists 0; intros e []|]. exists (Z.min m (e - 1)). intros e' [<-|I]; [lia|specialize (H e' I); lia]. Qed.

Lemma insert_in a l x : In x (insert a l) <-> x = a \/ In x l.
Proof.
  induction l as [|b l IH]; cbn [insert]; [cbn; intuition congruence|]. destruct (a <? b); [cbn; intuition congruence|]. destruct (Z.eqb_spec a b) as [->|N]; cbn [In]; [intuition congruence|]. rewrite IH. tauto.
Qed.
Lemma sort_in l x : In x (sort l) <-> In x l.
Proof. unfold sort. induction l as [|a l IH]; cbn [fold_right]; [reflexivity|]. rewrite insert_in, IH. cbn. intuition congruence. Qed.
Lemma insert_sorted a l : StronglySorted Z.lt l -> StronglySorted Z.lt (insert a l).
Proof.
  induction 1 as [|b l S IH F]; cbn [insert]; [repeat constructor|]. destruct (Z.ltb_spec a b).
  - constructor; [constructor; assumption|]. constructor; [assumption|]. rewrite Forall_forall in *. intros c I. specialize (F c I). lia.
  - destruct (Z.eqb_spec a b) as [->|N]; [constructor; assumption|]. constructor; [exact IH|]. rewrite Forall_forall in *. intros c I. apply insert_in in I. destruct I as [->|I]; [lia|exact (F c I)].
Qed.
Lemma sort_sorted l : StronglySorted Z.lt (sort l).
Proof. unfold sort. induction l as [|a l IH]; cbn [fold_right]; [constructor|]. apply insert_sorted, IH. Qed.
Lemma filter_sorted (g : Z -> bool) l : StronglySorted Z.lt l -> StronglySorted Z.lt (filter g l).
Proof.
  induction 1 as [|a l S IH F]; cbn [filter]; [constructor|]. destruct (g a); [|exact IH]. constructor; [exact IH|]. rewrite Forall_forall in *. intros b I. apply filter_In in I. apply F, I.
Qed.
Lemma sorted_nodup l : StronglySorted Z.lt l -> NoDup l.
Proof. induction 1 as [|a l S IH F]; constructor; [|exact IH]. rewrite Forall_forall in F. intros I. specialize (F a I). lia. Qed.

(** functions which are false outside and change only at the given places *)
Record stepfun (f : Z -> bool) (bps : list Z) : Prop := Stepfun {
  sf_change : forall x, f x <> f (x - 1) -> In x bps;
  sf_below : exists m, forall x, x < m -> f x = false;
  sf_above : exists m, forall x, m < x -> f x = false }.
Lemma toggles_in f bps x : stepfun f bps -> (In x (toggles f bps) <-> f x <> f (x - 1)).
Proof.
  intros S. unfold toggles. rewrite filter_In, sort_in. split.
  - intros [_ H] C. rewrite C, xorb_nilpotent in H. discriminate.
  - intros H. split; [exact (sf_change _ _ S x H)|]. destruct (f x), (f (x - 1)); try reflexivity; congruence.
Qed.
Lemma toggles_sorted f bps : StronglySorted Z.lt (toggles f bps).
Proof. apply filter_sorted, sort_sorted. Qed.
Lemma toggles_odd f bps x : stepfun f bps -> odd_le (toggles f bps) x = f x.
Proof.
  intros S. destruct (sf_below _ _ S) as (m & Hm). destruct (min_list (toggles f bps)) as (m' & Hm').
  set (k := Z.min m m' - 1). assert (B : odd_le (toggles f bps) k = f k). { rewrite Hm by lia. apply odd_below. intros e I. specialize (Hm' e I). lia. }
  destruct (Z.lt_ge_cases x k) as [L|G]; [rewrite Hm by lia; apply odd_below; intros e I; specialize (Hm' e I); lia|].
  assert (A : forall n, odd_le (toggles f bps) (k + Z.of_nat n) = f (k + Z.of_nat n)).
  { induction n as [|n IH]; [rewrite Z.add_0_r; exact B|]. set (y := k + Z.of_nat (Datatypes.S n)). replace (k + Z.of_nat n) with (y - 1) in IH by lia.
    pose proof (odd_step (toggles f bps) y (sorted_nodup _ (toggles_sorted f bps))) as St. rewrite IH in St. destruct (in_dec Z.eq_dec y (toggles f bps)) as [I|I].
    - apply (toggles_in f bps y S) in I. destruct (odd_le (toggles f bps) y), (f y), (f (y - 1)); cbn in *; congruence.
    - assert (f y = f (y - 1)) as Hy. { destruct (bool_dec (f y) (f (y - 1))) as [e|N]; [exact e|]. destruct I. apply toggles_in; assumption. }
      rewrite Hy. destruct (odd_le (toggles f bps) y), (f (y - 1)); cbn in *; congruence. }
  replace x with (k + Z.of_nat (Z.to_nat (x - k))) by lia. apply A.
Qed.
Lemma toggles_even f bps : stepfun f bps -> Nat.even (List.length (toggles f bps)) = true.
Proof.
  intros S. destruct (sf_above _ _ S) as (m & Hm). destruct (max_list (toggles f bps)) as (m' & Hm'). set (x := Z.max m m' + 1).
  pose proof (toggles_odd f bps x S) as T. rewrite Hm in T by lia. rewrite odd_above in T by (intros e I; specialize (Hm' e I); lia). rewrite <- Nat.negb_odd, T. reflexivity.
Qed.
Lemma pairs_ends l : Nat.even (List.length l) = true -> flat_map ends (flat_map contours (map strip (pairs l))) = l.
Proof.
  assert (A : forall n l, (List.length l <= n)%nat -> Nat.even (List.length l) = true -> flat_map ends (flat_map contours (map strip (pairs l))) = l).
  { induction n as [|n IH]; intros [|a [|b r]] H Ev; cbn [List.length] in *; try reflexivity; try discriminate; try lia.
    cbn [pairs map strip flat_map contours app ends px fst snd]. f_equal. f_equal. apply IH; [lia|exact Ev]. }
  exact (A _ l (le_n _)).
Qed.
Lemma strips_parity f bps x : stepfun f bps -> parity in_strips (flat_map contours (strips f bps)) x = f x.
Proof. intros S. rewrite parity_odd. unfold strips. rewrite pairs_ends by (apply toggles_even, S). apply toggles_odd, S. Qed.
Lemma pairs_in l : StronglySorted Z.lt l -> forall ab, In ab (pairs l) -> fst ab < snd ab /\ In (fst ab) l /\ In (snd ab) l.
Proof.
  assert (A : forall n l, (List.length l <= n)%nat -> StronglySorted Z.lt l -> forall ab, In ab (pairs l) -> fst ab < snd ab /\ In (fst ab) l /\ In (snd ab) l).
  { induction n as [|n IH]; intros [|a [|b r]] H S ab I; cbn [List.length pairs] in *; try lia; try contradiction.
    inversion S as [|a' l' S1 F1]; subst. inversion S1 as [|b' l'' S2 F2]; subst. destruct I as [<-|I].
    - cbn [fst snd]. inversion F1; subst. cbn; auto.
    - destruct (IH r ltac:(lia) S2 ab I) as (H1 & H2 & H3). cbn; auto. }
  exact (A _ l (le_n _)).
Qed.
Lemma strip_inside ab x : fst ab < snd ab -> (in_strips (contour (strip ab)) x = true <-> fst ab <= x < snd ab).
Proof.
  intros H. unfold in_strips, strip. cbn [contour ends px odd_le]. rewrite xorb_false_r. destruct (Z.leb_spec (fst ab) x), (Z.leb_spec (snd ab) x); cbn; split; intros; try lia; try discriminate; reflexivity.
Qed.
Lemma strips_nested f bps : nested_tree in_strips (strips f bps).
Proof.
  unfold strips. pose proof (toggles_sorted f bps) as S. split.
  - intros n I. apply in_map_iff in I. destruct I as (ab & <- & _). constructor; [intros n []|intros n x []|intros x; exact Logic.I].
  - intros x. generalize S. generalize (toggles f bps). clear S. 
    assert (A : forall n l, (List.length l <= n)%nat -> StronglySorted Z.lt l -> at_most_one (fun n => in_strips (contour n) x = true) (map strip (pairs l))).
    { induction n as [|n IH]; intros [|a [|b r]] H S; cbn [List.length pairs map at_most_one] in *; try exact Logic.I; try lia.
      inversion S as [|a' l' S1 F1]; subst. inversion S1 as [|b' l'' S2 F2]; subst. inversion F1 as [|b' l'' Hab F3]; subst. split; [|apply IH; [lia|exact S2]].
      intros Hx q Iq Hq. apply in_map_iff in Iq. destruct Iq as (cd & <- & Icd). destruct (pairs_in r S2 cd Icd) as (H1 & H2 & _).
      apply (strip_inside (a, b)) in Hx; [|exact Hab]. apply strip_inside in Hq; [|exact H1]. cbn [fst snd] in Hx. rewrite Forall_forall in F2. specialize (F2 _ H2). lia. }
    intros l. exact (A _ l (le_n _)).
Qed.
Lemma parity_stepfun cs : stepfun (parity in_strips cs) (flat_map ends cs).
Proof.
  split.
  - intros x. rewrite !parity_odd. apply odd_change.
  - destruct (min_list (flat_map ends cs)) as (m & H). exists m. intros x Hx. rewrite parity_odd. apply odd_below. intros e I. specialize (H e I). lia.
  - destruct (max_list (flat_map ends cs)) as (m & H). exists m. intros x Hx. rewrite parity_odd, odd_above by (intros e I; specialize (H e I); lia). rewrite <- Nat.negb_even, flat_ends_even. reflexivity.
Qed.
Lemma op_stepfun t f g bf bg : stepfun f bf -> stepfun g bg -> stepfun (fun x => op t (f x) (g x)) (bf ++ bg).
Proof.
  intros F G. split.
  - intros x H. apply in_app_iff. destruct (bool_dec (f x) (f (x - 1))) as [Ef|Nf]; [|left; exact (sf_change _ _ F x Nf)].
    destruct (bool_dec (g x) (g (x - 1))) as [Eg|Ng]; [congruence|right; exact (sf_change _ _ G x Ng)].
  - destruct (sf_below _ _ F) as (m & Hm). destruct (sf_below _ _ G) as (m' & Hm'). exists (Z.min m m'). intros x Hx. rewrite Hm, Hm' by lia. destruct t; reflexivity.
  - destruct (sf_above _ _ F) as (m & Hm). destruct (sf_above _ _ G) as (m' & Hm'). exists (Z.max m m'). intros x Hx. rewrite Hm, Hm' by lia. destruct t; reflexivity.
Qed.
Lemma exists_stepfun ss : stepfun (fun x => existsb (fun ab : Z * Z => (fst ab <=? x) && (x <? snd ab)) ss) (flat_map (fun ab => [fst ab; snd ab]) ss).
Proof.
  assert (H : forall m x, (forall ab, In ab ss -> x < fst ab \/ snd ab <= x) -> existsb (fun ab : Z * Z => (fst ab <=? x) && (x <? snd ab)) ss = m -> m = false).
  { intros m x H <-. destruct (existsb _ ss) eqn:Ex; [|reflexivity]. apply existsb_exists in Ex. destruct Ex as (ab & I & C). apply andb_true_iff in C. destruct C as [C1 C2].
    apply Z.leb_le in C1. apply Z.ltb_lt in C2. specialize (H ab I). lia. }
  split.
  - intros x N. clear H. induction ss as [|[a b] ss IH]; [cbn in N; congruence|]. cbn [existsb flat_map fst snd app In] in *. destruct (Z.eq_dec a x) as [->|Na]; [auto|]. destruct (Z.eq_dec b x) as [->|Nb]; [auto|].
    right. right. apply IH.
    intros C. apply N. rewrite C. f_equal. destruct (Z.leb_spec a x), (Z.leb_spec a (x - 1)), (Z.ltb_spec x b), (Z.ltb_spec (x - 1) b); try reflexivity; lia.
  - destruct (min_list (map fst ss)) as (m & Hm). exists m. intros x Hx. apply (H _ x); [|reflexivity]. intros ab I. specialize (Hm _ (in_map fst ss ab I)). lia.
  - destruct (max_list (map snd ss)) as (m & Hm). exists m. intros x Hx. apply (H _ x); [|reflexivity]. intros ab I. specialize (Hm _ (in_map snd ss ab I)). lia.
Qed.
Lemma paths_subject A B : paths_of PtSubject (closed_as PtSubject A ++ closed_as PtClip B) = A.
Proof.
  unfold paths_of, closed_as. rewrite flat_map_app. replace (flat_map _ (map (fun p : path => (PtClip, true, p)) B)) with (@nil path) by (induction B; [reflexivity|assumption]).
  rewrite app_nil_r. induction A as [|a A IH]; [reflexivity|]. cbn [map flat_map app]. rewrite IH. reflexivity.
Qed.
Lemma paths_clip A B : paths_of PtClip (closed_as PtSubject A ++ closed_as PtClip B) = B.
Proof.
  unfold paths_of, closed_as. rewrite flat_map_app. replace (flat_map _ (map (fun p : path => (PtSubject, true, p)) A)) with (@nil path) by (induction A; [reflexivity|assumption]).
  induction B as [|a B IH]; [reflexivity|]. cbn [map flat_map app]. f_equal. exact IH.
Qed.
Lemma normalize_sign s z : 0 <= z -> match SpecFloat.binary_normalize 53 1024 z 0 s with S754_finite true _ _ => False | _ => True end.
Proof.
  intros H. destruct z as [|p|p]; [destruct s; exact I| |lia]. cbn [SpecFloat.binary_normalize]. unfold SpecFloat.binary_round. destruct (SpecFloat.shl_align _ _ _) as [m e].
  unfold SpecFloat.binary_round_aux. destruct (SpecFloat.shr_fexp _ _ _ _ _) as [m1 e1]. destruct (SpecFloat.shr_fexp _ _ (SpecFloat.round_nearest_even _ _) _ _) as [m2 e2].
  destruct (SpecFloat.shr_m m2); try exact I. destruct (e2 <=? _); exact I.
Qed.
Lemma normalize_sign_neg s z : z <= 0 -> match SpecFloat.binary_normalize 53 1024 z 0 s with S754_finite false _ _ => False | _ => True end.
Proof.
  intros H. destruct z as [|p|p]; [destruct s; exact I|lia|]. cbn [SpecFloat.binary_normalize]. unfold SpecFloat.binary_round. destruct (SpecFloat.shl_align _ _ _) as [m e].
  unfold SpecFloat.binary_round_aux. destruct (SpecFloat.shr_fexp _ _ _ _ _) as [m1 e1]. destruct (SpecFloat.shr_fexp _ _ (SpecFloat.round_nearest_even _ _) _ _) as [m2 e2].
  destruct (SpecFloat.shr_m m2); try exact I. destruct (e2 <=? _); exact I.
Qed.
Lemma whole_pos z : 0 <= z -> 0 <= whole (f64_of_Z z).
Proof. intros H. pose proof (normalize_sign false z H) as N. unfold whole, f64_of_Z. destruct (SpecFloat.binary_normalize 53 1024 z 0 false) as [?|?| |[|] m e]; try lia. Qed.
Lemma whole_neg z : z <= 0 -> whole (f64_of_Z z) <= 0.
Proof. intros H. pose proof (normalize_sign_neg false z H) as N. unfold whole, f64_of_Z. destruct (SpecFloat.binary_normalize 53 1024 z 0 false) as [?|?| |[|] m e]; try lia. Qed.
Lemma pairs_cover f bps x : stepfun f bps -> (f x = true <-> exists ab, In ab (pairs (toggles f bps)) /\ fst ab <= x < snd ab).
Proof.
  intros S. rewrite <- (strips_parity f bps x S). unfold strips. pose proof (strips_nested f bps) as [_ One]. specialize (One x). unfold strips in One.
  assert (C : flat_map contours (map strip (pairs (toggles f bps))) = map contour (map strip (pairs (toggles f bps)))).
  { induction (pairs (toggles f bps)) as [|ab l IH]; [reflexivity|]. cbn [map flat_map contours strip app contour]. f_equal. apply IH.
    cbn [map at_most_one] in One. exact (proj2 One). }
  rewrite C. assert (A : at_most_one (fun h => in_strips h x = true) (map contour (map strip (pairs (toggles f bps))))).
  { clear C. induction (map strip (pairs (toggles f bps))) as [|n l IH]; [exact I|]. cbn [map at_most_one] in *. destruct One as [O1 O2]. split; [|exact (IH O2)].
    intros Hn q Iq. apply in_map_iff in Iq. destruct Iq as (m & <- & Im). exact (O1 Hn m Im). }
  rewrite (parity_one in_strips _ x A). split.
  - intros (h & Ih & Hh). apply in_map_iff in Ih. destruct Ih as (n & <- & In_). apply in_map_iff in In_. destruct In_ as (ab & <- & Iab). exists ab. split; [exact Iab|].
    apply strip_inside; [|exact Hh]. exact (proj1 (pairs_in _ (toggles_sorted f bps) ab Iab)).
  - intros (ab & Iab & Hx). exists (contour (strip ab)). split; [apply in_map, in_map, Iab|]. apply strip_inside; [|exact Hx]. exact (proj1 (pairs_in _ (toggles_sorted f bps) ab Iab)).
Qed.
Lemma offset_parity d cs x : parity in_strips (flat_map contours (strip_offset d cs)) x = true <->
  exists ab, In ab (pairs (toggles (parity in_strips cs) (flat_map ends cs))) /\ fst ab - whole d <= x < snd ab + whole d.
Proof.
  unfold strip_offset. rewrite strips_parity by apply exists_stepfun. rewrite existsb_exists. split.
  - intros (cd & Icd & H). apply in_map_iff in Icd. destruct Icd as (ab & <- & Iab). exists ab. split; [exact Iab|]. cbn [fst snd] in H. apply andb_true_iff in H. destruct H as [H1 H2].
    apply Z.leb_le in H1. apply Z.ltb_lt in H2. lia.
  - intros (ab & Iab & H). exists (fst ab - whole d, snd ab + whole d). split; [exact (in_map (fun ab : Z * Z => (fst ab - whole d, snd ab + whole d)) _ ab Iab)|]. cbn [fst snd].
    apply andb_true_iff. split; [apply Z.leb_le|apply Z.ltb_lt]; lia.
Qed.
Theorem strip_exact : exact in_strips strip_lib.
Proof.
  split.
  - intros t A B. cbn [execute strip_lib]. unfold strip_execute. rewrite paths_subject, paths_clip. eexists. eexists. split; [reflexivity|]. split; [apply strips_nested|].
    intros x. rewrite flat_map_app. exact (strips_parity (fun x => op t (parity in_strips A x) (parity in_strips B x)) _ x (op_stepfun t _ _ _ _ (parity_stepfun A) (parity_stepfun B))).
  - intros d cs. cbn [offset strip_lib]. unfold strip_offset. apply strips_nested.
  - intros d cs x Hd H. cbn [offset strip_lib]. apply offset_parity. apply (pairs_cover _ _ _ (parity_stepfun cs)) in H. destruct H as (ab & Iab & Hx). exists ab. split; [exact Iab|]. pose proof (whole_pos d Hd). lia.
  - intros d cs x Hd H. cbn [offset strip_lib] in H. apply offset_parity in H. destruct H as (ab & Iab & Hx). apply (pairs_cover _ _ _ (parity_stepfun cs)). exists ab. split; [exact Iab|]. pose proof (whole_neg d Hd). lia.
Qed.

(** an area without gaps comes out as one part *)
Lemma strip_nodes f bps : polyTreeToLayerParts (strips f bps) = Ok (map (fun ab => Part [Pt (fst ab) 0; Pt (snd ab) 0] []) (pairs (toggles f bps))).
Proof.
  unfold strips. generalize (pairs (toggles f bps)) as l. intros l. unfold polyTreeToLayerParts. destruct l as [|ab l]; [reflexivity|].
  assert (R : forall l, round (map strip l) = (map (fun ab => Part [Pt (fst ab) 0; Pt (snd ab) 0] []) l, [])). { clear. induction l as [|ab l IH]; [reflexivity|]. cbn [map round strip contour childs flat_map app]. rewrite IH. reflexivity. }
  assert (S : exists k, list_sum (map nsize (map strip (ab :: l))) = S k) by (cbn; eauto). destruct S as (k & ->).
  cbn [rounds]. change (map strip (ab :: l)) with (strip ab :: map strip l). cbn iota. change (strip ab :: map strip l) with (map strip (ab :: l)). rewrite R.
  assert (Z : rounds k [] = Ok []) by (destruct k; reflexivity). rewrite Z. cbn [bind]. rewrite app_nil_r. reflexivity.
Qed.
Lemma strip_in_part ab x : fst ab < snd ab -> (in_part in_strips (Part [Pt (fst ab) 0; Pt (snd ab) 0] []) x <-> fst ab <= x < snd ab).
Proof. intros H. rewrite <- (strip_inside ab x H). unfold in_part. cbn [outline holes]. split; [intros [A _]; exact A|]. intros A. split; [exact A|intros h []]. Qed.
Lemma strip_convex ps : (exists t subject clip tree n, execute strip_lib false t (closed_as PtSubject subject ++ closed_as PtClip clip) = Some (tree, n) /\ polyTreeToLayerParts tree = Ok ps) ->
  (forall x y z, x <= y <= z -> covered in_strips ps x -> covered in_strips ps z -> covered in_strips ps y) -> ps = [] \/ exists p, ps = [p].
Proof.
  intros (t & A & B & tree & n & E & Q) C. cbn [execute strip_lib] in E. unfold strip_execute in E. injection E as <- _. rewrite strip_nodes in Q. injection Q as <-.
  set (tg := toggles _ _) in *. assert (S : StronglySorted Z.lt tg) by apply toggles_sorted. clearbody tg. destruct tg as [|a [|b [|c [|d tg]]]]; cbn [pairs map] in *; eauto. exfalso.
  pose proof (pairs_in _ S) as PI. cbn [pairs] in PI. destruct (PI (a, b)) as (Lab & _); [left; reflexivity|]. destruct (PI (c, d)) as (Lcd & _); [right; left; reflexivity|]. cbn [fst snd] in *.
  assert (Lbc : b < c). { inversion S as [|? ? S1 _]; subst. inversion S1 as [|? ? _ F]; subst. inversion F; subst. assumption. }
  destruct (C a b c) as (p & Ip & Hp); [lia| | |].
  - exists (Part [Pt a 0; Pt b 0] []). split; [left; reflexivity|]. apply (strip_in_part (a, b)); cbn [fst snd]; lia.
  - exists (Part [Pt c 0; Pt d 0] []). split; [right; left; reflexivity|]. apply (strip_in_part (c, d)); cbn [fst snd]; lia.
  - destruct Ip as [<-|Ip]; [apply (strip_in_part (a, b)) in Hp; cbn [fst snd] in *; lia|].
    change (In p (map (fun ab : Z * Z => Part [Pt (fst ab) 0; Pt (snd ab) 0] []) ((c, d) :: pairs tg))) in Ip. apply in_map_iff in Ip. destruct Ip as (uv & <- & Iuv). destruct (PI uv (or_intror Iuv)) as (Luv & _). apply (strip_in_part uv) in Hp; [|exact Luv].
    assert (c <= fst uv); [|lia]. inversion S as [|? ? S1 _]; subst. inversion S1 as [|? ? S2 _]; subst. pose proof (pairs_in _ S2 uv Iuv) as (_ & I1 & _).
    destruct I1 as [<-|I1]; [lia|]. inversion S2 as [|? ? _ F]; subst. rewrite Forall_forall in F. specialize (F _ I1). lia.
Qed.
