(** Moving a point by less than 1 um in both directions does not change what surrounds it, if no contour is near. The library
    of L_Grid.v is right at all points further than the diagonal of 1 um from its input. *)
From Coq Require Import Reals Lra.
From Verif Require Import GoBase GoFloat M_Micrometer M_Geom2D M_Clip S_Slicer S_Clip S_Area S_Solid S_Round L_Float L_Area L_Ray L_Strip L_Sliver L_Grid.
Local Open Scope R_scope.

Definition shifted (dx dy : R) (v : rpt) : rpt := (fst v + dx, snd v + dy).
Lemma crossed_shifted dx dy p a b : crossed (shifted dx dy p) (shifted dx dy a) (shifted dx dy b) = crossed p a b.
Proof.
  unfold crossed, lower, shifted. cbn [fst snd].
  replace (snd p + dy - (snd a + dy)) with (snd p - snd a) by ring. replace (snd b + dy - (snd a + dy)) with (snd b - snd a) by ring. replace (fst b + dx - (fst a + dx)) with (fst b - fst a) by ring.
  replace (fst a + dx + (snd p - snd a) / (snd b - snd a) * (fst b - fst a)) with (fst a + (snd p - snd a) / (snd b - snd a) * (fst b - fst a) + dx) by ring.
  set (q := fst a + _). destruct (Rlt_dec (snd a + dy) (snd p + dy)), (Rlt_dec (snd a) (snd p)); try (exfalso; lra);
  destruct (Rlt_dec (snd b + dy) (snd p + dy)), (Rlt_dec (snd b) (snd p)); try (exfalso; lra);
  destruct (Rlt_dec (fst p + dx) (q + dx)), (Rlt_dec (fst p) q); try (exfalso; lra); reflexivity.
Qed.
Lemma crossings_shifted dx dy p : forall l, crossings (shifted dx dy p) (map (shifted dx dy) l) = crossings p l.
Proof. induction l as [|a [|b l] IH]; [reflexivity..|]. change (xorb (crossed (shifted dx dy p) (shifted dx dy a) (shifted dx dy b)) (crossings (shifted dx dy p) (map (shifted dx dy) (b :: l))) = xorb (crossed p a b) (crossings p (b :: l))). rewrite crossed_shifted, IH. reflexivity. Qed.
Lemma crossings_moved dx dy p : Rabs dx < 1 -> Rabs dy < 1 -> forall l d, l <> [] -> (forall a b, In (a, b) (between l) -> far p (exactly a) (exactly b)) ->
  crossings p (map (shifted dx dy) (map exactly l)) =
  xorb (crossings p (map exactly l)) (xorb (crossed p (exactly (hd d l)) (shifted dx dy (exactly (hd d l)))) (crossed p (exactly (last l d)) (shifted dx dy (exactly (last l d))))).
Proof.
  intros X Y. induction l as [|a [|b l] IH]; intros d N F; [congruence| |].
  - cbn [map crossings hd last]. destruct (crossed p (exactly a) _); reflexivity.
  - assert (Fab : far p (exactly a) (exactly b)) by (apply F; left; reflexivity).
    change (last (a :: b :: l) d) with (last (b :: l) d).
    change (xorb (crossed p (shifted dx dy (exactly a)) (shifted dx dy (exactly b))) (crossings p (map (shifted dx dy) (map exactly (b :: l)))) =
      xorb (xorb (crossed p (exactly a) (exactly b)) (crossings p (map exactly (b :: l)))) (xorb (crossed p (exactly a) (shifted dx dy (exactly a))) (crossed p (exactly (last (b :: l) d)) (shifted dx dy (exactly (last (b :: l) d)))))).
    rewrite (IH d); [|discriminate|intros u v I; apply F; right; exact I]. cbn [hd].
    assert (Aa : around (exactly a) (exactly b) (shifted dx dy (exactly a))) by (apply around_l; unfold shifted; cbn [fst snd]; [replace (fst (exactly a) + dx - fst (exactly a)) with dx by ring|replace (snd (exactly a) + dy - snd (exactly a)) with dy by ring]; assumption).
    assert (Ab : around (exactly a) (exactly b) (shifted dx dy (exactly b))) by (apply around_r; unfold shifted; cbn [fst snd]; [replace (fst (exactly b) + dx - fst (exactly b)) with dx by ring|replace (snd (exactly b) + dy - snd (exactly b)) with dy by ring]; assumption).
    rewrite (far_triangle p _ _ (shifted dx dy (exactly a)) (exactly a) (shifted dx dy (exactly b)) Fab Aa (around_self_l _ _) Ab).
    rewrite (far_triangle p _ _ (exactly a) (exactly b) (shifted dx dy (exactly b)) Fab (around_self_l _ _) (around_self_r _ _) Ab).
    rewrite (crossed_sym p (shifted dx dy (exactly a)) (exactly a)).
    destruct (crossed p (exactly a) (shifted dx dy (exactly a))), (crossed p (exactly a) (exactly b)), (crossed p (exactly b) (shifted dx dy (exactly b))), (crossings p (map exactly (b :: l))),
      (crossed p (exactly (last (b :: l) d)) (shifted dx dy (exactly (last (b :: l) d)))); reflexivity.
Qed.
Lemma surrounded_moved c p q : Rabs (fst p - fst q) < 1 -> Rabs (snd p - snd q) < 1 -> (forall a b, In (a, b) (sides c) -> far p (exactly a) (exactly b)) -> surrounded c q = surrounded c p.
Proof.
  intros X Y F. unfold surrounded. rewrite <- (crossings_shifted (fst p - fst q) (snd p - snd q) q).
  replace (shifted (fst p - fst q) (snd p - snd q) q) with p by (destruct p, q; unfold shifted; cbn [fst snd]; f_equal; ring).
  destruct c as [|a c]; [reflexivity|]. cbn [firstn]. rewrite (crossings_moved _ _ p X Y _ a); [|destruct c; discriminate|exact F].
  replace (last ((a :: c) ++ [a])%list a) with a by (symmetry; apply last_last). cbn [app hd]. rewrite xorb_nilpotent, xorb_false_r. reflexivity.
Qed.
Lemma clear_far cs p c a b : clear_of (sqrt 2) cs p -> In c cs -> In (a, b) (sides c) -> far p (exactly a) (exactly b).
Proof. intros H Ic Is t Ht. specialize (H c a b t Ic Is Ht). replace (sqrt 2 ^ 2) with 2 in H by (simpl; rewrite Rmult_1_r, sqrt_sqrt; lra). exact H. Qed.
Lemma parity_moved cs p q : Rabs (fst p - fst q) < 1 -> Rabs (snd p - snd q) < 1 -> clear_of (sqrt 2) cs p -> parity surrounded cs q = parity surrounded cs p.
Proof.
  intros X Y H. induction cs as [|c cs IH]; [reflexivity|]. cbn [parity]. rewrite IH by (intros c' a b t Ic; apply H; right; exact Ic).
  rewrite (surrounded_moved c p q X Y); [reflexivity|]. intros a b I. apply (clear_far (c :: cs) p c a b H); [left; reflexivity|exact I].
Qed.

(** *** the square of a point *)
Definition cell_of (p : rpt) : Z * Z := (Int_part (fst p), - Int_part (- snd p) - 1)%Z.
Lemma cell_bounds p : IZR (fst (cell_of p)) <= fst p < IZR (fst (cell_of p)) + 1 /\ IZR (snd (cell_of p)) < snd p <= IZR (snd (cell_of p)) + 1.
Proof.
  unfold cell_of. cbn [fst snd]. rewrite minus_IZR, opp_IZR. pose proof (base_Int_part (fst p)). pose proof (base_Int_part (- snd p)). lra.
Qed.
Lemma cell_near p : Rabs (fst p - fst (center (cell_of p))) < 1 /\ Rabs (snd p - snd (center (cell_of p))) < 1.
Proof. pose proof (cell_bounds p) as B. unfold center. cbn [fst snd]. split; apply Rabs_def1; lra. Qed.
Lemma lower_cell p u y : lower (snd p) (u, IZR y) = (y <=? snd (cell_of p))%Z.
Proof.
  pose proof (cell_bounds p) as B. unfold lower. cbn [fst snd]. destruct (Rlt_dec (IZR y) (snd p)) as [L|L], (Z.leb_spec y (snd (cell_of p))) as [H|H]; try reflexivity; exfalso.
  - assert (IZR (snd (cell_of p) + 1) <= IZR y) by (apply IZR_le; lia). rewrite plus_IZR in *. lra.
  - apply IZR_le in H. lra.
Qed.
Lemma square_at x p : surrounded (square x) p = in_cells (square x) (cell_of p).
Proof.
  assert (U : forall x a b, crossed p (IZR x, IZR a) (IZR x, IZR b) = crossed (center (cell_of p)) (IZR x, IZR a) (IZR x, IZR b)).
  { intros u a b. destruct (cell_of p) as [i j] eqn:C. rewrite crossed_upright. unfold crossed. rewrite !lower_cell, C. cbn [fst snd]. f_equal.
    rewrite (Rminus_diag_eq (IZR u) (IZR u) eq_refl), Rmult_0_r, Rplus_0_r. pose proof (cell_bounds p) as B. rewrite C in B. cbn [fst snd] in B.
    destruct (Rlt_dec (fst p) (IZR u)) as [L|L], (Z.ltb_spec i u) as [H|H]; try reflexivity; exfalso.
    - apply IZR_le in H. lra.
    - assert (IZR (i + 1) <= IZR u) by (apply IZR_le; lia). rewrite plus_IZR in *. lra. }
  assert (L : forall x x' a, crossed p (IZR x, IZR a) (IZR x', IZR a) = crossed (center (cell_of p)) (IZR x, IZR a) (IZR x', IZR a)).
  { intros u u' a. destruct (cell_of p) as [i j]. rewrite crossed_level. unfold crossed. unfold lower. cbn [snd]. rewrite xorb_nilpotent. reflexivity. }
  unfold in_cells, surrounded, square, box_path. cbn [app firstn map crossings]. unfold exactly. cbn [px py]. rewrite !U, !L. reflexivity.
Qed.

(** *** the library *)
Lemma nested_via {P Q} (inside : path -> P -> bool) (inside' : path -> Q -> bool) (g : Q -> P) :
  forall n, nested inside n -> (forall c x, In c (contours n) -> inside' c x = inside c (g x)) -> nested inside' n.
Proof.
  assert (amo : forall x l, (forall n, In n l -> forall y, inside' (contour n) y = inside (contour n) (g y)) ->
    at_most_one (fun n => inside (contour n) (g x) = true) l -> at_most_one (fun n => inside' (contour n) x = true) l).
  { intros x. induction l as [|a l IH]; intros H A; [exact I|]. destruct A as (A & A'). split.
    - intros Ha b Ib Hb. rewrite (H a (or_introl eq_refl)) in Ha. rewrite (H b (or_intror Ib)) in Hb. exact (A Ha b Ib Hb).
    - apply IH; [intros n In_; apply H; right; exact In_|exact A']. }
  assert (self : forall n, In (contour n) (contours n)) by (intros [c l]; left; reflexivity).
  induction 1 as [c l N IH In_ Am]. intros H.
  assert (Hn : forall n, In n l -> forall c' y, In c' (contours n) -> inside' c' y = inside c' (g y)).
  { intros n I c' y Ic. apply H. cbn [contours]. right. apply in_flat_map. exists n. split; assumption. }
  constructor.
  - intros n I. apply (IH n I). apply Hn, I.
  - intros n x I E. rewrite (Hn n I) in E by apply self. rewrite (H c x) by (left; reflexivity). exact (In_ n (g x) I E).
  - intros x. apply amo; [|apply Am]. intros n I y. apply (Hn n I), self.
Qed.
Lemma contours_squares f g b c : In c (flat_map contours (area f g b)) -> exists x, c = square x.
Proof.
  intros I. apply in_flat_map in I. destruct I as (n & In_ & Ic). unfold area in In_. apply in_map_iff in In_. destruct In_ as (x & <- & _). exists x.
  unfold tile in Ic. destruct (f x); cbn [contours flat_map app In] in Ic; intuition.
Qed.
Lemma parity_squares cs p : (forall c, In c cs -> exists x, c = square x) -> parity surrounded cs p = parity in_cells cs (cell_of p).
Proof. induction cs as [|c cs IH]; intros H; [reflexivity|]. cbn [parity]. rewrite IH by (intros c' Ic; apply H; right; exact Ic). destruct (H c (or_introl eq_refl)) as (x & ->). rewrite square_at. reflexivity. Qed.
Theorem grid_within : forall si co, clips_within (sqrt 2) (grid_lib si co).
Proof.
  intros si co t s c. cbn [execute grid_lib]. destruct (grid_closed t s c) as (E1 & E2 & E3 & Q). unfold grid_execute. rewrite E1, E2, E3. do 2 eexists. split; [reflexivity|].
  cbv zeta in *. set (f := fun x => op t (parity in_cells s x) (parity in_cells c x)) in *. set (h := match t with CtUnion => _ | _ => _ end) in *. split.
  - destruct (area_nested f h (extent (s ++ c))) as (N & A). split.
    + intros n I. apply (nested_via in_cells _ (fun x => cell_of (proj1_sig x)) n (N n I)). intros c' x Ic. destruct (contours_squares f h (extent (s ++ c)) c') as (y & ->); [apply in_flat_map; eauto|]. apply square_at.
    + intros (p & Cp). specialize (A (cell_of p)). cbn [proj1_sig]. unfold area in *. clear - A. induction (filter h (near (extent (s ++ c)) (0, 0)%Z)) as [|a l IH]; [exact I|].
      cbn [map at_most_one] in *. destruct A as (A & A'). split; [|exact (IH A')]. cbn [contour tile] in *. rewrite square_at. intros Ha n In_ Hn. apply (A Ha n In_). apply in_map_iff in In_. destruct In_ as (y & <- & _). cbn [contour tile] in *. rewrite square_at in Hn. exact Hn.
  - intros p Cp. rewrite parity_squares by (intros c' Ic; exact (contours_squares _ _ _ _ Ic)). rewrite Q. unfold f. destruct (cell_near p) as (X & Y).
    assert (G : forall cs, (forall c', In c' cs -> In c' (s ++ c)) -> parity in_cells cs (cell_of p) = parity surrounded cs p).
    { intros cs Hc. rewrite <- (parity_moved cs p (center (cell_of p)) X Y); [|intros c' a b t' Ic; apply Cp; apply Hc, Ic].
      clear. induction cs as [|c' cs IH]; [reflexivity|]. cbn [parity]. rewrite IH. reflexivity. }
    rewrite !G; [reflexivity|intros c' I; apply in_or_app; auto..].
Qed.
