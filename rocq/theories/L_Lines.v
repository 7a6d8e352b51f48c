(** Exact cutting of lines: crossings and infill lines. *)
From Coq Require Import Permutation.
From Verif Require Import GoBase GoFloat M_Micrometer M_Geom2D M_Clip S_Geom S_Slicer S_Clip S_Area S_Fill S_Lines L_Area L_ModArea L_Clip L_Linear L_Fill P_Clip.
Local Open Scope Z_scope.

Section Lines.
Context {P : Type} (inside : path -> P -> bool) (on : path -> P -> Prop).
Variable lib : clib.
Hypothesis St : straight on.
Hypothesis Cut : cuts_exactly inside on lib.

Lemma closed_flat (parts : list part) : flat_map (fun p => closed_as PtClip (holes p ++ [outline p])) parts = closed_as PtClip (flat_map (fun p => holes p ++ [outline p]) parts).
Proof. unfold closed_as. induction parts as [|p ps IH]; [reflexivity|]. cbn [flat_map]. rewrite IH, (map_app _ (holes p ++ [outline p])). reflexivity. Qed.
Lemma parity_turned parts x : parity inside (flat_map (fun p => holes p ++ [outline p]) parts) x = parity inside (contours_of parts) x.
Proof.
  unfold contours_of. induction parts as [|p ps IH]; [reflexivity|]. cbn [flat_map]. rewrite !parity_app, IH. cbn [parity]. f_equal.
  destruct (inside (outline p) x), (parity inside (holes p) x); reflexivity.
Qed.
Lemma crossing_spec parts line : exists c, IsCrossingPerimeter lib parts line = Some c /\ (c = true <-> exists x, on line x /\ parity inside (contours_of parts) x = false).
Proof.
  unfold IsCrossingPerimeter. rewrite closed_flat. destruct (cut_away inside on lib Cut (flat_map (fun p => holes p ++ [outline p]) parts) line) as (tree & n & -> & H).
  eexists. split; [reflexivity|]. rewrite Z.ltb_lt, H. split; intros (x & O & E); exists x; (split; [exact O|]); [rewrite <- parity_turned|rewrite parity_turned]; exact E.
Qed.

Hypothesis Cap : capable lib.
(** the lines before sorting *)
Lemma getInfill_points fuel d mn mx outl hls s ls : 0 < d <= 2 ^ 60 -> pt_bounded (2 ^ 60) mn -> pt_bounded (2 ^ 60) mx -> py mn <= py mx -> 0 <= s < 2 ^ 60 -> px mx - px mn < Z.of_nat fuel * d ->
  getInfill lib fuel d mn mx outl hls s = Ok ls ->
  (forall l x, In l ls -> on l x -> parity inside (outl :: hls) x = true /\ exists k, 0 <= k /\ px mn + k * d <= px mx /\ on [Pt (px mn + k * d) (py mx); Pt (px mn + k * d) (py mn)] x) /\
  (s = 0 -> forall k x, 0 <= k -> px mn + k * d <= px mx -> on [Pt (px mn + k * d) (py mx); Pt (px mn + k * d) (py mn)] x -> parity inside (outl :: hls) x = true -> exists l, In l ls /\ on l x).
Proof.
  intros Hd (M1 & M2) (X1 & X2) My Hs Hf. unfold getInfill.
  destruct (infill_grid d (px mn) (px mx) fuel ltac:(lia) ltac:(unfold int64; lia) ltac:(lia) Hf) as (xs & Ex & Gx & Gc). rewrite Ex. cbn [bind].
  set (lines := map _ xs). assert (VL : Forall upright lines).
  { apply Forall_forall. intros q Iq. apply in_map_iff in Iq. destruct Iq as (x & <- & _). exists x, (py mx), (py mn). split; [reflexivity|lia]. }
  destruct (execute lib false CtIntersection _) as [(tree, n)|] eqn:EX; [|discriminate].
  pose proof (cut_out inside on lib Cut _ _ _ _ VL EX) as CO.
  assert (Pc : forall c, In c tree -> exists x y1 y2, contour c = [Pt x y1; Pt x y2] /\ Z.abs y1 <= 2 ^ 60 /\ Z.abs y2 <= 2 ^ 60).
  { intros c Ic. destruct (cuts_lines lib Cap _ _ _ _ VL EX c Ic) as (x & t & b & y1 & y2 & Ia & Ec & B1 & B2). apply in_map_iff in Ia. destruct Ia as (x0 & Q & _). injection Q as Q1 Q2 Q3. subst x0 t b.
    exists x, y1, y2. split; [exact Ec|]. lia. }
  intros E. split.
  - intros l x Il O.
    assert (G : exists c, In c tree /\ on (contour c) x).
    { clear CO EX. revert ls E Il. induction tree as [|c tree IH]; intros ls E Il; cbn [map_res] in E; [injection E as <-; destruct Il|].
      apply bind_Ok in E. destruct E as (q & Eq & E). apply bind_Ok in E. destruct E as (qs & Eqs & E). injection E as <-. destruct Il as [<-|Il].
      - exists c. split; [left; reflexivity|]. destruct (Pc c (or_introl eq_refl)) as (x0 & y1 & y2 & Ec & A1 & A2). rewrite Ec in Eq |- *.
        destruct (shorten_total s x0 y1 y2 Hs A1 A2) as (z1 & z2 & Es & Hz). rewrite Es in Eq. injection Eq as <-. destruct (Hz (Z.min y1 y2) (Z.max y1 y2) ltac:(lia) ltac:(lia)) as (Z1 & Z2).
        apply (on_piece on St x0 y1 y2 z1 z2 x); [unfold between; lia|unfold between; lia|exact O].
      - destruct (IH ltac:(intros; apply Pc; right; assumption) qs Eqs Il) as (c' & Ic & Oc). exists c'. split; [right; exact Ic|exact Oc]. }
    apply CO in G. destruct G as ((l0 & Il0 & O0) & Pa). split; [exact Pa|]. apply in_map_iff in Il0. destruct Il0 as (g & <- & Ig).
    apply In_nth_error in Ig. destruct Ig as (j & Ij). assert (Iz : idx xs (Z.of_nat j) = Ok g) by (unfold idx; destruct (Z.ltb_spec (Z.of_nat j) 0); [lia|]; rewrite Nat2Z.id, Ij; reflexivity).
    destruct (Gx _ _ Iz) as (-> & Lg). exists (Z.of_nat j). split; [lia|]. split; [exact Lg|exact O0].
  - intros -> k x K0 Kx O Pa. destruct (proj2 (CO x)) as (c & Ic & Oc).
    + split; [|exact Pa]. exists [Pt (px mn + k * d) (py mx); Pt (px mn + k * d) (py mn)]. split; [|exact O]. apply in_map_iff. exists (px mn + k * d). split; [reflexivity|].
      destruct (Gc (px mn + k * d) ltac:(nia)) as (g & Ig & Hg). apply In_nth_error in Ig as Ij. destruct Ij as (j & Ij). assert (Iz : idx xs (Z.of_nat j) = Ok g) by (unfold idx; destruct (Z.ltb_spec (Z.of_nat j) 0); [lia|]; rewrite Nat2Z.id, Ij; reflexivity).
      destruct (Gx _ _ Iz) as (Eg & _). assert (Z.of_nat j = k) by nia. subst k. rewrite <- Eg. exact Ig.
    + exists (contour c). split; [|exact Oc]. clear -E Ic. revert ls E. induction tree as [|c' tree IH]; intros ls E; [destruct Ic|]. cbn [map_res] in E.
      apply bind_Ok in E. destruct E as (q & Eq & E). apply bind_Ok in E. destruct E as (qs & Eqs & E). injection E as <-. destruct Ic as [->|Ic]; [left; cbn in Eq; congruence|right; exact (IH Ic qs Eqs)].
Qed.

(** sorting keeps the points of the lines, connections stay inside *)
Lemma woven_points conn (Q : P -> Prop) b l0 e order out : woven conn b l0 e order out -> Forall (fun l => List.length l = 2%nat) order ->
  (forall l x, In l order -> on l x -> Q x) -> (forall a c x, conn a c = true -> on [a; c] x -> Q x) -> forall l x, In l out -> on l x -> Q x.
Proof.
  intros W. induction W as [|b' prev e' l lr o N W IH]; intros F H1 H2 m x Im Om; [destruct Im|].
  inversion F as [|? ? Fl Fr]; subst. apply in_app_iff in Im. destruct Im as [Im|[<-|Im]].
  - destruct (conn e' _) eqn:C; [|destruct Im]. destruct Im as [<-|[]]. exact (H2 _ _ x C Om).
  - apply (H1 l x (or_introl eq_refl)). destruct b'; [|exact Om]. destruct l as [|p [|q [|? ?]]]; try discriminate. exact (on_turned on St _ _ _ Om).
  - apply (IH Fr ltac:(intros; eapply H1; [right; eassumption|assumption]) H2 m x Im Om).
Qed.
Lemma woven_all conn b l0 e order out l x : woven conn b l0 e order out -> Forall (fun l => List.length l = 2%nat) order -> In l order -> on l x -> exists l', In l' out /\ on l' x.
Proof.
  intros W. induction W as [|b' prev e' m lr o N W IH]; intros F Il O; [destruct Il|]. inversion F as [|? ? Fl Fr]; subst. destruct Il as [->|Il].
  - eexists. split; [apply in_app_iff; right; left; reflexivity|]. destruct b'; [|exact O]. destruct l as [|p [|q [|? ?]]]; try discriminate. exact (on_turned on St _ _ _ O).
  - destruct (IH Fr Il O) as (l' & I' & O'). exists l'. split; [apply in_app_iff; right; right; exact I'|exact O'].
Qed.
Definition box (p : linear) : path := [lmin p; Pt (px (lmax p)) (py (lmin p)); lmax p; Pt (px (lmin p)) (py (lmax p))].
Theorem fill_points fuel p nr q ls : Z.abs (degree p) <= 2 ^ 52 -> pt_bounded (2 ^ 22) (lmin p) -> pt_bounded (2 ^ 22) (lmax p) ->
  0 < lineDistance p <= 2 ^ 28 -> 0 <= lineWidth p <= 2 ^ 28 -> 2 ^ 24 < Z.of_nat fuel * lineDistance p -> Fill lib fuel p nr q = Ok ls ->
  let rot := rotation p nr in let '(mn, mx) := PathBounds (rotate_path lib rot (box p)) in
  let area := rotate_path lib rot (outline q) :: map (rotate_path lib rot) (holes q) in
  exists turned, ls = map (rotate_path lib (SFopp rot)) turned /\
    (forall l x, In l turned -> on l x -> parity inside area x = true) /\
    (zigZag p = false -> forall x, (exists l, In l turned /\ on l x) <->
       parity inside area x = true /\ exists k, 0 <= k /\ px mn + k * lineDistance p <= px mx /\ on [Pt (px mn + k * lineDistance p) (py mx); Pt (px mn + k * lineDistance p) (py mn)] x).
Proof.
  intros Hdeg Bn Bx Hd Hw Hf E. unfold Fill in E. fold (box p) in E.
  assert (R : exists z, rotation p nr = f64_of_Z z /\ Z.abs z <= 2 ^ 53) by (rewrite fill_rotation by exact Hdeg; eexists; split; [reflexivity|destruct (_ && _); lia]).
  pose proof (box_bounds lib Cap (2 ^ 22) (rotation p nr) (box p) ltac:(lia) ltac:(discriminate)) as BB.
  assert (F : Forall (pt_bounded (2 ^ 22)) (box p)).
  { destruct Bn, Bx. constructor; [split; assumption|]. constructor; [split; cbn [px py]; assumption|]. constructor; [split; assumption|]. constructor; [split; cbn [px py]; assumption|constructor]. }
  specialize (BB F R). clear R F. set (rot := rotation p nr) in *. clearbody rot. cbn zeta in E |- *.
  destruct (PathBounds _) as [mn mx]. destruct BB as ((M1 & M2) & (X1 & X2) & Ox & Oy).
  destruct (getInfill_total lib Cap fuel (lineDistance p) mn mx (rotate_path lib rot (outline q)) (map (rotate_path lib rot) (holes q)) (if zigZag p then lineWidth p else 0)) as (inf & Eg & Fg); try (unfold pt_bounded; lia).
  { destruct (zigZag p); lia. }
  rewrite Eg in E. cbn [bind] in E. set (prt := Part _ _) in E.
  destruct (getInfill_points fuel (lineDistance p) mn mx (rotate_path lib rot (outline q)) (map (rotate_path lib rot) (holes q)) (if zigZag p then lineWidth p else 0) inf ltac:(lia) ltac:(unfold pt_bounded; lia) ltac:(unfold pt_bounded; lia) Oy ltac:(destruct (zigZag p); lia) ltac:(lia) Eg) as (G1 & G2).
  set (area := rotate_path lib rot (outline q) :: _) in *.
  assert (LO : lines_ok inf).
  { eapply Forall_impl; [|exact Fg]. cbn beta. intros l (k & y1 & y2 & -> & K0 & Kx & B1 & B2). split; [reflexivity|]. assert (0 <= k * lineDistance p) by nia. repeat constructor; cbn [px py]; lia. }
  apply bind_Ok in E. destruct E as (out & Es & E). injection E as <-. exists out. split; [reflexivity|].
  destruct inf as [|l0 inf].
  { injection Es as <-. split; [intros l x []|]. intros Zz x. split; [intros (? & [] & _)|]. intros (Pa & k & K0 & Kx & O). rewrite Zz in G2. destruct (G2 eq_refl k x K0 Kx O Pa) as (? & [] & _). }
  destruct (infill_sorted lib p prt (zigZag p) l0 inf LO ltac:(intros; apply (crossing_total lib Cap)) ltac:(lia) ltac:(lia)) as (order & o' & Es' & Pm & W).
  rewrite Es in Es'. injection Es' as ->.
  assert (Fl : Forall (fun l : path => List.length l = 2%nat) order).
  { apply Forall_forall. intros l Il. unfold lines_ok in LO. rewrite Forall_forall in LO. apply (LO l). right. eapply Permutation_in; [exact Pm|exact Il]. }
  assert (Io : forall l, In l order -> In l (l0 :: inf)) by (intros l Il; right; eapply Permutation_in; [exact Pm|exact Il]).
  assert (In1 : forall l x, In l (l0 :: o') -> on l x -> parity inside area x = true).
  { intros l x [<-|Il] O; [exact (proj1 (G1 l0 x (or_introl eq_refl) O))|].
    apply (woven_points _ (fun x => parity inside area x = true) _ _ _ _ _ W Fl) with (l := l); try assumption.
    - intros l' x' I' O'. exact (proj1 (G1 l' x' (Io l' I') O')).
    - intros a c x' C O'. apply andb_true_iff in C. destruct C as (_ & C). unfold connection in C. apply andb_true_iff in C. destruct C as (_ & C).
      destruct (crossing_spec [prt] [a; c]) as (cr & Ec & Hc). rewrite Ec in C. destruct cr; [discriminate|]. unfold contours_of in Hc. cbn [flat_map outline holes prt] in Hc. rewrite app_nil_r in Hc. fold area in Hc.
      destruct (parity inside area x') eqn:Q; [reflexivity|]. exfalso. enough (false = true) by discriminate. apply Hc. eauto. }
  split; [exact In1|]. intros Zz x. split.
  - intros (l & Il & O). split; [exact (In1 l x Il O)|].
    enough (G : exists l', In l' (l0 :: inf) /\ on l' x) by (destruct G as (l' & I' & O'); exact (proj2 (G1 l' x I' O'))).
    destruct Il as [<-|Il]; [exists l0; split; [left; reflexivity|exact O]|].
    apply (woven_points _ (fun x => exists l', In l' (l0 :: inf) /\ on l' x) _ _ _ _ _ W Fl) with (l := l); try assumption.
    + intros l' x' I' O'. exists l'. split; [apply Io; exact I'|exact O'].
    + intros a c x' C _. rewrite Zz in C. discriminate.
  - intros (Pa & k & K0 & Kx & O). rewrite Zz in G2. destruct (G2 eq_refl k x K0 Kx O Pa) as (l & [<-|Il] & Ol); [exists l0; split; [left; reflexivity|exact Ol]|].
    destruct (woven_all _ _ _ _ _ _ l x W Fl) as (l' & I' & O'); [eapply Permutation_in; [symmetry; exact Pm|exact Il]|exact Ol|]. exists l'. split; [right; exact I'|exact O'].
Qed.
End Lines.
