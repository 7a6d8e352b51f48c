(** The lines of a filled part, with zig-zag. *)
From Coq Require Import Permutation.
From Verif Require Import GoBase GoFloat M_Micrometer M_Geom2D M_Clip S_Geom S_Slicer S_Clip S_Area S_Fill S_Lines L_Fill L_Lines P_Clip.
Local Open Scope Z_scope.

Section Lines.
Context {P : Type} (inside : path -> P -> bool) (on : path -> P -> Prop) (lib : clib).
Hypothesis St : straight on.
Hypothesis Cut : cuts_exactly inside on lib.
Hypothesis Cap : capable lib.

Lemma shorten_shorter s x y1 y2 : 0 <= s < 2 ^ 60 -> Z.abs y1 <= 2 ^ 60 -> Z.abs y2 <= 2 ^ 60 -> shorten s [Pt x y1; Pt x y2] = Ok (if s =? 0 then [Pt x y1; Pt x y2] else shorter s [Pt x y1; Pt x y2]).
Proof.
  intros Hs H1 H2. unfold shorten. destruct (Z.eqb_spec s 0); [reflexivity|]. change (idx [Pt x y1; Pt x y2] 0) with (Ok (Pt x y1)). change (idx [Pt x y1; Pt x y2] 1) with (Ok (Pt x y2)). cbn [bind px py shorter].
  assert (Q : quot64 s 2 = s / 2). { unfold quot64. rewrite Z.quot_div_nonneg by lia. apply wrap_id. unfold int64. pose proof (Z.div_pos s 2). pose proof (Z.div_le_upper_bound s 2 s). lia. }
  assert (Hq : 0 <= s / 2 <= s) by (split; [apply Z.div_pos; lia|apply Z.div_le_upper_bound; lia]). rewrite Q. unfold sub64, add64. rewrite !wrap_id by (unfold int64; lia).
  destruct (Z.ltb_spec y2 (y1 - s / 2)); reflexivity.
Qed.
Lemma getInfill_pieces fuel d mn mx outl hls s ls : 0 < d <= 2 ^ 60 -> pt_bounded (2 ^ 60) mn -> pt_bounded (2 ^ 60) mx -> py mn <= py mx -> 0 <= s < 2 ^ 60 -> px mx - px mn < Z.of_nat fuel * d ->
  getInfill lib fuel d mn mx outl hls s = Ok ls ->
  exists pieces, ls = map (fun l => if s =? 0 then l else shorter s l) pieces /\ (forall c, In c pieces -> exists x t b, c = [Pt x t; Pt x b]) /\
  forall x, (exists c, In c pieces /\ on c x) <-> parity inside (outl :: hls) x = true /\ exists k, 0 <= k /\ px mn + k * d <= px mx /\ on [Pt (px mn + k * d) (py mx); Pt (px mn + k * d) (py mn)] x.
Proof.
  intros Hd (M1 & M2) (X1 & X2) My Hs Hf. unfold getInfill.
  destruct (infill_grid d (px mn) (px mx) fuel ltac:(lia) ltac:(unfold int64; lia) ltac:(lia) Hf) as (xs & Ex & Gx & Gc). rewrite Ex. cbn [bind].
  set (lines := map _ xs). assert (VL : Forall upright lines).
  { apply Forall_forall. intros q Iq. apply in_map_iff in Iq. destruct Iq as (x & <- & _). exists x, (py mx), (py mn). split; [reflexivity|lia]. }
  destruct (execute lib false CtIntersection _) as [(tree, n)|] eqn:EX; [|discriminate].
  pose proof (cut_out inside on lib Cut _ _ _ _ VL EX) as CO.
  assert (Pc : forall c, In c tree -> exists x y1 y2, contour c = [Pt x y1; Pt x y2] /\ Z.abs y1 <= 2 ^ 60 /\ Z.abs y2 <= 2 ^ 60).
  { intros c Ic. destruct (cuts_lines lib Cap _ _ _ _ VL EX c Ic) as (x & t & b & y1 & y2 & Ia & Ec & B1 & B2). apply in_map_iff in Ia. destruct Ia as (x0 & Q & _). injection Q as Q1 Q2 Q3. subst x0 t b.
    exists x, y1, y2. split; [exact Ec|]. lia. }
  intros E. exists (map contour tree). split; [|split].
  - clear CO EX. revert ls E. induction tree as [|c tree IH]; intros ls E; cbn [map_res] in E; [injection E as <-; reflexivity|].
    apply bind_Ok in E. destruct E as (q & Eq & E). apply bind_Ok in E. destruct E as (qs & Eqs & E). injection E as <-. cbn [map]. rewrite <- (IH ltac:(intros; apply Pc; right; assumption) qs Eqs). f_equal.
    destruct (Pc c (or_introl eq_refl)) as (x0 & y1 & y2 & Ec & A1 & A2). rewrite Ec in Eq |- *. rewrite shorten_shorter in Eq by assumption. injection Eq as <-. reflexivity.
  - intros c Ic. apply in_map_iff in Ic. destruct Ic as (n0 & <- & In0). destruct (Pc n0 In0) as (x & y1 & y2 & E' & _). eauto.
  - intros x. split.
    + intros (c & Ic & Oc). apply in_map_iff in Ic. destruct Ic as (n0 & <- & In0). destruct (proj1 (CO x) (ex_intro _ n0 (conj In0 Oc))) as ((l0 & Il0 & O0) & Pa).
      split; [exact Pa|]. apply in_map_iff in Il0. destruct Il0 as (g & <- & Ig).
      apply In_nth_error in Ig. destruct Ig as (j & Ij). assert (Iz : idx xs (Z.of_nat j) = Ok g) by (unfold idx; destruct (Z.ltb_spec (Z.of_nat j) 0); [lia|]; rewrite Nat2Z.id, Ij; reflexivity).
      destruct (Gx _ _ Iz) as (-> & Lg). exists (Z.of_nat j). split; [lia|]. split; [exact Lg|exact O0].
    + intros (Pa & k & K0 & Kx & O). destruct (proj2 (CO x)) as (c & Ic & Oc).
      * split; [|exact Pa]. exists [Pt (px mn + k * d) (py mx); Pt (px mn + k * d) (py mn)]. split; [|exact O]. apply in_map_iff. exists (px mn + k * d). split; [reflexivity|].
        destruct (Gc (px mn + k * d) ltac:(nia)) as (g & Ig & Hg). apply In_nth_error in Ig as Ij. destruct Ij as (j & Ij). assert (Iz : idx xs (Z.of_nat j) = Ok g) by (unfold idx; destruct (Z.ltb_spec (Z.of_nat j) 0); [lia|]; rewrite Nat2Z.id, Ij; reflexivity).
        destruct (Gx _ _ Iz) as (Eg & _). assert (Z.of_nat j = k) by nia. subst k. rewrite <- Eg. exact Ig.
      * exists (contour c). split; [apply in_map; exact Ic|exact Oc].
Qed.
Lemma woven_each conn b l0 e order out : woven conn b l0 e order out ->
  (forall l, In l order -> In l out \/ In (rev l) out) /\ (forall l, In l out -> (exists m, In m order /\ (l = m \/ l = rev m)) \/ exists a c, l = [a; c] /\ conn a c = true).
Proof.
  induction 1 as [|b' prev e' l lr o N W (IH1 & IH2)]; [split; intros ? []|]. split.
  - intros m [<-|Im]; [destruct b'; [right|left]; apply in_app_iff; right; left; reflexivity|]. destruct (IH1 m Im) as [I|I]; [left|right]; apply in_app_iff; right; right; exact I.
  - intros m Im. apply in_app_iff in Im. destruct Im as [Im|[<-|Im]].
    + destruct (conn e' _) eqn:C; [|destruct Im]. destruct Im as [<-|[]]. right. eauto.
    + left. exists l. split; [left; reflexivity|destruct b'; auto].
    + destruct (IH2 m Im) as [(q & Iq & Hq)|H]; [left; exists q; split; [right; exact Iq|exact Hq]|right; exact H].
Qed.
Theorem zig_lines fuel p nr q ls : Z.abs (degree p) <= 2 ^ 52 -> pt_bounded (2 ^ 22) (lmin p) -> pt_bounded (2 ^ 22) (lmax p) ->
  0 < lineDistance p <= 2 ^ 28 -> 0 <= lineWidth p <= 2 ^ 28 -> 2 ^ 24 < Z.of_nat fuel * lineDistance p -> Fill lib fuel p nr q = Ok ls ->
  let rot := rotation p nr in let '(mn, mx) := PathBounds (rotate_path lib rot (box p)) in
  let area := rotate_path lib rot (outline q) :: map (rotate_path lib rot) (holes q) in
  exists pieces printed turned, ls = map (rotate_path lib (SFopp rot)) turned /\
    (forall x, (exists c, In c pieces /\ on c x) <-> parity inside area x = true /\ exists k, 0 <= k /\ px mn + k * lineDistance p <= px mx /\ on [Pt (px mn + k * lineDistance p) (py mx); Pt (px mn + k * lineDistance p) (py mn)] x) /\
    (forall c, In c pieces -> exists x t b, c = [Pt x t; Pt x b]) /\
    printed = (if zigZag p then map (shorter (lineWidth p)) pieces else pieces) /\
    (forall l, In l printed -> In l turned \/ In (rev l) turned) /\
    (forall l, In l turned -> In l printed \/ In (rev l) printed \/
       zigZag p = true /\ exists a c, l = [a; c] /\ dist2 a c <= (lineWidth p + 2 * lineDistance p) ^ 2 /\ forall x, on l x -> parity inside area x = true).
Proof.
  intros Hdeg Bn Bx Hd Hw Hf E. unfold Fill in E. fold (box p) in E.
  assert (R : exists z, rotation p nr = f64_of_Z z /\ Z.abs z <= 2 ^ 53) by (rewrite fill_rotation by exact Hdeg; eexists; split; [reflexivity|destruct (_ && _); lia]).
  pose proof (box_bounds lib Cap (2 ^ 22) (rotation p nr) (box p) ltac:(lia) ltac:(discriminate)) as BB.
  assert (F : Forall (pt_bounded (2 ^ 22)) (box p)).
  { destruct Bn, Bx. constructor; [split; assumption|]. constructor; [split; cbn [px py]; assumption|]. constructor; [split; assumption|]. constructor; [split; cbn [px py]; assumption|constructor]. }
  specialize (BB F R). clear R F. set (rot := rotation p nr) in *. clearbody rot. cbn zeta in E |- *.
  destruct (PathBounds _) as [mn mx]. destruct BB as ((M1 & M2) & (X1 & X2) & Ox & Oy).
  destruct (getInfill_total lib Cap fuel (lineDistance p) mn mx (rotate_path lib rot (outline q)) (map (rotate_path lib rot) (holes q)) (if zigZag p then lineWidth p else 0)) as (inf & Eg & Fg); try (unfold pt_bounded; lia).
  { destruct (zigZag p); lia. }
  rewrite Eg in E. cbn [bind] in E. set (prt := Part _ _) in E.
  destruct (getInfill_pieces fuel (lineDistance p) mn mx (rotate_path lib rot (outline q)) (map (rotate_path lib rot) (holes q)) (if zigZag p then lineWidth p else 0) inf ltac:(lia) ltac:(unfold pt_bounded; lia) ltac:(unfold pt_bounded; lia) Oy ltac:(destruct (zigZag p); lia) ltac:(lia) Eg) as (pieces & G1 & G2 & G3).
  set (area := rotate_path lib rot (outline q) :: _) in *.
  assert (LO : lines_ok inf).
  { eapply Forall_impl; [|exact Fg]. cbn beta. intros l (k & y1 & y2 & -> & K0 & Kx & B1 & B2). split; [reflexivity|]. assert (0 <= k * lineDistance p) by nia. repeat constructor; cbn [px py]; lia. }
  apply bind_Ok in E. destruct E as (out & Es & E). injection E as <-.
  assert (Pr : inf = if zigZag p then map (shorter (lineWidth p)) pieces else pieces).
  { rewrite G1. destruct (zigZag p); [|apply map_id]. destruct (Z.eqb_spec (lineWidth p) 0) as [Z0|Z0]; [|reflexivity]. apply map_ext_in. intros l Il. destruct (G2 l Il) as (x & t & b & ->).
    rewrite Z0. cbn [shorter px py]. change (0 / 2) with 0. rewrite Z.sub_0_r, Z.add_0_r. destruct (b <? t); reflexivity. }
  exists pieces, inf, out. split; [reflexivity|]. split; [exact G3|]. split; [exact G2|]. split; [exact Pr|]. clear G1 Pr.
  destruct inf as [|l0 inf].
  { injection Es as <-. split; [intros l []|intros l []]. }
  destruct (infill_sorted lib p prt (zigZag p) l0 inf LO ltac:(intros; apply (crossing_total lib Cap)) ltac:(lia) ltac:(lia)) as (order & o' & Es' & Pm & W).
  rewrite Es in Es'. injection Es' as ->. destruct (woven_each _ _ _ _ _ _ W) as (W1 & W2). split.
  - intros l [<-|Il]; [left; left; reflexivity|]. destruct (W1 l) as [I|I]; [eapply Permutation_in; [symmetry; exact Pm|exact Il]|left; right; exact I|right; right; exact I].
  - intros l [<-|Il]; [left; left; reflexivity|]. destruct (W2 l Il) as [(m & Im & Hm)|(a & c & -> & C)].
    + assert (In m (l0 :: inf)) by (right; eapply Permutation_in; [exact Pm|exact Im]). destruct Hm as [->| ->]; [left; assumption|right; left; rewrite rev_involutive; assumption].
    + right. right. apply andb_true_iff in C. destruct C as (Z & C). split; [exact Z|]. exists a, c. split; [reflexivity|]. unfold connection in C. apply andb_true_iff in C. destruct C as (C1 & C).
      split; [apply Z.leb_le, C1|]. intros x O. destruct (crossing_spec inside on lib Cut [prt] [a; c]) as (cr & Ec & Hc). rewrite Ec in C. destruct cr; [discriminate|]. unfold contours_of in Hc. cbn [flat_map outline holes prt] in Hc. rewrite app_nil_r in Hc. fold area in Hc.
      destruct (parity inside area x) eqn:Q; [reflexivity|]. exfalso. enough (false = true) by discriminate. apply Hc. eauto.
Qed.
End Lines.
