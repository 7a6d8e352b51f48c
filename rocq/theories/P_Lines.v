(** Properties C84 and C85: travel moves over the border of a part, and what infill lines cover. *)
From Verif Require Import GoBase GoFloat M_Micrometer M_Geom2D M_Clip M_Builder S_Geom S_Slicer S_Clip S_Area S_Fill S_Lines S_Builder S_Calls L_Area L_ModArea L_Fill L_Strip L_LineLib L_Lines P_Clip P_Builder.
Local Open Scope Z_scope.

(** *** C84 *)
(** A line crosses the border of parts exactly if one of its points is not covered by them. *)
Theorem crossing_exact : forall (P : Type) (inside : path -> P -> bool) (on : path -> P -> Prop) lib parts line, cuts_exactly inside on lib -> S_Area.proper inside parts ->
  exists c, IsCrossingPerimeter lib parts line = Some c /\ (c = true <-> exists x, on line x /\ ~ covered inside parts x).
Proof.
  intros P inside on lib parts line Cut Pr. destruct (crossing_spec inside on lib Cut parts line) as (c & Ec & H). exists c. split; [exact Ec|]. rewrite H.
  split; intros (x & O & N); exists x; (split; [exact O|]).
  - rewrite <- (par_proper inside parts x Pr). unfold par. rewrite N. discriminate.
  - rewrite <- (par_proper inside parts x Pr) in N. unfold par in N. apply not_true_iff_false, N.
Qed.
Print Assumptions crossing_exact.
Example crossing_ex : IsCrossingPerimeter line_lib [Part [Pt 0 0; Pt 100 0] [[Pt 40 0; Pt 60 0]]] [Pt 10 5; Pt 30 7] = Some false /\
  IsCrossingPerimeter line_lib [Part [Pt 0 0; Pt 100 0] [[Pt 40 0; Pt 60 0]]] [Pt 10 5; Pt 70 7] = Some true /\
  IsCrossingPerimeter line_lib [Part [Pt 0 0; Pt 100 0] [[Pt 40 0; Pt 60 0]]] [Pt 10 5; Pt 40 5] = Some true /\
  S_Area.proper in_strips [Part [Pt 0 0; Pt 100 0] [[Pt 40 0; Pt 60 0]]].
Proof.
  do 3 (split; [vm_compute; reflexivity|]). split.
  - intros p [<-|[]] x. cbn [holes outline]. split; [|cbn; split; [intros _ ? []|exact I]]. intros h [<-|[]]. unfold in_strips. cbn [ends odd_le px].
    destruct (Z.leb_spec 40 x), (Z.leb_spec 60 x), (Z.leb_spec 0 x), (Z.leb_spec 100 x); cbn; try lia; congruence.
  - intros x. cbn. split; [intros _ ? []|exact I].
Qed.
(** Before travelling to a polygon inside a layer the filament is retracted exactly if retraction is configured and the way
    leaves the parts of the layer; without a layer never. *)
Theorem retracts_exactly : forall (P : Type) (inside : path -> P -> bool) (on : path -> P -> Prop) lib layer g p0, cuts_exactly inside on lib -> 
  (forall parts, layer = Some parts -> S_Area.proper inside parts) ->
  exists c, crossing lib layer g p0 = Some c /\
    (c = true <-> retractionSpeed g <> 0 /\ is_zero (retractionAmount g) = false /\
       exists parts x, layer = Some parts /\ on [PointXY (currentPosition g); p0] x /\ ~ covered inside parts x).
Proof.
  intros P inside on lib [parts|] g p0 Cut Pr; cbn [crossing].
  - destruct (Z.eqb_spec (retractionSpeed g) 0) as [E|E]; cbn [negb andb]; [exists false; split; [reflexivity|]; split; [discriminate|tauto]|].
    destruct (is_zero (retractionAmount g)); cbn [negb]; [exists false; split; [reflexivity|]; split; [discriminate|intros (_ & ? & _); discriminate]|].
    destruct (crossing_exact P inside on lib parts [PointXY (currentPosition g); p0] Cut (Pr parts eq_refl)) as (c & Ec & H). exists c. split; [exact Ec|]. rewrite H.
    split; [intros (x & O & N); split; [exact E|]; split; [reflexivity|]; exists parts, x; auto|intros (_ & _ & parts' & x & [= <-] & O & N); exists x; auto].
  - exists false. split; [reflexivity|]. split; [discriminate|]. intros (_ & _ & parts & x & E & _). discriminate.
Qed.
Print Assumptions retracts_exactly.
Example retracts_ex : let g := SetRetractionAmount (f32_of_Z 2) (SetRetractionSpeed (f32_of_Z 30) (NewGCodeBuilder 1750 100)) in
  crossing line_lib (Some [Part [Pt 0 0; Pt 100 0] []]) g (Pt 90 5) = Some false /\ crossing line_lib (Some [Part [Pt 0 0; Pt 100 0] []]) g (Pt 200 5) = Some true.
Proof. split; vm_compute; reflexivity. Qed.

(** *** C85 *)
(** The lines of a filled part are turned back from lines inside the turned part; without zig-zag these are exactly the
    points of the turned part on the upright grid lines which start at the left of the turned box. *)
Theorem infill_lines_exact : forall (P : Type) (inside : path -> P -> bool) (on : path -> P -> Prop) lib fuel p nr q ls, straight on -> cuts_exactly inside on lib -> capable lib ->
  Z.abs (degree p) <= 2 ^ 52 -> pt_bounded (2 ^ 22) (lmin p) -> pt_bounded (2 ^ 22) (lmax p) ->
  0 < lineDistance p <= 2 ^ 28 -> 0 <= lineWidth p <= 2 ^ 28 -> 2 ^ 24 < Z.of_nat fuel * lineDistance p -> Fill lib fuel p nr q = Ok ls ->
  let turn := rotate_path lib (rotation p nr) in let turn_back := rotate_path lib (SFopp (rotation p nr)) in
  let '(mn, mx) := PathBounds (turn [lmin p; Pt (px (lmax p)) (py (lmin p)); lmax p; Pt (px (lmin p)) (py (lmax p))]) in
  let in_turned_part x := parity inside (turn (outline q) :: map turn (holes q)) x = true in
  let on_grid x := exists k, 0 <= k /\ px mn + k * lineDistance p <= px mx /\ on [Pt (px mn + k * lineDistance p) (py mx); Pt (px mn + k * lineDistance p) (py mn)] x in
  exists turned, ls = map turn_back turned /\
    (forall l x, In l turned -> on l x -> in_turned_part x) /\
    (zigZag p = false -> forall x, (exists l, In l turned /\ on l x) <-> in_turned_part x /\ on_grid x).
Proof. intros P inside on lib fuel p nr q ls St Cut Cap. exact (fill_points inside on lib St Cut Cap fuel p nr q ls). Qed.
Print Assumptions infill_lines_exact.
Lemma turn_zero lib l : rotate_path lib (f64_of_Z 0) l = l /\ rotate_path lib (SFopp (f64_of_Z 0)) l = l.
Proof. split; reflexivity. Qed.
(** If the pattern is not turned, all lines lie in the part. *)
Theorem infill_lines_in_part : forall (P : Type) (inside : path -> P -> bool) (on : path -> P -> Prop) lib fuel p nr q ls, straight on -> cuts_exactly inside on lib -> capable lib ->
  degree p = 0 -> rectlinear p = false \/ Z.odd nr = true -> pt_bounded (2 ^ 22) (lmin p) -> pt_bounded (2 ^ 22) (lmax p) ->
  0 < lineDistance p <= 2 ^ 28 -> 0 <= lineWidth p <= 2 ^ 28 -> 2 ^ 24 < Z.of_nat fuel * lineDistance p -> proper_part inside q -> Fill lib fuel p nr q = Ok ls ->
  forall l x, In l ls -> on l x -> in_part inside q x.
Proof.
  intros P inside on lib fuel p nr q ls St Cut Cap D0 Rl Bn Bx Hd Hw Hf Pq E.
  pose proof (infill_lines_exact P inside on lib fuel p nr q ls St Cut Cap ltac:(rewrite D0; cbn; lia) Bn Bx Hd Hw Hf E) as H. cbv zeta in H.
  assert (R : rotation p nr = f64_of_Z 0). { rewrite fill_rotation by (rewrite D0; cbn; lia). rewrite D0, <- Z.negb_odd. destruct Rl as [->| ->]; [reflexivity|]. rewrite andb_false_r. reflexivity. }
  rewrite R in H. destruct (PathBounds _) as [mn mx]. destruct H as (turned & El & Hi & _).
  assert (M : map (rotate_path lib (SFopp (f64_of_Z 0))) turned = turned). { clear. induction turned as [|l ls IH]; [reflexivity|]. cbn [map]. rewrite IH, (proj2 (turn_zero lib l)). reflexivity. }
  assert (M2 : map (rotate_path lib (f64_of_Z 0)) (holes q) = holes q). { clear. induction (holes q) as [|l ls IH]; [reflexivity|]. cbn [map]. rewrite IH, (proj1 (turn_zero lib l)). reflexivity. }
  rewrite M in El. subst turned. intros l x Il O. specialize (Hi l x Il O). rewrite M2, (proj1 (turn_zero lib _)) in Hi. apply proper_part_parity; assumption.
Qed.
Print Assumptions infill_lines_in_part.
Example infill_lines_ex : straight on_strips /\ cuts_exactly in_strips on_strips line_lib /\ capable line_lib /\
  let p := Linear 400 100 0 (Pt 0 0) (Pt 2000 900) true false in
  Fill line_lib 50000 p 1 (Part [Pt 300 0; Pt 1500 0] [[Pt 700 0; Pt 900 0]]) = Ok [[Pt 400 900; Pt 400 0]; [Pt 1200 0; Pt 1200 900]].
Proof. split; [exact strips_straight|]. split; [exact line_cuts|]. split; [exact line_capable|]. vm_compute. reflexivity. Qed.
