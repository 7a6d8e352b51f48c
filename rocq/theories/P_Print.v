(** Properties C100 and C101: models whose vertices are not too close are printed as they are. *)
From Verif Require Import GoBase GoFloat GoStr M_Micrometer M_Geom2D M_Model M_Slicer M_Clip M_Builder M_Option M_Layer M_Render M_Modifier M_Process M_Flags
  S_Geom S_Model S_Slicer S_Clip S_Area S_Calls S_Machine S_Render S_Modifier S_Process S_Fill S_Flags S_Place S_Print L_Model L_Slicer L_SliceLoop L_SliceAll L_Area L_Clip L_Strip L_LineLib L_Modifier L_Infill L_Process
  P_Model P_Slicer P_Modifier P_Render P_Process P_Pipeline P_Complete P_Flags P_EndToEnd.
Local Open Scope string_scope.
Local Open Scope list_scope.
Local Open Scope Z_scope.

Lemma vec_dec (v w : vec3) : {v = w} + {v <> w}.
Proof. decide equality; apply Z.eq_dec. Qed.
Definition back (d : vec3) : vec3 := V3 (- vx d) (- vy d) (- vz d).
Lemma shift_back v w d : shift3 v d = w -> v = shift3 w (back d).
Proof. intros <-. destruct v, d. unfold shift3, back. cbn. f_equal; lia. Qed.

(** *** C100 *)
(** If different vertices are further apart than the meld distance, the faces of the optimized model are the faces of the
    input, in the same order and with the corners in the same order, all moved by the same vector; and each input face with
    three different corners has an optimized one with the same corners. *)
Theorem optimizer_exact : forall meld center fs om open, usable meld center fs -> apart meld fs -> Optimize meld center fs = Ok (om, open) ->
  exists mn mx ofs, tight_box3 (vertices fs) mn mx /\ omFaces om (om_faces om) = Ok ofs /\
    let d := back (plate_offset mn mx center) in
    subseq ofs (moved d fs) /\
    forall f, In f fs -> proper_face f -> exists g, In g ofs /\ forall v, In v (facePoints g) <-> In v (facePoints (move d f)).
Proof.
  intros meld center fs om open U A E. destruct (optimizer_melding _ _ _ _ _ U E) as (mn & mx & Tb & num & N1 & N2 & Sub & N4).
  set (off := plate_offset mn mx center) in *. set (d := back off).
  assert (At : forall v, In v (vertices fs) -> exists p, idx (om_points om) (num v) = Ok p /\ opos p = shift3 v d).
  { intros v Iv. destruct (N1 v Iv) as (p & Ip & Dp). exists p. split; [exact Ip|]. apply shift_back. destruct (vec_dec (shift3 (opos p) off) v) as [Q|Q]; [exact Q|]. exfalso.
    assert (In (shift3 (opos p) off) (vertices fs)).
    { apply N2. unfold idx in Ip. destruct (num v <? 0); [discriminate|]. destruct (nth_error (om_points om) (Z.to_nat (num v))) eqn:Q'; [|discriminate]. injection Ip as <-. eapply nth_error_In, Q'. }
    pose proof (A _ _ H Iv Q). lia. }
  assert (Pts : forall f g, In f fs -> oi g = num3 num f -> oPoints om g = Ok (move d f)).
  { intros [[a b] c] g If Eg. unfold oPoints. rewrite Eg. cbn [num3].
    assert (V : forall v, In v [a; b; c] -> In v (vertices fs)) by (intros v Iv; unfold vertices; apply in_flat_map; eauto).
    destruct (At a (V a ltac:(clear; cbn; auto))) as (pa & -> & Ea). destruct (At b (V b ltac:(clear; cbn; auto))) as (pb & -> & Eb). destruct (At c (V c ltac:(clear; cbn; auto))) as (pc & -> & Ec).
    cbn [bind]. rewrite Ea, Eb, Ec. reflexivity. }
  assert (G : forall gs ms, subseq (map oi gs) (map (num3 num) ms) -> (forall f, In f ms -> In f fs) -> exists ofs, omFaces om gs = Ok ofs /\ subseq ofs (moved d ms)).
  { intros gs ms. revert gs. induction ms as [|m ms IH]; intros gs Hs Hin.
    - inversion Hs as [E0| |]; subst. destruct gs; [|discriminate]. exists []. split; [reflexivity|constructor].
    - inversion Hs as [|x l m' Hs' E0 E1|x l m' Hs' E0 E1]; subst.
      + destruct gs as [|g gs]; [discriminate|]. injection E0 as Ex El. subst l. destruct (IH gs Hs' ltac:(intros; apply Hin; right; assumption)) as (ofs & Eo & So).
        exists (move d m :: ofs). cbn [omFaces]. rewrite (Pts m g ltac:(apply Hin; left; reflexivity) ltac:(congruence)). cbn [bind]. rewrite Eo. split; [reflexivity|]. cbn [moved map]. apply sub_keep. exact So.
      + destruct (IH gs Hs' ltac:(intros; apply Hin; right; assumption)) as (ofs & Eo & So). exists ofs. split; [exact Eo|apply sub_skip; exact So]. }
  destruct (G (om_faces om) fs Sub ltac:(auto)) as (ofs & Eo & So). exists mn, mx, ofs. split; [exact Tb|]. split; [exact Eo|]. cbn zeta. fold off d. split; [exact So|].
  intros f If Pf. destruct (N4 f If) as [Dg|(g & Ig & Sg)].
  - exfalso. destruct f as [[a b] c]. cbn [num3 degenerate proper_face] in *.
    assert (V : forall v, In v [a; b; c] -> In v (vertices fs)) by (intros v Iv; unfold vertices; apply in_flat_map; eauto).
    destruct (At a (V a ltac:(clear; cbn; auto))) as (pa & Ia & Ea). destruct (At b (V b ltac:(clear; cbn; auto))) as (pb & Ib & Eb). destruct (At c (V c ltac:(clear; cbn; auto))) as (pc & Ic & Ec).
    assert (Inj : forall v w, shift3 v d = shift3 w d -> v = w) by (intros [] []; unfold shift3; cbn; intros [= ]; f_equal; lia).
    destruct Pf as (P1 & P2 & P3). destruct Dg as [Q|[Q|Q]]; rewrite Q in *; [apply P1|apply P2|apply P3]; apply Inj; congruence.
  - pose proof (omFaces_forall2 _ _ _ Eo) as F2. assert (Gx : exists x, In x ofs /\ oPoints om g = Ok x).
    { clear -F2 Ig. induction F2 as [|g' x gs xs H F2 IH]; [destruct Ig|]. destruct Ig as [->|Ig]; [exists x; split; [left; reflexivity|exact H]|]. destruct (IH Ig) as (y & Iy & Hy). exists y. split; [right; exact Iy|exact Hy]. }
    destruct Gx as (x & Ix & Ex). exists x. split; [exact Ix|]. destruct f as [[a b] c]. destruct (oi g) as [[i j] k] eqn:Og. unfold oPoints in Ex. rewrite Og in Ex. cbn [num3] in Sg.
    assert (V : forall v, In v [a; b; c] -> In v (vertices fs)) by (intros v Iv; unfold vertices; apply in_flat_map; eauto).
    destruct (At a (V a ltac:(clear; cbn; auto))) as (pa & Ia & Ea). destruct (At b (V b ltac:(clear; cbn; auto))) as (pb & Ib & Eb). destruct (At c (V c ltac:(clear; cbn; auto))) as (pc & Ic & Ec).
    apply bind_Ok in Ex. destruct Ex as (p1 & I1 & Ex). apply bind_Ok in Ex. destruct Ex as (p2 & I2 & Ex). apply bind_Ok in Ex. destruct Ex as (p3 & I3 & Ex). injection Ex as <-.
    cbn [move facePoints]. rewrite <- Ea, <- Eb, <- Ec.
    assert (H1 := proj1 (Sg i)). assert (H2 := proj1 (Sg j)). assert (H3 := proj1 (Sg k)). assert (Ha := proj2 (Sg (num a))). assert (Hb := proj2 (Sg (num b))). assert (Hc := proj2 (Sg (num c))). unfold uses in *.
    specialize (H1 ltac:(clear; auto)). specialize (H2 ltac:(clear; auto)). specialize (H3 ltac:(clear; auto)). specialize (Ha ltac:(clear; auto)). specialize (Hb ltac:(clear; auto)). specialize (Hc ltac:(clear; auto)).
    assert (R : forall i' p', idx (om_points om) i' = Ok p' -> (i' = num a \/ i' = num b \/ i' = num c) -> p' = pa \/ p' = pb \/ p' = pc).
    { intros i' p' I' [->|[->| ->]]; [left|right; left|right; right]; congruence. }
    assert (R' : forall i' p', idx (om_points om) i' = Ok p' -> (i' = i \/ i' = j \/ i' = k) -> p' = p1 \/ p' = p2 \/ p' = p3).
    { intros i' p' I' [->|[->| ->]]; [left|right; left|right; right]; congruence. }
    intros v. cbn [In]. split.
    + intros [<-|[<-|[<-|[]]]].
      * destruct (R i p1 I1 H1) as [->|[->| ->]]; clear; auto.
      * destruct (R j p2 I2 H2) as [->|[->| ->]]; clear; auto.
      * destruct (R k p3 I3 H3) as [->|[->| ->]]; clear; auto.
    + intros [<-|[<-|[<-|[]]]].
      * destruct (R' _ pa Ia Ha) as [->|[->| ->]]; clear; auto.
      * destruct (R' _ pb Ib Hb) as [->|[->| ->]]; clear; auto.
      * destruct (R' _ pc Ic Hc) as [->|[->| ->]]; clear; auto.
Qed.
Print Assumptions optimizer_exact.

Lemma subseq_in {A} (l m : list A) : subseq l m -> forall x, In x l -> In x m.
Proof. induction 1 as [|y l m S IH|y l m S IH]; intros x I; [destruct I|destruct I as [->|I]; [left; reflexivity|right; auto]|right; auto]. Qed.
Lemma move_points d f v : In v (facePoints (move d f)) <-> exists w, In w (facePoints f) /\ v = shift3 w d.
Proof.
  destruct f as [[a b] c]. change (facePoints (move d (a, b, c))) with [shift3 a d; shift3 b d; shift3 c d]. change (facePoints (a, b, c)) with [a; b; c]. cbn [In]. split.
  - intros [<-|[<-|[<-|[]]]]; [exists a|exists b|exists c]; auto.
  - intros (w & [<-|[<-|[<-|[]]]] & ->); auto.
Qed.
(** a model of one piece has no gap *)
Theorem one_piece_no_gap : forall fs, one_piece fs -> no_gap fs.
Proof.
  intros fs O z v w Iv Iw Hz. unfold vertices in Iv, Iw. apply in_flat_map in Iv, Iw. destruct Iv as (f & If & Iv), Iw as (g & Ig & Iw).
  assert (L : forall f g, reach fs f g -> linked fs f g) by (induction 1; [apply Linked_refl; assumption|eapply Linked_step; eassumption]).
  destruct (no_gaps fs z) as (h & Ih & Hh).
  - intros f' g' I1 I2. apply L, O; assumption.
  - exists f. split; [exact If|]. pose proof (between f v Iv). lia.
  - exists g. split; [exact Ig|]. pose proof (between g w Iw). lia.
  - destruct (minmax_in h) as (a & b & Ia & Ib & Ea & Eb & _). exists h, a, b. rewrite <- Ea, <- Eb. auto.
Qed.
Print Assumptions one_piece_no_gap.
Lemma box_unique l m x m2 x2 : tight_box3 l m x -> tight_box3 l m2 x2 -> m = m2 /\ x = x2.
Proof.
  destruct m as [m1 m2' m3], x as [x1 x2' x3], m2 as [m1' m2'' m3'], x2 as [x1' x2'' x3']. intros (A0 & (a1 & I1 & E1) & (a2 & I2 & E2) & (a3 & I3 & E3) & (a4 & I4 & E4) & (a5 & I5 & E5) & (a6 & I6 & E6)) (B0 & (b1 & J1 & F1) & (b2 & J2 & F2) & (b3 & J3 & F3) & (b4 & J4 & F4) & (b5 & J5 & F5) & (b6 & J6 & F6)).
    pose proof (A0 b1 J1). pose proof (A0 b2 J2). pose proof (A0 b3 J3). pose proof (A0 b4 J4). pose proof (A0 b5 J5). pose proof (A0 b6 J6).
    pose proof (B0 a1 I1). pose proof (B0 a2 I2). pose proof (B0 a3 I3). pose proof (B0 a4 I4). pose proof (B0 a5 I5). pose proof (B0 a6 I6). cbn in *. split; f_equal; lia.
Qed.
(** a print of a printable model: the optimized model has faces at all heights from the bottom to the top *)
Lemma printable_optimized meld center init fs om open ofs mn mx : usable meld center fs -> printable meld init fs -> Optimize meld center fs = Ok (om, open) -> tight_box3 (vertices fs) mn mx ->
  omFaces om (om_faces om) = Ok ofs -> vz center = 0 ->
  (forall z, 0 <= z <= vz mx - vz mn -> exists f, In f ofs /\ MinZ f <= z <= MaxZ f) /\ om_size om = V3 (vx mx - vx mn) (vy mx - vy mn) (vz mx - vz mn).
Proof.
  intros U Pr E Tb Ef Cz. destruct (optimizer_exact _ _ _ _ _ U (p_apart _ _ _ Pr) E) as (mn' & mx' & ofs' & Tb' & Ef' & Sub & Keep). rewrite Ef in Ef'. injection Ef' as <-.
  destruct (box_unique _ _ _ _ _ Tb Tb') as (<- & <-). clear Tb'. set (d := back (plate_offset mn mx center)) in *.
  assert (Dz : vz d = - vz mn) by (unfold d, back, plate_offset; cbn; lia).
  pose proof (p_proper _ _ _ Pr) as Pp. rewrite Forall_forall in Pp.
  split.
  - intros z Hz. destruct Tb as (_ & _ & _ & _ & _ & (v & Iv & Ev) & (w & Iw & Ew)).
    destruct (p_gap _ _ _ Pr (z + vz mn) v w Iv Iw ltac:(lia)) as (f & a & b & If & Ia & Ib & Hf). destruct (Keep f If (Pp f If)) as (g & Ig & Hg). exists g. split; [exact Ig|].
    pose proof (between g (shift3 a d) ltac:(apply Hg, move_points; eauto)) as Ba. pose proof (between g (shift3 b d) ltac:(apply Hg, move_points; eauto)) as Bb.
    change (vz (shift3 a d)) with (vz a + vz d) in Ba. change (vz (shift3 b d)) with (vz b + vz d) in Bb. lia.
  - destruct (optimizer_placement _ _ _ _ _ U E) as ((mn' & mx' & Tb' & Sz) & _). destruct (box_unique _ _ _ _ _ Tb Tb') as (<- & <-). exact Sz.
Qed.

(** *** C101 *)
(** Every printable model is printed: the run ends without an error, the file afterwards holds the whole G-code, the other files
    are as before, and the G-code prints as many layers as fit into the height of the model. *)
Theorem model_printed : forall (P : Type) (inside : path -> P -> bool) lib tangent fuel env sys d o input output fs mn mx,
  exact inside lib -> capable lib -> 2 ^ 24 < Z.of_nat fuel -> workable o ->
  let init := InitialLayerThickness (Print o) in let thick := LayerThickness (Print o) in let meld := MeldDistance (Slicing o) in let center := Center (Printer o) in
  0 <= init -> 0 < meld < 2 ^ 31 -> Z.abs (vx center) <= 2 ^ 19 -> Z.abs (vy center) <= 2 ^ 19 -> vz center = 0 -> plain (StartGCode (Printer o)) -> plain (EndGCode (Printer o)) ->
  Read env input = Ok fs -> printable meld init fs -> tight_box3 (vertices fs) mn mx ->
  create_error sys = None -> (forall k, snd (write_answer sys k) = None /\ fst (write_answer sys k) <> O) ->
  let file := if String.eqb output "" then (input ++ ".gcode")%string else output in
  (exists steps, Process (NewGoSlice lib tangent fuel env sys d o) input output = (steps, Ok tt)) /\
  exists text n ks, inhabited (finished lib tangent fuel env o input text) /\
    last (fst (Write sys d text file)) d file = Some text /\ (forall other, other <> file -> last (fst (Write sys d text file)) d other = d other) /\
    init + (Z.of_nat n - 1) * thick <= vz mx - vz mn < init + Z.of_nat n * thick /\ List.length ks = n /\
    events text = safe_start o ++ custom (map (fill_template o) (StartGCode (Printer o))) ++ marked o 0 ks ++ safe_stop o ++ custom (EndGCode (Printer o)).
Proof.
  intros P inside lib tangent fuel env sys d o input output fs mn mx E Cap Fuel W init thick meld center Hi Hm Cx Cy Cz Ps Pe Er Pr Tb Ce Wa file.
  assert (U : usable meld center fs).
  { split; [exact Hm|]. split; [|repeat split; lia]. eapply Forall_impl; [|exact (p_near _ _ _ Pr)]. intros v (A & B & C). repeat split; lia. }
  destruct (optimizer_total _ _ _ U (p_some _ _ _ Pr)) as (om & open & Eo). destruct (optimizer_exact _ _ _ _ _ U (p_apart _ _ _ Pr) Eo) as (_ & _ & ofs & _ & Ef & _).
  destruct (printable_optimized _ _ _ _ _ _ _ _ _ U Pr Eo Tb Ef Cz) as (Mt & Sz).
  assert (High : init <= vz mx - vz mn). { destruct (p_high _ _ _ Pr) as (v & w & Iv & Iw & H). destruct (proj1 Tb v Iv) as (_ & _ & H1). destruct (proj1 Tb w Iw) as (_ & _ & H2). lia. }
  assert (Ht : 0 < thick <= 2 ^ 30) by apply (w_thick o W). assert (Hi2 : init <= 2 ^ 30) by (pose proof (w_init o W); unfold init; lia).
  assert (Q : thick * Z.quot (vz mx - vz mn - init) thick <= vz mx - vz mn - init). { rewrite Z.quot_div_nonneg by lia. apply Z.mul_div_le; lia. }
  assert (Lc : layer_count init thick om = Z.quot (vz mx - vz mn - init) thick + 1) by (unfold layer_count; rewrite Sz; reflexivity).
  assert (Q0 : 0 <= Z.quot (vz mx - vz mn - init) thick) by (apply Z.quot_pos; lia).
  assert (Bp : forall p, In p (om_points om) -> vec_bounded (2 ^ 21) (opos p)).
  { intros p Ip. destruct (optimizer_placement _ _ _ _ _ U Eo) as (_ & Pl & _). destruct (Pl p Ip) as (Bx & By & Bz). rewrite Sz in Bx, By, Bz. 
    pose proof (p_near _ _ _ Pr) as Nr. rewrite Forall_forall in Nr. destruct Tb as (_ & (v1 & I1 & E1) & (v2 & I2 & E2) & (v3 & I3 & E3) & (v4 & I4 & E4) & (v5 & I5 & E5) & (v6 & I6 & E6)).
    destruct (Nr _ I1) as (N1 & _). destruct (Nr _ I2) as (N2 & _). destruct (Nr _ I3) as (_ & N3 & _). destruct (Nr _ I4) as (_ & N4 & _). destruct (Nr _ I5) as (_ & _ & N5). destruct (Nr _ I6) as (_ & _ & N6).
    cbn -[Z.mul] in Bx, By, Bz. clear - Bx By Bz N1 N2 N3 N4 N5 N6 E1 E2 E3 E4 E5 E6 Cx Cy Cz. unfold vec_bounded. repeat split; lia. }
  assert (Mt' : met init thick (layer_count init thick om) ofs). { intros k Hk. apply Mt. rewrite Lc in Hk. unfold S_Slicer.height. set (q := Z.quot _ _) in *. clearbody q. nia. }
  destruct (met_run_succeeds P inside lib tangent fuel env sys d o input output fs om open ofs E Cap Fuel W Er U Eo Bp Ef ltac:(fold init thick; lia) Mt' Ce Wa) as (steps & Es).
  split; [eauto|]. destruct (proj1 (built_in_run lib tangent fuel env sys d o input output) (ex_intro _ steps Es)) as (text & [r] & Wr). fold file in Wr.
  assert (Ff : f_faces _ _ _ _ _ _ _ r = fs /\ f_model _ _ _ _ _ _ _ r = om).
  { destruct r as [fs' om' open' l0 l1 l2 l3 l4 l5 l6 mn' mx' rs E1 E4 E5 M1 M2 M3 M4 M5 M6 B E7 E8]. cbn [f_faces f_model]. assert (fs' = fs) by congruence. subst fs'. split; [reflexivity|]. fold meld center in E4. congruence. }
  destruct Ff as (Ff & Fm). destruct (run_layers _ _ _ _ _ _ _ r) as (n & ks & Hn & Hh2 & Lk & _ & Ev & _).
  - rewrite Ff. exact U.
  - fold center. lia.
  - rewrite Fm. intros p Ip. destruct (Bp p Ip) as (A & B & C). repeat split; lia.
  - rewrite Fm, Sz. fold init. split; [exact Hi|exact High].
  - exact Hi2.
  - exact Ht.
  - exact Ps.
  - exact Pe.
  - exists text, n, ks. split; [constructor; exact r|]. destruct (Write sys d text file) as [states res] eqn:Ew. cbn [fst snd] in *. subst res.
    split; [exact (proj1 (write_success _ _ _ _ _ _ Ew) eq_refl)|]. split.
    + intros other No. assert (Il : last states d = d \/ In (last states d) states). { clear. destruct states as [|s l]; [left; reflexivity|right]. revert s. induction l as [|s' l IH]; intros s; [left; reflexivity|]. right. exact (IH s'). }
      destruct Il as [->|Il]; [reflexivity|]. exact (proj1 (write_crash_points _ _ _ _ _ _ _ Ew Il) other No).
    + rewrite Fm, Sz in Hh2. split; [exact Hh2|]. split; [exact Lk|exact Ev].
Qed.
Print Assumptions model_printed.

(** The program called with the name of a model file only: a printable model (vertices more than 30 micrometers apart, at
    least 0.2 mm high) gets one layer per 0.2 mm of its height, written into the file with .gcode appended. *)
Theorem goslice_file : forall (P : Type) (inside : path -> P -> bool) lib tangent fuel env sys d name fs mn mx,
  exact inside lib -> capable lib -> 2 ^ 24 < Z.of_nat fuel -> name <> "" -> (forall t, name <> ("-" ++ t)%string) ->
  Read env name = Ok fs -> printable 30 200 fs -> tight_box3 (vertices fs) mn mx ->
  create_error sys = None -> (forall k, snd (write_answer sys k) = None /\ fst (write_answer sys k) <> O) ->
  program lib tangent fuel env sys d [name] = Some 0 /\
  exists o text ks, ParseFlags [name] = Some (o, false) /\ inhabited (finished lib tangent fuel env o name text) /\
    last (fst (Write sys d text (name ++ ".gcode"))) d (name ++ ".gcode")%string = Some text /\
    (forall other, other <> (name ++ ".gcode")%string -> last (fst (Write sys d text (name ++ ".gcode"))) d other = d other) /\
    Z.of_nat (List.length ks) = (vz mx - vz mn) / 200 /\
    events text = safe_start o ++ custom (map (fill_template o) (StartGCode (Printer o))) ++ marked o 0 ks ++ safe_stop o ++ custom (EndGCode (Printer o)).
Proof.
  intros P inside lib tangent fuel env sys d name fs mn mx E Cap Fuel Ne Nd Er Pr Tb Ce Wa.
  assert (Sp : spells [name] [Operand name]) by (apply sp_operand; [right; exact Nd|constructor]).
  assert (Rd : readable_items [Operand name]). { intros n get D. repeat (destruct D as [[= <- <-]|D]; [vm_compute; discriminate|]). destruct D. }
  destruct (exit_process lib tangent fuel env sys d [name] [Operand name] Sp Rd eq_refl Ne) as (o & Po & Hin & X & _). cbn [operands hd] in Hin.
  assert (Eo : o = upd_goslice (fun r => GoSliceOptions name (OutputFilePath r)) DefaultOptions).
  { revert Po. clear - Ne Nd. destruct name as [|c t]; [destruct (Ne eq_refl)|]. assert (Nc : Ascii.eqb c "-" = false) by (apply Ascii.eqb_neq; intros ->; exact (Nd t eq_refl)).
    unfold ParseFlags. cbn [List.length parse_args]. destruct t as [|c' t']; [|rewrite Nc]; intros [= <-]; reflexivity. }
  assert (W : workable o). { rewrite Eo. pose proof default_workable as D. destruct D; constructor; assumption. }
  assert (Oo : OutputFilePath (GoSlice o) = "") by (rewrite Eo; reflexivity).
  assert (Ps : plain (StartGCode (Printer o))) by (rewrite Eo; repeat constructor). assert (Pe : plain (EndGCode (Printer o))) by (rewrite Eo; repeat constructor).
  assert (Pr' : printable (MeldDistance (Slicing o)) (InitialLayerThickness (Print o)) fs) by (rewrite Eo; exact Pr).
  destruct (model_printed P inside lib tangent fuel env sys d o name "" fs mn mx E Cap Fuel W) as ((steps & Es) & text & n & ks & Fi & La & Ot & Hh & Lk & Ev); try assumption; try (rewrite Eo; vm_compute; repeat split; discriminate).
  cbn [String.eqb] in La, Ot. rewrite Hin, Oo in X. split; [apply (proj2 X); change (hd "" (operands [Operand name])) with name; rewrite Es; reflexivity|].
  exists o, text, ks. split; [exact Po|]. split; [exact Fi|]. split; [exact La|]. split; [exact Ot|]. split; [|exact Ev].
  replace (InitialLayerThickness (Print o)) with 200 in Hh by (rewrite Eo; reflexivity). replace (LayerThickness (Print o)) with 200 in Hh by (rewrite Eo; reflexivity).
  rewrite Lk. apply Z.div_unique with (r := vz mx - vz mn - 200 * Z.of_nat n); lia.
Qed.
Print Assumptions goslice_file.

(** the tetrahedron of 1 mm with one face given twice, the second time with its corners in another order *)
Definition corner_twice : list face := corner_fs ++ map (fun f => let '(a, b, c) := f in (c, a, b)) (firstn 1 corner_fs).
Lemma apart_check meld fs : forallb (fun v => forallb (fun w => ((vx v =? vx w) && (vy v =? vy w) && (vz v =? vz w)) || (meld ^ 2 <? dist3 v w)) (vertices fs)) (vertices fs) = true -> apart meld fs.
Proof.
  intros H v w Iv Iw N. rewrite forallb_forall in H. specialize (H v Iv). rewrite forallb_forall in H. specialize (H w Iw). apply orb_true_iff in H. destruct H as [H|H]; [|apply Z.ltb_lt; exact H]. apply andb_true_iff in H. destruct H as (H & Hz). apply andb_true_iff in H. destruct H as (Hx & Hy). apply Z.eqb_eq in Hx, Hy, Hz. destruct N, v, w; cbn in *; congruence.
Qed.
Lemma linked_reach fs f g : linked fs f g -> reach fs f g.
Proof. induction 1; [apply reach_same; assumption|eapply reach_next; eassumption]. Qed.
Lemma corner_printable fs : fs = corner_fs \/ fs = corner_twice -> printable 30 200 fs.
Proof.
  intros [-> | ->]; (split; [discriminate| | | | |]).
  1, 6: repeat constructor; vm_compute; discriminate.
  1, 5: repeat constructor; intros [=].
  1, 4: apply apart_check; vm_compute; reflexivity.
  1, 3: apply one_piece_no_gap; intros f g If Ig; apply linked_reach; revert f g If Ig; apply connected_via; vm_compute; reflexivity.
  all: exists (V3 0 0 0), (V3 0 0 1000); vm_compute; intuition discriminate.
Qed.
Lemma corner_box fs : fs = corner_fs \/ fs = corner_twice -> tight_box3 (vertices fs) (V3 0 0 0) (V3 1000 1000 1000).
Proof.
  assert (G : forall l, (forall v, In v l <-> In v [V3 0 0 0; V3 1000 0 0; V3 0 1000 0; V3 0 0 1000]) -> tight_box3 l (V3 0 0 0) (V3 1000 1000 1000)).
  { intros l L. split; [intros v Iv; apply L in Iv; repeat (destruct Iv as [<-|Iv]; [cbn; lia|]); destruct Iv|].
    repeat split; [exists (V3 0 0 0)|exists (V3 1000 0 0)|exists (V3 0 0 0)|exists (V3 0 1000 0)|exists (V3 0 0 0)|exists (V3 0 0 1000)]; (split; [apply L; cbn; auto|reflexivity]). }
  intros H. apply G. intros v. destruct H as [-> | ->]; cbn; tauto.
Qed.
Example optimizer_exact_ex : usable 30 (V3 100000 100000 0) corner_twice /\ apart 30 corner_twice /\ List.length corner_twice = 5%nat /\
  match Optimize 30 (V3 100000 100000 0) corner_twice with Ok (om, _) => List.length (om_faces om) = 4%nat | _ => False end.
Proof.
  split; [|split; [apply (p_apart 30 200), corner_printable; right; reflexivity|split; vm_compute; reflexivity]].
  split; [vm_compute; intuition discriminate|]. split; [repeat constructor; vm_compute; discriminate|]. repeat split; vm_compute; discriminate.
Qed.
(** the printed tetrahedron *)
Example goslice_file_ex : forall fuel d, 2 ^ 24 < Z.of_nat fuel -> exists o text ks,
  program line_lib (fun _ => f64_of_Z 1) fuel corner_file corner_os d ["part.stl"] = Some 0 /\
  last (fst (Write corner_os d text "part.stl.gcode")) d "part.stl.gcode" = Some text /\ List.length ks = 5%nat /\
  events text = safe_start o ++ custom (map (fill_template o) (StartGCode (Printer o))) ++ marked o 0 ks ++ safe_stop o ++ custom (EndGCode (Printer o)).
Proof.
  intros fuel d Fuel. destruct (goslice_file Z in_strips line_lib (fun _ => f64_of_Z 1) fuel corner_file corner_os d "part.stl" corner_fs (V3 0 0 0) (V3 1000 1000 1000) line_exact line_capable Fuel) as (X & o & text & ks & _ & _ & La & _ & Lk & Ev).
  - discriminate.
  - intros t. discriminate.
  - vm_compute. reflexivity.
  - apply corner_printable. left. reflexivity.
  - apply corner_box. left. reflexivity.
  - reflexivity.
  - intros k. split; [reflexivity|discriminate].
  - exists o, text, ks. split; [exact X|]. split; [exact La|]. split; [|exact Ev]. change ((vz (V3 1000 1000 1000) - vz (V3 0 0 0)) / 200) with 5 in Lk. lia.
Qed.
(** two tetrahedra of 1 mm, 5 mm apart: a model of two pieces *)
Definition two_corners : list face := corner_fs ++ moved (V3 6000 0 0) corner_fs.
Example two_pieces_printable : printable 30 200 two_corners /\ ~ one_piece two_corners.
Proof.
  split.
  - split; [discriminate|repeat constructor; vm_compute; discriminate|repeat constructor; intros [=]|apply apart_check; vm_compute; reflexivity| |exists (V3 0 0 0), (V3 0 0 1000); vm_compute; intuition discriminate].
    intros z v w Iv Iw Hz. exists (nth 1 two_corners (V3 0 0 0, V3 0 0 0, V3 0 0 0)), (V3 0 0 0), (V3 0 0 1000). split; [right; left; reflexivity|]. split; [left; reflexivity|]. split; [right; right; left; reflexivity|].
    assert (B : forall u, In u (vertices two_corners) -> 0 <= vz u <= 1000) by (intros u Iu; repeat (destruct Iu as [<-|Iu]; [vm_compute; split; discriminate|]); destruct Iu).
    pose proof (B v Iv). pose proof (B w Iw). cbn [vz]. lia.
  - intros O. assert (L : forall f g, reach two_corners f g -> In f corner_fs -> In g corner_fs).
    { induction 1 as [f If|f g h u R IH Ih U1 U2]; intros Ic; [exact Ic|]. specialize (IH Ic). unfold two_corners in Ih. apply in_app_iff in Ih. destruct Ih as [Ih|Ih]; [exact Ih|exfalso].
      assert (A : vx u <= 1000). { assert (I : In u (vertices corner_fs)) by (unfold vertices; apply in_flat_map; eauto). repeat (destruct I as [<-|I]; [vm_compute; discriminate|]). destruct I. }
      assert (B : 6000 <= vx u). { assert (I : In u (vertices (moved (V3 6000 0 0) corner_fs))) by (unfold vertices; apply in_flat_map; eauto). repeat (destruct I as [<-|I]; [vm_compute; discriminate|]). destruct I. }
      lia. }
    specialize (L _ _ (O (nth 0 two_corners (V3 0 0 0, V3 0 0 0, V3 0 0 0)) (nth 4 two_corners (V3 0 0 0, V3 0 0 0, V3 0 0 0)) ltac:(left; reflexivity) ltac:(do 4 right; left; reflexivity)) ltac:(left; reflexivity)).
    repeat (destruct L as [L|L]; [discriminate L|]). destruct L.
Qed.
