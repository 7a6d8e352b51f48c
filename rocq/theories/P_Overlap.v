(** Property C106: files with several bodies. *)
From Coq Require Import Reals Lra.
From Verif Require Import GoBase GoFloat GoStr M_Micrometer M_Geom2D M_Model M_Slicer M_Clip M_Builder M_Option M_Layer M_Render M_Modifier M_Process M_Flags
  S_Geom S_Model S_Slicer S_Clip S_Area S_Calls S_Machine S_Render S_Modifier S_Process S_Fill S_Flags S_Place S_Print S_Solid S_Body L_Float L_Model L_Slicer L_SliceLoop L_SliceAll L_Area L_Clip L_Strip L_LineLib L_Modifier L_Infill L_Process L_Ray L_Solid L_Sliver
  P_Model P_Slicer P_Modifier P_Render P_Process P_Pipeline P_Complete P_Flags P_EndToEnd P_Solid P_Print P_Body.
Local Open Scope string_scope.
Local Open Scope list_scope.
Local Open Scope Z_scope.

Lemma in_solid_app fs gs z p : in_solid (fs ++ gs) z p = xorb (in_solid fs z p) (in_solid gs z p).
Proof.
  unfold in_solid. rewrite map_app, fold_right_app. induction (map (hit z p) fs) as [|h l IH]; cbn [fold_right]; [destruct (fold_right _ _ _); reflexivity|].
  rewrite IH, xorb_assoc. reflexivity.
Qed.
Lemma edge_points f a b : In (a, b) (fedges f) -> In a (facePoints f) /\ In b (facePoints f).
Proof. destruct f as [[x y] w]. cbn. intuition congruence. Qed.
Lemma watertight_app fs gs : watertight fs -> watertight gs -> (forall v, In v (vertices fs) -> ~ In v (vertices gs)) -> watertight (fs ++ gs).
Proof.
  intros (A1 & A2 & A3 & A4) (B1 & B2 & B3 & B4) D.
  assert (D' : forall f g v, In f fs -> In g gs -> In v (facePoints f) -> ~ In v (facePoints g)).
  { intros f g v If Ig Iv Iw. apply (D v); apply in_flat_map; eauto. }
  repeat split.
  - intros f a b If Ie. apply in_app_iff in If. destruct If as [If|If]; [destruct (A1 f a b If Ie) as (g & Ig & H)|destruct (B1 f a b If Ie) as (g & Ig & H)]; exists g; rewrite in_app_iff; auto.
  - intros f g [a b] If Ig I1 I2. apply in_app_iff in If, Ig. pose proof (edge_points _ _ _ I1) as (P1 & _). pose proof (edge_points _ _ _ I2) as (P2 & _).
    destruct If as [If|If], Ig as [Ig|Ig]; [exact (A2 f g _ If Ig I1 I2)|destruct (D' f g a If Ig P1 P2)|destruct (D' g f a Ig If P2 P1)|exact (B2 f g _ If Ig I1 I2)].
  - clear A1 A2 A4 B1 B2 B4. assert (N : forall f, In f fs -> ~ In f gs). { intros f If Ig. destruct f as [[a b] c]. apply (D' (a, b, c) (a, b, c) a If Ig); left; reflexivity. }
    clear D D'. induction fs as [|f fs IH]; [exact B3|]. inversion A3; subst. cbn [app]. constructor; [rewrite in_app_iff; intros [I|I]; [contradiction|exact (N f (or_introl eq_refl) I)]|].
    apply IH; [assumption|]. intros g Ig. apply N. right. exact Ig.
  - intros f g If Ig H. apply in_app_iff in If, Ig.
    assert (Pt : exists v, In v (facePoints f)) by (destruct f as [[a b] c]; exists a; left; reflexivity). destruct Pt as (v & Iv). pose proof (proj1 (H v) Iv) as Iw.
    destruct If as [If|If], Ig as [Ig|Ig]; [exact (A4 f g If Ig H)|destruct (D' f g v If Ig Iv Iw)|destruct (D' g f v Ig If Iw Iv)|exact (B4 f g If Ig H)].
Qed.

Section Bodies.
Context {P : Type} (at_ : P -> rpt).
Let inside (c : path) (x : P) : bool := surrounded c (at_ x).
(** *** C106 *)
(** A file with two watertight bodies without common vertices: the layers cover the points that are in exactly one of them. *)
Theorem several_bodies : forall lib tangent fuel env o input text (r : finished lib tangent fuel env o input text) fs gs mn mx k l, exact inside lib ->
  let d := back (plate_offset mn mx (Center (Printer o))) in
  let init := InitialLayerThickness (Print o) in let thick := LayerThickness (Print o) in let meld := MeldDistance (Slicing o) in
  let join := JoinPolygonSnapDistance (Slicing o) in let finish := FinishPolygonSnapDistance (Slicing o) in let center := Center (Printer o) in
  f_faces _ _ _ _ _ _ _ r = fs ++ gs -> watertight fs -> watertight gs -> (forall v, In v (vertices fs) -> ~ In v (vertices gs)) ->
  0 <= init <= 2 ^ 30 -> 0 < thick <= 2 ^ 30 -> 2 <= meld <= 2 ^ 30 -> 0 <= join <= 2 ^ 30 -> 0 <= finish <= 2 ^ 30 ->
  Z.abs (vx center) <= 2 ^ 19 -> Z.abs (vy center) <= 2 ^ 19 -> vz center = 0 -> Z.of_nat (List.length (fs ++ gs)) < 2 ^ 56 ->
  printable meld init (fs ++ gs) -> tight_box3 (vertices (fs ++ gs)) mn mx ->
  nth_error (f_layers _ _ _ _ _ _ _ r) k = Some l -> let z := vz mn + init + Z.of_nat k * thick in
  (forall v, In v (vertices (fs ++ gs)) -> vz v <> z) -> edges_apart z (meld + 3) (fs ++ gs) ->
  exists small, (forall c, In c small -> path_len c <= finish \/ exists t, sliver t /\ c = triangle_of t) /\
    forall x y, at_ x = placed d y -> away (fs ++ gs) z y -> (forall c, In c small -> surrounded c (at_ x) = false) ->
      (covered inside (LayerParts l) x <-> in_solid fs z y <> in_solid gs z y).
Proof.
  intros lib tangent fuel env o input text r fs gs mn mx k l X d init thick meld join finish center Ff W1 W2 D Hi Ht Hm Hj Hf Cx Cy Cz N Pr Tb El z NV Ap.
  pose proof (watertight_app _ _ W1 W2 D) as W. rewrite <- Ff in N, Pr, W, Tb, NV, Ap.
  destruct (printed_body at_ lib tangent fuel env o input text r mn mx k l X Hi Ht Hm Hj Hf Cx Cy Cz N Pr W Tb El NV Ap) as (d1 & s1 & D1 & S1 & H1).
  exists (d1 ++ map triangle_of s1). split.
  - intros c Ic. rewrite in_app_iff, in_map_iff in Ic. destruct Ic as [Ic|(t & <- & It)]; [left; auto|right; eauto].
  - intros x y Exy Aw Sm. rewrite <- Ff in Aw. specialize (H1 x y Exy Aw). rewrite (parity_none surrounded (d1 ++ map triangle_of s1)) in H1 by exact Sm. rewrite Ff, in_solid_app, xorb_false_r in H1.
    etransitivity; [exact H1|]. fold init thick z. destruct (in_solid fs z y), (in_solid gs z y); cbn; split; congruence.
Qed.
End Bodies.
Print Assumptions several_bodies.

(** two tetrahedra of 6 mm, one moved by 1 mm in every direction *)
Definition overlap_file : files := Files (fun _ => StatOk)
  (fun _ => (let c := f32_of_Z in let t := fun a b => [((c a, c a, c a), (c a, c b, c a), (c b, c a, c a)); ((c a, c a, c a), (c b, c a, c a), (c a, c a, c b));
     ((c a, c a, c a), (c a, c a, c b), (c a, c b, c a)); ((c b, c a, c a), (c a, c b, c a), (c a, c a, c b))] in t 0 6 ++ t 1 7, None)).
Definition tet : list face := let o := V3 0 0 0 in let x := V3 6000 0 0 in let y := V3 0 6000 0 in let z := V3 0 0 6000 in [(o, y, x); (o, x, z); (o, z, y); (x, y, z)].
Definition tet' : list face := moved (V3 1000 1000 1000) tet.
Lemma overlap_read : Read overlap_file "part.stl" = Ok (tet ++ tet').
Proof. vm_compute. reflexivity. Qed.
Lemma tet_watertight : watertight tet.
Proof.
  repeat split.
  - intros f a b If I. unfold tet in If. repeat (destruct If as [<-|If]; [|]); [| | | |destruct If].
    all: repeat (destruct I as [[= <- <-]|I]; [|]); [| | |destruct I].
    all: first [exists (nth 0 tet (V3 0 0 0, V3 0 0 0, V3 0 0 0)); split; [cbn; tauto|]; cbn; tauto|exists (nth 1 tet (V3 0 0 0, V3 0 0 0, V3 0 0 0)); split; [cbn; tauto|]; cbn; tauto
      |exists (nth 2 tet (V3 0 0 0, V3 0 0 0, V3 0 0 0)); split; [cbn; tauto|]; cbn; tauto|exists (nth 3 tet (V3 0 0 0, V3 0 0 0, V3 0 0 0)); split; [cbn; tauto|]; cbn; tauto].
  - intros f g e If Ig I1 I2. unfold tet in If, Ig.
    repeat (destruct If as [<-|If]; [|]); [| | | |destruct If]; (repeat (destruct Ig as [<-|Ig]; [|]); [| | | |destruct Ig]); try reflexivity; exfalso; cbn [fedges] in I1, I2;
      (repeat (destruct I1 as [<-|I1]; [|]); [| | |destruct I1]); repeat (destruct I2 as [I2|I2]; [discriminate I2|]); destruct I2.
  - repeat (constructor; [cbn; intuition discriminate|]). constructor.
  - intros f g If Ig H. unfold tet in If, Ig.
    repeat (destruct If as [<-|If]; [|]); [| | | |destruct If]; (repeat (destruct Ig as [<-|Ig]; [|]); [| | | |destruct Ig]); try reflexivity; exfalso.
    all: first [solve [destruct (proj1 (H (V3 0 0 0)) ltac:(cbn; tauto)) as [E|[E|[E|[]]]]; discriminate E]
      |solve [destruct (proj1 (H (V3 6000 0 0)) ltac:(cbn; tauto)) as [E|[E|[E|[]]]]; discriminate E]
      |solve [destruct (proj1 (H (V3 0 6000 0)) ltac:(cbn; tauto)) as [E|[E|[E|[]]]]; discriminate E]
      |solve [destruct (proj1 (H (V3 0 0 6000)) ltac:(cbn; tauto)) as [E|[E|[E|[]]]]; discriminate E]].
Qed.
Lemma tet_separate v : In v (vertices tet) -> ~ In v (vertices tet').
Proof. intros Iv Iw. assert (A : 1000 <= vx v). { repeat (destruct Iw as [<-|Iw]; [vm_compute; discriminate|]). destruct Iw. } assert (B : 1000 <= vy v). { repeat (destruct Iw as [<-|Iw]; [vm_compute; discriminate|]). destruct Iw. }
  repeat (destruct Iv as [<-|Iv]; [cbn in A, B; lia|]). destruct Iv. Qed.
Lemma corner_edges u v s x y : (u < x)%R -> (v < y)%R -> (x + y < u + v + s)%R ->
  crossed (x, y) (u, v) (u + s, v)%R = false /\ crossed (x, y) (u + s, v)%R (u, v + s)%R = true /\ crossed (x, y) (u, v + s)%R (u, v) = false.
Proof.
  intros H1 H2 H3. split; [|split].
  - unfold crossed, lower. cbn [fst snd]. destruct (Rlt_dec v y); reflexivity.
  - destruct (crossed_side 1 1 (x, y) (u + s, v)%R (u, v + s)%R) as (_ & ->); unfold side, lower; cbn [fst snd]; try lra.
    destruct (Rlt_dec v y); [|lra]. destruct (Rlt_dec (v + s) y)%R; [lra|reflexivity].
  - apply (crossed_side (-1)%R 0%R (x, y)); unfold side; cbn [fst snd]; lra.
Qed.
Lemma tet_inside z x y : 0 < z < 6000 -> (0 < x)%R -> (0 < y)%R -> (x + y < 6000 - IZR z)%R -> in_solid tet z (x, y) = true.
Proof.
  intros Hz Hx Hy Hs. unfold in_solid, tet. cbn [map fold_right]. unfold hit. cbn [fedges filter fst snd vz].
  replace (0 <? z) with true by (symmetry; apply Z.ltb_lt; lia). replace (6000 <? z) with false by (symmetry; apply Z.ltb_ge; lia). cbn [xorb].
  assert (A : passes z (V3 0 0 6000) (V3 0 0 0) = (0, 0)%R) by (unfold passes; cbn [vx vy vz]; f_equal; field).
  assert (A' : passes z (V3 0 0 0) (V3 0 0 6000) = (0, 0)%R) by (unfold passes; cbn [vx vy vz]; f_equal; field).
  assert (B : passes z (V3 0 0 6000) (V3 6000 0 0) = (0 + (6000 - IZR z), 0)%R) by (unfold passes; cbn [vx vy vz]; f_equal; field).
  assert (B' : passes z (V3 6000 0 0) (V3 0 0 6000) = (0 + (6000 - IZR z), 0)%R) by (unfold passes; cbn [vx vy vz]; f_equal; field).
  assert (C : passes z (V3 0 0 6000) (V3 0 6000 0) = (0, 0 + (6000 - IZR z))%R) by (unfold passes; cbn [vx vy vz]; f_equal; field).
  assert (C' : passes z (V3 0 6000 0) (V3 0 0 6000) = (0, 0 + (6000 - IZR z))%R) by (unfold passes; cbn [vx vy vz]; f_equal; field).
  rewrite ?A, ?A', ?B, ?B', ?C, ?C'. destruct (corner_edges 0 0 (6000 - IZR z) x y Hx Hy ltac:(lra)) as (E1 & E2 & E3).
  pose proof E1 as F1. pose proof E2 as F2. pose proof E3 as F3. rewrite crossed_sym in F1, F2, F3. rewrite ?E1, ?E2, ?E3, ?F1, ?F2, ?F3. reflexivity.
Qed.
Lemma overlap_printable : printable 30 200 (tet ++ tet').
Proof.
  split; [discriminate|repeat constructor; vm_compute; discriminate|repeat constructor; intros [=]|apply apart_check; vm_compute; reflexivity| |exists (V3 0 0 0), (V3 0 0 6000); vm_compute; intuition discriminate].
  intros z v w Iv Iw Hz. assert (B : forall u, In u (vertices (tet ++ tet')) -> 0 <= vz u <= 7000) by (intros u Iu; repeat (destruct Iu as [<-|Iu]; [vm_compute; split; discriminate|]); destruct Iu).
  pose proof (B v Iv). pose proof (B w Iw). destruct (Z_le_gt_dec z 6000).
  - exists (nth 1 (tet ++ tet') (V3 0 0 0, V3 0 0 0, V3 0 0 0)), (V3 0 0 0), (V3 0 0 6000). split; [right; left; reflexivity|]. split; [left; reflexivity|]. split; [right; right; left; reflexivity|]. cbn [vz]. lia.
  - exists (nth 5 (tet ++ tet') (V3 0 0 0, V3 0 0 0, V3 0 0 0)), (V3 1000 1000 1000), (V3 1000 1000 7000). split; [do 5 right; left; reflexivity|]. split; [left; reflexivity|]. split; [right; right; left; reflexivity|]. cbn [vz]. lia.
Qed.
Lemma overlap_box : tight_box3 (vertices (tet ++ tet')) (V3 0 0 0) (V3 7000 7000 7000).
Proof.
  split; [intros v Iv; repeat (destruct Iv as [<-|Iv]; [cbn; lia|]); destruct Iv|].
  repeat split; [exists (V3 0 0 0)|exists (V3 7000 1000 1000)|exists (V3 0 0 0)|exists (V3 1000 7000 1000)|exists (V3 0 0 0)|exists (V3 1000 1000 7000)]; (split; [vm_compute; tauto|reflexivity]).
Qed.
Lemma overlap_away : away (tet ++ tet') 1200 (1500, 1500)%R.
Proof.
  intros f x y If. unfold tet in If. assert (E : tet' = let o := V3 1000 1000 1000 in let x := V3 7000 1000 1000 in let y := V3 1000 7000 1000 in let z := V3 1000 1000 7000 in [(o, y, x); (o, x, z); (o, z, y); (x, y, z)]) by reflexivity.
  rewrite E in If. clear E. cbn [app] in If.
  repeat (destruct If as [<-|If]; [|]); [| | | | | | | |destruct If]; intros (s & t & u & Hs & Ht & Hu & S & X & Y & Hz); cbn [vx vy vz] in *; cbn [fst snd].
  - lra.
  - assert (E : y = 0%R) by lra. rewrite E. pose proof (pow2_ge_0 (x - 1500)). lra.
  - assert (E : x = 0%R) by lra. rewrite E. pose proof (pow2_ge_0 (y - 1500)). lra.
  - assert (E : y = (4800 - x)%R) by lra. rewrite E. pose proof (pow2_ge_0 (x - 2400)). nra.
  - lra.
  - assert (E : y = 1000%R) by lra. rewrite E. pose proof (pow2_ge_0 (x - 1500)). lra.
  - assert (E : x = 1000%R) by lra. rewrite E. pose proof (pow2_ge_0 (y - 1500)). lra.
  - assert (E : y = (7800 - x)%R) by lra. rewrite E. pose proof (pow2_ge_0 (x - 3900)). nra.
Qed.
Definition mid : rpt := (98000, 98000)%R.
(** That everything inside a body is printed is not true where two bodies overlap. *)
Theorem overlap_printed_refuted : forall fuel, 2 ^ 24 < Z.of_nat fuel ->
  exists text (r : finished (one_lib mid) (fun _ => f64_of_Z 1) fuel overlap_file DefaultOptions "part.stl" text) fs gs l y,
    f_faces _ _ _ _ _ _ _ r = fs ++ gs /\ watertight fs /\ watertight gs /\ (forall v, In v (vertices fs) -> ~ In v (vertices gs)) /\
    nth_error (f_layers _ _ _ _ _ _ _ r) 5 = Some l /\ in_solid fs 1200 y = true /\ in_solid gs 1200 y = true /\ away (fs ++ gs) 1200 y /\
    mid = placed (back (plate_offset (V3 0 0 0) (V3 7000 7000 7000) (Center (Printer DefaultOptions)))) y /\
    ~ covered (fun c x => surrounded c (only mid x)) (LayerParts l) tt.
Proof.
  intros fuel Fuel.
  destruct (model_printed unit (fun c x => surrounded c (only mid x)) (one_lib mid) (fun _ => f64_of_Z 1) fuel overlap_file corner_os (fun _ => None) DefaultOptions "part.stl" "" (tet ++ tet') (V3 0 0 0) (V3 7000 7000 7000)
    (one_exact mid) (one_capable mid) Fuel default_workable) as (_ & text & n & ks & [r] & _);
    [vm_compute; intuition discriminate..|repeat constructor|repeat constructor|exact overlap_read|exact overlap_printable|exact overlap_box|reflexivity|intros k; split; [reflexivity|discriminate]|].
  exists text, r, tet, tet'. assert (Er := f_read _ _ _ _ _ _ _ r). rewrite overlap_read in Er.
  assert (Ff : f_faces _ _ _ _ _ _ _ r = tet ++ tet') by congruence. clear Er.
  assert (Eo := f_optimize _ _ _ _ _ _ _ r). assert (Es := f_slice _ _ _ _ _ _ _ r). rewrite Ff in Eo. destruct (all_keeps _ _ _ _ _ _ _ r) as (names & K).
  set (om := f_model _ _ _ _ _ _ _ r) in *. set (open := f_open _ _ _ _ _ _ _ r) in *. clearbody om open.
  assert (Ep : exists lps, polygons_at DefaultOptions om = Ok lps /\ nth_error lps 5 = Some
    [[Pt 96500 96500; Pt 101300 96500; Pt 96500 101300; Pt 96500 96500]; [Pt 97500 97500; Pt 103300 97500; Pt 97500 103300; Pt 97500 97500]]).
  { assert (E' : match Optimize 30 (V3 100000 100000 0) (tet ++ tet') with Ok (om, _) => match polygons_at DefaultOptions om with Ok lps => nth_error lps 5 | _ => None end | _ => None end = Some
      [[Pt 96500 96500; Pt 101300 96500; Pt 96500 101300; Pt 96500 96500]; [Pt 97500 97500; Pt 103300 97500; Pt 97500 103300; Pt 97500 97500]]) by (vm_compute; reflexivity).
    change (MeldDistance (Slicing DefaultOptions)) with 30 in Eo. change (Center (Printer DefaultOptions)) with (V3 100000 100000 0) in Eo. rewrite Eo in E'.
    destruct (polygons_at DefaultOptions om) as [lps| | |]; [exists lps; split; [reflexivity|exact E']|discriminate..]. }
  destruct Ep as (lps & Ep & E5). destruct (layer_parts_exact _ _ (one_exact mid) _ _ _ Es) as (lps' & Ep' & Len & Lx). rewrite Ep in Ep'. injection Ep' as <-.
  destruct (nth_error (f_sliced _ _ _ _ _ _ _ r) 5) as [l0|] eqn:E0. 2: { apply nth_error_None in E0. rewrite Len in E0. apply nth_error_None in E0. congruence. }
  destruct (keeps_nth_l _ _ _ _ _ K E0) as (l & El & Lp & _). exists l, (1500, 1500)%R.
  split; [exact Ff|]. split; [exact tet_watertight|]. split; [apply watertight_moved, tet_watertight|]. split; [exact tet_separate|]. split; [exact El|].
  split; [apply tet_inside; [lia|lra..]|]. split.
  { pose proof (in_solid_move tet 200 (V3 1000 1000 1000) (500, 500)%R) as M. change (200 + vz (V3 1000 1000 1000)) with 1200 in M. unfold tet'.
    replace (placed (V3 1000 1000 1000) (500, 500)%R) with (1500, 1500)%R in M by (unfold placed; cbn [fst snd vx vy]; f_equal; lra). rewrite M. apply tet_inside; [lia|lra..]. }
  split; [exact overlap_away|]. split.
  { change (back (plate_offset (V3 0 0 0) (V3 7000 7000 7000) (Center (Printer DefaultOptions)))) with (V3 96500 96500 0). unfold mid, placed. cbn [fst snd vx vy]. f_equal; lra. }
  unfold LayerParts in *. rewrite Lp. intros C. destruct (Lx 5%nat l0 E0) as (ps & Eps & _ & _ & Cov). rewrite E5 in Eps. injection Eps as <-. apply Cov in C. cbn [map] in C.
  change (Simplify [Pt 96500 96500; Pt 101300 96500; Pt 96500 101300; Pt 96500 96500] (-1) (-1)) with [Pt 96500 96500; Pt 101300 96500; Pt 96500 101300] in C.
  change (Simplify [Pt 97500 97500; Pt 103300 97500; Pt 97500 103300; Pt 97500 97500] (-1) (-1)) with [Pt 97500 97500; Pt 103300 97500; Pt 97500 103300] in C.
  assert (G : forall u s, (IZR u < 98000)%R -> (98000 + 98000 < IZR u + IZR u + IZR s)%R -> surrounded [Pt u u; Pt (u + s) u; Pt u (u + s)] mid = true).
  { intros u s H1 H2. unfold surrounded. cbn [app firstn map crossings]. unfold exactly, mid. cbn [px py]. rewrite !plus_IZR. destruct (corner_edges (IZR u) (IZR u) (IZR s) 98000 98000 H1 H1 H2) as (-> & -> & ->). reflexivity. }
  pose proof (G 96500 4800 ltac:(lra) ltac:(lra)) as G1. pose proof (G 97500 5800 ltac:(lra) ltac:(lra)) as G2.
  change (96500 + 4800) with 101300 in G1. change (97500 + 5800) with 103300 in G2.
  cbn [parity] in C. unfold only in C. rewrite G1, G2 in C. discriminate.
Qed.
Print Assumptions overlap_printed_refuted.
