(** Slicing does not depend on where the model lies: moved points give moved outlines. *)
From Verif Require Import GoBase GoFloat GoStr M_Micrometer M_Geom2D M_Model M_Slicer M_Clip M_Option M_Builder M_Layer M_Modifier M_Process S_Center L_Model.
Local Open Scope string_scope.
Local Open Scope list_scope.
Local Open Scope Z_scope.

Definition rmap {A B} (f : A -> B) (r : res A) : res B := let* x := r in Ok (f x).
Lemma wrap_cancel a b c : wrap (wrap (a + c) - wrap (b + c)) = wrap (a - b).
Proof. rewrite wrap_sub_l, wrap_sub_r. f_equal. lia. Qed.
Lemma wrap_swap a b c : wrap (wrap (a + c) + b) = wrap (wrap (a + b) + c).
Proof. rewrite !wrap_add_l. f_equal. lia. Qed.

Lemma wrap_centered a b c e : wrap (a - wrap (b - wrap (c + e))) = wrap (wrap (a - wrap (b - c)) + e).
Proof.
  rewrite !wrap_sub_r, wrap_add_l. replace (a - (b - wrap (c + e))) with ((a - b) + wrap (c + e)) by ring. rewrite wrap_add_r.
  f_equal. ring.
Qed.
Lemma wrap_period a k : wrap (a + k * 2 ^ 64) = wrap a.
Proof. unfold wrap. replace (a + k * 2 ^ 64 + 2 ^ 63) with (a + 2 ^ 63 + k * 2 ^ 64) by ring. rewrite Z.mod_add by lia. reflexivity. Qed.
(** equality of wrapped sums: every [wrap] inside may be dropped *)
Lemma wrap_same a b k : a = b + k * 2 ^ 64 -> wrap a = wrap b.
Proof. intros ->. apply wrap_period. Qed.

Section Shift.
Variable d : pt.
Notation sh := (shift d).
Definition sh3 (v : vec3) : vec3 := V3 (wrap (vx v + px d)) (wrap (vy v + py d)) (vz v).
Definition shf (f : face) : face := let '(a, b, c) := f in (sh3 a, sh3 b, sh3 c).
Definition shs (s : segment) : segment := Seg (sh (sstart s)) (sh (send s)) (sface s).
Definition shl (l : slayer) : slayer := SLayer (map shs (lsegs l)) (lf2s l).

Lemma sub_shift p q : ptSub (sh p) (sh q) = ptSub p q.
Proof. unfold ptSub, sub64, shift. cbn [px py]. rewrite !wrap_cancel. reflexivity. Qed.
Lemma interp_shift c0 c1 e z z0 z1 : interp (wrap (c0 + e)) (wrap (c1 + e)) z z0 z1 = rmap (fun c => wrap (c + e)) (interp c0 c1 z z0 z1).
Proof. unfold interp. destruct (sub64 z1 z0 =? 0); [reflexivity|]. cbn [rmap bind]. unfold sub64 at 1. rewrite wrap_cancel. fold (sub64 c1 c0). unfold add64. rewrite wrap_swap. reflexivity. Qed.
Lemma slice_face_shift z a b c : SliceFace z (sh3 a) (sh3 b) (sh3 c) = rmap (fun r => (sh (fst r), sh (snd r))) (SliceFace z a b c).
Proof.
  unfold SliceFace, sh3. cbn [vx vy vz]. rewrite !interp_shift. destruct (interp (vx a) (vx b) z (vz a) (vz b)); try reflexivity. destruct (interp (vy a) (vy b) z (vz a) (vz b)); try reflexivity.
  destruct (interp (vx a) (vx c) z (vz a) (vz c)); try reflexivity. destruct (interp (vy a) (vy c) z (vz a) (vz c)); reflexivity.
Qed.
Lemma slice_case_shift z f : slice_case z (shf f) = option_map (fun r => (sh3 (fst (fst r)), sh3 (snd (fst r)), sh3 (snd r))) (slice_case z f).
Proof.
  destruct f as [[a b] c]. unfold slice_case, shf, sh3. cbn [vz]. repeat match goal with |- context [if ?x then _ else _] => destruct x; [reflexivity|] end. reflexivity.
Qed.
Lemma minz_shift f : MinZ (shf f) = MinZ f. Proof. destruct f as [[a b] c]. reflexivity. Qed.
Lemma maxz_shift f : MaxZ (shf f) = MaxZ f. Proof. destruct f as [[a b] c]. reflexivity. Qed.
Lemma add_segment_shift l i s e : add_segment (shl l) i (sh s) (sh e) = shl (add_segment l i s e).
Proof. unfold add_segment, shl. cbn [lsegs lf2s]. rewrite map_app, map_length. reflexivity. Qed.
Notation shls := (map (option_map shl)).
Lemma slice_step_shift init thick i f layers nr : slice_step init thick i (shf f) (shls layers) nr = rmap shls (slice_step init thick i f layers nr).
Proof.
  unfold slice_step. rewrite minz_shift. destruct (_ <? MinZ f); [reflexivity|]. destruct (nr <? 0); [reflexivity|]. rewrite idx_map. destruct (idx layers nr) as [ol| | |]; try reflexivity. cbn [bind rmap].
  rewrite slice_case_shift. assert (L : match option_map shl ol with Some l => l | None => newLayer end = shl (match ol with Some l => l | None => newLayer end)) by (destruct ol; reflexivity). rewrite L.
  destruct (slice_case _ f) as [[[a b] c]|]; cbn [option_map fst snd rmap bind].
  - rewrite slice_face_shift. destruct (SliceFace _ a b c) as [[s e]| | |]; try reflexivity. cbn [rmap bind fst snd]. rewrite add_segment_shift, set_nth_map. reflexivity.
  - rewrite set_nth_map. reflexivity.
Qed.
Lemma slice_from_shift init thick i f : forall n layers from, slice_from init thick i (shf f) (shls layers) from n = rmap shls (slice_from init thick i f layers from n).
Proof.
  induction n as [|n IH]; intros layers from; [reflexivity|]. cbn [slice_from]. rewrite slice_step_shift. destruct (slice_step init thick i f layers from); try reflexivity. cbn [rmap bind]. apply IH.
Qed.
Lemma slice_faces_shift init thick : forall fs i layers, slice_faces init thick i (map shf fs) (shls layers) = rmap shls (slice_faces init thick i fs layers).
Proof.
  induction fs as [|f fs IH]; intros i layers; [reflexivity|]. cbn [slice_faces map]. unfold slice_face. rewrite minz_shift, maxz_shift, slice_from_shift. destruct (slice_from _ _ _ _ _ _ _); try reflexivity. cbn [rmap bind]. apply IH.
Qed.

Lemma scan_shift l added meld start p : forall ts acc, scan_touching (shl l) added meld start (sh p) ts acc = scan_touching l added meld start p ts acc.
Proof.
  induction ts as [|t ts IH]; intros acc; [reflexivity|]. cbn [scan_touching]. destruct acc as [cc nx]. cbn [shl lf2s lsegs]. destruct (lf2s l t) as [si|]; [|apply IH]. destruct (-1 <? t); [|apply IH].
  rewrite idx_map. destruct (idx (lsegs l) si) as [sg| | |]; try reflexivity. cbn [bind]. cbn [shs sstart]. rewrite sub_shift. destruct (ptShorterThanOrEqual _ _); [|apply IH]. destruct (idx added si) as [[]| | |]; try reflexivity; cbn [bind]; apply IH.
Qed.
Lemma walk_shift touch l meld start : forall fuel cur poly added, walk touch (shl l) meld start fuel cur (map sh poly) added = rmap (fun r => (map sh (fst (fst r)), snd (fst r), snd r)) (walk touch l meld start fuel cur poly added).
Proof.
  induction fuel as [|fuel IH]; intros cur poly added; [reflexivity|]. cbn [walk]. cbn [shl lsegs]. rewrite idx_map. destruct (idx (lsegs l) cur) as [sg| | |]; try reflexivity. cbn [bind shs sface send]. destruct (touch (sface sg)) as [[[t0 t1] t2]| | |]; try reflexivity. cbn [bind].
  fold (shl l). change (SLayer (map shs (lsegs l)) (lf2s l)) with (shl l). rewrite scan_shift. destruct (scan_touching _ _ _ _ _ _ _) as [[cc nx]| | |]; try reflexivity. cbn [bind].
  replace (map sh poly ++ [sh (send sg)]) with (map sh (poly ++ [send sg])) by (rewrite map_app; reflexivity). destruct (nx =? -1); [reflexivity|]. apply IH.
Qed.
Lemma chains_shift touch l meld : forall is added, chains touch (shl l) meld is added = rmap (map (fun c : path * bool => (map sh (fst c), snd c))) (chains touch l meld is added).
Proof.
  induction is as [|i is IH]; intros added; [reflexivity|]. cbn [chains]. destruct (idx added i) as [[]| | |]; try reflexivity; cbn [bind]; [apply IH|].
  change (lsegs (shl l)) with (map shs (lsegs l)). rewrite idx_map, map_length. destruct (idx (lsegs l) i) as [sg| | |]; try reflexivity. cbn [bind]. cbn [shs sstart].
  change [sh (sstart sg)] with (map sh [sstart sg]). rewrite walk_shift. destruct (walk _ _ _ _ _ _ _ _) as [[[po cc] ad]| | |]; try reflexivity. cbn [rmap bind fst snd]. rewrite IH. destruct (chains _ _ _ is ad); reflexivity.
Qed.
Definition shp : pool -> pool := map (fun c : option path * bool => (option_map (map sh) (fst c), snd c)).
Lemma last_sh l x : last (map sh l) (sh x) = sh (last l x).
Proof. induction l as [|a [|b l] IH]; [reflexivity|reflexivity|]. exact IH. Qed.
Lemma best_shift i lastp snap : forall ps j best score, best_match (shp ps) i j (sh lastp) snap best score = best_match ps i j lastp snap best score.
Proof.
  induction ps as [|[[[|q r]|] []] ps IH]; intros j best score; cbn [shp map fst snd option_map best_match]; try apply IH; [reflexivity|]. fold (shp ps). destruct (i =? j); [apply IH|].
  rewrite sub_shift. change (sh q :: map sh r) with (map sh (q :: r)). rewrite map_length. destruct (ptShorterThanOrEqual _ _); [|apply IH]. destruct (_ <? score); apply IH.
Qed.
Lemma find_shift snap all : forall ps i, find_join (shp all) (shp ps) i snap = find_join all ps i snap.
Proof.
  induction ps as [|[[[|q r]|] []] ps IH]; intros i; cbn [shp map fst snd option_map find_join]; try apply IH; [reflexivity|]. fold (shp ps). change (sh q :: map sh r) with (map sh (q :: r)). rewrite last_sh. cbv zeta. rewrite best_shift. destruct (-1 <? _); [reflexivity|apply IH].
Qed.
Lemma finished_shift p distance : IsAlmostFinished (map sh p) distance = IsAlmostFinished p distance.
Proof. destruct p as [|a p]; [reflexivity|]. unfold IsAlmostFinished. cbn [map]. change (sh a :: map sh p) with (map sh (a :: p)). rewrite last_sh, sub_shift. reflexivity. Qed.
Lemma join_shift snap : forall fuel ps, join_all fuel snap (shp ps) = rmap shp (join_all fuel snap ps).
Proof.
  induction fuel as [|fuel IH]; intros ps; [reflexivity|]. cbn [join_all]. rewrite find_shift. destruct (find_join ps ps 0 snap) as [[i b]|]; [|reflexivity]. unfold shp at 1 2. rewrite !idx_map. fold shp.
  destruct (idx ps i) as [[a ca]| | |]; try reflexivity. cbn [bind fst snd]. destruct (idx ps b) as [[p cb]| | |]; try reflexivity. cbn [bind fst snd]. destruct a as [a|]; [|reflexivity]. destruct p as [p|]; [|reflexivity]. cbn [option_map]. rewrite <- map_app, finished_shift.
  destruct (IsAlmostFinished (a ++ p) snap) as [fin| | |]; try reflexivity. cbn [bind]. rewrite <- IH. f_equal. unfold shp. rewrite !set_nth_map. reflexivity.
Qed.
Lemma length_shift closed finish : forall r prev len, poly_length closed finish (sh prev) (map sh r) len = poly_length closed finish prev r len.
Proof. induction r as [|p r IH]; intros prev len; [reflexivity|]. cbn [map poly_length]. rewrite sub_shift. destruct (_ && _); [reflexivity|apply IH]. Qed.
Lemma clear_shift finish : forall ps, clear_polygons finish (shp ps) = rmap (map (map sh)) (clear_polygons finish ps).
Proof.
  induction ps as [|[[p|] c] ps IH]; [reflexivity| |]; cbn [shp map fst snd option_map clear_polygons]; fold (shp ps); [|exact IH].
  rewrite finished_shift. destruct (IsAlmostFinished p finish) as [fin| | |]; try reflexivity. cbn [bind]. rewrite IH. destruct (clear_polygons finish ps) as [r| | |]; try reflexivity. cbn [rmap bind].
  assert (L : match map sh p with [] => 0 | q :: rest => poly_length (if fin then true else c) finish q rest 0 end = match p with [] => 0 | q :: rest => poly_length (if fin then true else c) finish q rest 0 end) by (destruct p; [reflexivity|apply length_shift]).
  rewrite L. destruct (_ && _); reflexivity.
Qed.
Lemma polygons_shift touch meld join finish l : makePolygons touch meld join finish (shl l) = rmap (map (map sh)) (makePolygons touch meld join finish l).
Proof.
  unfold makePolygons. change (lsegs (shl l)) with (map shs (lsegs l)). rewrite map_length, chains_shift. destruct (chains _ _ _ _ _) as [cs| | |]; try reflexivity. cbn [rmap bind].
  assert (X : map (fun c : path * bool => (Some (fst c), snd c)) (map (fun c : path * bool => (map sh (fst c), snd c)) cs) = shp (map (fun c : path * bool => (Some (fst c), snd c)) cs)) by (unfold shp; rewrite !map_map; reflexivity).
  rewrite X. clear X. replace (List.length (shp (map (fun c : path * bool => (Some (fst c), snd c)) cs))) with (List.length (map (fun c : path * bool => (Some (fst c), snd c)) cs)) by (unfold shp; rewrite !map_length; reflexivity).
  rewrite join_shift. destruct (join_all _ _ _) as [ps| | |]; try reflexivity. cbn [rmap bind]. apply clear_shift.
Qed.
Lemma make_all_shift touch meld join finish : forall ls, make_all touch meld join finish (shls ls) = rmap (map (map (map sh))) (make_all touch meld join finish ls).
Proof.
  induction ls as [|[l|] ls IH]; [reflexivity| |reflexivity]. cbn [map option_map make_all]. rewrite polygons_shift. destruct (makePolygons touch meld join finish l); try reflexivity. cbn [rmap bind]. rewrite IH. clear IH. destruct (make_all touch meld join finish ls); reflexivity.
Qed.

(** *** the model *)
Definition shm (om : omodel) : omodel := OModel (map (fun p => OPoint (sh3 (opos p)) (ofaces p)) (om_points om)) (om_faces om) (om_size om).
Lemma faces_shift om : forall fs, omFaces (shm om) fs = rmap (map shf) (omFaces om fs).
Proof.
  induction fs as [|f fs IH]; [reflexivity|]. cbn [omFaces]. rewrite IH. unfold oPoints. destruct (oi f) as [[i j] k]. cbn [shm om_points]. rewrite !idx_map.
  destruct (idx (om_points om) i) as [a| | |]; try reflexivity. cbn [bind]. destruct (idx (om_points om) j) as [b| | |]; try reflexivity. cbn [bind]. destruct (idx (om_points om) k) as [c| | |]; try reflexivity. cbn [bind]. destruct (omFaces om fs); reflexivity.
Qed.
Lemma none_shift n : shls (repeat None n) = repeat None n.
Proof. induction n as [|n IH]; [reflexivity|]. cbn. f_equal. exact IH. Qed.
Lemma slice_polygons_shift init thick meld join finish om : SlicePolygons init thick meld join finish (shm om) = rmap (map (map (map sh))) (SlicePolygons init thick meld join finish om).
Proof.
  unfold SlicePolygons. destruct (thick =? 0); [reflexivity|]. cbn [shm om_size om_faces]. change (OModel _ _ _) with (shm om). destruct (_ <? 0); [reflexivity|]. rewrite faces_shift. destruct (omFaces om (om_faces om)) as [fs| | |]; try reflexivity. cbn [rmap bind].
  rewrite <- (none_shift (Z.to_nat _)) at 1. rewrite slice_faces_shift. destruct (slice_faces _ _ _ _ _); try reflexivity. cbn [rmap bind]. apply make_all_shift.
Qed.
Lemma optimize_shift meld center fs om open : Optimize meld center fs = Ok (om, open) ->
  Optimize meld (V3 (wrap (vx center + px d)) (wrap (vy center + py d)) (vz center)) fs = Ok (shm om, open).
Proof.
  unfold Optimize. intros E. apply bind_Ok in E. destruct E as (st & -> & E). cbn [bind]. apply bind_Ok in E. destruct E as ([faces op] & -> & E). cbn [bind]. apply bind_Ok in E. destruct E as (mn & -> & E). cbn [bind].
  apply bind_Ok in E. destruct E as (mx & -> & E). cbn [bind]. injection E as <- <-. do 2 f_equal. unfold shm. cbn [om_points om_faces om_size]. f_equal. rewrite map_map. apply map_ext. intros p. cbn [opos ofaces]. f_equal.
  unfold v3Sub, sh3, sub64. cbn [vx vy vz]. f_equal.
  - apply wrap_centered.
  - apply wrap_centered.
Qed.

(** *** the parts of a layer *)
(** twice the area of the triangle between the origin, [a] and [b], and how it changes when both are moved *)
Definition blade (a b : pt) : Z := px a * py b - py a * px b.
Definition sweep (a b : pt) : Z := px d * (py b - py a) - py d * (px b - px a).
Lemma cross_shift a b : sub64 (mul64 (px (sh a)) (py (sh b))) (mul64 (py (sh a)) (px (sh b))) = wrap (blade a b + sweep a b).
Proof.
  unfold sub64, mul64, shift, blade, sweep. cbn [px py]. rewrite wrap_sub_l, wrap_sub_r. destruct (wrap_eqm (px a + px d)) as [k1 ->]. destruct (wrap_eqm (py a + py d)) as [k2 ->]. destruct (wrap_eqm (px b + px d)) as [k3 ->]. destruct (wrap_eqm (py b + py d)) as [k4 ->].
  match goal with |- wrap ?x = wrap ?y => replace x with (y + (k1 * (py b + py d) + k4 * (px a + px d) + k1 * k4 * 2 ^ 64 - k2 * (px b + px d) - k3 * (py a + py d) - k2 * k3 * 2 ^ 64) * 2 ^ 64) by ring end. apply wrap_period.
Qed.
Lemma cross_plain a b : sub64 (mul64 (px a) (py b)) (mul64 (py a) (px b)) = wrap (blade a b).
Proof. unfold sub64, mul64, blade. rewrite wrap_sub_l, wrap_sub_r. reflexivity. Qed.
Lemma perpendicular_shift a b p : PerpendicularDistance2 (sh a) (sh b) (sh p) = PerpendicularDistance2 a b p.
Proof. unfold PerpendicularDistance2. rewrite !sub_shift. reflexivity. Qed.
Lemma step_shift sls aed prev cur next area area' : area' = wrap (area + sweep prev cur) ->
  exists k a a', simplify_step sls aed (sh prev) (sh cur) (sh next) area' = (k, a') /\ simplify_step sls aed prev cur next area = (k, a) /\
    a' = wrap (a + sweep (if k then cur else prev) next).
Proof.
  intros ->. unfold simplify_step. rewrite !sub_shift, !cross_shift, !cross_plain, perpendicular_shift.
  assert (A : add64 (add64 (wrap (area + sweep prev cur)) (wrap (blade cur next + sweep cur next))) (wrap (blade next prev + sweep next prev)) = add64 (add64 area (wrap (blade cur next))) (wrap (blade next prev))).
  { unfold add64. destruct (wrap_eqm (area + sweep prev cur)) as [k1 ->]. destruct (wrap_eqm (blade cur next + sweep cur next)) as [k2 ->]. destruct (wrap_eqm (blade next prev + sweep next prev)) as [k3 ->]. destruct (wrap_eqm (blade cur next)) as [k4 ->]. destruct (wrap_eqm (blade next prev)) as [k5 ->].
    rewrite !wrap_add_l. apply (wrap_same _ _ (k1 + k2 + k3 - k4 - k5)). unfold sweep. ring. }
  assert (B : add64 (wrap (area + sweep prev cur)) (wrap (blade cur next + sweep cur next)) = wrap (add64 area (wrap (blade cur next)) + sweep prev next)).
  { unfold add64. destruct (wrap_eqm (area + sweep prev cur)) as [k1 ->]. destruct (wrap_eqm (blade cur next + sweep cur next)) as [k2 ->]. destruct (wrap_eqm (blade cur next)) as [k4 ->].
    rewrite !wrap_add_l. apply (wrap_same _ _ (k1 + k2 - k4)). unfold sweep. ring. }
  rewrite A. destruct (_ =? 0); [exists false; eexists; eexists; split; [reflexivity|]; split; [reflexivity|]; exact B|].
  destruct (_ || _); [exists false; eexists; eexists; split; [reflexivity|]; split; [reflexivity|]; exact B|].
  exists true. eexists. eexists. split; [reflexivity|]. split; [reflexivity|]. rewrite wrap_add_l. reflexivity.
Qed.
Lemma simplify_loop_shift sls aed p0 : forall rest prev area area' new, (forall c r, rest = c :: r -> area' = wrap (area + sweep prev c)) ->
  simplify_loop sls aed (sh p0) (map sh rest) (sh prev) area' (map sh new) = map sh (simplify_loop sls aed p0 rest prev area new).
Proof.
  induction rest as [|c rest IH]; intros prev area area' new H; [reflexivity|]. cbn [map simplify_loop]. cbv zeta.
  assert (N : match map sh rest with n :: _ => n | [] => match map sh new with q :: _ :: _ => q | _ => sh p0 end end = sh (match rest with n :: _ => n | [] => match new with q :: _ :: _ => q | _ => p0 end end)).
  { destruct rest as [|n r]; [|reflexivity]. destruct new as [|q [|q' new]]; reflexivity. }
  rewrite N. destruct (step_shift sls aed prev c (match rest with n :: _ => n | [] => match new with q :: _ :: _ => q | _ => p0 end end) area area' (H c rest eq_refl)) as (k & a & a' & E & E' & Ea). rewrite E, E'.
  destruct k; [replace (map sh new ++ [sh c]) with (map sh (new ++ [c])) by (rewrite map_app; reflexivity)|]; apply IH; intros c' r ->; exact Ea.
Qed.
Lemma simplify_shift p sls aed : Simplify (map sh p) sls aed = map sh (Simplify p sls aed).
Proof.
  unfold Simplify. destruct p as [|a [|b [|c [|e r]]]]; try reflexivity. cbn [map]. change (sh a :: sh b :: sh c :: sh e :: map sh r) with (map sh (a :: b :: c :: e :: r)). rewrite last_sh. cbv zeta.
  apply (simplify_loop_shift _ _ a (a :: b :: c :: e :: r) _ _ _ []). intros c' r' [= <- _]. rewrite cross_shift, cross_plain, wrap_add_l. reflexivity.
Qed.
Notation shn := (shift_node d).
Lemma contour_shift n : contour (shn n) = map sh (contour n). Proof. destruct n. reflexivity. Qed.
Lemma childs_shift n : childs (shn n) = map shn (childs n). Proof. destruct n. reflexivity. Qed.
Lemma flat_shift l : flat_map childs (map shn l) = map shn (flat_map childs l).
Proof. induction l as [|n l IH]; [reflexivity|]. cbn [map flat_map]. rewrite IH, childs_shift, map_app. reflexivity. Qed.
Lemma round_shift : forall ns, round (map shn ns) = (map (shift_part d) (fst (round ns)), map shn (snd (round ns))).
Proof.
  induction ns as [|n ns IH]; [reflexivity|]. cbn [map round]. rewrite IH. destruct (round ns) as [ps next]. cbn [fst snd map]. rewrite contour_shift, childs_shift, flat_shift, map_app. f_equal. f_equal.
  unfold shift_part. cbn [outline holes]. f_equal. rewrite !map_map. apply map_ext. intros x. apply contour_shift.
Qed.
Lemma rounds_shift : forall fuel ns, rounds fuel (map shn ns) = rmap (map (shift_part d)) (rounds fuel ns).
Proof.
  induction fuel as [|fuel IH]; intros [|n ns]; try reflexivity. change (map shn (n :: ns)) with (shn n :: map shn ns). cbn [rounds]. change (shn n :: map shn ns) with (map shn (n :: ns)). rewrite round_shift. destruct (round (n :: ns)) as [ps next]. cbn [fst snd].
  rewrite IH. destruct (rounds fuel next); try reflexivity. cbn [rmap bind]. rewrite map_app. reflexivity.
Qed.
Lemma nsize_shift : forall n, nsize (shn n) = nsize n.
Proof.
  fix F 1. intros [c l]. cbn [shift_node nsize]. f_equal. revert l. fix G 1. intros [|x l]; [reflexivity|]. cbn [map]. rewrite (F x), (G l). reflexivity.
Qed.
Lemma tree_shift t : polyTreeToLayerParts (map shn t) = rmap (map (shift_part d)) (polyTreeToLayerParts t).
Proof. unfold polyTreeToLayerParts. rewrite rounds_shift, map_map. do 3 f_equal. apply map_ext. exact nsize_shift. Qed.

Section Lib.
Variable lib : clib.
Hypothesis Any : clips_anywhere lib d.
Lemma parts_shift ps : GenerateLayerParts lib (map (map sh) ps) = rmap (option_map (map (shift_part d))) (GenerateLayerParts lib ps).
Proof.
  unfold GenerateLayerParts. rewrite map_map. rewrite (map_ext _ (fun p => map sh (Simplify p (-1) (-1)))) by (intros p; apply simplify_shift). destruct ps as [|p ps]; [reflexivity|]. cbn [map].
  change (map sh (Simplify p (-1) (-1)) :: map (fun p => map sh (Simplify p (-1) (-1))) ps) with (map (fun p => map sh (Simplify p (-1) (-1))) (p :: ps)).
  change (Simplify p (-1) (-1) :: map (fun p => Simplify p (-1) (-1)) ps) with (map (fun p => Simplify p (-1) (-1)) (p :: ps)).
  replace (closed_as PtSubject (map (fun p => map sh (Simplify p (-1) (-1))) (p :: ps))) with (map (fun a : added => (fst a, shift_path d (snd a))) (closed_as PtSubject (map (fun p => Simplify p (-1) (-1)) (p :: ps)))) by (unfold closed_as; rewrite !map_map; reflexivity).
  rewrite (Any false CtUnion). destruct (execute _ _ _ _) as [[tree n]|]; [|reflexivity]. rewrite tree_shift. destruct (polyTreeToLayerParts tree); reflexivity.
Qed.
Notation shlay := (shift_layer d).
Lemma partition_shift touch meld join finish : forall ls i, partition_all lib touch meld join finish i (shls ls) = rmap (map shlay) (partition_all lib touch meld join finish i ls).
Proof.
  induction ls as [|[l|] ls IH]; intros i; [reflexivity| |reflexivity]. cbn [map option_map partition_all]. rewrite polygons_shift. destruct (makePolygons touch meld join finish l) as [p| | |]; try reflexivity. cbn [rmap bind]. rewrite parts_shift.
  destruct (GenerateLayerParts lib p) as [[parts|]| | |]; try reflexivity. cbn [rmap bind option_map]. rewrite IH. clear IH. destruct (partition_all lib touch meld join finish (i + 1) ls); reflexivity.
Qed.
Lemma slice_shift o om : Slice lib o (shm om) = rmap (map shlay) (Slice lib o om).
Proof.
  unfold Slice. destruct (LayerThickness (Print o) =? 0); [reflexivity|]. cbn [shm om_size om_faces]. change (OModel _ _ _) with (shm om). destruct (_ <? 0); [reflexivity|]. rewrite faces_shift. destruct (omFaces om (om_faces om)) as [fs| | |]; try reflexivity. cbn [rmap bind].
  rewrite <- (none_shift (Z.to_nat _)) at 1. rewrite slice_faces_shift. destruct (slice_faces _ _ _ _ _); try reflexivity. cbn [rmap bind]. apply partition_shift.
Qed.

(** *** the areas of the modifiers *)
Hypothesis Off : offsets_anywhere lib d.
Notation sp := (shift_part d).
Notation sps := (map (shift_part d)).
Lemma inset_loop_shift p off : forall n cur, inset_loop lib (sp p) off n cur = rmap (map sps) (inset_loop lib p off n cur).
Proof.
  induction n as [|n IH]; intros cur; [reflexivity|]. cbn [inset_loop]. cbn [shift_part outline holes]. change (shift_path d (outline p) :: map (shift_path d) (holes p)) with (map (shift_path d) (outline p :: holes p)). rewrite Off, tree_shift.
  destruct (polyTreeToLayerParts _); try reflexivity. cbn [rmap bind]. rewrite IH. clear IH. destruct (inset_loop lib p off n _); reflexivity.
Qed.
Lemma inset_layer_shift off n init : forall ps, InsetLayer lib (sps ps) off n init = rmap (map (map sps)) (InsetLayer lib ps off n init).
Proof.
  induction ps as [|p ps IH]; [reflexivity|]. cbn [map InsetLayer]. unfold Inset. rewrite inset_loop_shift. destruct (inset_loop lib p off _ _); try reflexivity. cbn [rmap bind]. rewrite IH. clear IH. destruct (InsetLayer lib ps off n init); reflexivity.
Qed.
Lemma added_shift t ps : flat_map (fun p => closed_as t (outline p :: holes p)) (sps ps) = map (fun a : added => (fst a, shift_path d (snd a))) (flat_map (fun p => closed_as t (outline p :: holes p)) ps).
Proof.
  induction ps as [|p ps IH]; [reflexivity|]. cbn [map flat_map]. rewrite map_app, IH. f_equal. unfold closed_as. cbn [shift_part outline holes map fst snd]. f_equal. rewrite !map_map. reflexivity.
Qed.
Lemma clip_parts_shift t a b : clip_parts lib t (sps a) (sps b) = rmap (option_map sps) (clip_parts lib t a b).
Proof.
  unfold clip_parts. rewrite !added_shift, <- map_app, (Any false t). destruct (execute lib false t _) as [[tree n]|]; [|reflexivity]. rewrite tree_shift. destruct (polyTreeToLayerParts tree); reflexivity.
Qed.
Lemma run_shift t a b : runClipper lib t (sps a) (sps b) = rmap (option_map sps) (runClipper lib t a b).
Proof. unfold runClipper. destruct a as [|x a]; [destruct b as [|y b]; [reflexivity|]|]; exact (clip_parts_shift t _ _). Qed.
Lemma ok_shift msg r : ok_or msg (rmap (option_map sps) r) = rmap sps (ok_or msg r).
Proof. destruct r as [[x|]| | |]; reflexivity. Qed.
Lemma lparts_shift l : LayerParts (shlay l) = sps (LayerParts l).
Proof. unfold LayerParts, shift_layer. cbn [lparts]. destruct (lparts l); reflexivity. Qed.
Lemma attribute_shift l name : attribute (shlay l) name = option_map (shift_attr d) (attribute l name).
Proof.
  unfold attribute, shift_layer. cbn [lattrs]. destruct (lattrs l) as [m|]; [|reflexivity]. cbn [option_map]. induction m as [|[k a] m IH]; [reflexivity|]. cbn [map lookup fst snd]. destruct (String.eqb k name); [reflexivity|exact IH].
Qed.
Lemma parts_attribute_shift l n : PartsAttribute (shlay l) n = rmap sps (PartsAttribute l n).
Proof. unfold PartsAttribute. rewrite attribute_shift. destruct (attribute l n) as [[]|]; reflexivity. Qed.
Lemma overlap_attribute_shift l : OverlapPerimeters (shlay l) = rmap (map sps) (OverlapPerimeters l).
Proof. unfold OverlapPerimeters. rewrite attribute_shift. destruct (attribute l _) as [[]|]; reflexivity. Qed.
Lemma perimeters_attribute_shift l : Perimeters (shlay l) = rmap (map (map sps)) (Perimeters l).
Proof. unfold Perimeters. rewrite attribute_shift. destruct (attribute l _) as [[]|]; reflexivity. Qed.
Lemma outer_attribute_shift l : BrimOuterDimension (shlay l) = rmap sps (BrimOuterDimension l).
Proof. unfold BrimOuterDimension. rewrite attribute_shift. destruct (attribute l _) as [[]|]; reflexivity. Qed.
Lemma extended_shift l : newExtendedLayer (shlay l) = shlay (newExtendedLayer l).
Proof. unfold newExtendedLayer, shift_layer. cbn [lparts lattrs]. destruct (lattrs l); reflexivity. Qed.
Lemma set_shift n a l : set_attribute n (shift_attr d a) (shlay l) = shlay (set_attribute n a l).
Proof. unfold set_attribute, shift_layer. cbn [lparts lattrs]. destruct (lattrs l); reflexivity. Qed.
Lemma set_parts_shift n ps l : set_parts n (sps ps) (shlay l) = shlay (set_parts n ps l).
Proof. unfold set_parts. destruct ps as [|p ps]; [reflexivity|]. exact (set_shift n (AParts (p :: ps)) l). Qed.
Lemma put_shift {A B} (f : A -> B) i x l : put i (f x) (map f l) = rmap (map f) (put i x l).
Proof. unfold put. rewrite map_length. destruct (_ || _); [reflexivity|]. cbn [rmap bind]. rewrite set_nth_map. reflexivity. Qed.
Lemma over_shift step : (forall nr ls, step nr (map shlay ls) = rmap (option_map (map shlay)) (step nr ls)) -> forall n nr ls, over_layers step n nr (map shlay ls) = rmap (map shlay) (over_layers step n nr ls).
Proof.
  intros H. induction n as [|n IH]; intros nr ls; [reflexivity|]. cbn [over_layers]. rewrite H. destruct (step nr ls) as [[ls'|]| | |]; try reflexivity. cbn [rmap bind option_map]. apply IH.
Qed.
Lemma last_idx_shift {A B} (f : A -> B) l : idx (map f l) (Z.of_nat (List.length (map f l)) - 1) = rmap f (idx l (Z.of_nat (List.length l) - 1)).
Proof. rewrite map_length. apply idx_map. Qed.

Variable o : options.
Lemma calc_shift p k w : calculateOverlapPerimeter lib (sp p) k w = rmap sps (calculateOverlapPerimeter lib p k w).
Proof.
  unfold calculateOverlapPerimeter, Inset. cbv zeta. destruct (negb _); [|reflexivity]. rewrite inset_loop_shift. destruct (inset_loop lib p _ _ _); try reflexivity. cbn [rmap bind]. apply idx_map.
Qed.
Lemma overlap_all_shift k : forall ps, overlap_all lib o k (sps ps) = rmap sps (overlap_all lib o k ps).
Proof.
  induction ps as [|p ps IH]; [reflexivity|]. cbn [map overlap_all]. rewrite calc_shift. destruct (calculateOverlapPerimeter lib p k _); try reflexivity. cbn [rmap bind]. rewrite IH. clear IH. destruct (overlap_all lib o k ps); try reflexivity. cbn [rmap bind]. rewrite map_app. reflexivity.
Qed.
Lemma overlap_entries_shift : forall r, overlap_entries lib o (map (map sps) r) = rmap (map sps) (overlap_entries lib o r).
Proof.
  induction r as [|p r IH]; [reflexivity|]. cbn [map overlap_entries]. rewrite last_idx_shift. destruct (idx p _) as [inner| | |]; try reflexivity. cbn [rmap bind]. rewrite overlap_all_shift. destruct (overlap_all lib o _ inner); try reflexivity. cbn [rmap bind].
  rewrite IH. clear IH. destruct (overlap_entries lib o r); reflexivity.
Qed.
Lemma perimeter_shift ls : PerimeterModify lib o (map shlay ls) = rmap (map shlay) (PerimeterModify lib o ls).
Proof.
  unfold PerimeterModify. rewrite map_length. apply over_shift. intros nr l. rewrite idx_map. destruct (idx l nr) as [x| | |]; try reflexivity. cbn [bind]. unfold perimeter_layer. rewrite lparts_shift, inset_layer_shift. destruct (InsetLayer lib (LayerParts x) _ _ _) as [ins| | |]; try reflexivity. cbn [rmap bind].
  rewrite overlap_entries_shift. destruct (overlap_entries lib o ins) as [ov| | |]; try reflexivity. cbn [rmap bind]. rewrite extended_shift. change (AOffset (map (map sps) ins)) with (shift_attr d (AOffset ins)). change (ANested (map sps ov)) with (shift_attr d (ANested ov)). rewrite !set_shift, put_shift. destruct (put _ _ _); reflexivity.
Qed.

Lemma difference_shift p l : partDifference lib (sp p) (shlay l) = rmap sps (partDifference lib p l).
Proof. unfold partDifference, Difference. rewrite lparts_shift. change [sp p] with (sps [p]). rewrite run_shift. apply ok_shift. Qed.
Lemma union_up_shift msg a b : union_up lib msg (sps a) (sps b) = rmap sps (union_up lib msg a b).
Proof. unfold union_up, Union. destruct a as [|x a]; [reflexivity|]. change (map sp (x :: a)) with (sp x :: map sp a) at 1. cbn match. change (sp x :: map sp a) with (sps (x :: a)). rewrite run_shift. apply ok_shift. Qed.
Lemma bottom_shift ls nr p : forall n i acc, bottom_loop lib (map shlay ls) nr (sp p) n i (sps acc) = rmap sps (bottom_loop lib ls nr p n i acc).
Proof.
  induction n as [|n IH]; intros i acc; [reflexivity|]. cbn [bottom_loop]. destruct (_ =? 0).
  - change [sp p] with (sps [p]). rewrite union_up_shift. destruct (union_up lib _ acc [p]); try reflexivity. cbn [rmap bind]. apply IH.
  - destruct (nr <? i); [reflexivity|]. rewrite idx_map. destruct (idx ls _) as [b| | |]; try reflexivity. cbn [bind]. rewrite difference_shift. destruct (partDifference lib p b) as [q| | |]; try reflexivity. cbn [rmap bind].
    rewrite union_up_shift. destruct (union_up lib _ acc q); try reflexivity. cbn [rmap bind]. apply IH.
Qed.
Lemma top_shift ls nr p : forall n i acc, top_loop lib (map shlay ls) nr (sp p) n i (sps acc) = rmap sps (top_loop lib ls nr p n i acc).
Proof.
  induction n as [|n IH]; intros i acc; [reflexivity|]. cbn [top_loop]. rewrite map_length. destruct (_ =? _).
  - change [sp p] with (sps [p]). rewrite union_up_shift. destruct (union_up lib _ acc [p]); try reflexivity. cbn [rmap bind]. apply IH.
  - destruct (_ <=? _); [reflexivity|]. rewrite idx_map. destruct (idx ls _) as [b| | |]; try reflexivity. cbn [bind]. rewrite difference_shift. destruct (partDifference lib p b) as [q| | |]; try reflexivity. cbn [rmap bind].
    rewrite union_up_shift. destruct (union_up lib _ acc q); try reflexivity. cbn [rmap bind]. apply IH.
Qed.
Lemma clip_into_shift bd i acc : clip_into lib (sps bd) (sps i) (sps acc) = rmap sps (clip_into lib bd i acc).
Proof.
  unfold clip_into, Intersection, Union. destruct i as [|x i]; [reflexivity|]. change (sps (x :: i)) with (sp x :: sps i) at 1. cbn match. change (sp x :: sps i) with (sps (x :: i)). rewrite run_shift, ok_shift. destruct (ok_or _ (runClipper lib CtIntersection _ _)); try reflexivity. cbn [rmap bind]. rewrite run_shift. apply ok_shift.
Qed.
Definition sp2 (s : list part * list part) := (sps (fst s), sps (snd s)).
Lemma clip_border_shift ov nr i acc : match sps i with [] => Ok (sps acc) | _ => let* bd := idx (map sps ov) nr in clip_into lib bd (sps i) (sps acc) end =
  rmap sps (match i with [] => Ok acc | _ => let* bd := idx ov nr in clip_into lib bd i acc end).
Proof.
  destruct i as [|x i]; [reflexivity|]. change (sps (x :: i)) with (sp x :: sps i) at 1. cbn match. rewrite idx_map. destruct (idx ov nr); try reflexivity. cbn [bind]. apply clip_into_shift.
Qed.
Lemma infill_part_shift ls nr ov k p s : infill_part lib o (map shlay ls) nr (map sps ov) k (sp p) (sp2 s) = rmap sp2 (infill_part lib o ls nr ov k p s).
Proof.
  unfold infill_part. destruct s as [b t]. cbn [sp2 fst snd]. rewrite (bottom_shift ls nr p _ _ []). destruct (bottom_loop _ _ _ _ _ _ _) as [bp| | |]; try reflexivity. cbn [rmap bind]. rewrite (top_shift ls nr p _ _ []). destruct (top_loop _ _ _ _ _ _ _) as [tp| | |]; try reflexivity. cbn [rmap bind].
  cbv zeta. rewrite overlap_all_shift. destruct (overlap_all lib o _ bp) as [ib| | |]; try reflexivity. cbn [rmap bind]. rewrite overlap_all_shift. destruct (overlap_all lib o _ tp) as [it| | |]; try reflexivity. cbn [rmap bind].
  rewrite clip_border_shift. destruct (match ib with [] => Ok b | _ => _ end); try reflexivity. cbn [rmap bind]. rewrite clip_border_shift. destruct (match it with [] => Ok t | _ => _ end); reflexivity.
Qed.
Lemma infill_parts_shift ls nr ov k : forall ps s, infill_parts lib o (map shlay ls) nr (map sps ov) k (sps ps) (sp2 s) = rmap sp2 (infill_parts lib o ls nr ov k ps s).
Proof.
  induction ps as [|p ps IH]; intros s; [reflexivity|]. cbn [map infill_parts]. rewrite infill_part_shift. destruct (infill_part _ _ _ _ _ _ _ _); try reflexivity. cbn [rmap bind]. apply IH.
Qed.
Lemma infill_entries_shift ls nr ov : forall r k s, infill_entries lib o (map shlay ls) nr (map sps ov) k (map (map sps) r) (sp2 s) = rmap sp2 (infill_entries lib o ls nr ov k r s).
Proof.
  induction r as [|p r IH]; intros k s; [reflexivity|]. cbn [map infill_entries]. rewrite last_idx_shift. destruct (idx p _); try reflexivity. cbn [rmap bind]. rewrite infill_parts_shift. destruct (infill_parts _ _ _ _ _ _ _ _); try reflexivity. cbn [rmap bind]. apply IH.
Qed.
Lemma infill_shift ls : InfillModify lib o (map shlay ls) = rmap (map shlay) (InfillModify lib o ls).
Proof.
  unfold InfillModify. rewrite map_length. apply over_shift. clear ls. intros nr ls. unfold infill_step. rewrite idx_map. destruct (idx ls nr) as [l| | |]; try reflexivity. cbn [bind]. rewrite overlap_attribute_shift. destruct (OverlapPerimeters l) as [ov| | |]; try reflexivity. cbn [rmap bind].
  destruct ov as [|v ov]; [reflexivity|]. change (map sps (v :: ov)) with (sps v :: map sps ov) at 1. cbn match. rewrite perimeters_attribute_shift. destruct (Perimeters l) as [pe| | |]; try reflexivity. cbn [rmap bind]. destruct pe as [|q pe]; [reflexivity|]. change (map (map sps) (q :: pe)) with (map sps q :: map (map sps) pe) at 1. cbn match.
  change ([], []) with (sp2 ([], [])) at 1. rewrite infill_entries_shift. destruct (infill_entries _ _ _ _ _ _ _ _) as [[bi ti]| | |]; try reflexivity. cbn [rmap bind sp2 fst snd].
  assert (T : match sps ti, sps bi with _ :: _, _ :: _ => ok_or "error while calculating the difference of new top infill with the bottom infill to avoid duplicates" (Difference lib (sps ti) (sps bi)) | _, _ => Ok (sps ti) end =
    rmap sps (match ti, bi with _ :: _, _ :: _ => ok_or "error while calculating the difference of new top infill with the bottom infill to avoid duplicates" (Difference lib ti bi) | _, _ => Ok ti end)).
  { destruct ti as [|x ti]; [reflexivity|]. destruct bi as [|y bi]; [reflexivity|]. unfold Difference. rewrite run_shift. apply ok_shift. }
  rewrite T. clear T. destruct (match ti with [] => Ok ti | _ => _ end) as [ti'| | |]; try reflexivity. cbn [rmap bind]. rewrite extended_shift, !set_parts_shift, put_shift. destruct (put _ _ _); reflexivity.
Qed.

Lemma internal_parts_shift c : forall ov, internal_parts lib o (map sps ov) (sps c) = rmap sps (internal_parts lib o ov c).
Proof.
  induction ov as [|v ov IH]; [reflexivity|]. cbn [map internal_parts]. destruct (_ =? 0); [exact IH|].
  assert (G : (let* parts := ok_or "error while calculating the difference between the max overlap border and the bottom infill" (Difference lib (sps v) (sps c)) in let* r := internal_parts lib o (map sps ov) (sps c) in Ok (parts ++ r)) =
    rmap sps (let* parts := ok_or "error while calculating the difference between the max overlap border and the bottom infill" (Difference lib v c) in let* r := internal_parts lib o ov c in Ok (parts ++ r))).
  { unfold Difference. rewrite run_shift, ok_shift. destruct (ok_or _ _); try reflexivity. cbn [rmap bind]. rewrite IH. clear IH. destruct (internal_parts lib o ov c); try reflexivity. cbn [rmap bind]. rewrite map_app. reflexivity. }
  destruct v as [|x v]; [destruct c as [|y c]; [exact IH|]|]; exact G.
Qed.
Lemma internal_shift ls : InternalInfillModify lib o (map shlay ls) = rmap (map shlay) (InternalInfillModify lib o ls).
Proof.
  unfold InternalInfillModify. rewrite map_length. apply over_shift. clear ls. intros nr ls. unfold internal_step. rewrite idx_map. destruct (idx ls nr) as [l| | |]; try reflexivity. cbn [bind]. rewrite overlap_attribute_shift. destruct (OverlapPerimeters l) as [ov| | |]; try reflexivity. cbn [rmap bind].
  destruct ov as [|v ov]; [reflexivity|]. change (map sps (v :: ov)) with (sps v :: map sps ov) at 1. cbn match. rewrite parts_attribute_shift. destruct (PartsAttribute l "bottom") as [b| | |]; try reflexivity. cbn [rmap bind]. rewrite parts_attribute_shift. destruct (PartsAttribute l "top") as [t| | |]; try reflexivity. cbn [rmap bind].
  rewrite <- map_app, internal_parts_shift. destruct (internal_parts _ _ _ _); try reflexivity. cbn [rmap bind]. rewrite set_parts_shift, put_shift. destruct (put _ _ _); reflexivity.
Qed.

Lemma top_level_shift ps : TopLevelPolygons lib (sps ps) = option_map (map (map sh)) (TopLevelPolygons lib ps).
Proof.
  unfold TopLevelPolygons. replace (map (fun p => (PtSubject, true, outline p)) (sps ps)) with (map (fun a : added => (fst a, shift_path d (snd a))) (map (fun p => (PtSubject, true, outline p)) ps)) by (rewrite !map_map; reflexivity).
  rewrite (Any false CtUnion). destruct (execute _ _ _ _) as [[t n]|]; [|reflexivity]. cbn [option_map]. rewrite !map_map. f_equal. apply map_ext. exact contour_shift.
Qed.
Lemma outer_perimeters_shift r : outer_perimeters (map (map sps) r) = sps (outer_perimeters r).
Proof.
  unfold outer_perimeters. induction r as [|p r IH]; [reflexivity|]. cbn [map flat_map]. rewrite map_app, IH. f_equal. clear IH. induction p as [|w p IH]; [reflexivity|]. cbn [map flat_map]. rewrite map_app, IH. destruct w; reflexivity.
Qed.
Lemma outer_lines_shift r : outer_lines (map (map sps) r) = sps (outer_lines r).
Proof.
  unfold outer_lines. induction r as [|p r IH]; [reflexivity|]. cbn [map flat_map]. rewrite map_app, IH. f_equal. clear IH. induction p as [|a [|b p] IH]; [reflexivity|reflexivity|]. exact IH.
Qed.
Lemma one_dimension_shift r : ToOneDimension (map (map sps) r) = sps (ToOneDimension r).
Proof. unfold ToOneDimension. rewrite !concat_map. reflexivity. Qed.
Lemma brim_shift ls : BrimModify lib o (map shlay ls) = rmap (map shlay) (BrimModify lib o ls).
Proof.
  unfold BrimModify. cbv zeta. destruct (_ =? 0); [reflexivity|]. rewrite idx_map. destruct (idx ls 0) as [l| | |]; try reflexivity. cbn [bind]. rewrite perimeters_attribute_shift. destruct (Perimeters l) as [pe| | |]; try reflexivity. cbn [rmap bind].
  destruct pe as [|q pe]; [reflexivity|]. change (map (map sps) (q :: pe)) with (map sps q :: map (map sps) pe) at 1. cbn match. rewrite outer_perimeters_shift, top_level_shift.
  destruct (TopLevelPolygons lib (outer_perimeters (q :: pe))) as [t|]; [|reflexivity]. cbn [option_map].
  assert (T : forall t : paths, map (fun p : path => Part p []) (map (map sh) t) = sps (map (fun p : path => Part p []) t)) by (intros t'; rewrite !map_map; reflexivity).
  rewrite T. clear T. destruct (map (fun p : path => Part p []) t) as [|x xs]; [reflexivity|]. change (sps (x :: xs)) with (sp x :: sps xs) at 1. cbn match. change (sp x :: sps xs) with (sps (x :: xs)). rewrite inset_layer_shift. destruct (InsetLayer lib (x :: xs) _ _ _) as [br| | |]; try reflexivity. cbn [rmap bind].
  rewrite outer_lines_shift, inset_layer_shift. destruct (InsetLayer lib (outer_lines br) _ _ _) as [ou| | |]; try reflexivity. cbn [rmap bind]. rewrite one_dimension_shift, extended_shift.
  assert (S : match map (map sps) br with [] => shlay (newExtendedLayer l) | _ => set_attribute "brim" (AOffset (map (map sps) br)) (shlay (newExtendedLayer l)) end = shlay (match br with [] => newExtendedLayer l | _ => set_attribute "brim" (AOffset br) (newExtendedLayer l) end)).
  { destruct br as [|b br]; [reflexivity|]. exact (set_shift "brim" (AOffset (b :: br)) (newExtendedLayer l)). }
  rewrite S, set_parts_shift. apply put_shift.
Qed.

Lemma enlarged_shift l off init : enlarged lib (shlay l) off init = rmap sps (enlarged lib l off init).
Proof. unfold enlarged. rewrite lparts_shift, inset_layer_shift. destruct (InsetLayer _ _ _ _ _); try reflexivity. cbn [rmap bind]. rewrite one_dimension_shift. reflexivity. Qed.
Lemma difference_of_shift a b : difference_of lib (option_map sps a) (sps b) = rmap (option_map sps) (difference_of lib a b).
Proof. unfold difference_of. destruct a as [a|]; [exact (clip_parts_shift _ a b)|]. destruct b as [|y b]; [reflexivity|]. exact (clip_parts_shift CtDifference [] (y :: b)). Qed.
Variable tangent : f64 -> f64.
Lemma overhang_shift l above : overhang lib o tangent (shlay l) (shlay above) = rmap sps (overhang lib o tangent l above).
Proof.
  unfold overhang. rewrite enlarged_shift. destruct (enlarged lib l _ _) as [e| | |]; try reflexivity. cbn [rmap bind]. cbn [shift_layer lparts]. rewrite difference_of_shift, ok_shift. destruct (ok_or _ _) as [s| | |]; try reflexivity. cbn [rmap bind]. cbv zeta.
  rewrite inset_layer_shift. destruct (InsetLayer lib s _ _ _); try reflexivity. cbn [rmap bind]. rewrite one_dimension_shift. reflexivity.
Qed.
Lemma detector_shift ls : SupportDetectorModify lib o tangent (map shlay ls) = rmap (map shlay) (SupportDetectorModify lib o tangent ls).
Proof.
  unfold SupportDetectorModify. rewrite map_length. apply over_shift. clear ls. intros nr ls. unfold detector_step. destruct (negb _); [reflexivity|]. rewrite map_length. destruct (_ || _); [reflexivity|]. rewrite !idx_map.
  destruct (idx ls nr) as [l| | |]; try reflexivity. cbn [bind]. destruct (idx ls (nr + 1)) as [a| | |]; try reflexivity. cbn [bind]. rewrite overhang_shift. destruct (overhang lib o tangent l a) as [s| | |]; try reflexivity. cbn [rmap bind].
  destruct (idx ls _) as [t| | |]; try reflexivity. cbn [bind]. rewrite extended_shift, set_parts_shift, put_shift. destruct (put _ _ _); reflexivity.
Qed.
Lemma split_shift ls nr target a : split_support lib o (map shlay ls) nr (shlay target) (sps a) = rmap sp2 (split_support lib o ls nr target a).
Proof.
  unfold split_support. destruct a as [|x a]; [reflexivity|]. change (sps (x :: a)) with (sp x :: sps a) at 1. cbn match. cbv zeta. rewrite map_length, idx_map. destruct (idx ls _) as [la| | |]; try reflexivity. cbn [bind]. rewrite parts_attribute_shift. destruct (PartsAttribute la _) as [fs| | |]; try reflexivity. cbn [rmap bind].
  unfold Difference. rewrite run_shift, ok_shift. destruct (ok_or _ (runClipper lib CtDifference (x :: a) fs)) as [i| | |]; try reflexivity. cbn [rmap bind]. rewrite run_shift, ok_shift. destruct (ok_or _ (runClipper lib CtDifference (x :: a) i)) as [w| | |]; try reflexivity. cbn [rmap bind].
  rewrite outer_attribute_shift. destruct (BrimOuterDimension target) as [b| | |]; try reflexivity. cbn [rmap bind]. destruct b as [|y b]; [reflexivity|]. change (sps (y :: b)) with (sp y :: sps b) at 1. cbn match. rewrite !run_shift.
  destruct (runClipper lib CtDifference i (y :: b)) as [i'| | |]; try reflexivity. cbn [rmap bind]. destruct (runClipper lib CtDifference w (y :: b)) as [w'| | |]; try reflexivity. cbn [rmap bind]. unfold sp2. destruct i'; destruct w'; reflexivity.
Qed.
Lemma generator_loop_shift : forall n s ls, generator_loop lib o n (sps s) (map shlay ls) = rmap (map shlay) (generator_loop lib o n s ls).
Proof.
  induction n as [|n IH]; intros s ls; [reflexivity|]. cbn [generator_loop]. cbv zeta. rewrite !idx_map. destruct (idx ls (Z.of_nat (S n))) as [l| | |]; try reflexivity. cbn [bind].
  assert (C : match sps s with [] => PartsAttribute (shlay l) "support" | _ => Ok (sps s) end = rmap sps (match s with [] => PartsAttribute l "support" | _ => Ok s end)) by (destruct s; [apply parts_attribute_shift|reflexivity]).
  rewrite C. clear C. destruct (match s with [] => _ | _ => _ end) as [cu| | |]; try reflexivity. cbn [rmap bind]. destruct (idx ls _) as [t| | |]; try reflexivity. cbn [bind]. rewrite parts_attribute_shift. destruct (PartsAttribute t _) as [be| | |]; try reflexivity. cbn [rmap bind].
  set (go := fun (cu be s : list part) ls t => let* result := ok_or ("could not union the supports for layer " ++ itoa (Z.of_nat (S n)) ++ " to generate support")%string (Union lib cu be) in
          let* biggerLayer := enlarged lib t (neg64 (ToMicrometer (s_Gap (Support (Print o))))) (quot64 (ToMicrometer (s_Gap (Support (Print o)))) 2) in
          let* actualSupport := ok_or ("could not subtract the model from the supports for layer " ++ itoa (Z.of_nat (S n)))%string (Difference lib result biggerLayer) in
          let* (interfaceParts, without) := split_support lib o ls (Z.of_nat (S n)) t actualSupport in
          let* layers' := put (Z.of_nat (S n) - 1) (set_attribute "support" (AParts without)
                      (set_parts "supportInterface" interfaceParts (set_parts "fullSupport" actualSupport (newExtendedLayer t)))) ls in
          generator_loop lib o n actualSupport layers').
  assert (G : go (sps cu) (sps be) (sps s) (map shlay ls) (shlay t) = rmap (map shlay) (go cu be s ls t)).
  { unfold go, Union, Difference. rewrite run_shift, ok_shift. destruct (ok_or _ (runClipper lib CtUnion cu be)) as [r| | |]; try reflexivity. cbn [rmap bind]. rewrite enlarged_shift. destruct (enlarged lib t _ _) as [e| | |]; try reflexivity. cbn [rmap bind].
    rewrite run_shift, ok_shift. destruct (ok_or _ (runClipper lib CtDifference r e)) as [a| | |]; try reflexivity. cbn [rmap bind]. rewrite split_shift. destruct (split_support lib o ls _ t a) as [[i w]| | |]; try reflexivity. cbn [rmap bind sp2 fst snd].
    rewrite extended_shift, !set_parts_shift. change (AParts (sps w)) with (shift_attr d (AParts w)). rewrite set_shift, put_shift. destruct (put _ _ ls); try reflexivity. cbn [rmap bind]. apply IH. }
  destruct cu as [|x cu]; [destruct be as [|y be]; [apply IH|]|]; exact G.
Qed.
Lemma generator_shift ls : SupportGeneratorModify lib o (map shlay ls) = rmap (map shlay) (SupportGeneratorModify lib o ls).
Proof. unfold SupportGeneratorModify. destruct (negb _); [reflexivity|]. rewrite map_length. apply (generator_loop_shift _ []). Qed.
End Lib.
End Shift.
