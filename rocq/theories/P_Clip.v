(** Properties C31-C37: package clip. *)
From Coq Require Import Permutation.
From Verif Require Import GoBase GoFloat M_Micrometer M_Geom2D M_DPHeap M_Clip M_FillHeap S_Geom S_Slicer S_Clip L_FloatInt L_Slicer L_Join L_Clip L_Linear.
Local Open Scope Z_scope.

(** a library for the examples: intersecting returns the open subject lines, everything else the closed
    subjects; offsetting moves all contours by the offset; rotation by 90 degrees is the only one *)
Definition toy : clib := CLib
  (fun _ t l => Some (flat_map (fun a => match a with
      | (PtSubject, false, p) => match t with CtIntersection => [Node p []] | _ => [] end
      | (PtSubject, true, p) => [Node p []] | _ => [] end) l, 0))
  (fun d ps => map (fun p => Node (map (fun q => Pt (px q + int64_of_f64 d) (py q)) p) []) ps)
  (fun p => p) (fun d => if feq d (f64_of_Z 0) then f64_of_Z 0 else if flt d (f64_of_Z 0) then f64_of_Z (-1) else f64_of_Z 1)
  (fun d => if feq d (f64_of_Z 0) then f64_of_Z 1 else f64_of_Z 0).

(** *** C31 *)
(** Every contour of the tree is used exactly once: a node of even depth becomes a part whose holes are its
    children.  Parts are ordered by depth. *)
Theorem tree_to_parts : forall t, exists ps, polyTreeToLayerParts t = Ok ps /\
  Permutation ps (map part_of (flat_map evens t)) /\
  Permutation (flat_map (fun p => outline p :: holes p) ps) (flat_map contours t) /\
  exists d, ps = flat_map (fun k => map part_of (level k t)) (seq 0 d).
Proof.
  intros t. destruct (tree_spec t) as (ps & E & P & L). exists ps. split; [exact E|]. split; [exact P|]. split; [exact (tree_contours t ps E)|].
  exists (list_sum (map nsize t)). apply L. lia.
Qed.
Print Assumptions tree_to_parts.
(** an island in a hole *)
Example tree_ex : polyTreeToLayerParts [Node [Pt 0 0] [Node [Pt 1 1] [Node [Pt 2 2] []]; Node [Pt 3 3] []]; Node [Pt 4 4] []] =
  Ok [Part [Pt 0 0] [[Pt 1 1]; [Pt 3 3]]; Part [Pt 4 4] []; Part [Pt 2 2] []].
Proof. reflexivity. Qed.

(** *** C32 *)
Theorem inset_offsets : forall lib p off count init, Z.abs init + Z.max 0 count * Z.abs off <= 2 ^ 53 -> Z.abs off <= 2 ^ 53 ->
  exists ins, Inset lib p off count init = Ok ins /\ Z.of_nat (List.length ins) = Z.max 0 count /\
    forall k x, idx ins k = Ok x -> polyTreeToLayerParts (offset lib (f64_of_Z (init - k * off)) (outline p :: holes p)) = Ok x.
Proof. exact inset_spec. Qed.
Print Assumptions inset_offsets.
Theorem inset_layer_parts : forall lib layer off count init, Z.abs init + Z.max 0 count * Z.abs off <= 2 ^ 53 -> Z.abs off <= 2 ^ 53 ->
  exists o, InsetLayer lib layer off count init = Ok o /\ Forall2 (fun p x => Inset lib p off count init = Ok x) layer o.
Proof. intros lib layer off count init H Ho. apply inset_layer_spec; assumption. Qed.
Print Assumptions inset_layer_parts.
Example inset_ex : Inset toy (Part [Pt 0 0; Pt 10 10] []) 400 3 (-200) =
  Ok [[Part [Pt (-200) 0; Pt (-190) 10] []]; [Part [Pt (-600) 0; Pt (-590) 10] []]; [Part [Pt (-1000) 0; Pt (-990) 10] []]].
Proof. vm_compute. reflexivity. Qed.

(** *** C33 *)
Theorem for_each_visits : forall S (cb : S -> part -> Z -> Z -> Z -> S * bool) o s,
  ForEach cb o s = run_until (fun s x => match x with (p, i, j, k) => cb s p i j k end) s (indexed o) /\
  map (fun x => fst (fst (fst x))) (indexed o) = ToOneDimension o /\
  (forall p i j k, In (p, i, j, k) (indexed o) <-> exists x y, idx o i = Ok x /\ idx x j = Ok y /\ idx y k = Ok p).
Proof.
  intros S cb o s. split; [exact (for_each_run cb o s)|]. split; [exact (indexed_parts o)|]. intros p i j k. exact (indexed_in o p i j k).
Qed.
Print Assumptions for_each_visits.
Example for_each_ex : let q n := Part [Pt n n] [] in
  ForEach (fun s p i j k => (s ++ [(p, i, j, k)], j =? 1)) [[[q 1; q 2]; []]; [[]; [q 3; q 4]]] [] = [(q 1, 0, 0, 0); (q 2, 0, 0, 1); (q 3, 1, 1, 0)].
Proof. reflexivity. Qed.

(** *** C34 *)
Theorem infill_grid : forall d minx maxx fuel, 0 < d -> int64 minx -> maxx + d < 2 ^ 63 -> maxx - minx < Z.of_nat fuel * d ->
  exists xs, grid fuel minx maxx d = Ok xs /\
    (forall k x, idx xs k = Ok x -> x = minx + k * d /\ x <= maxx) /\
    (forall x, minx <= x <= maxx -> exists g, In g xs /\ g <= x < g + d).
Proof.
  intros d minx maxx fuel Hd Hx Hm Hf. rewrite (grid_spec d maxx Hd Hm fuel minx Hx Hf). eexists. split; [reflexivity|].
  assert (I : forall k x, idx (map (fun k => minx + Z.of_nat k * d) (seq 0 (if minx <=? maxx then S (Z.to_nat ((maxx - minx) / d)) else 0))) k = Ok x ->
    x = minx + k * d /\ x <= maxx).
  { intros k x Ik. apply idx_Ok in Ik. destruct Ik as (R & N). rewrite map_length, seq_length in R.
    assert (Ns : nth_error (seq 0 (if minx <=? maxx then S (Z.to_nat ((maxx - minx) / d)) else 0)) (Z.to_nat k) = Some (Z.to_nat k)).
    { erewrite nth_error_nth' with (d := 0%nat); [rewrite seq_nth; [reflexivity|lia]|rewrite seq_length; lia]. }
    rewrite (map_nth_error _ _ _ Ns) in N. injection N as <-. rewrite Z2Nat.id by lia. split; [reflexivity|].
    destruct (Z.leb_spec minx maxx); [|lia]. assert (k <= (maxx - minx) / d) by (pose proof (Z.div_pos (maxx - minx) d); lia).
    pose proof (Z.mul_div_le (maxx - minx) d Hd). nia. }
  split; [exact I|]. intros x Rx. exists (minx + Z.of_nat (Z.to_nat ((x - minx) / d)) * d).
  pose proof (Z.div_pos (x - minx) d ltac:(lia) Hd) as P0. rewrite Z2Nat.id by exact P0.
  pose proof (Z.div_mod (x - minx) d ltac:(lia)) as DM. pose proof (Z.mod_pos_bound (x - minx) d Hd).
  split; [|nia]. apply in_map_iff. exists (Z.to_nat ((x - minx) / d)). rewrite Z2Nat.id by exact P0. split; [reflexivity|]. apply in_seq.
  destruct (Z.leb_spec minx maxx); [|lia]. assert ((x - minx) / d <= (maxx - minx) / d) by (apply Z.div_le_mono; lia). lia.
Qed.
Print Assumptions infill_grid.
(** distance 0: the loop never ends; a negative one: not before the coordinate leaves the int64 range *)
Theorem infill_grid_diverges : forall fuel minx maxx, int64 minx -> minx <= maxx ->
  grid fuel minx maxx 0 = Diverge /\
  forall d, d < 0 -> Z.of_nat fuel * (- d) <= minx + 2 ^ 63 -> grid fuel minx maxx d = Diverge.
Proof.
  intros fuel minx maxx Hx L. split; [apply grid_zero; assumption|]. intros d Hd B. apply grid_negative; try assumption; unfold int64 in Hx; lia.
Qed.
Print Assumptions infill_grid_diverges.
Example grid_ex : grid 9 (-100) 1000 400 = Ok [-100; 300; 700] /\ grid 1000 0 10 (-3) = Diverge.
Proof. split; vm_compute; reflexivity. Qed.

(** *** C35 *)
(** the settings and the lines the theorem is about *)
Definition lines_ok (ls : paths) : Prop := Forall (fun l => List.length l = 2%nat /\ Forall (pt_bounded (2 ^ 24)) l) ls.
Definition connection (lib : clib) (p : linear) (prt : part) (e q : pt) : bool :=
  (dist2 e q <=? (lineWidth p + 2 * lineDistance p) ^ 2) &&
  match IsCrossingPerimeter lib [prt] [e; q] with Some c => negb c | None => false end.
(** The first line comes first; the others follow, each exactly once, alternately turned, the nearest one next;
    in zig-zag mode the allowed connection lines are put between them. *)
Theorem infill_sorted : forall lib p prt zig l0 ls, lines_ok (l0 :: ls) ->
  (forall e q, IsCrossingPerimeter lib [prt] [e; q] <> None) -> 0 <= lineWidth p <= 2 ^ 28 -> 0 <= lineDistance p <= 2 ^ 28 ->
  exists order out, sortInfill lib p (l0 :: ls) zig prt = Ok (l0 :: out) /\ Permutation order ls /\
    woven (fun e q => zig && connection lib p prt e q) true l0 (end2 l0) order out.
Proof.
  intros lib p prt zig l0 ls HF C Hw Hd. destruct (sort_spec lib p prt zig C Hw Hd ls l0 HF) as (order & out & E & P & W). exists order, out.
  split; [exact E|]. split; [exact P|].
  assert (X : forall e q, connects lib p prt zig e q = zig && connection lib p prt e q).
  { intros e q. unfold connects, connection. destruct zig; reflexivity. }
  clear E P HF. induction W as [|b prev e l lr o N W IH]; [constructor|]. rewrite X.
  exact (woven_cons (fun e q => zig && connection lib p prt e q) b prev e l lr o N IH).
Qed.
Print Assumptions infill_sorted.
(** consequences in simpler words: without zig-zag the output is a permutation of the lines up to direction *)
Theorem infill_sorted_plain : forall lib p prt ls, lines_ok ls ->
  (forall e q, IsCrossingPerimeter lib [prt] [e; q] <> None) -> 0 <= lineWidth p <= 2 ^ 28 -> 0 <= lineDistance p <= 2 ^ 28 ->
  exists out order, sortInfill lib p ls false prt = Ok out /\ Permutation order ls /\ Forall2 (fun o l => o = l \/ o = rev l) out order.
Proof.
  intros lib p prt [|l0 ls] HF C Hw Hd; [exists [], []; split; [reflexivity|]; split; constructor|].
  destruct (infill_sorted lib p prt false l0 ls HF C Hw Hd) as (order & out & E & P & W). exists (l0 :: out), (l0 :: order).
  split; [exact E|]. split; [rewrite P; reflexivity|]. constructor; [auto|]. clear E P HF.
  remember (fun e q => false && connection lib p prt e q) as cn. induction W as [|b prev e l lr o N W IH]; [constructor|]. subst cn. cbn [andb app].
  constructor; [destruct b; auto|exact IH].
Qed.
Print Assumptions infill_sorted_plain.
Example sorted_ex : let p := Linear 400 100 0 (Pt 0 0) (Pt 0 0) false true in
  sortInfill toy p [[Pt 0 9]; [Pt 0 0]] true (Part [] []) = Panic "index out of range" /\
  sortInfill toy p [[Pt 0 900; Pt 0 0]; [Pt 800 900; Pt 800 0]; [Pt 400 900; Pt 400 0]] true (Part [] []) =
  Ok [[Pt 0 900; Pt 0 0]; [Pt 0 0; Pt 400 0]; [Pt 400 0; Pt 400 900]; [Pt 400 900; Pt 800 900]; [Pt 800 900; Pt 800 0]].
Proof. split; vm_compute; reflexivity. Qed.
Example sorted_hyp : lines_ok [[Pt 0 900; Pt 0 0]; [Pt 800 900; Pt 800 0]] /\ forall e q, IsCrossingPerimeter toy [Part [] []] [e; q] <> None.
Proof. split; [repeat constructor; cbn; lia|]. intros e q. discriminate. Qed.

(** *** C36 *)
Theorem shorten_line : forall s a b, 0 < s < 2 ^ 62 -> pt_bounded (2 ^ 62) a -> pt_bounded (2 ^ 62) b -> py b <= py a ->
  exists a' b', shorten s [a; b] = Ok [a'; b'] /\ px a' = px a /\ px b' = px b /\
    py b <= py a' <= py a /\ py b <= py b' <= py a /\
    (py a - py b <= s / 2 -> a' = a /\ b' = b) /\
    (s / 2 < py a - py b -> py a' - py b' = (py a - py b) - 2 * (s / 2)).
Proof.
  intros s a b Hs Ha Hb L. rewrite (shorten_spec s a b ltac:(lia) Ha Hb). assert (H0 : 0 <= s / 2) by (apply Z.div_pos; lia).
  destruct (Z.eqb_spec s 0); [lia|]. cbn [orb]. destruct (Z.leb_spec (py a - py b) (s / 2)).
  - exists a, b. repeat split; try lia; auto.
  - eexists _, _. split; [reflexivity|]. cbn [px py]. repeat split; try lia.
Qed.
Print Assumptions shorten_line.
(** A line between lineWidth/2 and lineWidth long is turned around, not left alone. *)
Theorem shorten_keeps_direction_refuted : exists s a b a' b', py b < py a /\ shorten s [a; b] = Ok [a'; b'] /\ py a' < py b'.
Proof. exists 400, (Pt 0 300), (Pt 0 0), (Pt 0 100), (Pt 0 200). cbn. split; [lia|]. split; [reflexivity|lia]. Qed.
Print Assumptions shorten_keeps_direction_refuted.
Theorem shorten_direction : forall s a b a' b', 0 < s < 2 ^ 62 -> pt_bounded (2 ^ 62) a -> pt_bounded (2 ^ 62) b -> py b <= py a ->
  shorten s [a; b] = Ok [a'; b'] -> (py a' < py b' <-> s / 2 < py a - py b < 2 * (s / 2)).
Proof.
  intros s a b a' b' Hs Ha Hb L E. destruct (shorten_line s a b Hs Ha Hb L) as (x & y & E' & _ & _ & _ & _ & S & T). rewrite E in E'.
  injection E' as <- <-. destruct (Z_le_gt_dec (py a - py b) (s / 2)) as [C|C].
  - destruct (S C) as (-> & ->). lia.
  - specialize (T ltac:(lia)). lia.
Qed.
Print Assumptions shorten_direction.
Example shorten_ex : shorten 400 [Pt 7 1000; Pt 7 0] = Ok [Pt 7 800; Pt 7 200] /\ shorten 400 [Pt 7 200; Pt 7 0] = Ok [Pt 7 200; Pt 7 0].
Proof. split; reflexivity. Qed.

(** If the library cuts vertical lines into vertical pieces, the infill lines lie on the grid and inside the bounds. *)
Definition vertical (l : path) : Prop := exists x t b, l = [Pt x t; Pt x b] /\ b <= t.
Definition vertical_pieces (lib : clib) : Prop := forall clip lines tree n, Forall vertical lines ->
  execute lib false CtIntersection (closed_as PtClip clip ++ map (fun l => (PtSubject, false, l)) lines) = Some (tree, n) ->
  forall c, In c tree -> exists x t b t' b', In [Pt x t; Pt x b] lines /\ contour c = [Pt x t'; Pt x b'] /\ b <= b' <= t' /\ t' <= t.
Theorem infill_lines_on_grid : forall lib fuel d mn mx outl hls s ls, vertical_pieces lib -> 0 < d -> pt_bounded (2 ^ 60) mn -> pt_bounded (2 ^ 60) mx -> d <= 2 ^ 60 ->
  py mn <= py mx -> 0 <= s < 2 ^ 60 -> px mx - px mn < Z.of_nat fuel * d ->
  getInfill lib fuel d mn mx outl hls s = Ok ls ->
  forall l, In l ls -> exists k y1 y2, l = [Pt (px mn + k * d) y1; Pt (px mn + k * d) y2] /\ 0 <= k /\ px mn + k * d <= px mx /\
    py mn <= y1 <= py mx /\ py mn <= y2 <= py mx.
Proof.
  intros lib fuel d mn mx outl hls s ls V Hd (M1 & M2) (X1 & X2) Db My Hs Hf E l Il. unfold getInfill in E.
  destruct (infill_grid d (px mn) (px mx) fuel Hd ltac:(unfold int64; lia) ltac:(lia) Hf) as (xs & Ex & Gx & _). rewrite Ex in E. cbn [bind] in E.
  destruct (execute lib false CtIntersection _) as [(tree, n)|] eqn:EX; [|discriminate].
  assert (EXl : forall c, In c tree -> exists k t' b', contour c = [Pt (px mn + k * d) t'; Pt (px mn + k * d) b'] /\ 0 <= k /\ px mn + k * d <= px mx /\ py mn <= b' <= t' /\ t' <= py mx).
  { intros c Ic. assert (VL : Forall vertical (map (fun x => [Pt x (py mx); Pt x (py mn)]) xs)).
    { apply Forall_forall. intros q Iq. apply in_map_iff in Iq. destruct Iq as (x & <- & _). exists x, (py mx), (py mn). split; [reflexivity|lia]. }
    destruct (V _ _ _ _ VL EX c Ic) as (x & t & b & t' & b' & Ia & Ec & B1 & B2).
    apply in_map_iff in Ia. destruct Ia as (x0 & Q & Ix). injection Q as Q1 Q2 Q3. subst x0 t b.
      apply In_nth_error in Ix. destruct Ix as (j & Ij). assert (Iz : idx xs (Z.of_nat j) = Ok x).
      { unfold idx. destruct (Z.ltb_spec (Z.of_nat j) 0); [lia|]. rewrite Nat2Z.id, Ij. reflexivity. }
      destruct (Gx _ _ Iz) as (Xe & Xm). exists (Z.of_nat j), t', b'. rewrite <- Xe. repeat split; try assumption; lia. }
  clear EX. revert ls E l Il. induction tree as [|c tree IH]; intros ls E l Il; cbn [map_res] in E.
  - injection E as <-. destruct Il.
  - apply bind_Ok in E. destruct E as (x & Ec & E). apply bind_Ok in E. destruct E as (rest & Er & E). injection E as <-.
    destruct Il as [<-|Il]; [|apply (IH ltac:(intros c' Ic'; apply EXl; right; exact Ic') rest Er l Il)].
    destruct (EXl c (or_introl eq_refl)) as (k & t & b & Ct & K0 & Kx & B1 & B2). rewrite Ct in Ec.
    destruct (Z.eq_dec s 0) as [-> |NZ].
    + cbn in Ec. injection Ec as <-. exists k, t, b. repeat split; lia.
    + destruct (shorten_line s (Pt (px mn + k * d) t) (Pt (px mn + k * d) b)) as (a' & b' & Es & E1 & E2 & R1 & R2 & _); cbn [px py]; try lia; try (split; cbn; lia).
      rewrite Es in Ec. injection Ec as <-. destruct a' as [ax ay], b' as [bx b_y]. cbn [px py] in *. subst ax bx. exists k, ay, b_y. repeat split; lia.
Qed.
Print Assumptions infill_lines_on_grid.
Example toy_vertical : getInfill toy 9 400 (Pt 0 0) (Pt 1000 900) [] [] 100 = Ok [[Pt 0 850; Pt 0 50]; [Pt 400 850; Pt 400 50]; [Pt 800 850; Pt 800 50]].
Proof. vm_compute. reflexivity. Qed.
(** a library with the property: it returns the vertical lines unchanged *)
Definition uncut : clib := CLib (fun _ _ l => Some (flat_map (fun a => match a with
    | (PtSubject, false, [Pt x t; Pt x' b]) => if (x =? x') && (b <=? t) then [Node [Pt x t; Pt x b] []] else [] | _ => [] end) l, 0))
  (fun _ _ => []) (fun p => p) (fun d => d) (fun d => d).
Example uncut_pieces : vertical_pieces uncut.
Proof.
  intros clip lines tree n _ E c Ic. cbn [execute uncut] in E. injection E as <- _. apply in_flat_map in Ic. destruct Ic as (((ty & cl) & pp) & Ia & Ic).
  destruct ty; [|contradiction]. destruct cl; [contradiction|]. destruct pp as [|[x t] [|[x' b] [|]]]; try contradiction.
  destruct (Z.eqb_spec x x'); [|contradiction]. destruct (Z.leb_spec b t); [|contradiction]. subst x'. destruct Ic as [<-|[]].
  apply in_app_or in Ia. destruct Ia as [Ia|Ia]; [unfold closed_as in Ia; apply in_map_iff in Ia; destruct Ia as (? & Q & _); discriminate|].
  apply in_map_iff in Ia. destruct Ia as (q & Q & Iq). injection Q as ->.
  exists x, t, b, t, b. split; [exact Iq|]. split; [reflexivity|]. lia.
Qed.

(** *** C37 *)
Theorem fill_keeps_part : forall lib fuel p layerNr h outl hls, valid h outl -> Forall (valid h) hls ->
  let '(h', r) := FillH lib fuel p layerNr h outl hls in
  (forall m, (m < List.length h)%nat -> arr h' m = arr h m) /\ r = Fill lib fuel p layerNr (Part (read h outl) (map (read h) hls)).
Proof. exact fillH_spec. Qed.
Print Assumptions fill_keeps_part.
Theorem fill_rotation : forall p layerNr, Z.abs (degree p) <= 2 ^ 52 ->
  rotation p layerNr = f64_of_Z (if rectlinear p && Z.even layerNr then degree p + 90 else degree p).
Proof.
  intros p n H. unfold rotation, rem64.
  assert (E : (Z.rem n 2 =? 0) = Z.even n).
  { pose proof (Zmod_even n) as M. destruct (Z.even n).
    - apply Z.eqb_eq, Z.rem_divide; [lia|]. apply Z.mod_divide in M; [exact M|lia].
    - apply Z.eqb_neq. intros R. apply Z.rem_divide in R; [|lia]. apply Z.mod_divide in R; [|lia]. lia. }
  rewrite E. destruct (rectlinear p && Z.even n); [|reflexivity]. apply add_int; lia.
Qed.
Print Assumptions fill_rotation.
Definition fill_ex_pattern := Linear 400 100 0 (Pt 0 0) (Pt 1000 900) true true.
Example fill_ex : let h := [[Pt 1 1; Pt 0 0; Pt 9 0; Pt 9 9]; [Pt 5 5; Pt 6 6; Pt 7 5]] in
  (* layer 1: not rotated; layer 0: rotated there and back *)
  snd (FillH toy 9 fill_ex_pattern 1 h (Sl 0 1 3 3) [Sl 1 0 3 3]) =
    Ok [[Pt 0 850; Pt 0 50]; [Pt 0 50; Pt 400 50]; [Pt 400 50; Pt 400 850]; [Pt 400 850; Pt 800 850]; [Pt 800 850; Pt 800 50]] /\
  snd (FillH toy 9 fill_ex_pattern 0 h (Sl 0 1 3 3) [Sl 1 0 3 3]) =
    Ok [[Pt 950 900; Pt 50 900]; [Pt 50 900; Pt 50 500]; [Pt 50 500; Pt 950 500]; [Pt 950 500; Pt 950 100]; [Pt 950 100; Pt 50 100]].
Proof. split; vm_compute; reflexivity. Qed.
