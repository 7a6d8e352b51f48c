(** Properties C01-C09: lengths, vectors, path simplification, bounding boxes. *)
From Verif Require Import GoBase GoFloat GoStr M_Micrometer M_Geom2D M_DPHeap S_Text S_Geom S_Simplify
  L_Str L_Micrometer L_Vec L_Geom2D L_Simplify L_DPHeap L_Data.
Local Open Scope Z_scope.

(** *** C01 *)
Theorem micrometer_round_trip : forall m, Z.abs m <= 8192010 -> ToMicrometer (ToMillimeter m) = m.
Proof. exact round_trip. Qed.
Print Assumptions micrometer_round_trip.
(** the bound is sharp *)
Theorem micrometer_round_trip_unbounded_refuted : exists m, Z.abs m = 8192011 /\ ToMicrometer (ToMillimeter m) <> m.
Proof. exact round_trip_sharp. Qed.
Print Assumptions micrometer_round_trip_unbounded_refuted.
Example micrometer_round_trip_ex : ToMicrometer (ToMillimeter (-7654321)) = -7654321.
Proof. vm_compute. reflexivity. Qed.

(** *** C02: the number printed for a coordinate, read back with two decimals, is within 5 um *)
Theorem printed_coordinate_close : forall m, Z.abs m <= 32768000 ->
  exists c, parse_num (fmt_fixed 2 (ToMillimeter m)) = Some (c, 2%nat) /\ Z.abs (10 * c - m) <= 5.
Proof. exact printed_text_close. Qed.
Print Assumptions printed_coordinate_close.
Example printed_coordinate_ex : fmt_fixed 2 (ToMillimeter (-12346)) = "-12.35"%string.
Proof. vm_compute. reflexivity. Qed.

(** *** C03 *)
Theorem point_size_floor : forall p, norm2 p < 2 ^ 52 ->
  0 <= ptSize p /\ ptSize p ^ 2 <= norm2 p < (ptSize p + 1) ^ 2.
Proof. exact ptSize_exact. Qed.
Print Assumptions point_size_floor.
Theorem vec3_size_floor : forall v, norm3 v < 2 ^ 52 ->
  0 <= v3Size v /\ v3Size v ^ 2 <= norm3 v < (v3Size v + 1) ^ 2.
Proof. exact v3Size_exact. Qed.
Print Assumptions vec3_size_floor.
Theorem point_shorter_exact : forall p l, norm2 p < 2 ^ 63 -> 0 <= l < 3037000500 ->
  ptShorterThanOrEqual p l = true <-> norm2 p <= l ^ 2.
Proof. exact ptShorter_exact. Qed.
Print Assumptions point_shorter_exact.
Theorem vec3_shorter_exact : forall v l, norm3 v < 2 ^ 63 -> 0 <= l < 3037000500 ->
  v3ShorterThanOrEqual v l = true <-> norm3 v <= l ^ 2.
Proof. exact v3Shorter_exact. Qed.
Print Assumptions vec3_shorter_exact.
Example size_ex : ptSize (Pt 300001 (-400000)) = 500000 /\ v3Size (V3 1 2 3) = 3 /\
  ptShorterThanOrEqual (Pt 3 4) 5 = true /\ v3ShorterThanOrEqual (V3 3 4 1) 5 = false.
Proof. vm_compute. auto. Qed.

(** *** C04 *)
Theorem vector_add_sub : (forall v w, wf_vec3 v -> v3Sub (v3Add v w) w = v /\ v3Add (v3Sub v w) w = v) /\
  (forall p q, wf_pt p -> ptSub (ptAdd p q) q = p /\ ptAdd (ptSub p q) q = p).
Proof. exact vec_add_sub. Qed.
Print Assumptions vector_add_sub.
Theorem vector_mul_div :
  (forall v k, wf_vec3 v -> k <> 0 -> int64 (vx v * k) -> int64 (vy v * k) -> int64 (vz v * k) -> v3Div (v3Mul v k) k = Ok v) /\
  (forall p k, wf_pt p -> k <> 0 -> int64 (px p * k) -> int64 (py p * k) -> ptDiv (ptMul p k) k = Ok p).
Proof. exact vec_mul_div. Qed.
Print Assumptions vector_mul_div.
(** the operations are the coordinate-wise ones as long as nothing overflows *)
Theorem vector_exact :
  (forall v w, int64 (vx v + vx w) -> int64 (vy v + vy w) -> int64 (vz v + vz w) ->
     v3Add v w = V3 (vx v + vx w) (vy v + vy w) (vz v + vz w)) /\
  (forall v w, int64 (vx v - vx w) -> int64 (vy v - vy w) -> int64 (vz v - vz w) ->
     v3Sub v w = V3 (vx v - vx w) (vy v - vy w) (vz v - vz w)) /\
  (forall p q, int64 (px p + px q) -> int64 (py p + py q) -> ptAdd p q = Pt (px p + px q) (py p + py q)) /\
  (forall p q, int64 (px p - px q) -> int64 (py p - py q) -> ptSub p q = Pt (px p - px q) (py p - py q)) /\
  (forall v, PointXY v = Pt (vx v) (vy v)).
Proof. exact vec_exact. Qed.
Print Assumptions vector_exact.
(** the largest coordinate *)
Theorem vector_max : forall v, (v3Max v = vx v \/ v3Max v = vy v \/ v3Max v = vz v) /\ vx v <= v3Max v /\ vy v <= v3Max v /\ vz v <= v3Max v.
Proof.
  intros [x y z]. unfold v3Max. cbn [vx vy vz]. destruct (Z.ltb_spec y x), (Z.ltb_spec z x), (Z.ltb_spec z y); cbn [andb]; lia.
Qed.
Print Assumptions vector_max.
Example vector_max_ex : v3Max (V3 3 (-4) 3) = 3 /\ v3Max (V3 (-7) (-4) (-5)) = -4.
Proof. split; reflexivity. Qed.
Example vector_ex : v3Sub (v3Add (V3 maxInt64 (-5) 7) (V3 1 2 3)) (V3 1 2 3) = V3 maxInt64 (-5) 7 /\ ptDiv (ptMul (Pt 7 (-9)) (-3)) (-3) = Ok (Pt 7 (-9)).
Proof. vm_compute. auto. Qed.

(** *** C05: rounded-up squared distance; exact up to 55 mm, an upper bound up to 2^30 um *)
Theorem perpendicular_distance_exact : forall a b p,
  dist2 a b <= 3037000499 -> dist2 a p <= 3037000499 -> a <> b ->
  cross a b p ^ 2 <= PerpendicularDistance2 a b p * dist2 a b < cross a b p ^ 2 + dist2 a b.
Proof. exact perp_bounds. Qed.
Print Assumptions perpendicular_distance_exact.
Theorem perpendicular_distance_degenerate : forall a p, dist2 a p < 2 ^ 62 -> PerpendicularDistance2 a a p = dist2 a p.
Proof. exact perp_same. Qed.
Print Assumptions perpendicular_distance_degenerate.
Theorem perpendicular_distance_upper : forall a b p, dist2 a b < 2 ^ 61 -> dist2 a p < 2 ^ 61 -> a <> b ->
  cross a b p ^ 2 <= PerpendicularDistance2 a b p * dist2 a b.
Proof. exact perp_upper. Qed.
Print Assumptions perpendicular_distance_upper.
(** beyond 55 mm the square of the dot product wraps around and the result can be far too large *)
Theorem perpendicular_distance_exact_refuted : exists a b p,
  dist2 a b < 2 ^ 61 /\ dist2 a p < 2 ^ 61 /\ a <> b /\ cross a b p = 0 /\ PerpendicularDistance2 a b p <> 0.
Proof. exact perp_wrap. Qed.
Print Assumptions perpendicular_distance_exact_refuted.
Example perpendicular_ex : PerpendicularDistance2 (Pt 0 0) (Pt 10000 0) (Pt 5000 70) = 4900 /\
  PerpendicularDistance2 (Pt 0 0) (Pt 3 3) (Pt 1 0) = 1.
Proof. vm_compute. auto. Qed.

(** *** C06 *)
Theorem douglas_peucker_near : forall l ep, l <> [] -> 0 < ep ->
  (forall p q, In p l -> In q l -> dist2 p q <= 3037000499) ->
  simplifies (near_line (ep - 1)) l (DouglasPeucker l ep).
Proof. exact DP_near. Qed.
Print Assumptions douglas_peucker_near.
(** with the default threshold *)
Theorem douglas_peucker_default_near : forall l, l <> [] ->
  (forall p q, In p l -> In q l -> dist2 p q <= 3037000499) ->
  simplifies (near_line 69) l (DouglasPeucker l (-1)).
Proof. exact DP_near_default. Qed.
Print Assumptions douglas_peucker_default_near.
(** without any bound: a selection of the points including both ends *)
Theorem douglas_peucker_selection : forall l ep,
  subseq (DouglasPeucker l ep) l /\ hd_error (DouglasPeucker l ep) = hd_error l /\
  forall d, last (DouglasPeucker l ep) d = last l d.
Proof. exact DP_selection. Qed.
Print Assumptions douglas_peucker_selection.
(** almost straight paths are replaced by one line *)
Theorem douglas_peucker_collapse : forall a l b ep, 0 < ep -> l <> [] ->
  (forall p q, In p (a :: l ++ [b]) -> In q (a :: l ++ [b]) -> dist2 p q <= 3037000499) ->
  (forall p, In p (a :: l ++ [b]) -> (a = b -> dist2 a p < ep) /\ cross a b p ^ 2 <= (ep - 1) * dist2 a b) ->
  DouglasPeucker (a :: l ++ [b]) ep = [a; b].
Proof. exact DP_collapse. Qed.
Print Assumptions douglas_peucker_collapse.
(** for larger paths a point can be dropped that is 60 mm away from the result *)
Theorem douglas_peucker_near_refuted : exists l,
  (forall p, In p l -> 0 <= px p <= 60000 /\ 0 <= py p <= 60000) /\
  ~ simplifies (near_line 59999) l (DouglasPeucker l (-1)).
Proof. exact DP_far. Qed.
Print Assumptions douglas_peucker_near_refuted.
Example douglas_peucker_ex :
  DouglasPeucker [Pt 0 0; Pt 100 1; Pt 200 0; Pt 300 500; Pt 400 0; Pt 410 2; Pt 420 0] (-1) = [Pt 0 0; Pt 100 1; Pt 200 0; Pt 300 500; Pt 400 0; Pt 420 0].
Proof. vm_compute. reflexivity. Qed.

(** *** C07 *)
Theorem douglas_peucker_heap : forall grow h s ep h' s', valid h s -> DouglasPeuckerH grow h s ep = (h', s') ->
  read h' s' = DouglasPeucker (read h s) ep /\
  (forall a j, (a < List.length h)%nat -> a <> s_arr s \/ (j < s_off s)%nat \/ (s_off s + s_len s <= j)%nat ->
     cell h' a j = cell h a j) /\
  (forall a, (a < List.length h)%nat -> List.length (arr h' a) = List.length (arr h a)) /\
  valid h' s'.
Proof. exact DPH_correct. Qed.
Print Assumptions douglas_peucker_heap.
(** the caller's own polygon can change *)
Theorem douglas_peucker_preserves_input_refuted : exists h s h' s', valid h s /\
  DouglasPeuckerH (fun c n => n) h s (-1) = (h', s') /\ read h' s <> read h s.
Proof. exact DPH_mutates. Qed.
Print Assumptions douglas_peucker_preserves_input_refuted.

(** *** C08 *)
Theorem simplify_selection : forall p sls aed, subseq (Simplify p sls aed) p.
Proof. exact Simplify_subseq. Qed.
Print Assumptions simplify_selection.
Theorem simplify_small_paths : forall sls aed a b c,
  Simplify [] sls aed = [] /\ Simplify [a] sls aed = [] /\ Simplify [a; b] sls aed = [] /\ Simplify [a; b; c] sls aed = [a; b; c].
Proof. exact Simplify_few. Qed.
Print Assumptions simplify_small_paths.
(** every vertex is decided by the rules [may_remove]; up to 55 mm also [must_remove] holds *)
Theorem simplify_rules : forall p sls aed, (forall a b, In a p -> In b p -> dist2 a b <= 3037000499) -> (4 <= List.length p)%nat ->
  forall d, run (may_remove (defv 100 sls) (defv 25 aed)) must_remove (hd d p) (last p d) [] p [] (Simplify p sls aed).
Proof. exact simplify_small. Qed.
Print Assumptions simplify_rules.
Theorem simplify_rules_wide : forall p sls aed, (forall a b, In a p -> In b p -> dist2 a b < 2 ^ 61) -> (4 <= List.length p)%nat ->
  forall d, run (may_remove (defv 100 sls) (defv 25 aed)) (fun _ _ _ _ => False) (hd d p) (last p d) [] p [] (Simplify p sls aed).
Proof. exact simplify_wide. Qed.
Print Assumptions simplify_rules_wide.
(** removed vertices need not be close to the new outline: spikes disappear *)
Theorem simplify_near_refuted : exists p v, In v p /\ ~ In v (Simplify p (-1) (-1)) /\
  forall a, In a (Simplify p (-1) (-1)) -> px a <= 100 /\ px v = 1000.
Proof. exact Simplify_spike. Qed.
Print Assumptions simplify_near_refuted.
Example simplify_ex : Simplify [Pt 0 0; Pt 500 2; Pt 1000 0; Pt 1000 1000; Pt 0 1000] (-1) (-1) = [Pt 0 0; Pt 1000 0; Pt 1000 1000; Pt 0 1000].
Proof. vm_compute. reflexivity. Qed.

(** *** C09 *)
Theorem path_bounds_tight : forall p, p <> [] -> Forall wf_pt p -> tight_box p (fst (PathBounds p)) (snd (PathBounds p)).
Proof. exact PathBounds_tight. Qed.
Print Assumptions path_bounds_tight.
Theorem paths_bounds_tight : forall ps, concat ps <> [] -> Forall wf_pt (concat ps) ->
  tight_box (concat ps) (fst (PathsBounds ps)) (snd (PathsBounds ps)).
Proof. exact PathsBounds_tight. Qed.
Print Assumptions paths_bounds_tight.
Theorem layer_bounds_tight : forall parts, concat (map outline parts) <> [] -> Forall wf_pt (concat (map outline parts)) ->
  tight_box (concat (map outline parts)) (fst (LayerBounds parts)) (snd (LayerBounds parts)).
Proof. exact LayerBounds_tight. Qed.
Print Assumptions layer_bounds_tight.
Theorem bounds_empty : PathBounds [] = (Pt 0 0, Pt 0 0) /\
  (forall ps, concat ps = [] -> PathsBounds ps = (Pt 0 0, Pt 0 0)).
Proof. exact Bounds_empty. Qed.
Print Assumptions bounds_empty.
Example bounds_ex : PathsBounds [[]; [Pt 3 (-4); Pt (-1) 9]; [Pt 0 0]] = (Pt (-1) (-4), Pt 3 9).
Proof. vm_compute. reflexivity. Qed.
