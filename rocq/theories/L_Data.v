(** Remaining lemmas behind P_Data.v, including the counterexamples. *)
From Verif Require Import GoBase GoFloat GoStr M_Micrometer M_Geom2D M_DPHeap S_Text S_Geom S_Simplify
  L_Str L_Micrometer L_Vec L_Geom2D L_Simplify L_DPHeap.
Local Open Scope Z_scope.

Lemma round_trip_sharp : exists m, Z.abs m = 8192011 /\ ToMicrometer (ToMillimeter m) <> m.
Proof. exists 8192011. split; [reflexivity|]. vm_compute. discriminate. Qed.

Lemma printed_text_close m : Z.abs m <= 32768000 ->
  exists c, parse_num (fmt_fixed 2 (ToMillimeter m)) = Some (c, 2%nat) /\ Z.abs (10 * c - m) <= 5.
Proof.
  intros H. destruct (printed_close m H) as (s & a & E & Ha & B). exists (if s then - a else a).
  split; [|exact B]. apply parse_num_fixed; [lia|exact E|exact Ha].
Qed.

Lemma vec_add_sub : (forall v w, wf_vec3 v -> v3Sub (v3Add v w) w = v /\ v3Add (v3Sub v w) w = v) /\
  (forall p q, wf_pt p -> ptSub (ptAdd p q) q = p /\ ptAdd (ptSub p q) q = p).
Proof. split; intros a b H; [split; [apply v3_add_sub|apply v3_sub_add]|split; [apply pt_add_sub|apply pt_sub_add]]; exact H. Qed.
Lemma vec_mul_div :
  (forall v k, wf_vec3 v -> k <> 0 -> int64 (vx v * k) -> int64 (vy v * k) -> int64 (vz v * k) -> v3Div (v3Mul v k) k = Ok v) /\
  (forall p k, wf_pt p -> k <> 0 -> int64 (px p * k) -> int64 (py p * k) -> ptDiv (ptMul p k) k = Ok p).
Proof. split; [exact v3_mul_div|exact pt_mul_div]. Qed.
Lemma vec_exact :
  (forall v w, int64 (vx v + vx w) -> int64 (vy v + vy w) -> int64 (vz v + vz w) ->
     v3Add v w = V3 (vx v + vx w) (vy v + vy w) (vz v + vz w)) /\
  (forall v w, int64 (vx v - vx w) -> int64 (vy v - vy w) -> int64 (vz v - vz w) ->
     v3Sub v w = V3 (vx v - vx w) (vy v - vy w) (vz v - vz w)) /\
  (forall p q, int64 (px p + px q) -> int64 (py p + py q) -> ptAdd p q = Pt (px p + px q) (py p + py q)) /\
  (forall p q, int64 (px p - px q) -> int64 (py p - py q) -> ptSub p q = Pt (px p - px q) (py p - py q)) /\
  (forall v, PointXY v = Pt (vx v) (vy v)).
Proof.
  repeat split; intros; unfold v3Add, v3Sub, ptAdd, ptSub; rewrite ?add64_id, ?sub64_id by assumption; reflexivity.
Qed.

Lemma perp_wrap : exists a b p,
  dist2 a b < 2 ^ 61 /\ dist2 a p < 2 ^ 61 /\ a <> b /\ cross a b p = 0 /\ PerpendicularDistance2 a b p <> 0.
Proof. exists (Pt 0 0), (Pt 60000 0), (Pt 60000 0). vm_compute. repeat split; discriminate. Qed.

Lemma DP_near l ep : l <> [] -> 0 < ep ->
  (forall p q, In p l -> In q l -> dist2 p q <= 3037000499) ->
  simplifies (near_line (ep - 1)) l (DouglasPeucker l ep).
Proof.
  intros Hl He Hs. unfold DouglasPeucker. destruct (Z.eqb_spec ep (-1)); [lia|].
  destruct (dp_near 200 l ep He Hs); [assumption|contradiction].
Qed.
Lemma DP_near_default l : l <> [] ->
  (forall p q, In p l -> In q l -> dist2 p q <= 3037000499) ->
  simplifies (near_line 69) l (DouglasPeucker l (-1)).
Proof.
  intros Hl Hs. destruct (dp_near 200 l 70 ltac:(lia) Hs); [assumption|contradiction].
Qed.
Lemma DP_selection l ep :
  subseq (DouglasPeucker l ep) l /\ hd_error (DouglasPeucker l ep) = hd_error l /\
  forall d, last (DouglasPeucker l ep) d = last l d.
Proof.
  unfold DouglasPeucker. split; [apply dp_subseq|]. destruct l as [|a l].
  - change (douglasPeucker 200 [] (if ep =? -1 then 70 else ep)) with (@nil pt). split; reflexivity.
  - destruct (dp_ends 200 a l (if ep =? -1 then 70 else ep)) as (o & E & H). split; [rewrite E; reflexivity|exact H].
Qed.
Lemma DP_collapse a l b ep : 0 < ep -> l <> [] ->
  (forall p q, In p (a :: l ++ [b]) -> In q (a :: l ++ [b]) -> dist2 p q <= 3037000499) ->
  (forall p, In p (a :: l ++ [b]) -> (a = b -> dist2 a p < ep) /\ cross a b p ^ 2 <= (ep - 1) * dist2 a b) ->
  DouglasPeucker (a :: l ++ [b]) ep = [a; b].
Proof.
  intros He Hl Hs Hd. unfold DouglasPeucker. destruct (Z.eqb_spec ep (-1)); [lia|]. 
  change 200%nat with (S 199). apply dp_collapse; assumption.
Qed.

Lemma DP_eq l ep : DouglasPeucker l ep = douglasPeucker 200 l (if ep =? -1 then 70 else ep).
Proof. unfold DouglasPeucker. reflexivity. Qed.
Lemma DPH_eq grow h s ep : DouglasPeuckerH grow h s ep = dpH grow 200 h s (if ep =? -1 then 70 else ep).
Proof. unfold DouglasPeuckerH. reflexivity. Qed.
Lemma DPH_correct grow h s ep h' s' : valid h s -> DouglasPeuckerH grow h s ep = (h', s') ->
  read h' s' = DouglasPeucker (read h s) ep /\
  (forall a j, (a < List.length h)%nat -> a <> s_arr s \/ (j < s_off s)%nat \/ (s_off s + s_len s <= j)%nat ->
     cell h' a j = cell h a j) /\
  (forall a, (a < List.length h)%nat -> List.length (arr h' a) = List.length (arr h a)) /\
  valid h' s'.
Proof.
  intros V E. rewrite DPH_eq in E. rewrite DP_eq. destruct (dpH_correct _ _ _ _ _ _ _ V E) as (R & V' & (F1 & F2 & F3) & _).
  split; [exact R|]. split; [|split; assumption]. intros a j Ha H. apply F3; [exact Ha|]. lia.
Qed.
Lemma DPH_mutates : exists h s h' s', valid h s /\
  DouglasPeuckerH (fun c n => n) h s (-1) = (h', s') /\ read h' s <> read h s.
Proof.
  set (h := [[Pt 0 0; Pt 1000 900; Pt 2000 600; Pt 3000 300; Pt 4000 0]]).
  exists h, (Sl 0 0 5 5).
  destruct (DouglasPeuckerH (fun c n => n) h (Sl 0 0 5 5) (-1)) as [h' s'] eqn:E. exists h', s'.
  split; [split; [|split]; cbn; lia|]. split; [reflexivity|].
  vm_compute in E. injection E as <- <-. vm_compute. discriminate.
Qed.
Lemma Simplify_few sls aed a b c :
  Simplify [] sls aed = [] /\ Simplify [a] sls aed = [] /\ Simplify [a; b] sls aed = [] /\ Simplify [a; b; c] sls aed = [a; b; c].
Proof. repeat split. Qed.
Lemma PathsBounds_tight ps : concat ps <> [] -> Forall wf_pt (concat ps) ->
  tight_box (concat ps) (fst (PathsBounds ps)) (snd (PathsBounds ps)).
Proof. intros. rewrite PathsBounds_eq. apply PathBounds_tight; assumption. Qed.
Lemma LayerBounds_tight parts : concat (map outline parts) <> [] -> Forall wf_pt (concat (map outline parts)) ->
  tight_box (concat (map outline parts)) (fst (LayerBounds parts)) (snd (LayerBounds parts)).
Proof. apply PathsBounds_tight. Qed.
Lemma Bounds_empty : PathBounds [] = (Pt 0 0, Pt 0 0) /\
  (forall ps, concat ps = [] -> PathsBounds ps = (Pt 0 0, Pt 0 0)).
Proof. split; [reflexivity|]. intros ps H. rewrite PathsBounds_eq, H. reflexivity. Qed.

Lemma DP_far : exists l,
  (forall p, In p l -> 0 <= px p <= 60000 /\ 0 <= py p <= 60000) /\
  ~ simplifies (near_line 59999) l (DouglasPeucker l (-1)).
Proof.
  exists [Pt 0 0; Pt 5000 60000; Pt 10000 0]. split.
  - intros p [<-|[<-|[<-|[]]]]; cbn; lia.
  - assert (E : DouglasPeucker [Pt 0 0; Pt 5000 60000; Pt 10000 0] (-1) = [Pt 0 0; Pt 10000 0]) by (vm_compute; reflexivity).
    rewrite E. clear E.
    intros H. remember [Pt 0 0; Pt 5000 60000; Pt 10000 0] as l eqn:El. remember [Pt 0 0; Pt 10000 0] as o eqn:Eo.
    destruct H as [a|a removed b rest out Hr Hs]; [discriminate|]. injection Eo as -> -> ->.
    remember (Pt 10000 0 :: rest) as l2 eqn:El2. remember [Pt 10000 0] as o2 eqn:Eo2.
    destruct Hs as [a2|? ? ? ? ? ? ?]; [|discriminate]. injection El2 as _ <-.
    destruct removed as [|p removed]; [discriminate|]. injection El as -> El.
    destruct (Hr (Pt 5000 60000) ltac:(left; reflexivity)) as [_ N].
    specialize (N ltac:(discriminate)). vm_compute in N. apply N. reflexivity.
Qed.
Lemma Simplify_spike : exists p v, In v p /\ ~ In v (Simplify p (-1) (-1)) /\
  forall a, In a (Simplify p (-1) (-1)) -> px a <= 100 /\ px v = 1000.
Proof.
  exists [Pt 0 0; Pt 1000 0; Pt 100 0; Pt 100 1000; Pt 0 1000], (Pt 1000 0).
  assert (E : Simplify [Pt 0 0; Pt 1000 0; Pt 100 0; Pt 100 1000; Pt 0 1000] (-1) (-1) =
              [Pt 0 0; Pt 100 0; Pt 100 1000; Pt 0 1000]) by (vm_compute; reflexivity).
  rewrite E. split; [right; left; reflexivity|]. split.
  - intros H. repeat (destruct H as [H|H]; [discriminate H|]). contradiction.
  - intros a H. repeat (destruct H as [<-|H]; [cbn; lia|]). contradiction.
Qed.
