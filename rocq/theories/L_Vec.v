(** Lemmas about vector arithmetic. *)
From Coq Require Import ZifyBool.
From Verif Require Import GoBase GoFloat M_Micrometer S_Geom L_Micrometer.
Local Open Scope Z_scope.

Lemma v3_eta v w : vx v = vx w -> vy v = vy w -> vz v = vz w -> v = w.
Proof. destruct v, w; cbn; congruence. Qed.
Lemma pt_eta p q : px p = px q -> py p = py q -> p = q.
Proof. destruct p, q; cbn; congruence. Qed.

Lemma sub_add_1 a b : int64 a -> sub64 (add64 a b) b = a.
Proof. intros H. unfold sub64, add64. rewrite wrap_sub_l, Z.add_simpl_r. apply wrap_id, H. Qed.
Lemma add_sub_1 a b : int64 a -> add64 (sub64 a b) b = a.
Proof. intros H. unfold sub64, add64. rewrite wrap_add_l. replace (a - b + b) with a by ring. apply wrap_id, H. Qed.
Lemma quot_mul_1 a k : int64 a -> int64 (a * k) -> k <> 0 -> quot64 (mul64 a k) k = a.
Proof.
  intros H1 H2 H3. unfold quot64. rewrite mul64_id by exact H2. rewrite Z.quot_mul by exact H3. apply wrap_id, H1.
Qed.

Lemma v3_add_sub v w : wf_vec3 v -> v3Sub (v3Add v w) w = v.
Proof. intros (H1 & H2 & H3). apply v3_eta; apply sub_add_1; assumption. Qed.
Lemma v3_sub_add v w : wf_vec3 v -> v3Add (v3Sub v w) w = v.
Proof. intros (H1 & H2 & H3). apply v3_eta; apply add_sub_1; assumption. Qed.
Lemma pt_add_sub v w : wf_pt v -> ptSub (ptAdd v w) w = v.
Proof. intros (H1 & H2). apply pt_eta; apply sub_add_1; assumption. Qed.
Lemma pt_sub_add v w : wf_pt v -> ptAdd (ptSub v w) w = v.
Proof. intros (H1 & H2). apply pt_eta; apply add_sub_1; assumption. Qed.
Lemma v3_mul_div v k : wf_vec3 v -> k <> 0 -> int64 (vx v * k) -> int64 (vy v * k) -> int64 (vz v * k) ->
  v3Div (v3Mul v k) k = Ok v.
Proof.
  intros (H1 & H2 & H3) Hk K1 K2 K3. unfold v3Div. destruct (Z.eqb_spec k 0); [contradiction|].
  f_equal. apply v3_eta; apply quot_mul_1; assumption.
Qed.
Lemma pt_mul_div v k : wf_pt v -> k <> 0 -> int64 (px v * k) -> int64 (py v * k) -> ptDiv (ptMul v k) k = Ok v.
Proof.
  intros (H1 & H2) Hk K1 K2. unfold ptDiv. destruct (Z.eqb_spec k 0); [contradiction|].
  f_equal. apply pt_eta; apply quot_mul_1; assumption.
Qed.

Lemma sq_bound a b : Z.abs a <= b -> 0 <= a * a <= b * b.
Proof. intros H. nia. Qed.

Lemma ptSize2_exact p : norm2 p < 2 ^ 63 -> ptSize2 p = norm2 p.
Proof.
  unfold norm2, ptSize2. rewrite !Z.pow_2_r. intros H.
  pose proof (Z.square_nonneg (px p)). pose proof (Z.square_nonneg (py p)).
  assert (int64 (px p * px p)) by (unfold int64; lia).
  assert (int64 (py p * py p)) by (unfold int64; lia).
  rewrite !mul64_id by assumption. apply add64_id. unfold int64; lia.
Qed.
Lemma v3Size2_exact p : norm3 p < 2 ^ 63 -> v3Size2 p = norm3 p.
Proof.
  unfold norm3, v3Size2. rewrite !Z.pow_2_r. intros H.
  pose proof (Z.square_nonneg (vx p)). pose proof (Z.square_nonneg (vy p)). pose proof (Z.square_nonneg (vz p)).
  rewrite !mul64_id by (unfold int64; lia).
  rewrite (add64_id (vx p * vx p)) by (unfold int64; lia). apply add64_id. unfold int64; lia.
Qed.

Lemma ptShorter_exact p l : norm2 p < 2 ^ 63 -> 0 <= l < 3037000500 ->
  ptShorterThanOrEqual p l = true <-> norm2 p <= l ^ 2.
Proof.
  intros H Hl. unfold ptShorterThanOrEqual. rewrite ptSize2_exact by exact H.
  assert (El : mul64 l l = l ^ 2) by (rewrite Z.pow_2_r; apply mul64_id; unfold int64; nia).
  assert (En : neg64 l = - l) by (apply wrap_id; unfold int64; lia).
  rewrite El, En. unfold norm2 in *. rewrite !Z.pow_2_r in *.
  destruct (Z.ltb_spec l (px p)); cbn [orb]; [split; [discriminate|intros; nia]|].
  destruct (Z.ltb_spec (px p) (- l)); cbn [orb]; [split; [discriminate|intros; nia]|].
  destruct (Z.ltb_spec l (py p)); cbn [orb]; [split; [discriminate|intros; nia]|].
  destruct (Z.ltb_spec (py p) (- l)); cbn [orb]; [split; [discriminate|intros; nia]|].
  apply Z.leb_le.
Qed.
Lemma v3Shorter_exact p l : norm3 p < 2 ^ 63 -> 0 <= l < 3037000500 ->
  v3ShorterThanOrEqual p l = true <-> norm3 p <= l ^ 2.
Proof.
  intros H Hl. unfold v3ShorterThanOrEqual. rewrite v3Size2_exact by exact H.
  assert (El : mul64 l l = l ^ 2) by (rewrite Z.pow_2_r; apply mul64_id; unfold int64; nia).
  rewrite El. apply Z.leb_le.
Qed.

Lemma ptSize_exact p : norm2 p < 2 ^ 52 -> 0 <= ptSize p /\ ptSize p ^ 2 <= norm2 p < (ptSize p + 1) ^ 2.
Proof.
  intros H. assert (N : 0 <= norm2 p) by (unfold norm2; nia).
  unfold ptSize. rewrite ptSize2_exact by lia. rewrite sqrt_floor by lia.
  split; [apply Z.sqrt_nonneg|]. pose proof (Z.sqrt_spec (norm2 p) N). rewrite !Z.pow_2_r. unfold Z.succ in *. lia.
Qed.
Lemma v3Size_exact p : norm3 p < 2 ^ 52 -> 0 <= v3Size p /\ v3Size p ^ 2 <= norm3 p < (v3Size p + 1) ^ 2.
Proof.
  intros H. assert (N : 0 <= norm3 p) by (unfold norm3; nia).
  unfold v3Size. rewrite v3Size2_exact by lia. rewrite sqrt_floor by lia.
  split; [apply Z.sqrt_nonneg|]. pose proof (Z.sqrt_spec (norm3 p) N). rewrite !Z.pow_2_r. unfold Z.succ in *. lia.
Qed.

Lemma ptSub_exact a b : int64 (px a - px b) -> int64 (py a - py b) -> ptSub a b = Pt (px a - px b) (py a - py b).
Proof. intros H1 H2. unfold ptSub. rewrite !sub64_id by assumption. reflexivity. Qed.

Lemma sq_lt_inv d k : 0 <= k -> d * d < k * k -> - k < d < k.
Proof. intros Hk H. nia. Qed.
Lemma sq_le_inv d k : 0 <= k -> d * d <= k * k -> - k <= d <= k.
Proof. intros Hk H. nia. Qed.

(** difference of two points whose distance is below 2^31: no wrap-around *)
Lemma ptSub_dist a b : dist2 b a < 2 ^ 62 -> ptSub a b = Pt (px a - px b) (py a - py b).
Proof.
  unfold dist2. rewrite !Z.pow_2_r. intros H.
  pose proof (Z.square_nonneg (px a - px b)). pose proof (Z.square_nonneg (py a - py b)).
  change (2 ^ 62) with (2 ^ 31 * 2 ^ 31) in H.
  assert (Hx : - 2 ^ 31 < px a - px b < 2 ^ 31) by (apply sq_lt_inv; lia).
  assert (Hy : - 2 ^ 31 < py a - py b < 2 ^ 31) by (apply sq_lt_inv; lia).
  apply ptSub_exact; unfold int64; lia.
Qed.
