(** Property C75: density and success of the infill. *)
From Verif Require Import GoBase GoFloat M_Micrometer M_Geom2D M_Option M_Clip M_Builder M_Layer M_Render L_Float L_Clip L_Distance P_Clip.
Local Open Scope Z_scope.

(** *** C75 *)
Definition lines_per_cm (width : Z) : Z := 10000 / width.
(** The distance is the exact quotient, rounded down to a micrometer. *)
Theorem infill_distance : forall width percent, 0 < width <= 10000 -> 1 <= percent <= 2 ^ 39 ->
  infillDistance width percent = Ok (1000000 / (lines_per_cm width * percent)).
Proof.
  intros w p Hw Hp. unfold infillDistance, lines_per_cm. destruct (Z.eqb_spec w 0) as [E|E]; [lia|].
  change (ToMicrometer (f32_of_Z 10)) with 10000. unfold quot64. rewrite Z.quot_div_nonneg by lia.
  assert (L : 1 <= 10000 / w <= 10000) by (split; [apply Z.div_le_lower_bound; lia|apply Z.div_le_upper_bound; nia]). set (l := 10000 / w) in *. clearbody l.
  rewrite wrap_id by (unfold int64; lia). assert (N : 1 <= l * p <= 2 ^ 53) by nia. do 1 f_equal.
  rewrite mul_exact by lia. exact (spacing_exact (l * p) N).
Qed.
Print Assumptions infill_distance.
(** Lines one width wide at this distance [d] fill the fraction width / d of the area.  It is never more than the
    requested percentage, apart from rounding d down, and more than half of it; it is the requested one if the width
    divides 1 cm and the distance needs no rounding. *)
Theorem infill_density : forall width percent d, 0 < width <= 10000 -> 1 <= percent <= 2 ^ 39 -> infillDistance width percent = Ok d ->
  100 * width < percent * (d + 1) /\
  percent * d < 200 * width /\
  (forall n m, n * width = 10000 -> m * (n * percent) = 1000000 -> percent * d = 100 * width).
Proof.
  intros w p d Hw Hp E. rewrite infill_distance in E by assumption. injection E as <-. unfold lines_per_cm.
  pose proof (Z.div_mod 10000 w ltac:(lia)) as Dw. pose proof (Z.mod_pos_bound 10000 w ltac:(lia)) as Mw.
  assert (L : 1 <= 10000 / w <= 10000) by (split; [apply Z.div_le_lower_bound; lia|apply Z.div_le_upper_bound; nia]). set (l := 10000 / w) in *.
  pose proof (Z.div_mod 1000000 (l * p) ltac:(nia)) as D. pose proof (Z.mod_pos_bound 1000000 (l * p) ltac:(nia)) as M. set (d := 1000000 / (l * p)) in *.
  assert (Lw : 5000 < l * w <= 10000) by nia. assert (d0 : 0 <= d) by (apply Z.div_pos; nia). split; [|split].
  - assert (A : 1000000 < l * (p * (d + 1))) by nia. assert (B : l * (100 * w) <= 1000000) by nia. nia.
  - assert (A : l * (p * d) <= 1000000) by nia. assert (B : 1000000 < l * (200 * w)) by nia. nia.
  - intros n m Hn Hm. assert (l = n) by (unfold l; rewrite <- Hn; apply Z.div_mul; lia). subst n. assert (d = m) by (unfold d; rewrite <- Hm; apply Z.div_mul; nia). nia.
Qed.
Print Assumptions infill_density.
(** Not the requested density in general: 100 percent with lines of 0.6 mm leaves gaps, with lines of 5.1 mm nearly half is
    empty. *)
Theorem infill_density_refuted : infillDistance 600 100 = Ok 625 /\ infillDistance 5100 100 = Ok 10000.
Proof. split; vm_compute; reflexivity. Qed.
Print Assumptions infill_density_refuted.
(** Lines wider than 1 cm and percentages so high that the distance is rounded to 0 do not work: the loop over the lines never
    ends. *)
Theorem infill_never_ends_refuted : (forall width percent, 10000 < width -> int64 width -> 1 <= percent <= 2 ^ 53 -> infillDistance width percent = Ok (- 2 ^ 63)) /\
  (forall width percent, 0 < width <= 10000 -> percent <= 2 ^ 39 -> 1000000 < lines_per_cm width * percent -> infillDistance width percent = Ok 0) /\
  (forall fuel minx maxx, int64 minx -> 0 <= minx <= maxx -> grid fuel minx maxx 0 = Diverge /\ grid fuel minx maxx (- 2 ^ 63) = Diverge).
Proof.
  split; [|split].
  - intros w p Hw Iw Hp. unfold infillDistance. destruct (Z.eqb_spec w 0) as [E|E]; [lia|]. change (ToMicrometer (f32_of_Z 10)) with 10000. unfold quot64.
    rewrite Z.quot_small by lia. change (wrap 0) with 0.
    rewrite zero_times by exact Hp. reflexivity.
  - intros w p Hw Hp B. assert (L : 1 <= 10000 / w <= 10000) by (split; [apply Z.div_le_lower_bound; lia|apply Z.div_le_upper_bound; nia]). unfold lines_per_cm in *.
    rewrite infill_distance by nia. unfold lines_per_cm. rewrite Z.div_small by lia. reflexivity.
  - intros fuel a b Ia H. split; [exact (proj1 (infill_grid_diverges fuel a b Ia (proj2 H)))|].
    enough (A : forall f, grid f a b (- 2 ^ 63) = Diverge /\ grid f (a - 2 ^ 63) b (- 2 ^ 63) = Diverge) by apply A.
    unfold int64 in Ia. induction f as [|f [IH1 IH2]]; (split; cbn [grid]; [destruct (Z.leb_spec a b)|destruct (Z.leb_spec (a - 2 ^ 63) b)]); try lia; try reflexivity.
    + unfold add64. rewrite wrap_id by (unfold int64; lia). change (a + - 2 ^ 63) with (a - 2 ^ 63). rewrite IH2. reflexivity.
    + replace (add64 (a - 2 ^ 63) (- 2 ^ 63)) with a; [rewrite IH1; reflexivity|]. unfold add64, wrap. replace (a - 2 ^ 63 + - 2 ^ 63 + 2 ^ 63) with (a + 2 ^ 63 + (-1) * 2 ^ 64) by lia. rewrite Z.mod_add by lia. rewrite Z.mod_small by lia. lia.
Qed.
Print Assumptions infill_never_ends_refuted.
Example infill_distance_ex : infillDistance 400 20 = Ok 2000 /\ infillDistance 400 100 = Ok 400 /\ infillDistance 450 33 = Ok 1377 /\ infillDistance 12000 20 = Ok (- 2 ^ 63) /\ infillDistance 10 10000 = Ok 0.
Proof. repeat split; vm_compute; reflexivity. Qed.
