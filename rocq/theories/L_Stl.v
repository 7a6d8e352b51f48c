(** Conversion of STL coordinates. *)
From Coq Require Import Reals Psatz.
From Verif Require Import GoBase GoFloat M_Micrometer M_Model L_Float L_Micrometer.
From Flocq Require Import Core BinarySingleNaN.
Local Open Scope R_scope.

Lemma stl_close x : valid32 x = true -> is_finite_SF x = true -> Rabs (SF2R radix2 x) <= 8388 ->
  Rabs (IZR (ToMicrometer x) - 1000 * SF2R radix2 x) <= 3 / 4.
Proof.
  intros V F B. set (y := SF2R radix2 x) in *.
  assert (Fx : fin32 x y) by (repeat split; assumption).
  assert (F1000 : fin32 (f32_of_Z 1000) 1000) by (apply (fin32_of_Z 1000); cbn; lia).
  apply Rabs_le_inv in B.
  assert (By' : Rabs (y * 1000) <= bpow radix2 23).
  { rewrite bpow_val by lia. change (2 ^ 23)%Z with 8388608%Z. apply Rabs_le. lra. }
  assert (Bz : Rabs (rnd32 (y * 1000)) <= bpow radix2 23).
  { apply rnd_abs_le; auto with typeclass_instances. rewrite emin24. lia. }
  assert (Fz : fin32 (mul32 x (f32_of_Z 1000)) (rnd32 (y * 1000))).
  { apply fin_mul; auto with typeclass_instances. eapply Rle_lt_trans; [exact Bz|]. apply bpow_lt; lia. }
  assert (Ez : Rabs (rnd32 (y * 1000) - y * 1000) <= / 4).
  { eapply Rle_trans; [apply (rnd_half_ulp 24 128 _ (y * 1000) 23); [rewrite emin24; lia|exact By']|].
    change (23 - 24)%Z with (- 1)%Z. simpl bpow. lra. }
  set (z := rnd32 (y * 1000)) in *. pose proof (Znearest_half (fun x => negb (Z.even x)) z) as N.
  assert (I : int64 (ZnearestE z)).
  { rewrite bpow_val in Bz by lia. change (2 ^ 23)%Z with 8388608%Z in Bz. apply Rabs_le_inv in Bz. apply Rabs_le_inv in N.
    unfold int64. split.
    - apply le_IZR. replace (IZR (- 2 ^ 63)) with (-9223372036854775808) by reflexivity. lra.
    - apply lt_IZR. replace (IZR (2 ^ 63)) with 9223372036854775808 by reflexivity. lra. }
  unfold ToMicrometer. rewrite (int64_of_rne_correct _ z (fin64_of_f32 _ _ Fz) I).
  apply Rabs_le_inv in N. apply Rabs_le_inv in Ez. apply Rabs_le. lra.
Qed.
