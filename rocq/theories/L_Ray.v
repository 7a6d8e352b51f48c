(** Crossings of a ray with lines. *)
From Coq Require Import Reals Lra.
From Verif Require Import GoBase M_Micrometer M_Geom2D M_Model S_Model S_Slicer S_Solid.
Local Open Scope R_scope.

Lemma crossed_refl p a : crossed p a a = false.
Proof. unfold crossed. rewrite xorb_nilpotent. reflexivity. Qed.
Lemma lower_diff y a b : xorb (lower y a) (lower y b) = true -> (snd a < y <= snd b) \/ (snd b < y <= snd a).
Proof. unfold lower. destruct (Rlt_dec (snd a) y), (Rlt_dec (snd b) y); cbn; intros H; try discriminate; [left|right]; lra. Qed.
Lemma crossed_sym p a b : crossed p a b = crossed p b a.
Proof.
  unfold crossed. rewrite (xorb_comm (lower _ b)). destruct (xorb (lower (snd p) a) (lower (snd p) b)) eqn:D; [|reflexivity]. apply lower_diff in D. cbn [andb].
  replace (fst b + (snd p - snd b) / (snd a - snd b) * (fst a - fst b)) with (fst a + (snd p - snd a) / (snd b - snd a) * (fst b - fst a)); [reflexivity|].
  field. split; lra.
Qed.

(** points on one side of a line through p *)
Definition side (al be : R) (p v : rpt) : Prop := 0 < al * (fst v - fst p) + be * (snd v - snd p).
Lemma crossed_side al be p a b : side al be p a -> side al be p b ->
  (al <= 0 -> crossed p a b = false) /\ (0 < al -> crossed p a b = xorb (lower (snd p) a) (lower (snd p) b)).
Proof.
  unfold side, crossed. intros A B. destruct (xorb (lower (snd p) a) (lower (snd p) b)) eqn:D; [|auto]. apply lower_diff in D. cbn [andb].
  set (t := (snd p - snd a) / (snd b - snd a)).
  assert (T : 0 <= t <= 1 /\ t * (snd b - snd a) = snd p - snd a).
  { split; [|unfold t; field; lra]. unfold t. destruct D as [D|D].
    - split; [apply Rmult_le_pos; [lra|left; apply Rinv_0_lt_compat; lra]|]. apply (Rmult_le_reg_r (snd b - snd a)); [lra|]. unfold Rdiv. rewrite Rmult_assoc, Rinv_l by lra. lra.
    - replace ((snd p - snd a) / (snd b - snd a)) with ((snd a - snd p) / (snd a - snd b)) by (field; split; lra).
      split; [apply Rmult_le_pos; [lra|left; apply Rinv_0_lt_compat; lra]|]. apply (Rmult_le_reg_r (snd a - snd b)); [lra|]. unfold Rdiv. rewrite Rmult_assoc, Rinv_l by lra. lra. }
  destruct T as ((T0 & T1) & T). clearbody t.
  assert (X : 0 < al * (fst a + t * (fst b - fst a) - fst p)).
  { replace (al * (fst a + t * (fst b - fst a) - fst p)) with
      ((1 - t) * (al * (fst a - fst p) + be * (snd a - snd p)) + t * (al * (fst b - fst p) + be * (snd b - snd p)) - be * (t * (snd b - snd a) - (snd p - snd a))) by ring.
    replace (t * (snd b - snd a) - (snd p - snd a)) with 0 by lra. rewrite Rmult_0_r, Rminus_0_r.
    destruct (Rle_lt_or_eq_dec 0 t T0) as [Tp|<-].
    - apply Rplus_le_lt_0_compat; [apply Rmult_le_pos; lra|apply Rmult_lt_0_compat; lra].
    - lra. }
  destruct (Rlt_dec (fst p) (fst a + t * (fst b - fst a))) as [L|L]; split; intros H; try reflexivity; exfalso.
  - assert (al * (fst a + t * (fst b - fst a) - fst p) <= 0); [|lra]. rewrite <- (Rmult_0_l (fst a + t * (fst b - fst a) - fst p)). apply Rmult_le_compat_r; lra.
  - assert (al * (fst a + t * (fst b - fst a) - fst p) <= 0); [|lra]. rewrite <- (Rmult_0_r al). apply Rmult_le_compat_l; lra.
Qed.
(** a triangle on one side does not surround p *)
Lemma crossed_triangle al be p a b c : side al be p a -> side al be p b -> side al be p c -> crossed p a c = xorb (crossed p a b) (crossed p b c).
Proof.
  intros A B C. destruct (crossed_side al be p a b A B) as (X0 & X1), (crossed_side al be p b c B C) as (Y0 & Y1), (crossed_side al be p a c A C) as (Z0 & Z1).
  destruct (Rle_lt_dec al 0) as [H|H].
  - rewrite X0, Y0, Z0 by exact H. reflexivity.
  - rewrite X1, Y1, Z1 by exact H. destruct (lower (snd p) a), (lower (snd p) b), (lower (snd p) c); reflexivity.
Qed.

(** v is less than 1 away from the line from a to b, in both directions *)
Definition around (a b v : rpt) : Prop := exists t, 0 <= t <= 1 /\
  Rabs (fst v - (fst a + t * (fst b - fst a))) < 1 /\ Rabs (snd v - (snd a + t * (snd b - snd a))) < 1.
Lemma small_sum gx gy dx dy : 2 <= gx ^ 2 + gy ^ 2 -> Rabs dx < 1 -> Rabs dy < 1 -> 0 < gx ^ 2 + gy ^ 2 + (gx * dx + gy * dy).
Proof.
  intros G X Y. assert (S : Rabs gx + Rabs gy <= gx ^ 2 + gy ^ 2).
  { rewrite <- (pow2_abs gx), <- (pow2_abs gy) in *. pose proof (Rabs_pos gx). pose proof (Rabs_pos gy). set (u := Rabs gx) in *. set (v := Rabs gy) in *. clearbody u v.
    destruct (Rle_lt_dec (u + v) (u ^ 2 + v ^ 2)) as [L|L]; [exact L|exfalso].
    assert (u + v > 2) by lra. assert (2 * (u ^ 2 + v ^ 2) >= (u + v) * (u + v)) by (pose proof (pow2_ge_0 (u - v)); nra). nra. }
  assert (A : forall g d, Rabs d < 1 -> g <> 0 -> - Rabs g < g * d).
  { intros g d D N. assert (Rabs (g * d) < Rabs g). { rewrite Rabs_mult. rewrite <- (Rmult_1_r (Rabs g)) at 2. apply Rmult_lt_compat_l; [apply Rabs_pos_lt, N|exact D]. }
    pose proof (Rle_abs (- (g * d))). rewrite Rabs_Ropp in H0. lra. }
  assert (A0 : forall g d, Rabs d < 1 -> - Rabs g <= g * d).
  { intros g d D. destruct (Req_dec g 0) as [->|N]; [rewrite Rabs_R0; lra|]. left. apply A; assumption. }
  destruct (Req_dec gx 0) as [->|N].
  - assert (gy <> 0) by (intros ->; lra). pose proof (A gy dy Y H). pose proof (A0 0 dx X). rewrite Rabs_R0 in *. lra.
  - pose proof (A gx dx X N). pose proof (A0 gy dy Y). lra.
Qed.
Lemma separated p a b : (forall t, 0 <= t <= 1 -> 2 <= (fst a + t * (fst b - fst a) - fst p) ^ 2 + (snd a + t * (snd b - snd a) - snd p) ^ 2) ->
  exists al be, forall v, around a b v -> side al be p v.
Proof.
  intros F. set (ax := fst a - fst p). set (ay := snd a - snd p). set (dx := fst b - fst a). set (dy := snd b - snd a).
  assert (G : exists gx gy, 2 <= gx ^ 2 + gy ^ 2 /\ gx ^ 2 + gy ^ 2 <= gx * ax + gy * ay /\ gx ^ 2 + gy ^ 2 <= gx * (ax + dx) + gy * (ay + dy)).
  { assert (F' : forall t, 0 <= t <= 1 -> 2 <= (ax + t * dx) ^ 2 + (ay + t * dy) ^ 2).
    { intros t Ht. specialize (F t Ht). replace (ax + t * dx) with (fst a + t * (fst b - fst a) - fst p) by (unfold ax, dx; ring). replace (ay + t * dy) with (snd a + t * (snd b - snd a) - snd p) by (unfold ay, dy; ring). exact F. }
    clearbody ax ay dx dy. clear F. set (n := ax * dx + ay * dy). set (q := dx ^ 2 + dy ^ 2).
    destruct (Rle_lt_dec 0 n) as [H|H].
    - exists ax, ay. specialize (F' 0 ltac:(lra)). rewrite !Rmult_0_l, !Rplus_0_r in F'. unfold n in H. split; [exact F'|]. split; nra.
    - destruct (Rle_lt_dec (n + q) 0) as [H1|H1].
      + exists (ax + dx), (ay + dy). specialize (F' 1 ltac:(lra)). rewrite !Rmult_1_l in F'. unfold n, q in *. split; [exact F'|]. split; nra.
      + assert (Q : 0 < q) by lra. set (t := - n / q). assert (T : t * q = - n) by (unfold t; field; lra).
        assert (T01 : 0 <= t <= 1). { unfold t. split; [apply Rmult_le_pos; [lra|left; apply Rinv_0_lt_compat, Q]|]. apply (Rmult_le_reg_r q); [exact Q|]. unfold Rdiv. rewrite Rmult_assoc, Rinv_l by lra. lra. }
        exists (ax + t * dx), (ay + t * dy). split; [exact (F' t T01)|]. clearbody t.
        assert (O : (ax + t * dx) * dx + (ay + t * dy) * dy = 0) by (replace ((ax + t * dx) * dx + (ay + t * dy) * dy) with (n + t * q) by (unfold n, q; ring); lra).
        set (gx := ax + t * dx) in *. set (gy := ay + t * dy) in *.
        replace ax with (gx - t * dx) by (unfold gx; ring). replace ay with (gy - t * dy) by (unfold gy; ring). clearbody gx gy.
        split; [replace (gx * (gx - t * dx) + gy * (gy - t * dy)) with (gx ^ 2 + gy ^ 2 - t * (gx * dx + gy * dy)) by ring|
                replace (gx * (gx - t * dx + dx) + gy * (gy - t * dy + dy)) with (gx ^ 2 + gy ^ 2 + (1 - t) * (gx * dx + gy * dy)) by ring]; rewrite O; lra. }
  destruct G as (gx & gy & G2 & Ga & Gb). exists gx, gy. intros v (t & (T0 & T1) & Hx & Hy). unfold side.
  pose proof (small_sum gx gy _ _ G2 Hx Hy) as S.
  replace (gx * (fst v - fst p) + gy * (snd v - snd p)) with
    (gx * (fst v - (fst a + t * (fst b - fst a))) + gy * (snd v - (snd a + t * (snd b - snd a))) + (1 - t) * (gx * ax + gy * ay) + t * (gx * (ax + dx) + gy * (ay + dy))) by (unfold ax, ay, dx, dy; ring).
  assert (L : gx ^ 2 + gy ^ 2 <= (1 - t) * (gx * ax + gy * ay) + t * (gx * (ax + dx) + gy * (ay + dy))).
  { replace (gx ^ 2 + gy ^ 2) with ((1 - t) * (gx ^ 2 + gy ^ 2) + t * (gx ^ 2 + gy ^ 2)) by ring. apply Rplus_le_compat; apply Rmult_le_compat_l; lra. }
  lra.
Qed.
(** p is away from the line from a to b *)
Definition far (p a b : rpt) : Prop := forall t, 0 <= t <= 1 -> 2 <= (fst a + t * (fst b - fst a) - fst p) ^ 2 + (snd a + t * (snd b - snd a) - snd p) ^ 2.
Lemma far_triangle p a b u v w : far p a b -> around a b u -> around a b v -> around a b w -> crossed p u w = xorb (crossed p u v) (crossed p v w).
Proof. intros F U V W. destruct (separated p a b F) as (al & be & S). apply (crossed_triangle al be); apply S; assumption. Qed.
Lemma around_l a b v : Rabs (fst v - fst a) < 1 -> Rabs (snd v - snd a) < 1 -> around a b v.
Proof. intros X Y. exists 0. rewrite !Rmult_0_l, !Rplus_0_r. repeat split; try lra; assumption. Qed.
Lemma around_r a b v : Rabs (fst v - fst b) < 1 -> Rabs (snd v - snd b) < 1 -> around a b v.
Proof. intros X Y. exists 1. rewrite !Rmult_1_l. replace (fst a + (fst b - fst a)) with (fst b) by ring. replace (snd a + (snd b - snd a)) with (snd b) by ring. repeat split; try lra; assumption. Qed.
Lemma around_self_l a b : around a b a.
Proof. apply around_l; rewrite Rminus_diag_eq, Rabs_R0 by reflexivity; lra. Qed.
Lemma around_self_r a b : around a b b.
Proof. apply around_r; rewrite Rminus_diag_eq, Rabs_R0 by reflexivity; lra. Qed.
