(** Proofs about the linear pattern. *)
From Coq Require Import Permutation.
From Verif Require Import GoBase GoFloat M_Micrometer M_Geom2D M_DPHeap M_Clip M_FillHeap S_Geom S_Slicer S_Clip L_Vec L_Slicer L_Join L_Clip.
Local Open Scope Z_scope.

(** *** grid *)
Lemma grid_spec d maxx : 0 < d -> maxx + d < 2 ^ 63 -> forall fuel x, int64 x -> maxx - x < Z.of_nat fuel * d ->
  grid fuel x maxx d = Ok (map (fun k => x + Z.of_nat k * d) (seq 0 (if x <=? maxx then S (Z.to_nat ((maxx - x) / d)) else 0))).
Proof.
  intros Hd Hm. induction fuel as [|fuel IH]; intros x Hx Hf; cbn [grid].
  - destruct (Z.leb_spec x maxx); [lia|]. reflexivity.
  - destruct (Z.leb_spec x maxx) as [L|L]; [|reflexivity].
    unfold int64 in Hx. rewrite add64_id by (unfold int64; lia). rewrite IH; [|unfold int64; lia|lia]. cbn [bind].
    cbn [seq map]. rewrite Z.add_0_r. f_equal. f_equal. rewrite <- seq_shift, map_map.
    assert (E : (if x + d <=? maxx then S (Z.to_nat ((maxx - (x + d)) / d)) else 0%nat) = Z.to_nat ((maxx - x) / d)).
    { destruct (Z.leb_spec (x + d) maxx).
      - replace ((maxx - x) / d) with ((maxx - (x + d)) / d + 1); [rewrite Z2Nat.inj_add; [lia|apply Z.div_pos; lia|lia]|].
        replace (maxx - x) with (maxx - (x + d) + 1 * d) by lia. rewrite Z.div_add by lia. lia.
      - rewrite Z.div_small by lia. reflexivity. }
    rewrite E. apply map_ext. intros k. lia.
Qed.
Lemma grid_zero fuel : forall x maxx, int64 x -> x <= maxx -> grid fuel x maxx 0 = Diverge.
Proof.
  induction fuel as [|fuel IH]; intros x maxx Hx L; cbn [grid]; destruct (Z.leb_spec x maxx); try lia; [reflexivity|].
  rewrite add64_id by (rewrite Z.add_0_r; exact Hx). rewrite Z.add_0_r, IH by assumption. reflexivity.
Qed.
Lemma grid_negative fuel : forall x maxx d, d < 0 -> x <= maxx -> - 2 ^ 63 <= x + Z.of_nat fuel * d -> x < 2 ^ 63 -> grid fuel x maxx d = Diverge.
Proof.
  induction fuel as [|fuel IH]; intros x maxx d Hd L B Hx; cbn [grid]; destruct (Z.leb_spec x maxx); try lia; [reflexivity|].
  rewrite add64_id by (unfold int64; nia). rewrite IH by (try assumption; try lia; nia). reflexivity.
Qed.

(** *** shorten *)
Lemma shorten_spec s a b : 0 <= s < 2 ^ 62 -> pt_bounded (2 ^ 62) a -> pt_bounded (2 ^ 62) b ->
  shorten s [a; b] = Ok (if (s =? 0) || (py a - py b <=? s / 2) then [a; b] else [Pt (px a) (py a - s / 2); Pt (px b) (py b + s / 2)]).
Proof.
  intros Hs (A1 & A2) (B1 & B2). unfold shorten. destruct (Z.eqb_spec s 0); [reflexivity|]. cbn [orb].
  change (idx [a; b] 0) with (Ok a). change (idx [a; b] 1) with (Ok b). cbn [bind].
  assert (Q : quot64 s 2 = s / 2).
  { unfold quot64. rewrite Z.quot_div_nonneg by lia. apply wrap_id. unfold int64. pose proof (Z.div_le_upper_bound s 2 (2 ^ 62) ltac:(lia) ltac:(lia)). pose proof (Z.div_pos s 2 ltac:(lia) ltac:(lia)). lia. }
  assert (H0 : 0 <= s / 2 < 2 ^ 61). { split; [apply Z.div_pos; lia|apply Z.div_lt_upper_bound; lia]. }
  rewrite Q, sub64_id, add64_id by (unfold int64; lia).
  destruct (Z.ltb_spec (py b) (py a - s / 2)), (Z.leb_spec (py a - py b) (s / 2)); try lia; reflexivity.
Qed.

(** *** sorting *)
Section Sort.
Variable lib : clib.
Variable p : linear.
Variable pt_ : part.
Variable zig : bool.

(** which end is compared *)
Definition side (lastPoint : Z) (l : path) : pt := if lastPoint =? 0 then end1 l else end2 l.
Definition line2 (l : path) : Prop := List.length l = 2%nat.
Lemma line2_inv l : line2 l -> exists a b, l = [a; b].
Proof. destruct l as [|a [|b [|c l]]]; try discriminate. eauto. Qed.
Lemma idx_side l k : line2 l -> k = 0 \/ k = 1 -> idx l k = Ok (side k l).
Proof. intros H [-> | ->]; destruct (line2_inv l H) as (a & b & ->); reflexivity. Qed.

(** unused lines with their indices *)
Definition free (used : list bool) (n : Z) : Prop := idx used n = Ok false.
Lemma nearest_spec used k point : k = 0 \/ k = 1 -> forall ls i best bd,
  Forall line2 ls -> Z.of_nat (List.length used) = i + Z.of_nat (List.length ls) -> 0 <= i ->
  exists b bd', nearest used k point i ls best bd = Ok (b, bd') /\
    ((b = best /\ bd' = bd) \/ (i <= b < i + Z.of_nat (List.length ls) /\ free used b)) /\
    (bd = -1 -> (exists j, i <= j < i + Z.of_nat (List.length ls) /\ free used j) -> i <= b < i + Z.of_nat (List.length ls) /\ free used b).
Proof.
  intros Hk. induction ls as [|l ls IH]; intros i best bd F L Hi; cbn [nearest].
  - exists best, bd. split; [reflexivity|]. split; [auto|]. intros _ (j & Hj & _). cbn in Hj. lia.
  - inversion F as [|? ? F1 F2]; subst. cbn [List.length] in *.
    destruct (idx_in_range used i) as (u & Eu & _); [lia|]. rewrite Eu. cbn [bind].
    destruct u.
    + destruct (IH (i + 1) best bd F2) as (b & bd' & E & D & G); [lia..|]. exists b, bd'. split; [exact E|]. split.
      * destruct D as [D|(D1 & D2)]; [auto|right; split; [lia|exact D2]].
      * intros H (j & Hj & Fj). assert (j <> i) by (intros ->; unfold free in Fj; congruence).
        destruct (G H) as (R & Fr); [exists j; split; [lia|exact Fj]|]. split; [lia|exact Fr].
    + rewrite (idx_side l k F1 Hk). cbn [bind].
      destruct ((bd =? -1) || ptShorterThanOrEqual (ptSub point (side k l)) bd) eqn:C.
      * destruct (IH (i + 1) i (ptSize (ptSub point (side k l))) F2) as (b & bd' & E & D & G); [lia..|].
        exists b, bd'. split; [exact E|].
        assert (R : i <= b < i + Z.of_nat (S (List.length ls)) /\ free used b).
        { destruct D as [(-> & _)|(D1 & D2)]; [split; [lia|exact Eu]|split; [lia|exact D2]]. }
        split; [right; exact R|]. intros _ _. exact R.
      * destruct (IH (i + 1) best bd F2) as (b & bd' & E & D & G); [lia..|]. exists b, bd'. split; [exact E|].
        assert (Nb : bd <> -1). { intros ->. cbn in C. discriminate. }
        split; [|intros H; contradiction]. destruct D as [D|(D1 & D2)]; [auto|right; split; [lia|exact D2]].
Qed.
(** with bounded points the nearest unused line is found, lengths rounded down *)
Lemma nearest_min used k point all : k = 0 \/ k = 1 -> pt_bounded (2 ^ 24) point ->
  Forall (fun l => line2 l /\ Forall (pt_bounded (2 ^ 24)) l) all ->
  forall ls i best bd b bd', (forall j l, idx ls j = Ok l -> idx all (i + j) = Ok l) -> 0 <= i ->
  let d l := Z.sqrt (dist2 point (side k l)) in
  (bd = -1 /\ (forall j, 0 <= j < i -> ~ free used j) \/
   0 <= bd /\ (exists lb, idx all best = Ok lb /\ bd = d lb) /\ (forall j l, 0 <= j < i -> free used j -> idx all j = Ok l -> bd <= d l)) ->
  nearest used k point i ls best bd = Ok (b, bd') ->
  (bd' = -1 /\ (forall j, 0 <= j < i + Z.of_nat (List.length ls) -> ~ free used j) \/
   0 <= bd' /\ (exists lb, idx all b = Ok lb /\ bd' = d lb) /\ (forall j l, 0 <= j < i + Z.of_nat (List.length ls) -> free used j -> idx all j = Ok l -> bd' <= d l)).
Proof.
  intros Hk Hp HF. induction ls as [|l ls IH]; intros i best bd b bd' HA Hi d Inv E; cbn [nearest] in E.
  - injection E as <- <-. cbn [List.length]. rewrite Z.add_0_r. exact Inv.
  - pose proof (HA 0 l eq_refl) as Al. rewrite Z.add_0_r in Al.
    assert (L : line2 l /\ Forall (pt_bounded (2 ^ 24)) l). { rewrite Forall_forall in HF. apply HF. apply idx_Ok in Al. destruct Al as (_ & Al). eapply nth_error_In; eauto. }
    destruct L as (L2 & LB).
    assert (BS : pt_bounded (2 ^ 24) (side k l)). { destruct (line2_inv l L2) as (x & y & ->). rewrite Forall_forall in LB. destruct Hk as [-> | ->]; apply LB; cbn; auto. }
    assert (HA' : forall j m, idx ls j = Ok m -> idx all (i + 1 + j) = Ok m).
    { intros j m Hj. pose proof (idx_Ok _ _ _ Hj) as (R & _). replace (i + 1 + j) with (i + (j + 1)) by lia. apply HA. rewrite idx_cons.
      destruct (Z.eqb_spec (j + 1) 0); [lia|]. replace (j + 1 - 1) with j by lia. exact Hj. }
    destruct (size_exact point (side k l) Hp BS) as (Sz & SB).
    apply bind_Ok in E. destruct E as (u & Eu & E). cbn [List.length].
    replace (i + Z.of_nat (S (List.length ls))) with (i + 1 + Z.of_nat (List.length ls)) by lia.
    assert (Split : forall (P : Z -> Prop), (forall j, 0 <= j < i -> P j) -> P i -> forall j, 0 <= j < i + 1 -> P j).
    { intros P P1 P2 j Hj. destruct (Z.eq_dec j i) as [-> |N]; [exact P2|apply P1; lia]. }
    destruct u.
    + apply (IH (i + 1) best bd b bd' HA' ltac:(lia)); [|exact E].
      assert (NF : ~ free used i) by (unfold free; congruence).
      destruct Inv as [(-> & Inv)|(I1 & I2 & I3)]; [left; split; [reflexivity|]; apply Split; assumption|right].
      split; [exact I1|]. split; [exact I2|]. intros j m Hj Fj. destruct (Z.eq_dec j i) as [-> |N]; [contradiction|]. apply I3; [lia|exact Fj].
    + rewrite (idx_side l k L2 Hk) in E. cbn [bind] in E.
      destruct (Z.eqb_spec bd (-1)) as [B|B]; cbn [orb] in E.
      * apply (IH (i + 1) i _ b bd' HA' ltac:(lia)) in E; [exact E|]. right. rewrite Sz. split; [lia|]. split; [exists l; split; [exact Al|reflexivity]|].
        intros j m Hj Fj Aj. destruct (Z.eq_dec j i) as [-> |N].
        -- assert (m = l) by congruence. subst m. unfold d. lia.
        -- exfalso. destruct Inv as [(_ & Inv)|(I1 & _)]; [|lia]. apply (Inv j); [lia|exact Fj].
      * destruct Inv as [(Bd & _)|(I1 & (lb & I2 & I2') & I3)]; [contradiction|].
        assert (BB : 0 <= bd <= 2 ^ 26).
        { assert (Lb : line2 lb /\ Forall (pt_bounded (2 ^ 24)) lb). { rewrite Forall_forall in HF. apply HF. apply idx_Ok in I2. destruct I2 as (_ & I2). eapply nth_error_In; eauto. }
          destruct Lb as (X2 & XB). assert (BS' : pt_bounded (2 ^ 24) (side k lb)). { destruct (line2_inv lb X2) as (x & y & ->). rewrite Forall_forall in XB. destruct Hk as [-> | ->]; apply XB; cbn; auto. }
          destruct (size_exact point (side k lb) Hp BS') as (_ & SB'). subst bd. exact SB'. }
        rewrite (shorter_exact point (side k l) bd Hp BS) in E by lia.
        assert (D0 : 0 <= dist2 point (side k l)) by (unfold dist2; nia).
        destruct (Z.leb_spec (dist2 point (side k l)) (bd ^ 2)) as [C|C].
        -- apply (IH (i + 1) i _ b bd' HA' ltac:(lia)) in E; [exact E|]. right. rewrite Sz. split; [lia|]. split; [exists l; split; [exact Al|reflexivity]|].
           assert (Le : Z.sqrt (dist2 point (side k l)) <= bd).
           { replace (bd ^ 2) with (bd * bd) in C by ring. apply Z.sqrt_le_mono in C. rewrite Z.sqrt_square in C by lia. exact C. }
           intros j m Hj Fj Aj. destruct (Z.eq_dec j i) as [-> |N].
           ++ assert (m = l) by congruence. subst m. unfold d. lia.
           ++ exact (Z.le_trans _ _ _ Le (I3 j m ltac:(lia) Fj Aj)).
        -- apply (IH (i + 1) best bd b bd' HA' ltac:(lia)) in E; [exact E|]. right. split; [lia|]. split; [eauto|].
           intros j m Hj Fj Aj. destruct (Z.eq_dec j i) as [-> |N].
           ++ assert (m = l) by congruence. subst m. unfold d. replace (bd ^ 2) with (bd * bd) in C by ring. apply Z.sqrt_le_square; [lia|exact I1|]. lia.
           ++ exact (I3 j m ltac:(lia) Fj Aj).
Qed.

(** whether a connection line is printed *)
Definition connects (e q : pt) : bool :=
  zig && (dist2 e q <=? (lineWidth p + 2 * lineDistance p) ^ 2) &&
  match IsCrossingPerimeter lib [pt_] [e; q] with Some c => negb c | None => false end.
Definition turned (k : Z) (l : path) : path := if k =? 0 then rev l else l.
Lemma turned_ends k l : line2 l -> k = 0 \/ k = 1 -> exists q e, turned k l = [q; e] /\ q = side (1 - k) l /\ e = side k l.
Proof. intros H [-> | ->]; destruct (line2_inv l H) as (a & b & ->); cbn; eauto. Qed.

Definition unused_lines (used : list bool) (ls : paths) : paths :=
  map snd (filter (fun bl : bool * path => negb (fst bl)) (combine used ls)).
Lemma unused_take used ls b l : List.length used = List.length ls -> free used b -> idx ls b = Ok l ->
  Permutation (unused_lines used ls) (l :: unused_lines (set_nth (Z.to_nat b) true used) ls).
Proof.
  intros L F I. apply idx_Ok in F. destruct F as (R & F). apply idx_Ok in I. destruct I as (_ & I).
  remember (Z.to_nat b) as n. clear R Heqn b. revert n ls L F I. induction used as [|u used IH]; intros [|n] [|x ls] L F I; try discriminate.
  - cbn in F, I. injection F as ->. injection I as ->. unfold unused_lines. cbn. reflexivity.
  - cbn in F, I, L. specialize (IH n ls ltac:(lia) F I). unfold unused_lines in *. cbn [set_nth combine filter fst].
    destruct (negb u); cbn [map snd]; [|exact IH]. rewrite IH. apply perm_swap.
Qed.
Lemma unused_count used ls : List.length used = List.length ls -> List.length (unused_lines used ls) = List.length (filter negb used).
Proof.
  revert ls. induction used as [|u used IH]; intros [|x ls] L; try discriminate; [reflexivity|]. unfold unused_lines in *. cbn [combine filter fst].
  destruct (negb u); cbn [map List.length]; rewrite IH by (cbn in L; lia); reflexivity.
Qed.
Lemma unused_in used ls m : In m (unused_lines used ls) -> exists j, free used j /\ idx ls j = Ok m.
Proof.
  unfold unused_lines. intros H. apply in_map_iff in H. destruct H as ((u & x) & E & H). cbn in E. subst x. apply filter_In in H. destruct H as (H & U).
  cbn in U. destruct u; [discriminate|]. clear U. revert ls H. induction used as [|u used IH]; intros [|x ls] H; cbn [combine] in H; try contradiction.
  destruct H as [H|H].
  - injection H as -> ->. exists 0. split; reflexivity.
  - destruct (IH ls H) as (j & F & I). exists (j + 1). pose proof (idx_Ok _ _ _ I) as (R & _). unfold free in *. rewrite !idx_cons. destruct (Z.eqb_spec (j + 1) 0); [lia|].
    replace (j + 1 - 1) with j by lia. auto.
Qed.
Lemma free_exists used : (0 < List.length (filter negb used))%nat -> exists j, 0 <= j < Z.of_nat (List.length used) /\ free used j.
Proof.
  induction used as [|u used IH]; cbn; [lia|]. destruct u; cbn.
  - intros H. destruct (IH H) as (j & R & F). exists (j + 1). split; [lia|]. unfold free in *. rewrite idx_cons. destruct (Z.eqb_spec (j + 1) 0); [lia|].
    replace (j + 1 - 1) with j by lia. exact F.
  - intros _. exists 0. split; [lia|reflexivity].
Qed.

Hypothesis cross_ok : forall e q, IsCrossingPerimeter lib [pt_] [e; q] <> None.
Hypothesis Hw : 0 <= lineWidth p <= 2 ^ 28.
Hypothesis Hd : 0 <= lineDistance p <= 2 ^ 28.

Lemma idx_last {A} (l : list A) x : idx (l ++ [x]) (Z.of_nat (List.length (l ++ [x])) - 1) = Ok x.
Proof.
  rewrite app_length. cbn [List.length]. unfold idx. destruct (Z.ltb_spec (Z.of_nat (List.length l + 1) - 1) 0); [lia|].
  replace (Z.to_nat (Z.of_nat (List.length l + 1) - 1)) with (List.length l) by lia. rewrite nth_error_app2, Nat.sub_diag by lia. reflexivity.
Qed.

Lemma sort_loop_spec unsorted : Forall (fun l => line2 l /\ Forall (pt_bounded (2 ^ 24)) l) unsorted ->
  forall fuel saved used li k pre, k = 0 \/ k = 1 -> List.length used = List.length unsorted ->
  Z.of_nat (List.length unsorted) - saved = Z.of_nat (List.length (unused_lines used unsorted)) -> (List.length (unused_lines used unsorted) <= fuel)%nat ->
  forall prev, idx unsorted li = Ok prev -> 
  exists order out, sort_loop lib p zig pt_ unsorted fuel saved used li k (pre ++ [turned (1 - k) prev]) = Ok ((pre ++ [turned (1 - k) prev]) ++ out) /\
    Permutation order (unused_lines used unsorted) /\ woven connects (k =? 0) prev (end2 (turned (1 - k) prev)) order out.
Proof.
  intros HF. induction fuel as [|fuel IH]; intros saved used li k pre Hk Lu Sv Fu prev Ip; cbn [sort_loop].
  - destruct (Z.ltb_spec saved (Z.of_nat (List.length unsorted))); [lia|]. exists [], []. rewrite app_nil_r. split; [reflexivity|].
    destruct (unused_lines used unsorted); [|cbn in Fu; lia]. split; [reflexivity|constructor].
  - destruct (Z.ltb_spec saved (Z.of_nat (List.length unsorted))) as [Lt|Ge].
    2:{ exists [], []. rewrite app_nil_r. split; [reflexivity|]. destruct (unused_lines used unsorted); [|cbn in Sv; lia]. split; [reflexivity|constructor]. }
    rewrite Ip. cbn [bind].
    assert (HIn : forall j l, idx unsorted j = Ok l -> line2 l /\ Forall (pt_bounded (2 ^ 24)) l).
    { intros j l Hj. rewrite Forall_forall in HF. apply HF. apply idx_Ok in Hj. destruct Hj as (_ & Hj). eapply nth_error_In; eauto. }
    assert (HB : forall j l n, idx unsorted j = Ok l -> pt_bounded (2 ^ 24) (side n l)).
    { intros j l n Hj. destruct (HIn j l Hj) as (L2 & LB). destruct (line2_inv l L2) as (x & y & ->). rewrite Forall_forall in LB. unfold side. destruct (n =? 0); apply LB; cbn; auto. }
    destruct (HIn _ _ Ip) as (P2 & PB). rewrite (idx_side prev k P2 Hk). cbn [bind].
    assert (F2 : Forall line2 unsorted) by (eapply Forall_impl; [|exact HF]; tauto).
    destruct (nearest_spec used k (side k prev) Hk unsorted 0 (-1) (-1) F2) as (b & bd & En & _ & Fr); [lia..|].
    destruct Fr as (Rb & Fb); [reflexivity| |].
    { rewrite Z.add_0_l, <- Lu. apply free_exists. rewrite <- (unused_count used unsorted Lu). lia. }
    rewrite En. cbn [bind]. destruct (Z.ltb_spec (-1) b); [|lia].
    destruct (idx_in_range unsorted b) as (bl & Ib & _); [lia|]. rewrite Ib. cbn [bind].
    destruct (HIn _ _ Ib) as (B2 & BB).
    pose proof (unused_take used unsorted b bl Lu Fb Ib) as UT.
    destruct (turned_ends k bl B2 Hk) as (q & e & Et & Eq & Ee).
    assert (K' : 1 - k = 0 \/ 1 - k = 1) by lia.
    destruct (turned_ends (1 - k) prev P2 K') as (q' & e' & Et' & Eq' & Ee').
    assert (Near : forall m, In m (unused_lines (set_nth (Z.to_nat b) true used) unsorted) ->
       let sd := if k =? 0 then end1 else end2 in Z.sqrt (dist2 (sd prev) (sd bl)) <= Z.sqrt (dist2 (sd prev) (sd m))).
    { intros m Im. assert (Im' : In m (unused_lines used unsorted)) by (rewrite UT; right; exact Im).
      destruct (unused_in _ _ _ Im') as (j & Fj & Ij).
      destruct (nearest_min used k (side k prev) unsorted Hk (HB _ _ k Ip) HF unsorted 0 (-1) (-1) b bd) as [(_ & N)|(_ & (lb & Ilb & Elb) & N)].
      - intros j' l' Hj'. exact Hj'.
      - lia.
      - left. split; [reflexivity|]. intros j' Hj'. lia.
      - exact En.
      - exfalso. apply (N j); [|exact Fj]. apply idx_Ok in Ij. lia.
      - assert (lb = bl) by congruence. subst lb. pose proof (idx_Ok _ _ _ Ij) as (Rj & _). specialize (N j m ltac:(lia) Fj Ij). rewrite Elb in N.
        unfold side in N. destruct (k =? 0); exact N. }
    (* the connection line *)
    assert (Conn : (if zig then
               let* sl := idx (pre ++ [turned (1 - k) prev]) (Z.of_nat (List.length (pre ++ [turned (1 - k) prev])) - 1) in
               let* p1 := idx sl 1 in
               let* p2 := idx bl (1 - k) in
               if ptShorterThanOrEqual (ptSub p1 p2) (add64 (lineWidth p) (mul64 (lineDistance p) 2)) then
                 match IsCrossingPerimeter lib [pt_] [p1; p2] with
                 | None => Panic "could not calculate the difference between the current layer and the non-extrusion-move"%string
                 | Some true => Ok (pre ++ [turned (1 - k) prev])
                 | Some false => Ok ((pre ++ [turned (1 - k) prev]) ++ [[p1; p2]])
                 end
               else Ok (pre ++ [turned (1 - k) prev])
             else Ok (pre ++ [turned (1 - k) prev])) = Ok ((pre ++ [turned (1 - k) prev]) ++ (if connects e' q then [[e'; q]] else []))).
    { unfold connects. destruct zig; cbn [andb]; [|rewrite app_nil_r; reflexivity].
      rewrite idx_last. cbn [bind]. rewrite Et'. change (idx [q'; e'] 1) with (Ok e'). cbn [bind]. rewrite (idx_side bl (1 - k) B2 K'). cbn [bind]. rewrite <- Eq.
      rewrite mul64_id, add64_id by (unfold int64; lia).
      rewrite shorter_exact; [|subst e'; eapply HB, Ip|subst q; eapply HB, Ib|lia]. rewrite (Z.mul_comm (lineDistance p) 2).
      destruct (dist2 e' q <=? (lineWidth p + 2 * lineDistance p) ^ 2); cbn [andb]; [|rewrite app_nil_r; reflexivity].
      pose proof (cross_ok e' q) as CO. destruct (IsCrossingPerimeter lib [pt_] [e'; q]) as [[|]|]; [rewrite app_nil_r; reflexivity|reflexivity|congruence]. }
    match goal with |- context [@bind ?A ?B ?X ?K] => change (@bind A B X K) with (@bind (list path) B X K); replace X with (@Ok (list path) ((pre ++ [turned (1 - k) prev]) ++ (if connects e' q then [[e'; q]] else []))) by (symmetry; exact Conn) end.
    clear Conn. cbn [bind].
    assert (NL : (if 1 - k =? 1 then let* b0 := idx bl 1 in let* a := idx bl 0 in Ok [b0; a] else Ok bl) = Ok (turned k bl)).
    { destruct (line2_inv bl B2) as (x & y & ->). destruct Hk as [-> | ->]; reflexivity. }
    rewrite NL. cbn [bind].
    assert (TK : turned k bl = turned (1 - (1 - k)) bl) by (replace (1 - (1 - k)) with k by lia; reflexivity).
    rewrite TK.
    destruct (IH (saved + 1) (set_nth (Z.to_nat b) true used) b (1 - k) ((pre ++ [turned (1 - k) prev]) ++ (if connects e' q then [[e'; q]] else [])) K') with (prev := bl) as (order & out & E & Pm & W).
    + rewrite set_nth_length. exact Lu.
    + pose proof (Permutation_length UT) as PL. cbn [List.length] in PL. lia.
    + pose proof (Permutation_length UT) as PL. cbn [List.length] in PL. lia.
    + exact Ib.
    + exists (bl :: order), ((if connects e' q then [[e'; q]] else []) ++ turned k bl :: out).
      split; [etransitivity; [exact E|]; rewrite <- TK; rewrite <- !app_assoc; cbn [app]; reflexivity|]. split; [rewrite UT, Pm; reflexivity|].
      rewrite <- TK in W. rewrite Et' . change (end2 [q'; e']) with e'.
      assert (Q : q = end1 (turned k bl)) by (rewrite Et; reflexivity). rewrite Q.
      apply (woven_cons connects (k =? 0) prev e' bl order out).
      * intros m Im. apply Near. rewrite <- Pm. exact Im.
      * replace (negb (k =? 0)) with (1 - k =? 0) by (destruct Hk as [-> | ->]; reflexivity). exact W.
Qed.

Lemma repeat_unused n (ls : paths) : List.length ls = n -> unused_lines (repeat false n) ls = ls.
Proof. intros <-. induction ls as [|l ls IH]; [reflexivity|]. unfold unused_lines in *. cbn. rewrite IH. reflexivity. Qed.
Lemma sort_spec unsorted l0 : Forall (fun l => line2 l /\ Forall (pt_bounded (2 ^ 24)) l) (l0 :: unsorted) ->
  exists order out, sortInfill lib p (l0 :: unsorted) zig pt_ = Ok (l0 :: out) /\ Permutation order unsorted /\ woven connects true l0 (end2 l0) order out.
Proof.
  intros HF. unfold sortInfill.
  assert (U : unused_lines (true :: repeat false (List.length (l0 :: unsorted) - 1)) (l0 :: unsorted) = unsorted).
  { unfold unused_lines. cbn [List.length Nat.sub combine filter fst negb]. rewrite Nat.sub_0_r. apply (repeat_unused _ unsorted eq_refl). }
  destruct (sort_loop_spec (l0 :: unsorted) HF (List.length (l0 :: unsorted)) 1 (true :: repeat false (List.length (l0 :: unsorted) - 1)) 0 0 []) with (prev := l0)
    as (order & out & E & P & W); [auto|cbn [List.length]; rewrite repeat_length; lia|rewrite U; cbn [List.length]; lia|rewrite U; cbn [List.length]; lia|reflexivity|].
  exists order, out. rewrite U in P. split; [exact E|]. split; [exact P|exact W].
Qed.
End Sort.

(** *** the heap *)
Lemma arr_app h x n : (n < List.length h)%nat -> arr (h ++ [x]) n = arr h n.
Proof. intros H. unfold arr. apply app_nth1, H. Qed.
Lemma arr_new h x : arr (h ++ [x]) (List.length h) = x.
Proof. unfold arr. rewrite app_nth2, Nat.sub_diag by lia. reflexivity. Qed.
Lemma arr_set n x h m : n <> m -> arr (set_nth n x h) m = arr h m.
Proof.
  unfold arr. revert n m. induction h as [|y h IH]; intros [|n] [|m] N; cbn; auto; try congruence.
Qed.
Lemma arr_set_same n x h : (n < List.length h)%nat -> arr (set_nth n x h) n = x.
Proof. unfold arr. revert n. induction h as [|y h IH]; intros [|n] L; cbn in *; try lia; auto. apply IH. lia. Qed.
(** a slice that covers a whole array *)
Definition whole (h : heap) (s : slice) : Prop := (s_arr s < List.length h)%nat /\ s_off s = 0%nat /\ s_len s = List.length (arr h (s_arr s)).
Lemma whole_read h s : whole h s -> read h s = arr h (s_arr s).
Proof. intros (_ & O & L). unfold read. rewrite O, L. cbn. apply firstn_all. Qed.
Lemma read_frame h h' s : arr h' (s_arr s) = arr h (s_arr s) -> read h' s = read h s.
Proof. intros E. unfold read. rewrite E. reflexivity. Qed.

Section HeapFill.
Variable lib : clib.
Lemma rotate_length deg (p : path) : List.length (rotate_path lib deg p) = List.length p.
Proof. unfold rotate_path, PathRotate. destruct (feq deg (f64_of_Z 0)); [reflexivity|apply map_length]. Qed.
Lemma rotateH_spec deg h s : whole h s ->
  List.length (rotateH lib deg h s) = List.length h /\
  (forall m, m <> s_arr s -> arr (rotateH lib deg h s) m = arr h m) /\ whole (rotateH lib deg h s) s /\
  read (rotateH lib deg h s) s = rotate_path lib deg (read h s).
Proof.
  intros W. pose proof (whole_read h s W) as E. destruct W as (A & O & L). unfold rotateH.
  split; [apply set_nth_length|]. split; [intros m Hm; apply arr_set; congruence|].
  assert (EA : write_at (arr h (s_arr s)) (s_off s) (rotate_path lib deg (read h s)) = rotate_path lib deg (read h s)).
  { rewrite E, O. unfold write_at. cbn [firstn app Nat.add]. rewrite rotate_length, skipn_all, app_nil_r. reflexivity. }
  rewrite EA.
  assert (W' : whole (set_nth (s_arr s) (rotate_path lib deg (read h s)) h) s).
  { split; [rewrite set_nth_length; exact A|]. split; [exact O|]. rewrite arr_set_same by exact A. rewrite rotate_length, E. exact L. }
  split; [exact W'|]. etransitivity; [exact (whole_read _ _ W')|]. apply arr_set_same, A.
Qed.
Lemma read_bounded h s : valid h s -> List.length (read h s) = s_len s.
Proof. intros (A & B & C). unfold read. rewrite firstn_length, skipn_length. lia. Qed.
Lemma copyH_spec h s : valid h s -> let '(h', c) := copyH h s in
  List.length h' = S (List.length h) /\ (forall m, (m < List.length h)%nat -> arr h' m = arr h m) /\ s_arr c = List.length h /\ whole h' c /\ read h' c = read h s.
Proof.
  intros V. unfold copyH. cbn [s_arr]. rewrite app_length. cbn. split; [lia|]. split; [intros m; apply arr_app|]. split; [reflexivity|].
  assert (W : whole (h ++ [read h s]) (Sl (List.length h) 0 (s_len s) (s_len s))).
  { split; [cbn; rewrite app_length; cbn; lia|]. split; [reflexivity|]. cbn. rewrite arr_new. symmetry. apply read_bounded, V. }
  split; [exact W|]. etransitivity; [exact (whole_read _ _ W)|]. apply arr_new.
Qed.
Lemma valid_frame h h' s : (List.length h <= List.length h')%nat -> (forall m, (m < List.length h)%nat -> arr h' m = arr h m) -> valid h s -> valid h' s /\ read h' s = read h s.
Proof.
  intros L F (A & B & C). assert (E : arr h' (s_arr s) = arr h (s_arr s)) by (apply F, A). split.
  - split; [lia|]. rewrite E. auto.
  - apply read_frame, E.
Qed.
Lemma copy_all_spec ss : forall h, Forall (valid h) ss -> let '(h', cs) := copy_all h ss in
  (List.length h <= List.length h')%nat /\ (forall m, (m < List.length h)%nat -> arr h' m = arr h m) /\
  Forall (fun c => (List.length h <= s_arr c)%nat /\ whole h' c) cs /\ NoDup (map s_arr cs) /\ map (read h') cs = map (read h) ss.
Proof.
  induction ss as [|s ss IH]; intros h V; cbn [copy_all].
  - split; [lia|]. split; [auto|]. split; [constructor|]. split; [constructor|reflexivity].
  - inversion V as [|? ? V1 V2]; subst. pose proof (copyH_spec h s V1) as CS. destruct (copyH h s) as (h1, c). destruct CS as (L1 & F1 & A1 & W1 & R1).
    assert (V2' : Forall (valid h1) ss). { eapply Forall_impl; [|exact V2]. intros x Vx. apply (valid_frame h h1 x); auto. lia. }
    specialize (IH h1 V2'). destruct (copy_all h1 ss) as (h2, cs). destruct IH as (L2 & F2 & W2 & N2 & R2).
    split; [lia|]. split; [intros m Hm; rewrite F2 by lia; apply F1, Hm|]. split; [|split].
    + constructor.
      * split; [lia|]. destruct W1 as (X & Y & Z). split; [lia|]. split; [exact Y|]. rewrite F2 by lia. exact Z.
      * eapply Forall_impl; [|exact W2]. cbn. intros x (X & Y). split; [lia|exact Y].
    + cbn [map]. constructor; [|exact N2]. intros I. apply in_map_iff in I. destruct I as (x & E & I). rewrite Forall_forall in W2. destruct (W2 x I). lia.
    + cbn [map]. f_equal.
      * rewrite <- R1. apply read_frame, F2. lia.
      * rewrite R2. apply map_ext_in. intros x Ix. rewrite Forall_forall in V2. apply (valid_frame h h1 x); auto. lia.
Qed.
Lemma rotate_all deg cs : forall h, Forall (whole h) cs -> NoDup (map s_arr cs) ->
  let h' := fold_left (rotateH lib deg) cs h in
  List.length h' = List.length h /\ (forall m, ~ In m (map s_arr cs) -> arr h' m = arr h m) /\ map (read h') cs = map (fun c => rotate_path lib deg (read h c)) cs.
Proof.
  induction cs as [|c cs IH]; intros h W N; cbn [fold_left]; [auto|]. inversion W as [|? ? W1 W2]; subst. inversion N as [|? ? N1 N2]; subst.
  destruct (rotateH_spec deg h c W1) as (L & F & W' & R).
  assert (O : forall x, In x cs -> s_arr x <> s_arr c). { intros x Ix E. apply N1. rewrite <- E. apply in_map, Ix. }
  assert (W2' : Forall (whole (rotateH lib deg h c)) cs).
  { rewrite Forall_forall in *. intros x Ix. destruct (W2 x Ix) as (X & Y & Z). split; [lia|]. split; [exact Y|]. rewrite F by (apply O, Ix). exact Z. }
  destruct (IH (rotateH lib deg h c) W2' N2) as (L2 & F2 & R2). split; [lia|]. split.
  - intros m Hm. cbn [map In] in Hm. rewrite F2 by tauto. apply F. intros ->. tauto.
  - cbn [map]. f_equal.
    + rewrite <- R. apply read_frame, F2. exact N1.
    + rewrite R2. apply map_ext_in. intros x Ix. f_equal. apply read_frame, F, O, Ix.
Qed.
Lemma fillH_spec fuel p layerNr h outl hls : valid h outl -> Forall (valid h) hls ->
  let '(h', r) := FillH lib fuel p layerNr h outl hls in
  (forall m, (m < List.length h)%nat -> arr h' m = arr h m) /\ r = Fill lib fuel p layerNr (Part (read h outl) (map (read h) hls)).
Proof.
  intros Vo Vh. unfold FillH, Fill. cbn [outline holes]. set (rot := rotation p layerNr).
  pose proof (copy_all_spec hls h Vh) as CA. destruct (copy_all h hls) as (h1, hc). destruct CA as (L1 & F1 & W1 & N1 & R1).
  destruct (valid_frame h h1 outl L1 F1 Vo) as (Vo1 & Ro1).
  pose proof (copyH_spec h1 outl Vo1) as CS. destruct (copyH h1 outl) as (h2, oc). destruct CS as (L2 & F2 & A2 & W2 & R2).
  destruct (rotateH_spec rot h2 oc W2) as (L3 & F3 & W3 & R3).
  assert (NE : forall x, In x hc -> s_arr x <> s_arr oc).
  { intros x Ix. rewrite Forall_forall in W1. destruct (W1 x Ix) as (_ & X & _). lia. }
  assert (Whc : Forall (whole (rotateH lib rot h2 oc)) hc).
  { rewrite Forall_forall in *. intros x Ix. destruct (W1 x Ix) as (_ & X & Y & Z). split; [lia|]. split; [exact Y|]. rewrite F3 by (apply NE, Ix). rewrite F2 by lia. exact Z. }
  destruct (rotate_all rot hc _ Whc N1) as (L4 & F4 & R4).
  set (h4 := fold_left (rotateH lib rot) hc (rotateH lib rot h2 oc)) in *.
  assert (Eo : read h4 oc = rotate_path lib rot (read h outl)).
  { rewrite <- Ro1, <- R2, <- R3. apply read_frame, F4. intros I. apply in_map_iff in I. destruct I as (x & E & Ix). exact (NE x Ix E). }
  assert (Eh : map (read h4) hc = map (rotate_path lib rot) (map (read h) hls)).
  { rewrite R4, <- R1, map_map. apply map_ext_in. intros x Ix. f_equal. rewrite Forall_forall in W1. destruct (W1 x Ix) as (_ & X & _).
    rewrite (read_frame h2 _ x) by (apply F3, NE, Ix). apply read_frame, F2, X. }
  rewrite Eo, Eh. split; [|reflexivity].
  intros m Hm. rewrite F4.
  2:{ intros I. apply in_map_iff in I. destruct I as (x & E & Ix). rewrite Forall_forall in W1. destruct (W1 x Ix). lia. }
  rewrite F3 by lia. rewrite F2 by lia. apply F1, Hm.
Qed.
End HeapFill.
