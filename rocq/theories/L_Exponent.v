(** Decimal texts with an exponent. *)
From Coq Require Import Reals Psatz ZifyBool.
From Verif Require Import GoBase GoFloat GoStr M_Micrometer M_Option M_Flags S_Text L_Str L_Float L_Micrometer L_Decimal.
From Flocq Require Import Core BinarySingleNaN.
Local Open Scope string_scope.
Local Open Scope Z_scope.

Lemma scan_read_more c u : is_digit c = false -> Ascii.eqb c "_" = false -> Ascii.eqb c "." = false -> forall s acc dot k a k' sd und, num_scan s acc dot k = Some (a, k') ->
  read_digits false (s ++ String c u) acc (Z.of_nat k) dot sd und = (a, Z.of_nat k', sd || any_digit s, und, String c u).
Proof.
  intros C1 C2 C3. induction s as [|d s IH]; intros acc dot k a k' sd und; cbn [num_scan append read_digits]; cbv zeta.
  - intros [= <- <-]. rewrite C1, C2, C3. unfold any_digit. cbn. rewrite orb_false_r. reflexivity.
  - unfold any_digit. cbn [all_chars]. destruct (is_digit d) eqn:D.
    + destruct (digit_char d D) as (-> & -> & _). cbn [orb negb andb].
      intros H. rewrite orb_true_r. replace (acc * 10 + (code d - 48)) with (10 * acc + (code d - 48)) by ring.
      replace (if dot then Z.of_nat k + 1 else Z.of_nat k) with (Z.of_nat (if dot then S k else k)) by (destruct dot; lia).
      rewrite (IH _ _ _ _ _ true und H). reflexivity.
    + destruct (Ascii.eqb_spec d ".") as [->|]; [|discriminate]. cbn [andb negb]. destruct dot; [discriminate|]. cbn [negb].
      change (Ascii.eqb "." "_") with false. cbv iota. intros H. rewrite (IH _ _ _ _ _ sd und H). reflexivity.
Qed.
Lemma dec_val_grows t : forall acc n, 0 <= acc -> dec_val acc t = Some n -> acc <= n.
Proof.
  induction t as [|c t IH]; intros acc n A; cbn [dec_val]; [intros [= <-]; lia|]. destruct (is_digit c) eqn:D; [|discriminate]. intros H.
  apply IH in H; unfold is_digit in D; lia.
Qed.
Lemma exp_read t : forall acc n und, 0 <= acc -> dec_val acc t = Some n -> n < 10000 -> read_exp t acc und = (n, und, "").
Proof.
  induction t as [|c t IH]; intros acc n und A; cbn [dec_val read_exp]; [intros [= <-]; reflexivity|]. destruct (is_digit c) eqn:D; [|discriminate]. intros H N.
  destruct (digit_char c D) as (-> & _). assert (Ad : 0 <= 10 * acc + (code c - 48)) by (unfold is_digit in D; lia). pose proof (dec_val_grows t _ _ Ad H) as G.
  destruct (Z.ltb_spec acc 10000); [|unfold is_digit in D; lia]. replace (acc * 10 + (code c - 48)) with (10 * acc + (code c - 48)) by ring.
  apply IH; [unfold is_digit in D; lia|exact H|exact N].
Qed.
Lemma special_num c t : num_char c = true -> special (String c t) = None.
Proof.
  intros H. destruct (special_cons c t) as [|I]; [assumption|]. rewrite (lowered_num c H) in I. exfalso.
  destruct I as [<-|[<-|[<-|[<-|[]]]]]; discriminate H.
Qed.
Lemma special_minus_num c t : num_char c = true -> special (String "-" (String c t)) = None.
Proof.
  intros H. unfold special. cbn [lower]. fold (lowered c). rewrite (lowered_num c H).
  set (u := lower t). clearbody u.
  assert (N : Ascii.eqb c "i" = false) by (apply Ascii.eqb_neq; intros ->; discriminate H).
  change (if (65 <=? code "-") && (code "-" <=? 90) then chr (code "-" + 32) else "-"%char) with "-"%char.
  assert (E : forall w r, String.eqb (String "-" (String c u)) (String w r) = (Ascii.eqb "-" w && String.eqb (String c u) r)%bool).
  { intros w r. cbn [String.eqb]. destruct (Ascii.eqb "-" w); reflexivity. }
  rewrite !E. change (Ascii.eqb "-" "n") with false. change (Ascii.eqb "-" "i") with false. change (Ascii.eqb "-" "+") with false. change (Ascii.eqb "-" "-") with true.
  assert (E2 : forall r, String.eqb (String c u) (String "i" r) = false) by (intros r; cbn [String.eqb]; rewrite N; reflexivity).
  rewrite !E2. reflexivity.
Qed.
Lemma power_10 e : 0 <= e -> powerRZ 10 e = IZR (10 ^ e).
Proof. intros H. rewrite <- (Z2Nat.id e H), <- pow_powerRZ, <- (pow_IZR 10). reflexivity. Qed.
Lemma decimal32_real neg m e : 0 <= m ->
  let q := rnd32 (IZR (cond_opp neg m) * powerRZ 10 e) in (Rabs q < bpow radix2 128)%R -> fin32 (decimal32 neg m e) q.
Proof.
  intros Hm q H. destruct (Z_lt_le_dec e 0) as [N|P].
  - assert (E : (IZR (cond_opp neg m) * powerRZ 10 e = IZR (cond_opp neg m) / IZR (10 ^ (- e)))%R).
    { rewrite <- power_10 by lia. rewrite powerRZ_neg'. unfold Rdiv. rewrite Rinv_inv. reflexivity. }
    replace e with (- - e) by lia. unfold q in *. rewrite E in *. apply decimal32_correct; [exact Hm|lia|exact H].
  - unfold decimal32. destruct m as [|p|p]; [| |lia].
    + assert (E : q = 0%R).
      { unfold q. replace (IZR (cond_opp neg 0)) with 0%R by (destruct neg; reflexivity). rewrite Rmult_0_l. apply round_0. auto with typeclass_instances. }
      rewrite E. repeat split.
    + destruct (Z.leb_spec 0 e); [|lia].
      assert (E : F2R (Float radix2 (cond_opp neg (Zpos p * 10 ^ e)) 0) = (IZR (cond_opp neg (Zpos p)) * powerRZ 10 e)%R).
      { rewrite power_10 by lia. unfold F2R. cbn [Fnum Fexp bpow]. rewrite Rmult_1_r, <- mult_IZR. f_equal. destruct neg; cbn [cond_opp]; ring. }
      pose proof (fin_normalize 24 128 P24 E24 (cond_opp neg (Zpos p * 10 ^ e)) 0 neg) as F. rewrite E in F. apply F, H.
Qed.

Lemma any_digit_ne s : any_digit s = true -> exists c t, s = String c t.
Proof. destruct s as [|c t]; [discriminate|eauto]. Qed.
(** the text behind e *)
Lemma exponent_read sg t n und : In sg [""; "+"; "-"] -> t <> "" -> dec_val 0 t = Some n -> n < 10000 ->
  read_exponent (sg ++ t) und = Some ((if String.eqb sg "-" then - n else n), und, "").
Proof.
  intros I Nt D Hn. destruct t as [|c t]; [congruence|].
  assert (Dc : is_digit c = true) by (cbn [dec_val] in D; destruct (is_digit c); [reflexivity|discriminate]).
  assert (E : split_sign (sg ++ String c t) = (String.eqb sg "-", String c t)).
  { destruct I as [<-|[<-|[<-|[]]]]; cbn [append split_sign]; [|reflexivity..]. destruct (digit_char c Dc) as (_ & _ & -> & ->). reflexivity. }
  unfold read_exponent. rewrite E, Dc, (exp_read _ _ _ und (Z.le_refl 0) D Hn). reflexivity.
Qed.
Lemma parse_exponent s a k c sg t n : parse_num s = Some (a, k) -> any_digit s = true -> In c ["e"; "E"]%char -> In sg [""; "+"; "-"] -> t <> "" -> dec_val 0 t = Some n -> n < 10000 ->
  exists neg m, 0 <= m /\ a = cond_opp neg m /\
    parse_float32 (s ++ String c (sg ++ t)) = finish32 (decimal32 neg m ((if String.eqb sg "-" then - n else n) - Z.of_nat k)).
Proof.
  intros P D Ic Is Nt Dt Hn.
  assert (C : is_digit c = false /\ Ascii.eqb c "_" = false /\ Ascii.eqb c "." = false /\ (lowerc c =? 101) = true /\ (lowerc c =? 120) = false) by (destruct Ic as [<-|[<-|[]]]; repeat split).
  destruct C as (C1 & C2 & C3 & C4 & C5).
  assert (B : forall w u m neg j, num_scan u 0 false 0 = Some (m, j) -> any_digit u = true -> special w = None -> split_sign w = (neg, (u ++ String c (sg ++ t))%string) ->
    0 <= m /\ parse_float32 w = finish32 (decimal32 neg m ((if String.eqb sg "-" then - n else n) - Z.of_nat j))).
  { intros w u m neg j S Du Hs Hsg. split.
    - assert (G : forall u acc dot i r, 0 <= acc -> num_scan u acc dot i = Some r -> 0 <= fst r).
      { clear. induction u as [|c u IH]; intros acc dot i r Ha; cbn [num_scan]; [intros [= <-]; exact Ha|].
        destruct (is_digit c) eqn:D; [apply IH; unfold is_digit in D; lia|]. destruct (Ascii.eqb c "." && negb dot); [apply IH, Ha|discriminate]. }
      apply (G _ _ _ _ _ (Z.le_refl 0) S).
    - assert (SB : split_base (u ++ String c (sg ++ t)) = (false, (u ++ String c (sg ++ t))%string)).
      { pose proof (scan_chars _ _ _ _ _ S) as A. destruct u as [|z [|x u]]; [discriminate Du| |]; cbn [append].
        - unfold split_base. destruct (sg ++ t); [reflexivity|]. rewrite C5, andb_false_r. reflexivity.
        - cbn [all_chars] in A. apply andb_prop in A. destruct A as (_ & A). apply andb_prop in A. destruct A as (A & _). apply num_char_cases in A. destruct A as (_ & A).
          unfold split_base. destruct (u ++ String c (sg ++ t)); [reflexivity|]. rewrite A, andb_false_r. reflexivity. }
      unfold parse_float32. rewrite Hs, Hsg, SB.
      change 0%Z with (Z.of_nat 0) at 2. rewrite (scan_read_more c (sg ++ t) C1 C2 C3 u 0 false 0 m j false false S), Du. cbn [orb negb].
      cbv iota. rewrite C4, (exponent_read sg t n false Is Nt Dt Hn). reflexivity. }
  unfold parse_num in P. destruct (any_digit_ne s D) as (d & r & ->).
  destruct (Ascii.eqb_spec d "-") as [->|Nd].
  - destruct (num_scan r 0 false 0) as [[m j]|] eqn:S; [|discriminate]. injection P as <- <-.
    assert (Dr : any_digit r = true) by exact D. destruct (any_digit_ne r Dr) as (d & r' & ->).
    destruct (B (String "-" (String d r') ++ String c (sg ++ t)) (String d r') m true j S Dr) as [B1 B2].
    + cbn [append]. apply special_minus_num. pose proof (scan_chars _ _ _ _ _ S) as A. cbn [all_chars] in A. apply andb_prop in A. apply A.
    + reflexivity.
    + exists true, m. auto.
  - destruct (B (String d r ++ String c (sg ++ t)) (String d r) a false k P D) as [B1 B2].
    + cbn [append]. apply special_num. pose proof (scan_chars _ _ _ _ _ P) as A. cbn [all_chars] in A. apply andb_prop in A. apply A.
    + cbn [append split_sign]. pose proof (scan_chars _ _ _ _ _ P) as A. cbn [all_chars] in A. apply andb_prop in A. destruct A as (A & _).
      destruct (Ascii.eqb_spec d "+") as [->|]; [discriminate A|]. destruct (Ascii.eqb_spec d "-") as [->|]; [discriminate A|reflexivity].
    + exists false, a. auto.
Qed.
Lemma millimeter_exponent s a k c sg t n : parse_num s = Some (a, k) -> any_digit s = true -> In c ["e"; "E"]%char -> In sg [""; "+"; "-"] -> t <> "" -> dec_val 0 t = Some n -> n < 10000 ->
  let q := rnd32 (IZR a / IZR (10 ^ Z.of_nat k) * powerRZ 10 (if String.eqb sg "-" then - n else n)) in
  (Rabs q < bpow radix2 128)%R -> exists x, MillimeterSet (s ++ String c (sg ++ t)) = (x, None) /\ fin32 x q.
Proof.
  intros P D Ic Is Nt Dt Hn q Hq. destruct (parse_exponent s a k c sg t n P D Ic Is Nt Dt Hn) as (neg & m & Hm & -> & E). set (e := if String.eqb sg "-" then - n else n) in *.
  assert (V : (IZR (cond_opp neg m) / IZR (10 ^ Z.of_nat k) * powerRZ 10 e = IZR (cond_opp neg m) * powerRZ 10 (e - Z.of_nat k))%R).
  { rewrite <- power_10 by lia. unfold Z.sub. rewrite powerRZ_add by lra. rewrite powerRZ_neg'. unfold Rdiv. ring. }
  unfold q in *. rewrite V in *. pose proof (decimal32_real neg m (e - Z.of_nat k) Hm Hq) as F.
  exists (decimal32 neg m (e - Z.of_nat k)). split; [|exact F]. unfold MillimeterSet. rewrite E. unfold finish32.
  destruct F as (_ & Fi & _). destruct (decimal32 neg m (e - Z.of_nat k)); try reflexivity. discriminate Fi.
Qed.
