From Verif Require Import GoBase GoFloat GoStr M_Micrometer M_Option S_Text S_Option L_Str.
From Coq Require Import Permutation.
Local Open Scope string_scope.
Local Open Scope Z_scope.

(** *** decimal parsing *)
Lemma digit_val_digit c : is_digit c = true -> digit_val c = Some (code c - 48).
Proof. intros H. unfold digit_val. rewrite H. reflexivity. Qed.
Lemma is_digit_range c : is_digit c = true -> 0 <= code c - 48 < 10.
Proof. unfold is_digit. intros H. apply andb_prop in H. destruct H as [H1 H2]. apply Z.leb_le in H1, H2. lia. Qed.
Lemma digit_not_us c : is_digit c = true -> Ascii.eqb c "_" = false.
Proof. intros H. apply digit_neq; [exact H|reflexivity]. Qed.
Lemma lower_not_digit c : is_digit c = false -> digit_val c = None \/ exists d, digit_val c = Some d /\ 10 <= d.
Proof.
  intros H. unfold digit_val. rewrite H. destruct ((97 <=? lowerc c) && (lowerc c <=? 122)) eqn:E; [|left; reflexivity].
  right. eexists. split; [reflexivity|]. apply andb_prop in E. destruct E as [E _]. apply Z.leb_le in E. lia.
Qed.
Lemma dec_val_ge s : forall n v, 0 <= n -> dec_val n s = Some v -> n <= v.
Proof.
  induction s as [|c s IH]; intros n v Hn H; cbn [dec_val] in H; [injection H as <-; lia|].
  destruct (is_digit c) eqn:E; [|discriminate]. pose proof (is_digit_range c E). apply IH in H; lia.
Qed.

(** base 10 without underscores *)
Lemma parse_digits10 b0 s : forall n, 0 <= n <= maxUint64 -> forall v, dec_val n s = Some v ->
  parse_digits 10 b0 s n false = if v <=? maxUint64 then inl (v, false) else inr (maxUint64, RangeErr).
Proof.
  induction s as [|c s IH]; intros n Hn v H; cbn [dec_val parse_digits] in *.
  - injection H as <-. destruct (Z.leb_spec n maxUint64); [reflexivity|lia].
  - destruct (is_digit c) eqn:E; [|discriminate]. pose proof (is_digit_range c E) as R.
    rewrite digit_not_us by exact E. cbn [andb]. rewrite digit_val_digit by exact E.
    destruct (Z.leb_spec 10 (code c - 48)); [lia|].
    replace (n * 10 + (code c - 48)) with (10 * n + (code c - 48)) by ring.
    destruct (Z.ltb_spec maxUint64 (10 * n + (code c - 48))) as [G|G].
    + apply dec_val_ge in H; [|lia]. destruct (Z.leb_spec v maxUint64); [lia|reflexivity].
    + apply IH; [lia|exact H].
Qed.
Lemma parse_digits10_not s : forall n, 0 <= n <= maxUint64 -> dec_val n s = None ->
  exists m e, parse_digits 10 false s n false = inr (m, e).
Proof.
  induction s as [|c s IH]; intros n Hn H; cbn [dec_val parse_digits] in *; [discriminate|].
  rewrite andb_false_r. destruct (is_digit c) eqn:E.
  - pose proof (is_digit_range c E) as R. rewrite digit_val_digit by exact E.
    destruct (Z.leb_spec 10 (code c - 48)); [eauto|].
    replace (n * 10 + (code c - 48)) with (10 * n + (code c - 48)) by ring.
    destruct (Z.ltb_spec maxUint64 (10 * n + (code c - 48))) as [G|G]; [eauto|]. apply IH; [lia|exact H].
  - destruct (lower_not_digit c E) as [->|(d & -> & Hd)]; [eauto|].
    destruct (Z.leb_spec 10 d); [eauto|lia].
Qed.

Lemma parse_uint10 s : s <> "" -> forall v, dec_val 0 s = Some v ->
  parse_uint false s = if v <=? maxUint64 then (v, None) else (maxUint64, Some RangeErr).
Proof.
  intros Hs v H. destruct s as [|c s]; [contradiction|]. unfold parse_uint. cbn [andb].
  rewrite (parse_digits10 false _ 0 ltac:(vm_compute; split; discriminate) v H).
  destruct (v <=? maxUint64); reflexivity.
Qed.
Lemma parse_uint10_not s : dec_val 0 s = None -> exists m e, parse_uint false s = (m, Some e) .
Proof.
  intros H. destruct s as [|c s]; [discriminate|]. unfold parse_uint. cbn [andb].
  destruct (parse_digits10_not (String c s) 0 ltac:(vm_compute; split; discriminate) H) as (m & e & ->). eauto.
Qed.
(** base 0 for a text that starts with 1-9 *)
Lemma parse_uint0 s c t : s = String c t -> Ascii.eqb c "0" = false -> forall v, dec_val 0 s = Some v ->
  parse_uint true s = if v <=? maxUint64 then (v, None) else (maxUint64, Some RangeErr).
Proof.
  intros Hs Hc v H. unfold parse_uint. rewrite Hs, Hc. cbn [andb]. rewrite <- Hs.
  rewrite (parse_digits10 true _ 0 ltac:(vm_compute; split; discriminate) v H).
  destruct (v <=? maxUint64); reflexivity.
Qed.

Lemma max_val : maxUint64 = 2 ^ 64 - 1. Proof. reflexivity. Qed.

(** *** Atoi: exact characterisation *)
Lemma dec_first s n : dec_val 0 s = Some n -> s <> "" -> exists c t, s = String c t /\ is_digit c = true.
Proof.
  destruct s as [|c t]; [contradiction|]. cbn. destruct (is_digit c) eqn:E; [|discriminate]. eauto.
Qed.
Lemma parse_int_body b0 c t neg body un : neg = Ascii.eqb c "-" -> body = (if neg || Ascii.eqb c "+" then t else String c t) ->
  0 <= un ->
  parse_uint b0 body = (if un <=? maxUint64 then (un, None) else (maxUint64, Some RangeErr)) ->
  parse_int b0 (String c t) =
    if neg then (if un <=? 2 ^ 63 then (- un, None) else (minInt64, Some RangeErr))
    else (if un <? 2 ^ 63 then (un, None) else (maxInt64, Some RangeErr)).
Proof.
  intros Hn Hb Hu H. unfold parse_int. rewrite <- Hn, <- Hb, H. rewrite max_val.
  destruct (Z.leb_spec un (2 ^ 64 - 1)); destruct neg; cbn [negb andb].
  - destruct (Z.ltb_spec (2 ^ 63) un); destruct (Z.leb_spec un (2 ^ 63)); try lia; reflexivity.
  - destruct (Z.leb_spec (2 ^ 63) un); destruct (Z.ltb_spec un (2 ^ 63)); try lia; reflexivity.
  - destruct (Z.leb_spec un (2 ^ 63)); [lia|reflexivity].
  - destruct (Z.ltb_spec un (2 ^ 63)); [lia|reflexivity].
Qed.
Lemma parse_int_int64 b0 s v e : parse_int b0 s = (v, e) -> int64 v.
Proof.
  assert (U : forall s, 0 <= fst (parse_uint b0 s) <= maxUint64).
  { clear. intros s.
    assert (D : forall base b0 s n und, 0 < base -> 0 <= n <= maxUint64 -> match parse_digits base b0 s n und with inl (m, _) => 0 <= m <= maxUint64 | inr (m, _) => 0 <= m <= maxUint64 end).
    { clear. intros base b0 s; induction s as [|c s IH]; intros n und Hb Hn; cbn [parse_digits]; [exact Hn|].
      destruct (Ascii.eqb c "_" && b0); [apply IH; assumption|].
      destruct (digit_val c) as [d|] eqn:Ed; [|vm_compute; split; discriminate].
      destruct (base <=? d); [vm_compute; split; discriminate|].
      destruct (Z.ltb_spec maxUint64 (n * base + d)) as [G|G]; [vm_compute; split; discriminate|].
      apply IH; [exact Hb|]. split; [|exact G].
      assert (0 <= d).
      { unfold digit_val in Ed. destruct (is_digit c) eqn:E; [injection Ed as <-; apply is_digit_range in E; lia|].
        destruct ((97 <=? lowerc c) && _) eqn:E2; [|discriminate]. apply andb_prop in E2. destruct E2 as [E2 _]. apply Z.leb_le in E2. injection Ed as <-. lia. }
      nia. }
    assert (F : forall base b0 r (s0 : string), 0 < base -> 0 <= fst (match parse_digits base b0 r 0 false with
       | inl (n, und) => if und && negb (underscoreOK s0) then (0, Some SyntaxErr) else (n, None)
       | inr (n, e) => (n, Some e) end) <= maxUint64).
    { intros base b r s0 Hb. specialize (D base b r 0 false Hb ltac:(vm_compute; split; discriminate)).
      destruct (parse_digits base b r 0 false) as [[m u]|[m e]]; [|exact D]. destruct (u && _); [vm_compute; split; discriminate|exact D]. }
    unfold parse_uint. destruct s as [|c t]; [vm_compute; split; discriminate|].
    destruct (b0 && Ascii.eqb c "0"); [|apply F; lia].
    destruct t as [|p [|q r]]; try (apply F; lia).
    destruct (lowerc p =? 98); [apply F; lia|]. destruct (lowerc p =? 111); [apply F; lia|].
    destruct (lowerc p =? 120); apply F; lia. }
  unfold parse_int. destruct s as [|c t]; [intros H; injection H as <- _; unfold int64; lia|].
  specialize (U (if Ascii.eqb c "-" || Ascii.eqb c "+" then t else String c t)).
  destruct (parse_uint b0 _) as [un o]. cbn [fst] in U.
  assert (R : (if negb (Ascii.eqb c "-") && (2 ^ 63 <=? un) then (maxInt64, Some RangeErr)
     else if Ascii.eqb c "-" && (2 ^ 63 <? un) then (minInt64, Some RangeErr)
     else (if Ascii.eqb c "-" then - un else un, None)) = (v, e) -> int64 v).
  { destruct (Ascii.eqb c "-"); cbn [negb andb].
    - destruct (Z.ltb_spec (2 ^ 63) un); intros K; injection K as <- _; unfold int64, minInt64; lia.
    - destruct (Z.leb_spec (2 ^ 63) un); intros K; injection K as <- _; unfold int64, maxInt64; lia. }
  destruct o as [[|]|]; [intros H; injection H as <- _; unfold int64; lia|exact R..].
Qed.

Lemma atoi_spec s v : atoi s = (v, None) <-> int_text s v /\ int64 v.
Proof.
  unfold atoi. split.
  - intros H. split; [|eapply parse_int_int64, H]. destruct s as [|c t]; [discriminate|].
    assert (G : forall body, (exists n, dec_val 0 body = Some n) \/ exists m e, parse_uint false body = (m, Some e)).
    { intros body. destruct (dec_val 0 body) as [n|] eqn:E; [left; eauto|right; apply parse_uint10_not, E]. }
    assert (Bad : forall body m e, parse_uint false body = (m, Some e) -> body = (if Ascii.eqb c "-" || Ascii.eqb c "+" then t else String c t) -> False).
    { intros body m e E Eb. unfold parse_int in H. rewrite <- Eb, E in H. destruct e; [discriminate|].
      destruct body as [|b0 b1]; [cbn in E; discriminate|].
      assert (m = maxUint64).
      { unfold parse_uint in E. cbn [andb] in E. 
        assert (Q : forall s n u, match parse_digits 10 false s n u with inr (m, RangeErr) => m = maxUint64 | _ => True end).
        { clear. induction s as [|c s IH]; intros n u; cbn [parse_digits]; [exact I|].
          destruct (Ascii.eqb c "_" && false); [apply IH|]. destruct (digit_val c); [|exact I].
          destruct (10 <=? z); [exact I|]. destruct (maxUint64 <? n * 10 + z); [reflexivity|apply IH]. }
        specialize (Q (String b0 b1) 0 false). destruct (parse_digits 10 false (String b0 b1) 0 false) as [[n u]|[n e]].
        - destruct (u && _); discriminate.
        - injection E as -> ->. exact Q. }
      subst m. rewrite max_val in H. destruct (Ascii.eqb c "-"); cbn [negb andb] in H.
      - destruct (Z.ltb_spec (2 ^ 63) (2 ^ 64 - 1)); [discriminate|lia].
      - destruct (Z.leb_spec (2 ^ 63) (2 ^ 64 - 1)); [discriminate|lia]. }
    assert (Ne : forall body n, dec_val 0 body = Some n -> body = (if Ascii.eqb c "-" || Ascii.eqb c "+" then t else String c t) -> body <> "").
    { intros body n _ Eb ->. unfold parse_int in H. rewrite <- Eb in H. discriminate. }
    destruct (Ascii.eqb_spec c "-") as [->|N1]; [|destruct (Ascii.eqb_spec c "+") as [->|N2]].
    + destruct (G t) as [(n & E)|(m & e & E)]; [|exfalso; eapply Bad; [exact E|reflexivity]].
      assert (Ht : t <> "") by (eapply Ne; [exact E|reflexivity]).
      rewrite (parse_int_body false "-" t true t n eq_refl eq_refl) in H.
      * destruct (n <=? 2 ^ 63); [|discriminate]. injection H as <-. change (String "-" t) with ("-" ++ t). constructor; assumption.
      * eapply dec_val_ge; [|exact E]; lia.
      * apply parse_uint10; assumption.
    + destruct (G t) as [(n & E)|(m & e & E)]; [|exfalso; eapply Bad; [exact E|reflexivity]].
      assert (Ht : t <> "") by (eapply Ne; [exact E|reflexivity]).
      rewrite (parse_int_body false "+" t false t n eq_refl eq_refl) in H.
      * destruct (n <? 2 ^ 63); [|discriminate]. injection H as <-. change (String "+" t) with ("+" ++ t). constructor; assumption.
      * eapply dec_val_ge; [|exact E]; lia.
      * apply parse_uint10; assumption.
    + destruct (G (String c t)) as [(n & E)|(m & e & E)]; [|exfalso; eapply Bad; [exact E|reflexivity]].
      apply Ascii.eqb_neq in N1. apply Ascii.eqb_neq in N2.
      rewrite (parse_int_body false c t false (String c t) n) in H.
      * destruct (n <? 2 ^ 63); [|discriminate]. injection H as <-. constructor; [discriminate|assumption].
      * symmetry; exact N1.
      * rewrite N2. reflexivity.
      * eapply dec_val_ge; [|exact E]; lia.
      * apply parse_uint10; [discriminate|assumption].
  - intros [H I]. unfold int64 in I. destruct H as [s n Hs H|s n Hs H|s n Hs H].
    + destruct (dec_first s n H Hs) as (c & t & -> & Hc).
      assert (N1 : Ascii.eqb c "-" = false) by (apply digit_neq; [exact Hc|reflexivity]).
      assert (N2 : Ascii.eqb c "+" = false) by (apply digit_neq; [exact Hc|reflexivity]).
      assert (0 <= n) by (eapply dec_val_ge; [|exact H]; lia).
      rewrite (parse_int_body false c t false (String c t) n); [|symmetry; exact N1|rewrite N2; reflexivity|assumption|apply parse_uint10; assumption].
      destruct (Z.ltb_spec n (2 ^ 63)); [reflexivity|lia].
    + assert (0 <= n) by (eapply dec_val_ge; [|exact H]; lia). cbn [append].
      rewrite (parse_int_body false "+" s false s n eq_refl eq_refl); [|assumption|apply parse_uint10; assumption].
      destruct (Z.ltb_spec n (2 ^ 63)); [reflexivity|lia].
    + assert (0 <= n) by (eapply dec_val_ge; [|exact H]; lia). cbn [append].
      rewrite (parse_int_body false "-" s true s n eq_refl eq_refl); [|assumption|apply parse_uint10; assumption].
      destruct (Z.leb_spec n (2 ^ 63)); [reflexivity|lia].
Qed.

Lemma itoa_text z : int_text (itoa z) z.
Proof.
  unfold itoa. destruct (Z.ltb_spec z 0).
  - replace z with (- - z) at 2 by lia. constructor; [|apply udec_val; lia].
    destruct (udec_nonempty (- z) ltac:(lia)) as (c & t & -> & _). discriminate.
  - constructor; [|apply udec_val; lia]. destruct (udec_nonempty z ltac:(lia)) as (c & t & -> & _). discriminate.
Qed.
Lemma atoi_itoa z : int64 z -> atoi (itoa z) = (z, None).
Proof. intros H. apply atoi_spec. split; [apply itoa_text|exact H]. Qed.

(** *** Micrometer *)
Lemma micrometer_text z : int64 z -> MicrometerSet (MicrometerString z) = (z, None).
Proof.
  intros I. unfold MicrometerSet, MicrometerString, itoa. unfold int64 in I.
  assert (U : forall n, 0 < n -> forall b, parse_int true (if b : bool then String "-" (udec n) else udec n) =
    if b then (if n <=? 2 ^ 63 then (- n, None) else (minInt64, Some RangeErr))
    else (if n <? 2 ^ 63 then (n, None) else (maxInt64, Some RangeErr))).
  { intros n Hn b. destruct (udec_head n Hn) as (d & t & Hd & E).
    assert (P : parse_uint true (udec n) = if n <=? maxUint64 then (n, None) else (maxUint64, Some RangeErr)).
    { eapply parse_uint0; [exact E| |apply udec_val; lia].
      destruct (Ascii.eqb_spec (digit_char d) "0") as [C|]; [|reflexivity].
      assert (code (digit_char d) = 48) by (rewrite C; reflexivity). rewrite code_digit in *; lia. }
    destruct b.
    - apply (parse_int_body true "-" (udec n) true (udec n) n); [reflexivity|reflexivity|lia|exact P].
    - rewrite E in *. apply (parse_int_body true (digit_char d) t false (String (digit_char d) t) n); [| |lia|exact P].
      + symmetry. apply digit_neq; [apply is_digit_digit; lia|reflexivity].
      + rewrite (digit_neq (digit_char d) "+"); [reflexivity|apply is_digit_digit; lia|reflexivity]. }
  destruct (Z.ltb_spec z 0) as [C|C].
  - change ("-" ++ udec (- z)) with (String "-" (udec (- z))). rewrite (U (- z) ltac:(lia) true).
    destruct (Z.leb_spec (- z) (2 ^ 63)); [|lia]. f_equal. lia.
  - destruct (Z.eq_dec z 0) as [->|N]; [reflexivity|]. rewrite (U z ltac:(lia) false).
    destruct (Z.ltb_spec z (2 ^ 63)); [reflexivity|lia].
Qed.
Lemma micrometer_int64 s : int64 (fst (MicrometerSet s)).
Proof. unfold MicrometerSet. destruct (parse_int true s) as [v e] eqn:E. eapply parse_int_int64, E. Qed.
Lemma micrometer_plain c t n : is_digit c = true -> c <> "0"%char -> dec_val 0 (String c t) = Some n ->
  MicrometerSet (String c t) = (if n <? 2 ^ 63 then (n, None) else (maxInt64, Some RangeErr)) /\
  MicrometerSet (String "-" (String c t)) = (if n <=? 2 ^ 63 then (- n, None) else (minInt64, Some RangeErr)) .
Proof.
  intros Hc H0 H. assert (0 <= n) by (eapply dec_val_ge; [|exact H]; lia).
  assert (P : parse_uint true (String c t) = if n <=? maxUint64 then (n, None) else (maxUint64, Some RangeErr)).
  { eapply parse_uint0; [reflexivity| |exact H]. apply Ascii.eqb_neq, H0. }
  split; unfold MicrometerSet.
  - apply (parse_int_body true c t false (String c t) n); [| |lia|exact P].
    + symmetry. apply digit_neq; [exact Hc|reflexivity].
    + rewrite (digit_neq c "+"); [reflexivity|exact Hc|reflexivity].
  - apply (parse_int_body true "-" (String c t) true (String c t) n); [reflexivity|reflexivity|lia|exact P].
Qed.
Lemma micrometer_rejected s v e : MicrometerSet s = (v, Some e) ->
  (e = SyntaxErr /\ v = 0) \/ (e = RangeErr /\ (v = maxInt64 \/ v = minInt64)).
Proof.
  unfold MicrometerSet, parse_int. destruct s as [|c t]; [intros H; injection H as <- <-; auto|].
  destruct (parse_uint true _) as [un [[|]|]].
  - intros H; injection H as <- <-; auto.
  - destruct (_ && _); [intros H; injection H as <- <-; auto|]. destruct (_ && _); [intros H; injection H as <- <-; auto|discriminate].
  - destruct (_ && _); [intros H; injection H as <- <-; auto|]. destruct (_ && _); [intros H; injection H as <- <-; auto|discriminate].
Qed.
Lemma micrometer_clobbers : exists s, snd (MicrometerSet s) <> None /\ fst (MicrometerSet s) <> 200.
Proof. exists "2mm". vm_compute. split; discriminate. Qed.

(** *** vectors *)
Lemma all_chars_itoa (p : ascii -> bool) z : p "-"%char = true -> (forall c, is_digit c = true -> p c = true) -> all_chars p (itoa z) = true.
Proof.
  intros Hm Hd. unfold itoa. destruct (Z.ltb_spec z 0).
  - cbn [append all_chars]. rewrite Hm. cbn [andb]. eapply all_chars_mono; [exact Hd|apply udec_digits; lia].
  - eapply all_chars_mono; [exact Hd|apply udec_digits; lia].
Qed.
Lemma no_char_itoa c z : is_digit c = false -> c <> "-"%char -> no_char c (itoa z) = true.
Proof.
  intros Hc Hm. apply all_chars_itoa.
  - apply negb_true_iff. apply Ascii.eqb_neq. exact Hm.
  - intros d Hd. apply negb_true_iff. apply Ascii.eqb_neq. congruence.
Qed.
Lemma vec3_text old v : wf_vec3 v -> MicroVec3Set old (MicroVec3String v) = (v, None).
Proof.
  intros (Hx & Hy & Hz). unfold MicroVec3String, MicroVec3Set.
  change ("_" ++ MicrometerString (vz v)) with (String "_" (MicrometerString (vz v))).
  change ("_" ++ MicrometerString (vy v) ++ String "_" (MicrometerString (vz v)))
    with (String "_" (MicrometerString (vy v) ++ String "_" (MicrometerString (vz v)))).
  rewrite split_app by (apply no_char_itoa; [reflexivity|discriminate]).
  rewrite split_app by (apply no_char_itoa; [reflexivity|discriminate]).
  rewrite split_none by (apply no_char_itoa; [reflexivity|discriminate]).
  rewrite !micrometer_text by assumption. destruct v; reflexivity.
Qed.
Lemma vec3_atomic old s v e : MicroVec3Set old s = (v, Some e) -> v = old.
Proof.
  unfold MicroVec3Set. destruct (split "_" s) as [|a [|b [|c [|]]]]; try (intros H; injection H as <- _; reflexivity).
  destruct (MicrometerSet a) as [x [?|]]; [intros H; injection H as <- _; reflexivity|].
  destruct (MicrometerSet b) as [y [?|]]; [intros H; injection H as <- _; reflexivity|].
  destruct (MicrometerSet c) as [z [?|]]; [intros H; injection H as <- _; reflexivity|discriminate].
Qed.
Lemma vec3_accepted old s v : MicroVec3Set old s = (v, None) <->
  exists a b c, s = a ++ "_" ++ b ++ "_" ++ c /\ no_char "_" a = true /\ no_char "_" b = true /\ no_char "_" c = true /\
    MicrometerSet a = (vx v, None) /\ MicrometerSet b = (vy v, None) /\ MicrometerSet c = (vz v, None).
Proof.
  split.
  - unfold MicroVec3Set. pose proof (join_split "_" s) as J. pose proof (split_pieces "_" s) as P.
    destruct (split "_" s) as [|a [|b [|c [|]]]]; try discriminate.
    destruct (MicrometerSet a) as [x [?|]] eqn:Ea; [discriminate|].
    destruct (MicrometerSet b) as [y [?|]] eqn:Eb; [discriminate|].
    destruct (MicrometerSet c) as [z [?|]] eqn:Ec; [discriminate|]. intros H. injection H as <-.
    inversion P as [|? ? P1 P']; subst. inversion P' as [|? ? P2 P'']; subst. inversion P'' as [|? ? P3 _]; subst.
    exists a, b, c. cbn [vx vy vz]. repeat split; assumption.
  - intros (a & b & c & -> & Na & Nb & Nc & Ea & Eb & Ec). unfold MicroVec3Set.
    change ("_" ++ c) with (String "_" c). change ("_" ++ b ++ String "_" c) with (String "_" (b ++ String "_" c)).
    rewrite split_app, split_app, split_none by assumption. rewrite Ea, Eb, Ec. destruct v; reflexivity.
Qed.

(** *** fan table *)
Lemma lut_get_set t k v k' : lut_get (lut_set t k v) k' = if k =? k' then Some v else lut_get t k'.
Proof.
  induction t as [|[a b] t IH]; cbn [lut_set lut_get]; [reflexivity|].
  destruct (Z.eqb_spec a k) as [->|N]; cbn [lut_get].
  - destruct (k =? k'); reflexivity.
  - destruct (Z.eqb_spec a k') as [->|N']; [|exact IH]. destruct (Z.eqb_spec k k'); [congruence|reflexivity].
Qed.

Lemma no_char_spec c s : no_char c s = true <-> ~ exists a b, s = a ++ String c b.
Proof.
  induction s as [|d s IH]; cbn.
  - split; [intros _ (a & b & H); destruct a; discriminate|reflexivity].
  - destruct (Ascii.eqb_spec c d) as [->|N]; cbn.
    + split; [discriminate|]. intros H. exfalso. apply H. exists "", s. reflexivity.
    + rewrite IH. split; intros H (a & b & E); apply H.
      * destruct a as [|e a]; [injection E as -> _; contradiction|]. injection E as -> ->. eauto.
      * exists (String d a), b. rewrite E. reflexivity.
Qed.
Lemma int_text_no_char c s n : is_digit c = false -> c <> "-"%char -> c <> "+"%char -> int_text s n -> no_char c s = true.
Proof.
  intros H1 H2 H3 H. assert (D : forall s n, dec_val 0 s = Some n -> no_char c s = true).
  { intros s' n' E. eapply all_chars_mono; [|eapply dec_val_digits, E]. intros d Hd.
    apply negb_true_iff, Ascii.eqb_neq. congruence. }
  assert (M : Ascii.eqb c "-" = false) by (apply Ascii.eqb_neq; exact H2).
  assert (P : Ascii.eqb c "+" = false) by (apply Ascii.eqb_neq; exact H3).
  destruct H; unfold no_char in *; cbn [append all_chars]; rewrite ?M, ?P; cbn [negb andb]; eapply D; eassumption.
Qed.

Definition entry_ok (s : string) (kv : Z * Z) : Prop := fan_entry s (fst kv) (snd kv).

Lemma fan_loop_spec sp : forall t, match fan_loop sp t with
  | Some t' => exists kvs, Forall2 entry_ok sp kvs /\
       forall k, lut_get t' k = match last_value kvs k with Some v => Some v | None => lut_get t k end
  | None => ~ exists kvs, Forall2 entry_ok sp kvs
  end.
Proof.
  induction sp as [|s sp IH]; intros t; cbn [fan_loop].
  - exists []. split; [constructor|]. reflexivity.
  - assert (K : forall kv, entry_ok s kv -> exists a b, split "=" s = [a; b] /\ atoi a = (fst kv, None) /\ atoi b = (snd kv, None) /\ 0 <= fst kv /\ 0 <= snd kv <= 255).
    { intros [k v] (a & b & -> & Ha & Hb & Hk & Hv). cbn [fst snd] in *. exists a, b.
      change ("=" ++ b) with (String "=" b). rewrite split_app by (eapply int_text_no_char; [reflexivity|discriminate..|exact Ha]).
      rewrite split_none by (eapply int_text_no_char; [reflexivity|discriminate..|exact Hb]).
      repeat split; try lia; apply atoi_spec; (split; [assumption|unfold int64; lia]). }
    assert (Bad : (forall kv, ~ entry_ok s kv) -> ~ exists kvs, Forall2 entry_ok (s :: sp) kvs).
    { intros H (kvs & F). inversion F; subst. eapply H; eassumption. }
    pose proof (join_split "=" s) as J.
    destruct (split "=" s) as [|a [|b [|]]] eqn:Es;
      try (apply Bad; intros kv E; destruct (K kv E) as (? & ? & Q & _); discriminate).
    destruct (atoi a) as [layer le] eqn:Ea. destruct (atoi b) as [speed se] eqn:Eb.
    destruct le as [le|]; [apply Bad; intros kv E; destruct (K kv E) as (? & ? & Q & Q1 & _); injection Q as <- <-; congruence|].
    destruct se as [se|]; [apply Bad; intros kv E; destruct (K kv E) as (? & ? & Q & _ & Q1 & _); injection Q as <- <-; congruence|].
    destruct ((layer <? 0) || (speed <? 0) || (255 <? speed)) eqn:R.
    + apply Bad. intros kv E. destruct (K kv E) as (? & ? & Q & Q1 & Q2 & Q3 & Q4). injection Q as <- <-.
      rewrite Ea in Q1. rewrite Eb in Q2. injection Q1 as Q1. injection Q2 as Q2. rewrite <- Q1 in Q3. rewrite <- Q2 in Q4.
      apply orb_prop in R. destruct R as [R|R]; [apply orb_prop in R; destruct R as [R|R]|]; apply Z.ltb_lt in R; lia.
    + apply orb_false_elim in R. destruct R as [R R3]. apply orb_false_elim in R. destruct R as [R1 R2].
      apply Z.ltb_ge in R1, R2, R3.
      assert (E0 : entry_ok s (layer, speed)).
      { apply atoi_spec in Ea, Eb. destruct Ea as [Ea Ia]. destruct Eb as [Eb Ib]. unfold int64 in Ia.
        exists a, b. cbn [fst snd]. repeat split; try assumption; try lia. symmetry. exact J. }
      specialize (IH (lut_set t layer speed)). destruct (fan_loop sp (lut_set t layer speed)) as [t'|].
      * destruct IH as (kvs & F & H). exists ((layer, speed) :: kvs). split; [constructor; assumption|].
        intros k. rewrite H. cbn [last_value]. destruct (last_value kvs k); [reflexivity|]. rewrite lut_get_set.
        destruct (layer =? k); reflexivity.
      * intros (kvs & F). inversion F; subst. apply IH. eauto.
Qed.

Lemma fan_accepts old s t : FanSpeedSet old s = (t, None) ->
  exists pieces kvs, s = join "," pieces /\ pieces <> [] /\ Forall2 entry_ok pieces kvs /\
    forall k, lut_get t k = last_value kvs k.
Proof.
  unfold FanSpeedSet. pose proof (fan_loop_spec (split "," s) []) as H. destruct (fan_loop (split "," s) []) as [t'|]; [|discriminate].
  intros E. injection E as <-. destruct H as (kvs & F & H). exists (split "," s), kvs.
  split; [symmetry; apply join_split|]. split; [apply split_nonempty|]. split; [exact F|].
  intros k. rewrite H. destruct (last_value kvs k); reflexivity.
Qed.
Lemma entry_no_comma s kv : entry_ok s kv -> no_char "," s = true.
Proof.
  intros (a & b & -> & Ha & Hb & _). unfold no_char. rewrite !all_chars_app. 
  change (all_chars (fun d => negb (Ascii.eqb "," d)) a) with (no_char "," a).
  change (all_chars (fun d => negb (Ascii.eqb "," d)) b) with (no_char "," b).
  rewrite (int_text_no_char "," a _ eq_refl ltac:(discriminate) ltac:(discriminate) Ha).
  rewrite (int_text_no_char "," b _ eq_refl ltac:(discriminate) ltac:(discriminate) Hb). reflexivity.
Qed.
Lemma fan_complete old pieces kvs : pieces <> [] -> Forall2 entry_ok pieces kvs ->
  exists t, FanSpeedSet old (join "," pieces) = (t, None) /\ forall k, lut_get t k = last_value kvs k.
Proof.
  intros Hp F.
  assert (S : split "," (join "," pieces) = pieces).
  { apply split_join; [exact Hp|]. clear Hp. induction F; constructor; [eapply entry_no_comma; eassumption|assumption]. }
  unfold FanSpeedSet. rewrite S. pose proof (fan_loop_spec pieces []) as H. destruct (fan_loop pieces []) as [t'|].
  - exists t'. split; [reflexivity|]. destruct H as (kvs' & F' & H). intros k. rewrite H.
    assert (kvs' = kvs).
    { clear -F F'. revert kvs' F'. induction F as [|s [k v] ss kvs E F IH]; intros kvs' F'; inversion F' as [|? [k' v'] ? ? E' F'']; subst; [reflexivity|].
      f_equal; [|apply IH; assumption].
      destruct E as (a & b & Es & Ha & Hb & Hk & Hv). destruct E' as (a' & b' & Es' & Ha' & Hb' & Hk' & Hv').
      cbn [fst snd] in *.
      assert (Ha0 := int_text_no_char "=" a k eq_refl ltac:(discriminate) ltac:(discriminate) Ha).
      assert (Ha0' := int_text_no_char "=" a' k' eq_refl ltac:(discriminate) ltac:(discriminate) Ha').
      assert (Sp := split_app "=" a b Ha0). assert (Sp' := split_app "=" a' b' Ha0').
      change (String "=" b) with ("=" ++ b) in Sp. change (String "=" b') with ("=" ++ b') in Sp'.
      rewrite <- Es in Sp. rewrite <- Es' in Sp'. rewrite Sp in Sp'. injection Sp' as <- Sp'.
      assert (A1 : atoi a = (k, None)) by (apply atoi_spec; split; [assumption|unfold int64; lia]).
      assert (A2 : atoi a = (k', None)) by (apply atoi_spec; split; [assumption|unfold int64; lia]).
      assert (Nb := int_text_no_char "=" b v eq_refl ltac:(discriminate) ltac:(discriminate) Hb).
      assert (Nb' := int_text_no_char "=" b' v' eq_refl ltac:(discriminate) ltac:(discriminate) Hb').
      rewrite !split_none in Sp' by assumption. injection Sp' as <-.
      assert (B1 : atoi b = (v, None)) by (apply atoi_spec; split; [assumption|unfold int64; lia]).
      assert (B2 : atoi b = (v', None)) by (apply atoi_spec; split; [assumption|unfold int64; lia]).
      congruence. }
    subst kvs'. destruct (last_value kvs k); reflexivity.
  - exfalso. apply H. exists kvs. exact F.
Qed.
Lemma fan_atomic old s t e : FanSpeedSet old s = (t, Some e) -> t = old.
Proof. unfold FanSpeedSet. destruct (fan_loop _ _); [discriminate|]. intros H. injection H as <- _. reflexivity. Qed.

Lemma last_value_get t : NoDup (map fst t) -> forall k, last_value t k = lut_get t k.
Proof.
  induction t as [|[a b] t IH]; intros N k; [reflexivity|]. cbn in *. inversion N as [|? ? Na Nt]; subst.
  rewrite IH by exact Nt. destruct (Z.eqb_spec a k) as [->|Ne].
  - destruct (lut_get t k) as [w|] eqn:E; [|reflexivity]. exfalso. apply Na. clear -E.
    induction t as [|[x y] t IH]; cbn in *; [discriminate|]. destruct (Z.eqb_spec x k); [left; assumption|right; apply IH, E].
  - destruct (lut_get t k); reflexivity.
Qed.
Lemma lut_get_In t k v : NoDup (map fst t) -> lut_get t k = Some v <-> In (k, v) t.
Proof.
  induction t as [|[a b] t IH]; intros N; cbn in *; [split; [discriminate|contradiction]|]. inversion N as [|? ? Na Nt]; subst.
  destruct (Z.eqb_spec a k) as [->|Ne].
  - split; [intros H; injection H as ->; left; reflexivity|]. intros [H|H]; [congruence|].
    exfalso. apply Na. change k with (fst (k, v)). apply in_map, H.
  - rewrite IH by exact Nt. split; [right; assumption|]. intros [H|H]; [congruence|exact H].
Qed.
Lemma fan_round_trip old t order : t <> [] -> NoDup (map fst t) ->
  (forall k v, In (k, v) t -> 0 <= k < 2 ^ 63 /\ 0 <= v <= 255) -> Permutation t order ->
  exists t', FanSpeedSet old (FanSpeedString order) = (t', None) /\ forall k, lut_get t' k = lut_get t k.
Proof.
  intros Ht Nd Hv P.
  assert (Nd' : NoDup (map fst order)) by (eapply Permutation_NoDup; [apply Permutation_map, P|exact Nd]).
  destruct (fan_complete old (map (fun kv => itoa (fst kv) ++ "=" ++ itoa (snd kv)) order) order) as (t' & E & G).
  - intros C. apply map_eq_nil in C. subst order. apply Permutation_sym, Permutation_nil in P. contradiction.
  - assert (Hv' : forall k v, In (k, v) order -> 0 <= k < 2 ^ 63 /\ 0 <= v <= 255).
    { intros k v H. apply Hv. eapply Permutation_in; [apply Permutation_sym, P|exact H]. }
    clear -Hv'. induction order as [|[k v] order IH]; cbn [map]; constructor.
    + destruct (Hv' k v ltac:(left; reflexivity)) as [Hk Hs]. exists (itoa k), (itoa v). cbn [fst snd].
      repeat split; try lia; apply itoa_text.
    + apply IH. intros k' v' H. apply Hv'. right; exact H.
  - exists t'. split; [exact E|]. intros k. rewrite G, last_value_get by exact Nd'.
    destruct (lut_get t k) as [v|] eqn:Ek.
    + apply lut_get_In in Ek; [|exact Nd]. apply lut_get_In; [exact Nd'|]. eapply Permutation_in; eassumption.
    + destruct (lut_get order k) as [v|] eqn:Eo; [|reflexivity]. apply lut_get_In in Eo; [|exact Nd'].
      assert (In (k, v) t) by (eapply Permutation_in; [apply Permutation_sym, P|exact Eo]).
      apply lut_get_In in H; [congruence|exact Nd].
Qed.
Lemma fan_empty old : snd (FanSpeedSet old (FanSpeedString [])) <> None.
Proof. vm_compute. discriminate. Qed.

(** *** G-code hunks *)
Definition no_newline (s : string) : Prop := ~ exists a b, s = a ++ newline ++ b.
Lemma no_newline_char s : no_newline s <-> no_char (chr 10) s = true.
Proof. unfold no_newline, newline. rewrite no_char_spec. reflexivity. Qed.

Lemma hunk_accepts old s : (exists a b, s = a ++ newline ++ b) ->
  exists rows, s = join newline rows /\ Forall no_newline rows /\
    (let '(lines, err) := HunkSet old s in err = None /\ exists keep, lines = filter keep rows /\ forall r, keep r = true <-> ~ blank r).
Proof.
  intros H. exists (split (chr 10) s). split; [symmetry; apply join_split|]. split.
  - eapply Forall_impl; [|apply split_pieces]. intros a Ha. apply no_newline_char, Ha.
  - unfold HunkSet. apply contains_spec in H. rewrite H. split; [reflexivity|]. eexists. split; [reflexivity|].
    intros r. cbn beta. rewrite negb_true_iff, String.eqb_neq, trimSpace_blank. reflexivity.
Qed.
Lemma hunk_rejects old s : no_newline s -> HunkSet old s = (old, Some errHunk).
Proof.
  intros H. unfold HunkSet. destruct (contains s newline) eqn:E; [|reflexivity]. apply contains_spec in E. contradiction.
Qed.
Lemma filter_all {A} (f : A -> bool) l : Forall (fun x => f x = true) l -> filter f l = l.
Proof. induction 1; cbn; [reflexivity|]. rewrite H. congruence. Qed.
Lemma hunk_round_trip old lines : (2 <= List.length lines)%nat -> Forall no_newline lines -> Forall (fun l => ~ blank l) lines ->
  HunkSet old (HunkString lines) = (lines, None).
Proof.
  intros Hl Hn Hb. unfold HunkSet, HunkString.
  assert (C : contains (join newline lines) newline = true).
  { apply contains_spec. destruct lines as [|a [|b l]]; cbn in Hl; try lia. rewrite join_cons. eauto. }
  rewrite C. f_equal. unfold newline. rewrite split_join.
  - apply filter_all. eapply Forall_impl; [|exact Hb]. intros r Hr. cbn beta.
    rewrite negb_true_iff, String.eqb_neq, trimSpace_blank. exact Hr.
  - destruct lines; [cbn in Hl; lia|discriminate].
  - eapply Forall_impl; [|exact Hn]. intros r Hr. apply no_newline_char, Hr.
Qed.
Lemma hunk_short old lines : (List.length lines <= 1)%nat -> Forall no_newline lines ->
  HunkSet old (HunkString lines) = (old, Some errHunk).
Proof.
  intros Hl Hn. apply hunk_rejects. destruct lines as [|a [|b l]]; cbn in Hl; try lia.
  - intros (a & b & H). destruct a; discriminate.
  - inversion Hn; subst. exact H1.
Qed.

(** *** temperature code detection *)
Lemma split_head (s : string) : exists w r, split " " s = w :: r /\ (forall a b, w <> a ++ " " ++ b) /\ (s = w \/ exists q, s = w ++ " " ++ q).
Proof.
  pose proof (join_split " " s) as J. pose proof (split_pieces " " s) as P. pose proof (split_nonempty " " s) as Q.
  destruct (split " " s) as [|w r]; [contradiction|]. exists w, r. split; [reflexivity|]. inversion P; subst. split.
  - intros a b Eab. apply (proj1 (no_char_spec " " w)); [assumption|]. exists a, b. exact Eab.
  - destruct r as [|x r]; [left; reflexivity|]. right. exists (join " " (x :: r)). reflexivity.
Qed.
Lemma first_token_spec line : first_word line (first_token line).
Proof.
  destruct (trimSpace_spec line) as (pre & post & E & B1 & B2 & N1 & N2).
  exists pre, (trimSpace line), post. split; [exact E|]. split; [exact B1|]. split; [exact B2|].
  split; [intros sp u Hs; split; [apply N1|apply N2]; exact Hs|].
  unfold first_token. destruct (split_head (trimSpace line)) as (w & r & Es & H1 & H2). rewrite Es. split; assumption.
Qed.
Lemma sapp_cancel_prefix (c : ascii) a b r s : no_char c a = true -> no_char c b = true -> a ++ String c r = b ++ String c s -> a = b.
Proof.
  revert b; induction a as [|x a IH]; intros [|y b] Ha Hb H; cbn in *.
  - reflexivity.
  - injection H as -> _. rewrite Ascii.eqb_refl in Hb. discriminate.
  - injection H as -> _. rewrite Ascii.eqb_refl in Ha. discriminate.
  - injection H as -> H. apply andb_prop in Ha, Hb. f_equal. eapply IH; [apply Ha|apply Hb|exact H].
Qed.
(** *** trimming is unique *)
Lemma no_space_ext core post : core <> "" -> blank post -> (forall w u, In w spaces -> core <> w ++ u) ->
  forall w u, In w spaces -> core ++ post <> w ++ u.
Proof.
  intros Hc B2 N1 w u Hw Eu. destruct core as [|c t]; [contradiction|].
  assert (P : exists v, String c t = w ++ v \/ exists z, w = (String c t) ++ z /\ z <> "").
  { clear -Eu. revert Eu. generalize (String c t) as x. intros x. revert w. induction x as [|a x IH]; intros w Eu.
    - destruct w as [|b w]; [exists ""; left; reflexivity|]. exists "". right. exists (String b w). split; [reflexivity|discriminate].
    - destruct w as [|b w]; [exists (String a x); left; reflexivity|]. cbn in Eu. injection Eu as -> Eu.
      destruct (IH w Eu) as (v & [->|(z & -> & Hz)]).
      + exists v. left; reflexivity.
      + exists "". right. exists z. split; [reflexivity|exact Hz]. }
  destruct P as (v & [Ev|(z & Ez & Hz)]); [eapply N1; eassumption|].
  rewrite Ez, sapp_assoc in Eu. apply sapp_inj_l in Eu. subst post.
  destruct z as [|zc z]; [contradiction|].
  destruct (blank_inv (String zc z ++ u) B2 ltac:(discriminate)) as (w2 & u2 & Hw2 & E2).
  destruct w2 as [|b w2]; [eapply spaces_nonempty; [exact Hw2|reflexivity]|]. cbn in E2. injection E2 as -> _.
  clear -Ez Hw Hw2.
  assert (Fc : code b < 128 \/ 192 <= code b).
  { assert (F : forallb (fun w => match w with String b _ => (code b <? 128) || (192 <=? code b) | _ => false end) spaces = true) by (vm_compute; reflexivity).
    rewrite forallb_forall in F. apply F in Hw2. apply orb_prop in Hw2. destruct Hw2 as [H|H]; [left; apply Z.ltb_lt, H|right; apply Z.leb_le, H]. }
  assert (F : forallb (fun w => match w with String _ t => all_chars (fun b => (128 <=? code b) && (code b <? 192)) t | _ => false end) spaces = true) by (vm_compute; reflexivity).
  rewrite forallb_forall in F. apply F in Hw. rewrite Ez in Hw. cbn [append] in Hw. rewrite all_chars_app in Hw.
  apply andb_prop in Hw. destruct Hw as [_ Hw]. cbn [all_chars] in Hw. apply andb_prop in Hw. destruct Hw as [Hw _].
  apply andb_prop in Hw. destruct Hw as [G1 G2]. apply Z.leb_le in G1. apply Z.ltb_lt in G2. lia.
Qed.
Lemma left_unique p1 p2 c1 c2 : blank p1 -> blank p2 -> p1 ++ c1 = p2 ++ c2 ->
  (forall sp u, In sp spaces -> c1 <> sp ++ u) -> (forall sp u, In sp spaces -> c2 <> sp ++ u) -> c1 = c2.
Proof.
  intros H. revert p2. induction H as [|w s Hw Hs IH]; intros p2 H2 E N1 N2.
  - destruct H2 as [|w s Hw Hs]; [exact E|]. exfalso. cbn in E. rewrite sapp_assoc in E. eapply N1; eassumption.
  - destruct H2 as [|w2 s2 Hw2 Hs2].
    + exfalso. cbn in E. rewrite sapp_assoc in E. eapply N2; [exact Hw|]. symmetry. exact E.
    + rewrite !sapp_assoc in E. pose proof (spaces_prefix w (s ++ c1) Hw) as Q1. pose proof (spaces_prefix w2 (s2 ++ c2) Hw2) as Q2.
      rewrite E in Q1. rewrite Q1 in Q2. injection Q2 as Q2. eapply IH; eassumption.
Qed.
Lemma rspaces_prefix w s : In w spaces -> strip_any (map srev spaces) (srev w ++ s) = Some s.
Proof.
  intros H. vm_compute in H.
  repeat (destruct H as [<-|H]; [reflexivity|]). contradiction.
Qed.
Lemma blank_right p : blank p -> p = "" \/ exists q w, p = q ++ w /\ blank q /\ In w spaces.
Proof.
  induction 1 as [|w s Hw Hs IH]; [left; reflexivity|]. right. destruct IH as [->|(q & w2 & -> & Hq & Hw2)].
  - exists "", w. rewrite sapp_nil_r. repeat split; [constructor|exact Hw].
  - exists (w ++ q), w2. rewrite sapp_assoc. repeat split; [constructor; assumption|exact Hw2].
Qed.
Lemma right_unique n : forall p1 p2 c1 c2, (String.length p1 <= n)%nat -> blank p1 -> blank p2 -> c1 ++ p1 = c2 ++ p2 ->
  (forall sp u, In sp spaces -> c1 <> u ++ sp) -> (forall sp u, In sp spaces -> c2 <> u ++ sp) -> c1 = c2.
Proof.
  assert (Z : forall p c1 c2, blank p -> c1 = c2 ++ p -> (forall sp u, In sp spaces -> c1 <> u ++ sp) -> c1 = c2).
  { intros p c1 c2 Hp E N. destruct (blank_right p Hp) as [->|(q & w & -> & _ & Hw)]; [rewrite sapp_nil_r in E; exact E|].
    exfalso. rewrite <- sapp_assoc in E. eapply N; eassumption. }
  induction n as [|n IH]; intros p1 p2 c1 c2 Hn H1 H2 E N1 N2.
  - destruct p1; [|cbn in Hn; lia]. rewrite sapp_nil_r in E. eapply Z; eassumption.
  - destruct (blank_right p1 H1) as [->|(q1 & w1 & -> & Hq1 & Hw1)]; [rewrite sapp_nil_r in E; eapply Z; eassumption|].
    destruct (blank_right p2 H2) as [->|(q2 & w2 & -> & Hq2 & Hw2)].
    + rewrite sapp_nil_r in E. symmetry in E |- *. eapply Z; [|exact E|]; eassumption.
    + rewrite <- !sapp_assoc in E. assert (Er : srev ((c1 ++ q1) ++ w1) = srev ((c2 ++ q2) ++ w2)) by congruence.
      rewrite (srev_app (c1 ++ q1)), (srev_app (c2 ++ q2)) in Er.
      pose proof (rspaces_prefix w1 (srev (c1 ++ q1)) Hw1) as Q1. pose proof (rspaces_prefix w2 (srev (c2 ++ q2)) Hw2) as Q2.
      rewrite Er in Q1. rewrite Q1 in Q2. injection Q2 as Q2. apply (f_equal srev) in Q2. rewrite !srev_invol in Q2.
      apply (IH q1 q2 c1 c2); try assumption; try (symmetry; assumption).
      rewrite slength_app in Hn. pose proof (slength_pos w1 (spaces_nonempty w1 Hw1)). lia.
Qed.
Lemma trim_unique line pre core post : line = pre ++ core ++ post -> blank pre -> blank post ->
  (forall sp u, In sp spaces -> core <> sp ++ u /\ core <> u ++ sp) -> core = trimSpace line.
Proof.
  intros E B1 B2 N. destruct (trimSpace_spec line) as (pre' & post' & E' & B1' & B2' & N1' & N2').
  destruct (string_dec core "") as [->|Hc].
  - symmetry. apply trimSpace_blank. rewrite E. apply blank_app; assumption.
  - destruct (string_dec (trimSpace line) "") as [C|Hc'].
    + exfalso. apply trimSpace_blank in C. rewrite E in C. apply (blank_split pre) in C; [|exact B1].
      destruct (blank_inv _ C) as (w & u & Hw & Ew); [destruct core; [contradiction|discriminate]|].
      revert Ew. apply no_space_ext; try assumption. intros w' u' Hw'. exact (proj1 (N _ _ Hw')).
    + assert (core ++ post = trimSpace line ++ post').
      { eapply left_unique; [exact B1|exact B1'|congruence| |]; apply no_space_ext; try assumption. intros w u Hw. exact (proj1 (N _ _ Hw)). }
      eapply right_unique; [apply le_n|exact B2|exact B2'|assumption| |exact N2']. intros w u Hw. exact (proj2 (N _ _ Hw)).
Qed.
Lemma first_word_unique line w : first_word line w -> w = first_token line.
Proof.
  intros (pre & core & post & E & B1 & B2 & N & Nw & C).
  pose proof (trim_unique line pre core post E B1 B2 N) as Ec. unfold first_token. rewrite <- Ec.
  assert (Hw : no_char " " w = true). { apply no_char_spec. intros (a & b & H). apply (Nw a b). exact H. }
  destruct C as [->|(r & ->)]; [rewrite split_none by exact Hw; reflexivity|].
  change (" " ++ r) with (String " " r). rewrite split_app by exact Hw. reflexivity.
Qed.
Lemma contains_codes lines targets : DoesInstructionContainCodes lines targets = true <->
  exists line w t a b, In line lines /\ first_word line w /\ In t targets /\ w = a ++ t ++ b.
Proof.
  unfold DoesInstructionContainCodes. rewrite existsb_exists. split.
  - intros (l & Hl & H). apply existsb_exists in H. destruct H as (t & Ht & H). apply contains_spec in H. destruct H as (a & b & H).
    exists l, (first_token l), t, a, b. repeat split; try assumption. apply first_token_spec.
  - intros (l & w & t & a & b & Hl & Hw & Ht & E). exists l. split; [exact Hl|]. apply existsb_exists. exists t. split; [exact Ht|].
    apply contains_spec. exists a, b. rewrite <- (first_word_unique l w Hw). exact E.
Qed.
Lemma comment_counts : DoesInstructionContainCodes [";M190 S60"; "G28"] ["M190"] = true.
Proof. reflexivity. Qed.
Lemma instruction_codes lines : Forall (fun l => ~ blank l) lines ->
  exists cs, GetInstructionCode lines = Ok cs /\
    forall c, In c cs <-> exists line, In line lines /\ first_word line c /\ exists r, c = "G" ++ r \/ c = "M" ++ r.
Proof.
  induction lines as [|l ls IH]; intros H; cbn [GetInstructionCode].
  - exists []. split; [reflexivity|]. intros c. split; [contradiction|]. intros (? & [] & _).
  - inversion H as [|? ? Hl Hls]; subst. destruct (IH Hls) as (cs & E & Q). rewrite E.
    pose proof (first_token_spec l) as F.
    destruct (first_token l) as [|c r] eqn:Et.
    + exfalso. apply Hl. apply trimSpace_blank. unfold first_token in Et.
      destruct F as (pre & core & post & El & B1 & B2 & N & Nw & C).
      pose proof (trim_unique l pre core post El B1 B2 N) as Ec. rewrite <- Ec. destruct C as [C|(r & C)]; [exact C|].
      exfalso. cbn in C. destruct (N " " r) as [N1 _]; [|exact (N1 C)]. vm_compute. do 5 right. left. reflexivity.
    + cbn [bind]. eexists. split; [reflexivity|]. intros x.
      assert (Hh : (Ascii.eqb c "G" || Ascii.eqb c "M") = true <-> exists q, String c r = "G" ++ q \/ String c r = "M" ++ q).
      { split.
        - intros Hb. apply orb_prop in Hb. destruct Hb as [Hb|Hb]; apply Ascii.eqb_eq in Hb; subst c; exists r; cbn; auto.
        - intros (q & [Hq|Hq]); injection Hq as -> _; reflexivity. }
      destruct (Ascii.eqb c "G" || Ascii.eqb c "M").
      * split.
        -- intros [<-|Hx]; [exists l; repeat split; [left; reflexivity|exact F|apply Hh; reflexivity]|].
           apply Q in Hx. destruct Hx as (line & Hx & R). exists line. split; [right; exact Hx|exact R].
        -- intros (line & [->|Hx] & Fw & R); [left|right; apply Q; eauto]. apply first_word_unique in Fw. congruence.
      * split.
        -- intros Hx. apply Q in Hx. destruct Hx as (line & Hx & R). exists line. split; [right; exact Hx|exact R].
        -- intros (line & [->|Hx] & Fw & R); [|apply Q; eauto]. apply first_word_unique in Fw. rewrite Et in Fw. subst x.
           apply Hh in R. discriminate.
Qed.
Lemma instruction_codes_blank lines : (exists l, In l lines /\ blank l) -> exists m, GetInstructionCode lines = Panic m.
Proof.
  induction lines as [|l ls IH]; intros (x & Hx & B); [contradiction|]. cbn [GetInstructionCode].
  destruct Hx as [->|Hx].
  - apply trimSpace_blank in B. unfold first_token. rewrite B. cbn. eauto.
  - destruct (first_token l); [eauto|]. destruct IH as (m & ->); [eauto|]. cbn. eauto.
Qed.
