From Verif Require Import GoBase GoFloat GoStr S_Text.
Local Open Scope string_scope.
Local Open Scope Z_scope.

Lemma sapp_assoc (a b c : string) : (a ++ b) ++ c = a ++ b ++ c.
Proof. induction a; cbn; congruence. Qed.
Lemma sapp_nil_r (a : string) : a ++ "" = a.
Proof. induction a; cbn; congruence. Qed.
Lemma slength_app (a b : string) : String.length (a ++ b) = (String.length a + String.length b)%nat.
Proof. induction a; cbn; congruence. Qed.
Lemma sapp_inj_l (a b c : string) : a ++ b = a ++ c -> b = c.
Proof. induction a; cbn; intros H; [exact H|injection H as H; auto]. Qed.

Lemma code_range c : 0 <= code c < 256.
Proof.
  unfold code. pose proof (N_ascii_bounded c). lia.
Qed.
Lemma code_chr z : 0 <= z < 256 -> code (chr z) = z.
Proof.
  intros H. unfold code, chr. rewrite N_ascii_embedding; [apply Z2N.id; lia|lia].
Qed.
Lemma chr_code c : chr (code c) = c.
Proof. unfold code, chr. rewrite N2Z.id. apply ascii_N_embedding. Qed.
Lemma code_inj a b : code a = code b -> a = b.
Proof. intros H. rewrite <- (chr_code a), <- (chr_code b). congruence. Qed.

Lemma code_digit d : 0 <= d < 10 -> code (digit_char d) = 48 + d.
Proof. intros H. apply code_chr. lia. Qed.
Lemma is_digit_digit d : 0 <= d < 10 -> is_digit (digit_char d) = true.
Proof. intros H. unfold is_digit. rewrite code_digit by exact H. apply andb_true_intro. split; apply Z.leb_le; lia. Qed.

Lemma dec_val_app a b : forall acc, dec_val acc (a ++ b) =
  match dec_val acc a with Some v => dec_val v b | None => None end.
Proof. induction a as [|c a IH]; intros acc; cbn; [reflexivity|]. destruct (is_digit c); [apply IH|reflexivity]. Qed.
Lemma dec_val_digit d t acc : 0 <= d < 10 -> dec_val acc (String (digit_char d) t) = dec_val (10 * acc + d) t.
Proof.
  intros H. cbn [dec_val]. rewrite is_digit_digit, code_digit by exact H. f_equal. lia.
Qed.

Lemma udec_aux_app fuel : forall n acc, udec_aux fuel n acc = udec_aux fuel n "" ++ acc.
Proof.
  induction fuel as [|f IH]; intros n acc; cbn [udec_aux]; [reflexivity|].
  destruct (n <? 10); [reflexivity|]. rewrite IH, (IH _ (String _ "")), sapp_assoc. reflexivity.
Qed.
Lemma udec_aux_val fuel : forall n, 0 <= n < 10 ^ Z.of_nat fuel -> dec_val 0 (udec_aux fuel n "") = Some n.
Proof.
  induction fuel as [|f IH]; intros n Hn; cbn [udec_aux].
  - cbn in Hn. cbn. f_equal. lia.
  - pose proof (Z.mod_pos_bound n 10 ltac:(lia)) as Hm. destruct (Z.ltb_spec n 10) as [C|C].
    + rewrite dec_val_digit by exact Hm. cbn [dec_val]. f_equal. rewrite Z.mod_small; lia.
    + rewrite udec_aux_app, dec_val_app, IH.
      * rewrite dec_val_digit by exact Hm. cbn [dec_val]. f_equal. pose proof (Z.div_mod n 10 ltac:(lia)). lia.
      * split; [apply Z.div_pos; lia|]. apply Z.div_lt_upper_bound; [lia|].
        rewrite Nat2Z.inj_succ, Z.pow_succ_r in Hn by lia. lia.
Qed.
Lemma udec_fuel n : 0 <= n -> n < 10 ^ Z.of_nat (S (Z.to_nat (Z.log2 n))).
Proof.
  intros H. destruct (Z.eq_dec n 0) as [->|N]; [cbn; lia|].
  pose proof (Z.log2_spec n ltac:(lia)) as [_ L]. pose proof (Z.log2_nonneg n).
  rewrite Nat2Z.inj_succ, Z2Nat.id by lia. eapply Z.lt_le_trans; [exact L|].
  apply Z.pow_le_mono_l. lia.
Qed.
Lemma udec_val n : 0 <= n -> dec_val 0 (udec n) = Some n.
Proof. intros H. apply udec_aux_val. split; [exact H|apply udec_fuel, H]. Qed.

Lemma all_chars_app p a b : all_chars p (a ++ b) = all_chars p a && all_chars p b.
Proof. induction a as [|c a IH]; cbn; [reflexivity|]. rewrite IH. apply andb_assoc. Qed.
Lemma all_chars_mono (p q : ascii -> bool) s : (forall c, p c = true -> q c = true) -> all_chars p s = true -> all_chars q s = true.
Proof.
  intros H. induction s as [|c s IH]; cbn; [auto|]. intros E. apply andb_prop in E. destruct E as [E1 E2].
  rewrite (H _ E1), (IH E2). reflexivity.
Qed.
Lemma dec_val_digits s : forall acc v, dec_val acc s = Some v -> all_chars is_digit s = true.
Proof.
  induction s as [|c s IH]; intros acc v H; cbn in *; [reflexivity|].
  destruct (is_digit c); [|discriminate]. cbn. eapply IH, H.
Qed.
Lemma digits_dec_val s : all_chars is_digit s = true -> forall acc, exists v, dec_val acc s = Some v.
Proof.
  induction s as [|c s IH]; intros H acc; cbn in *; [eauto|]. apply andb_prop in H. destruct H as [-> H]. apply IH, H.
Qed.
Lemma udec_digits n : 0 <= n -> all_chars is_digit (udec n) = true.
Proof. intros H. eapply dec_val_digits, udec_val, H. Qed.

(** the first digit is '0' only for 0 *)
Lemma udec_aux_head fuel : forall n, 0 < n < 10 ^ Z.of_nat fuel ->
  exists d t, 1 <= d < 10 /\ udec_aux fuel n "" = String (digit_char d) t.
Proof.
  induction fuel as [|f IH]; intros n Hn; cbn [udec_aux]; [cbn in Hn; lia|].
  destruct (Z.ltb_spec n 10) as [C|C].
  - exists (n mod 10), "". rewrite Z.mod_small by lia. split; [lia|reflexivity].
  - destruct (IH (n / 10)) as (d & t & Hd & E).
    + split; [apply Z.div_str_pos; lia|]. apply Z.div_lt_upper_bound; [lia|].
      rewrite Nat2Z.inj_succ, Z.pow_succ_r in Hn by lia. lia.
    + exists d, (t ++ String (digit_char (n mod 10)) ""). split; [exact Hd|]. rewrite udec_aux_app, E. reflexivity.
Qed.
Lemma udec_head n : 0 < n -> exists d t, 1 <= d < 10 /\ udec n = String (digit_char d) t.
Proof. intros H. apply udec_aux_head. split; [exact H|apply udec_fuel; lia]. Qed.
Lemma udec_0 : udec 0 = "0". Proof. reflexivity. Qed.
Lemma udec_nonempty n : 0 <= n -> exists c t, udec n = String c t /\ is_digit c = true.
Proof.
  intros H. destruct (Z.eq_dec n 0) as [->|N]; [exists "0"%char, ""; split; reflexivity|].
  destruct (udec_head n ltac:(lia)) as (d & t & Hd & ->). exists (digit_char d), t. split; [reflexivity|].
  apply is_digit_digit; lia.
Qed.

Lemma fixed_val k : forall n acc, dec_val acc (fixed_digits k n) = Some (acc * 10 ^ Z.of_nat k + n mod 10 ^ Z.of_nat k).
Proof.
  induction k as [|k IH]; intros n acc.
  - cbn [fixed_digits dec_val]. f_equal. change (10 ^ Z.of_nat 0) with 1. rewrite Z.mod_1_r. lia.
  - cbn [fixed_digits]. rewrite dec_val_app, IH.
    pose proof (Z.mod_pos_bound n 10 ltac:(lia)) as Hm. rewrite dec_val_digit by exact Hm. cbn [dec_val]. f_equal.
    rewrite Nat2Z.inj_succ, Z.pow_succ_r by lia.
    assert (0 < 10 ^ Z.of_nat k) by (apply Z.pow_pos_nonneg; lia).
    rewrite (Z.rem_mul_r n 10 (10 ^ Z.of_nat k)) by lia. lia.
Qed.
Lemma fixed_length k : forall n, String.length (fixed_digits k n) = k.
Proof. induction k as [|k IH]; intros n; cbn [fixed_digits]; [reflexivity|]. rewrite slength_app, IH. cbn. lia. Qed.
Lemma fixed_digits_ok k n : all_chars is_digit (fixed_digits k n) = true.
Proof. eapply dec_val_digits, (fixed_val k n 0). Qed.

Lemma num_scan_digits s : all_chars is_digit s = true -> forall t acc dot k, exists v, dec_val acc s = Some v /\
  num_scan (s ++ t) acc dot k = num_scan t v dot (if dot then String.length s + k else k)%nat.
Proof.
  induction s as [|c s IH]; intros H t acc dot k; cbn [num_scan append all_chars dec_val String.length] in *.
  - exists acc. split; [reflexivity|]. destruct dot; reflexivity.
  - apply andb_prop in H. destruct H as [-> H]. destruct (IH H t (10 * acc + (code c - 48)) dot (if dot then S k else k)) as (v & E1 & E2).
    exists v. split; [exact E1|]. rewrite E2. f_equal. destruct dot; lia.
Qed.

Lemma is_digit_minus : is_digit "-" = false. Proof. reflexivity. Qed.
Lemma digit_neq c d : is_digit c = true -> is_digit d = false -> Ascii.eqb c d = false.
Proof. intros H1 H2. destruct (Ascii.eqb_spec c d) as [->|]; [congruence|reflexivity]. Qed.

(** an integer reads back as itself *)
Lemma parse_num_itoa z : parse_num (itoa z) = Some (z, 0%nat).
Proof.
  unfold itoa. destruct (Z.ltb_spec z 0) as [C|C].
  - cbn [append parse_num]. rewrite Ascii.eqb_refl.
    destruct (num_scan_digits (udec (- z)) (udec_digits (- z) ltac:(lia)) "" 0 false 0) as (v & E1 & E2).
    rewrite udec_val in E1 by lia. injection E1 as <-. rewrite sapp_nil_r in E2. cbn [append]. rewrite E2. cbn.
    f_equal. f_equal. lia.
  - destruct (udec_nonempty z C) as (c & t & E & Hc).
    destruct (num_scan_digits (udec z) (udec_digits z ltac:(lia)) "" 0 false 0) as (v & E1 & E2).
    rewrite udec_val in E1 by lia. injection E1 as <-. rewrite sapp_nil_r in E2. cbn [num_scan] in E2.
    unfold parse_num. rewrite E. rewrite (digit_neq c "-" Hc is_digit_minus). rewrite <- E. exact E2.
Qed.

(** a fixed point number reads back as the rounded scaled value *)
Lemma parse_num_fixed k x s a : (0 < k)%nat -> dec_scaled (Z.of_nat k) x = Some (s, a) -> 0 <= a ->
  parse_num (fmt_fixed k x) = Some (if s then - a else a, k).
Proof.
  intros Hk E Ha. unfold fmt_fixed. rewrite E.
  set (q := a / 10 ^ Z.of_nat k).
  assert (Hp : 0 < 10 ^ Z.of_nat k) by (apply Z.pow_pos_nonneg; lia).
  assert (Hq : 0 <= q) by (apply Z.div_pos; lia).
  assert (B : num_scan (udec q ++ "." ++ fixed_digits k a) 0 false 0 = Some (a, k)).
  { destruct (num_scan_digits (udec q) (udec_digits q Hq) ("." ++ fixed_digits k a) 0 false 0) as (v & E1 & ->).
    rewrite udec_val in E1 by exact Hq. injection E1 as <-. cbn [append num_scan]. change (is_digit ".") with false. cbn [negb andb Ascii.eqb].
    destruct (num_scan_digits (fixed_digits k a) (fixed_digits_ok k a) "" q true 0) as (v & E1 & E2).
    rewrite sapp_nil_r in E2. rewrite fixed_val in E1. injection E1 as <-.
    change (Ascii.eqb "." ".") with true. cbn [andb]. rewrite E2, fixed_length. cbn [num_scan].
    rewrite Nat.add_0_r. replace (q * 10 ^ Z.of_nat k + a mod 10 ^ Z.of_nat k) with a; [reflexivity|].
    unfold q. pose proof (Z.div_mod a (10 ^ Z.of_nat k) ltac:(lia)). lia. }
  destruct s.
  - change ("-" ++ udec q ++ "." ++ fixed_digits k a) with (String "-" (udec q ++ "." ++ fixed_digits k a)).
    cbn [parse_num]. rewrite Ascii.eqb_refl. rewrite B. reflexivity.
  - change ("" ++ udec q ++ "." ++ fixed_digits k a) with (udec q ++ "." ++ fixed_digits k a).
    destruct (udec_nonempty q Hq) as (c & t & Eu & Hc). unfold parse_num. rewrite Eu in *. cbn [append] in *.
    rewrite (digit_neq c "-" Hc is_digit_minus). exact B.
Qed.

(** *** split and join *)
Definition no_char (c : ascii) (s : string) : bool := all_chars (fun d => negb (Ascii.eqb c d)) s.

Lemma split_nonempty c s : split c s <> [].
Proof. destruct s as [|d s]; cbn; [discriminate|]. destruct (Ascii.eqb c d); [discriminate|]. destruct (split c s); discriminate. Qed.
Lemma split_app c a b : no_char c a = true -> split c (a ++ String c b) = a :: split c b.
Proof.
  induction a as [|d a IH]; cbn; intros H.
  - rewrite Ascii.eqb_refl. reflexivity.
  - apply andb_prop in H. destruct H as [H1 H2]. apply negb_true_iff in H1. rewrite H1, IH by exact H2. reflexivity.
Qed.
Lemma split_none c a : no_char c a = true -> split c a = [a].
Proof.
  induction a as [|d a IH]; cbn; intros H; [reflexivity|].
  apply andb_prop in H. destruct H as [H1 H2]. apply negb_true_iff in H1. rewrite H1, IH by exact H2. reflexivity.
Qed.
Lemma join_cons sep x y l : join sep (x :: y :: l) = x ++ sep ++ join sep (y :: l).
Proof. reflexivity. Qed.
Lemma split_join c l : l <> [] -> Forall (fun s => no_char c s = true) l -> split c (join (String c "") l) = l.
Proof.
  induction l as [|x l IH]; intros Hl H; [contradiction|]. inversion H as [|? ? Hx Hr]; subst.
  destruct l as [|y l]; [apply split_none, Hx|]. rewrite join_cons.
  change (String c "" ++ join (String c "") (y :: l)) with (String c (join (String c "") (y :: l))).
  rewrite split_app by exact Hx. f_equal. apply IH; [discriminate|exact Hr].
Qed.
Lemma join_split c s : join (String c "") (split c s) = s.
Proof.
  induction s as [|d s IH]; [reflexivity|]. cbn [split]. pose proof (split_nonempty c s) as N.
  destruct (Ascii.eqb_spec c d) as [->|E].
  - destruct (split d s) as [|x l]; [contradiction|]. rewrite join_cons. cbn [append]. f_equal. exact IH.
  - destruct (split c s) as [|x [|y l]]; [contradiction| |].
    + cbn [join] in *. congruence.
    + rewrite join_cons in *. cbn [append]. f_equal. exact IH.
Qed.
Lemma split_pieces c s : Forall (fun p => no_char c p = true) (split c s).
Proof.
  induction s as [|d s IH]; cbn; [repeat constructor|]. destruct (Ascii.eqb c d) eqn:E.
  - constructor; [reflexivity|exact IH].
  - destruct (split c s) as [|x l]; [constructor; [|constructor]; cbn; rewrite E; reflexivity|].
    inversion IH; subst. constructor; [cbn; rewrite E; assumption|assumption].
Qed.

(** *** substring search *)
Lemma strip_prefix_Some p : forall s r, strip_prefix p s = Some r <-> s = p ++ r.
Proof.
  induction p as [|a p IH]; intros s r; cbn.
  - split; [intros H; injection H as ->; reflexivity|intros ->; reflexivity].
  - destruct s as [|b s]; [split; discriminate|]. destruct (Ascii.eqb_spec a b) as [->|E].
    + rewrite IH. split; [intros ->; reflexivity|intros H; injection H as ->; reflexivity].
    + split; [discriminate|intros H; injection H as -> _; contradiction].
Qed.
Lemma contains_spec s p : contains s p = true <-> exists a b, s = a ++ p ++ b.
Proof.
  induction s as [|c s IH].
  - cbn [contains]. destruct (strip_prefix p "") as [r|] eqn:E.
    + apply strip_prefix_Some in E. split; [|reflexivity]. intros _. exists "", r. exact E.
    + split; [discriminate|]. intros (a & b & H). destruct a; [|discriminate]. cbn in H.
      apply strip_prefix_Some in H. congruence.
  - cbn [contains]. destruct (strip_prefix p (String c s)) as [r|] eqn:E.
    + apply strip_prefix_Some in E. split; [|reflexivity]. intros _. exists "", r. exact E.
    + rewrite IH. split.
      * intros (a & b & ->). exists (String c a), b. reflexivity.
      * intros (a & b & H). destruct a as [|c' a]; [cbn [append] in H; apply strip_prefix_Some in H; rewrite H in E; discriminate E|].
        injection H as <- ->. exists a, b. reflexivity.
Qed.

(** *** white space *)
Lemma spaces_prefix w s : In w spaces -> strip_any spaces (w ++ s) = Some s.
Proof.
  intros H. vm_compute in H.
  repeat (destruct H as [<-|H]; [reflexivity|]). contradiction.
Qed.
Lemma strip_any_Some ps s r : strip_any ps s = Some r -> exists w, In w ps /\ s = w ++ r.
Proof.
  induction ps as [|p ps IH]; cbn; intros H; [discriminate|].
  destruct (strip_prefix p s) as [q|] eqn:E.
  - injection H as ->. apply strip_prefix_Some in E. eauto.
  - destruct (IH H) as (w & H1 & H2). eauto.
Qed.
Lemma spaces_nonempty w : In w spaces -> w <> "".
Proof. intros H. vm_compute in H. repeat (destruct H as [<-|H]; [discriminate|]). contradiction. Qed.
Lemma slength_pos s : s <> "" -> (0 < String.length s)%nat.
Proof. destruct s; cbn; [contradiction|lia]. Qed.

Lemma blank_app a b : blank a -> blank b -> blank (a ++ b).
Proof. intros H; induction H; intros Hb; cbn; [exact Hb|]. rewrite sapp_assoc. constructor; auto. Qed.

Lemma trim_left_spec fuel : forall s, (String.length s < fuel)%nat -> exists pre,
  s = pre ++ trim_left_aux fuel spaces s /\ blank pre /\ strip_any spaces (trim_left_aux fuel spaces s) = None.
Proof.
  induction fuel as [|f IH]; intros s H; [lia|]. cbn [trim_left_aux].
  destruct (strip_any spaces s) as [r|] eqn:E.
  - pose proof E as E0. apply strip_any_Some in E. destruct E as (w & Hw & ->).
    pose proof (slength_pos w (spaces_nonempty w Hw)). rewrite slength_app in H.
    destruct (IH r ltac:(lia)) as (pre & Er & Hp & Hn). exists (w ++ pre). split; [|split].
    + rewrite sapp_assoc. congruence.
    + constructor; assumption.
    + exact Hn.
  - exists "". split; [reflexivity|]. split; [constructor|exact E].
Qed.

(** reversal *)
Lemma rev_app_spec s : forall acc, rev_app s acc = srev s ++ acc.
Proof.
  unfold srev. induction s as [|c s IH]; intros acc; cbn; [reflexivity|].
  rewrite IH, (IH (String c "")), sapp_assoc. reflexivity.
Qed.
Lemma srev_app a b : srev (a ++ b) = srev b ++ srev a.
Proof.
  induction a as [|c a IH]; cbn [append].
  - unfold srev at 3. cbn. rewrite sapp_nil_r. reflexivity.
  - unfold srev at 1. cbn [rev_app]. rewrite rev_app_spec, IH, sapp_assoc. f_equal.
    unfold srev at 2. cbn [rev_app]. rewrite rev_app_spec. reflexivity.
Qed.
Lemma srev_invol s : srev (srev s) = s.
Proof.
  induction s as [|c s IH]; [reflexivity|]. unfold srev at 2. cbn [rev_app]. rewrite rev_app_spec, srev_app, IH. reflexivity.
Qed.


Lemma srev_eq_app s a b : srev s = a ++ b -> s = srev b ++ srev a.
Proof. intros H. rewrite <- (srev_invol s), H. apply srev_app. Qed.

Lemma trim_right_aux fuel : forall s, (String.length s < fuel)%nat -> exists post,
  s = post ++ trim_left_aux fuel (map srev spaces) s /\ blank (srev post) /\
  strip_any (map srev spaces) (trim_left_aux fuel (map srev spaces) s) = None.
Proof.
  induction fuel as [|f IH]; intros s H; [lia|]. cbn [trim_left_aux].
  destruct (strip_any (map srev spaces) s) as [r|] eqn:E.
  - pose proof E as E0. apply strip_any_Some in E. destruct E as (w & Hw & ->).
    apply in_map_iff in Hw. destruct Hw as (w' & <- & Hw).
    assert (0 < String.length (srev w'))%nat.
    { apply slength_pos. intros C. apply (spaces_nonempty w' Hw). rewrite <- (srev_invol w'), C. reflexivity. }
    rewrite slength_app in H.
    destruct (IH r ltac:(lia)) as (post & Er & Hp & Hn). exists (srev w' ++ post). split; [|split].
    + rewrite sapp_assoc. congruence.
    + rewrite srev_app, srev_invol. apply blank_app; [exact Hp|]. rewrite <- (sapp_nil_r w'). constructor; [exact Hw|constructor].
    + exact Hn.
  - exists "". split; [reflexivity|]. split; [constructor|exact E].
Qed.

Lemma strip_any_None ps s : strip_any ps s = None -> forall w r, In w ps -> s <> w ++ r.
Proof.
  induction ps as [|p ps IH]; cbn; intros H w r Hw; [contradiction|].
  destruct (strip_prefix p s) as [q|] eqn:E; [discriminate|]. destruct Hw as [<-|Hw]; [|eapply IH; eassumption].
  intros C. apply strip_prefix_Some in C. congruence.
Qed.

(** strings.TrimSpace removes a maximal blank prefix and suffix *)
Lemma trimSpace_spec s : exists pre post, s = pre ++ trimSpace s ++ post /\ blank pre /\ blank post /\
  (forall w u, In w spaces -> trimSpace s <> w ++ u) /\ (forall w u, In w spaces -> trimSpace s <> u ++ w).
Proof.
  unfold trimSpace, trimLeft. destruct (trim_left_spec (S (String.length s)) s ltac:(lia)) as (pre & E1 & B1 & N1).
  set (s1 := trim_left_aux (S (String.length s)) spaces s) in *.
  destruct (trim_right_aux (S (String.length (srev s1))) (srev s1) ltac:(lia)) as (post & E2 & B2 & N2).
  set (r := trim_left_aux (S (String.length (srev s1))) (map srev spaces) (srev s1)) in *.
  apply srev_eq_app in E2. exists pre, (srev post). split; [congruence|]. split; [exact B1|]. split; [exact B2|]. split.
  - intros w u Hw C. rewrite E2, C, sapp_assoc in N1. eapply strip_any_None in N1; [|exact Hw]. apply N1. reflexivity.
  - intros w u Hw C. apply srev_eq_app in C. eapply strip_any_None in N2; [apply N2; exact C|]. apply in_map, Hw.
Qed.

Lemma blank_inv s : blank s -> s <> "" -> exists w u, In w spaces /\ s = w ++ u.
Proof. intros H; destruct H; intros N; [contradiction|eauto]. Qed.

Lemma blank_split a : forall b, blank (a ++ b) -> blank a -> blank b.
Proof.
  intros b Hab Ha. revert b Hab. induction Ha as [|w s Hw Hs IH]; intros b Hb; [exact Hb|].
  apply IH. rewrite sapp_assoc in Hb. inversion Hb as [E|w' s' Hw' Hs' E].
  - destruct w; [exfalso; eapply spaces_nonempty; [exact Hw|reflexivity]|discriminate].
  - pose proof (spaces_prefix w (s ++ b) Hw) as P1. pose proof (spaces_prefix w' s' Hw') as P2.
    rewrite E in P2. congruence.
Qed.

(** a text is blank exactly if trimming leaves nothing *)
Lemma trimSpace_blank s : trimSpace s = "" <-> blank s.
Proof.
  destruct (trimSpace_spec s) as (pre & post & E & B1 & B2 & N1 & N2). split.
  - intros H. rewrite H in E. cbn in E. rewrite E. apply blank_app; assumption.
  - intros Hb. rewrite E in Hb. apply (blank_split pre _) in Hb; [|exact B1].
    destruct (trimSpace s) as [|c t] eqn:Et; [reflexivity|]. exfalso.
    destruct (blank_inv _ Hb ltac:(discriminate)) as (w & u & Hw & Eu).
    (* w is a prefix of (c::t) ++ post; either inside or longer: UTF-8 prefix property *)
    assert (P : exists v, String c t = w ++ v \/ exists z, w = (String c t) ++ z /\ z <> "").
    { clear -Eu. revert Eu. generalize (String c t) as x. intros x. revert w. induction x as [|a x IH]; intros w Eu.
      - destruct w as [|b w]; [exists ""; left; reflexivity|]. exists "". right. exists (String b w). split; [reflexivity|discriminate].
      - destruct w as [|b w]; [exists (String a x); left; reflexivity|]. cbn in Eu. injection Eu as -> Eu.
        destruct (IH w Eu) as (v & [->|(z & -> & Hz)]).
        + exists v. left; reflexivity.
        + exists "". right. exists z. split; [reflexivity|exact Hz]. }
    destruct P as (v & [Ev|(z & Ez & Hz)]); [eapply N1; eassumption|].
    (* then w = t' ++ z with z starting post, so post (blank) would start with a continuation byte *)
    rewrite Ez, sapp_assoc in Eu. apply sapp_inj_l in Eu. subst post.
    destruct z as [|zc z]; [contradiction|].
    destruct (blank_inv (String zc z ++ u) B2 ltac:(discriminate)) as (w2 & u2 & Hw2 & E2).
    destruct w2 as [|b w2]; [eapply spaces_nonempty; [exact Hw2|reflexivity]|]. cbn in E2. injection E2 as -> _.
    clear -Ez Hw Hw2.
    assert (Fc : code b < 128 \/ 192 <= code b).
    { assert (F : forallb (fun w => match w with String b _ => (code b <? 128) || (192 <=? code b) | _ => false end) spaces = true) by (vm_compute; reflexivity).
      rewrite forallb_forall in F. apply F in Hw2. apply orb_prop in Hw2. destruct Hw2 as [H|H]; [left; apply Z.ltb_lt, H|right; apply Z.leb_le, H]. }
    assert (F : forallb (fun w => match w with String _ t => all_chars (fun b => (128 <=? code b) && (code b <? 192)) t | _ => false end) spaces = true) by (vm_compute; reflexivity).
    rewrite forallb_forall in F. apply F in Hw. rewrite Ez in Hw. cbn [append] in Hw. rewrite all_chars_app in Hw.
    apply andb_prop in Hw. destruct Hw as [_ Hw]. cbn [all_chars] in Hw. apply andb_prop in Hw. destruct Hw as [Hw _].
    apply andb_prop in Hw. destruct Hw as [G1 G2]. apply Z.leb_le in G1. apply Z.ltb_lt in G2. lia.
Qed.
