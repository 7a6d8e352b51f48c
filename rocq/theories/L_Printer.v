(** Texts, lines and words. *)
From Verif Require Import GoBase GoFloat GoStr M_Micrometer M_Geom2D M_Option S_Text L_Str S_Printer S_Builder M_Clip M_Builder.
Local Open Scope string_scope.
Local Open Scope Z_scope.

Lemma split_app_gen c a b : split c (a ++ String c b) = (split c a ++ split c b)%list.
Proof.
  induction a as [|d a IH].
  - cbn. rewrite Ascii.eqb_refl. reflexivity.
  - cbn [append split]. destruct (Ascii.eqb c d); [cbn; rewrite IH; reflexivity|].
    rewrite IH. pose proof (split_nonempty c a). destruct (split c a); [contradiction|]. reflexivity.
Qed.
Lemma exec_empty r : exec r "" = r. Proof. reflexivity. Qed.
Lemma newline_app a b : (a ++ newline ++ b = a ++ String (chr 10) b)%string.
Proof. reflexivity. Qed.
Lemma replay_app r a b : replay r (a ++ newline ++ b) = replay (replay r a) b.
Proof. unfold replay, text_lines. rewrite newline_app, split_app_gen, fold_left_app. reflexivity. Qed.
Lemma moves_of_app ls ls' : forall r, moves_of r (ls ++ ls') = (moves_of r ls ++ moves_of (fold_left exec ls r) ls')%list.
Proof.
  induction ls as [|l ls IH]; intros r; cbn [app moves_of fold_left]; [reflexivity|].
  destruct (moving l); cbn [app]; rewrite IH; reflexivity.
Qed.
Lemma moves_app r a b : moves r (a ++ newline ++ b) = (moves r a ++ moves (replay r a) b)%list.
Proof. unfold moves, replay, text_lines. rewrite newline_app, split_app_gen, moves_of_app. reflexivity. Qed.
Lemma replay_nil r : replay r "" = r. Proof. reflexivity. Qed.
Lemma moves_nil r : moves r "" = []. Proof. reflexivity. Qed.

(** texts made of complete lines *)
Definition terminated (s : string) : Prop := s = "" \/ exists a, s = a ++ newline.
Lemma terminated_app a b : terminated a -> terminated b -> terminated (a ++ b).
Proof.
  intros [->|(x & ->)] [->|(y & ->)]; [left; reflexivity|right; exists y; reflexivity|right; exists x; rewrite sapp_nil_r; reflexivity|].
  right. exists ((x ++ newline) ++ y). rewrite !sapp_assoc. reflexivity.
Qed.
Lemma replay_line r a : replay r (a ++ newline) = replay r a.
Proof. rewrite <- (sapp_nil_r (a ++ newline)), sapp_assoc, replay_app. reflexivity. Qed.
Lemma moves_line r a : moves r (a ++ newline) = moves r a.
Proof. rewrite <- (sapp_nil_r (a ++ newline)), sapp_assoc, moves_app, moves_nil, app_nil_r. reflexivity. Qed.
Lemma replay_term r a b : terminated a -> replay r (a ++ b) = replay (replay r a) b.
Proof. intros [->|(x & ->)]; [reflexivity|]. rewrite sapp_assoc, replay_app, replay_line. reflexivity. Qed.
Lemma moves_term r a b : terminated a -> moves r (a ++ b) = (moves r a ++ moves (replay r a) b)%list.
Proof. intros [->|(x & ->)]; [reflexivity|]. rewrite sapp_assoc, moves_app, moves_line, replay_line. reflexivity. Qed.

(** one line made of words *)
Definition clean_char (c : ascii) : bool := negb (Ascii.eqb " " c) && negb (Ascii.eqb ";" c) && negb (Ascii.eqb (chr 10) c).
Definition clean (w : string) : Prop := w <> "" /\ all_chars clean_char w = true.
Lemma all_no c p s : (forall d, p d = true -> Ascii.eqb c d = false) -> all_chars p s = true -> no_char c s = true.
Proof. intros H. apply all_chars_mono. intros d Hd. rewrite (H d Hd). reflexivity. Qed.
Lemma clean_space w : all_chars clean_char w = true -> no_char " " w = true.
Proof. apply all_no. intros d H. unfold clean_char in H. destruct (Ascii.eqb " " d); [discriminate|reflexivity]. Qed.
Definition line_char (c : ascii) : bool := negb (Ascii.eqb ";" c) && negb (Ascii.eqb (chr 10) c).
Lemma clean_line w : all_chars clean_char w = true -> all_chars line_char w = true.
Proof. apply all_chars_mono. intros c H. unfold clean_char in H. unfold line_char. destruct (Ascii.eqb " " c); [discriminate|exact H]. Qed.
Lemma uncomment_id s : all_chars line_char s = true -> uncomment s = s.
Proof.
  induction s as [|c s IH]; [reflexivity|]. cbn [all_chars uncomment]. intros H. apply andb_prop in H. destruct H as [H1 H2].
  unfold line_char in H1. rewrite Ascii.eqb_sym. destruct (Ascii.eqb ";" c); [discriminate|]. rewrite (IH H2). reflexivity.
Qed.
Lemma line_no_nl s : all_chars line_char s = true -> no_char (chr 10) s = true.
Proof. apply all_no. intros d H. unfold line_char in H. destruct (Ascii.eqb (chr 10) d); [|reflexivity]. rewrite andb_comm in H. discriminate. Qed.
Lemma text_lines_one s : all_chars line_char s = true -> text_lines s = [s].
Proof. intros H. apply split_none, line_no_nl, H. Qed.

Fixpoint tail_words (ws : list string) : string :=
  match ws with [] => "" | w :: ws' => " " ++ w ++ tail_words ws' end.
Lemma tail_words_app a b : tail_words (a ++ b) = tail_words a ++ tail_words b.
Proof. induction a as [|x a IH]; [reflexivity|]. cbn [app tail_words]. rewrite IH, !sapp_assoc. reflexivity. Qed.
Lemma line_words c ws : clean c -> Forall clean ws -> words (c ++ tail_words ws) = c :: ws /\ all_chars line_char (c ++ tail_words ws) = true.
Proof.
  intros Hc Hws.
  assert (L : forall ws, Forall clean ws -> all_chars line_char (tail_words ws) = true).
  { induction 1 as [|w l [_ Hw] _ IH]; [reflexivity|]. cbn [tail_words]. change (" " ++ w ++ tail_words l) with (String " " (w ++ tail_words l)).
    cbn [all_chars]. rewrite all_chars_app, IH, (clean_line _ Hw). reflexivity. }
  assert (LL : all_chars line_char (c ++ tail_words ws) = true).
  { rewrite all_chars_app, (L _ Hws), (clean_line _ (proj2 Hc)). reflexivity. }
  split; [|exact LL]. unfold words. rewrite (uncomment_id _ LL). clear LL L.
  revert c Hc. induction Hws as [|w l Hw Hl IH]; intros c [Hne Hc].
  - cbn [tail_words]. rewrite sapp_nil_r, (split_none " " c (clean_space _ Hc)). cbn [filter].
    destruct (String.eqb_spec c ""); [contradiction|reflexivity].
  - cbn [tail_words]. change (c ++ " " ++ w ++ tail_words l) with (c ++ String " " (w ++ tail_words l)).
    rewrite (split_app " " c _ (clean_space _ Hc)). cbn [filter].
    destruct (String.eqb_spec c ""); [contradiction|]. cbn [negb]. rewrite (IH w Hw). reflexivity.
Qed.
Lemma replay_words r c ws : clean c -> Forall clean ws ->
  replay r (c ++ tail_words ws) = if is_move c || String.eqb c "G92" then fold_left word ws r else r.
Proof.
  intros Hc Hws. destruct (line_words c ws Hc Hws) as [E L]. unfold replay. rewrite (text_lines_one _ L). cbn [fold_left].
  unfold exec. rewrite E. reflexivity.
Qed.
Lemma moves_words r c ws : clean c -> Forall clean ws ->
  moves r (c ++ tail_words ws) = if is_move c then [fold_left word ws r] else [].
Proof.
  intros Hc Hws. destruct (line_words c ws Hc Hws) as [E L]. unfold moves. rewrite (text_lines_one _ L). cbn [moves_of].
  unfold exec, moving. rewrite E. destruct (is_move c) eqn:M; [|reflexivity]. reflexivity.
Qed.

(** numbers *)
Lemma digit_clean s : all_chars is_digit s = true -> all_chars clean_char s = true.
Proof.
  apply all_chars_mono. intros c H. unfold is_digit in H. unfold clean_char.
  assert (G : forall d, code d < 48 \/ 57 < code d -> Ascii.eqb d c = false).
  { intros d Hd. destruct (Ascii.eqb_spec d c); [subst; lia|reflexivity]. }
  rewrite !G; [reflexivity| | |]; vm_compute; auto.
Qed.
Lemma rne_nonneg m e : 0 <= m -> 0 <= rne_Z m e.
Proof.
  intros H. unfold rne_Z. destruct (Z.leb_spec 0 e); [apply Z.mul_nonneg_nonneg; [lia|apply Z.pow_nonneg; lia]|].
  assert (0 <= m / 2 ^ (- e)). { apply Z.div_pos; [lia|]. apply Z.pow_pos_nonneg; lia. }
  destruct (2 * (m mod 2 ^ (- e)) ?= 2 ^ (- e)); [destruct (Z.even (m / 2 ^ (- e)))| |]; lia.
Qed.
Lemma dec_scaled_nonneg k x s a : dec_scaled k x = Some (s, a) -> 0 <= a.
Proof.
  destruct x as [b|b| |b m e]; cbn [dec_scaled]; intros E; try discriminate; [injection E as <- <-; lia|].
  assert (E2 : a = rne_Z (Zpos m * 10 ^ k) e) by congruence. subst a.
  apply rne_nonneg. apply Z.mul_nonneg_nonneg; [lia|apply Z.pow_nonneg; lia].
Qed.
Lemma fmt_clean k x : all_chars clean_char (fmt_fixed k x) = true.
Proof.
  unfold fmt_fixed. destruct (dec_scaled (Z.of_nat k) x) as [[s a]|] eqn:E.
  - pose proof (dec_scaled_nonneg _ _ _ _ E).
    assert (0 <= a / 10 ^ Z.of_nat k). { apply Z.div_pos; [lia|]. apply Z.pow_pos_nonneg; lia. }
    rewrite !all_chars_app, (digit_clean _ (udec_digits _ H0)), (digit_clean _ (fixed_digits_ok k a)).
    destruct s; reflexivity.
  - destruct x as [| [] | |]; reflexivity.
Qed.
Lemma itoa_clean z : all_chars clean_char (itoa z) = true.
Proof.
  unfold itoa. destruct (Z.ltb_spec z 0).
  - rewrite all_chars_app, (digit_clean _ (udec_digits (- z) ltac:(lia))). reflexivity.
  - apply digit_clean, udec_digits; lia.
Qed.
Lemma number_fmt k x : (0 < k <= 4)%nat -> number (fmt_fixed k x) = shown (Z.of_nat k) x.
Proof.
  intros Hk. unfold number, shown. destruct (dec_scaled (Z.of_nat k) x) as [[s a]|] eqn:E.
  - pose proof (dec_scaled_nonneg _ _ _ _ E). rewrite (parse_num_fixed k x s a ltac:(lia) E H).
    destruct (Nat.leb_spec k 4); [reflexivity|lia].
  - unfold fmt_fixed. rewrite E. destruct x as [| [] | |]; reflexivity.
Qed.
Lemma number_itoa z : number (itoa z) = Some (z * 10000).
Proof. unfold number. rewrite parse_num_itoa. reflexivity. Qed.
Lemma clean_word c s : clean_char c = true -> all_chars clean_char s = true -> clean (String c s).
Proof. intros Hc Hs. split; [discriminate|]. cbn [all_chars]. rewrite Hc, Hs. reflexivity. Qed.
