From Verif Require Import GoBase GoFloat M_Micrometer M_Geom2D M_DPHeap S_Geom L_Geom2D.
Local Open Scope nat_scope.

Lemma nth_error_ext' {A} (l m : list A) : (forall j, nth_error l j = nth_error m j) -> l = m.
Proof.
  revert m; induction l as [|x l IH]; intros [|y m] H; auto.
  - specialize (H 0); discriminate.
  - specialize (H 0); discriminate.
  - pose proof (H 0) as H0. cbn in H0. injection H0 as ->. f_equal. apply IH. intros j. apply (H (S j)).
Qed.
Lemma nth_error_firstn {A} (l : list A) n j : nth_error (firstn n l) j = if j <? n then nth_error l j else None.
Proof.
  revert l j; induction n as [|n IH]; intros l j; cbn [firstn].
  - destruct j; reflexivity.
  - destruct l as [|x l]; [destruct (j <? S n); destruct j; reflexivity|].
    destruct j as [|j]; [reflexivity|]. cbn [nth_error]. rewrite IH. reflexivity.
Qed.
Lemma nth_error_skipn {A} (l : list A) n j : nth_error (skipn n l) j = nth_error l (n + j).
Proof.
  revert l j; induction n as [|n IH]; intros l j; [reflexivity|].
  destruct l as [|x l]; [destruct j; reflexivity|]. apply IH.
Qed.

Lemma arr_set h a l b : a < length h -> arr (set_nth a l h) b = if a =? b then l else arr h b.
Proof.
  intros Ha. unfold arr. destruct (Nat.eqb_spec a b) as [->|E].
  - apply nth_error_nth. apply nth_error_set_nth_eq. exact Ha.
  - pose proof (nth_error_set_nth_neq a b l h E) as H.
    destruct (nth_error h b) as [x|] eqn:Eb.
    + rewrite (nth_error_nth _ _ _ H), (nth_error_nth _ _ _ Eb). reflexivity.
    + apply nth_error_None in Eb. apply nth_error_None in H. rewrite !nth_overflow; auto.
Qed.
Lemma arr_app_old h x a : a < length h -> arr (h ++ [x]) a = arr h a.
Proof. intros H. unfold arr. apply app_nth1, H. Qed.
Lemma arr_app_new h x : arr (h ++ [x]) (length h) = x.
Proof. unfold arr. rewrite app_nth2, Nat.sub_diag; [reflexivity|apply Nat.le_refl]. Qed.

Lemma cell_write l pos vals j : pos + length vals <= length l ->
  nth_error (write_at l pos vals) j =
  if (pos <=? j) && (j <? pos + length vals) then nth_error vals (j - pos) else nth_error l j.
Proof.
  intros H. unfold write_at.
  assert (Lf : length (firstn pos l) = pos) by (rewrite firstn_length; lia).
  destruct (Nat.leb_spec pos j) as [C|C]; cbn [andb].
  - rewrite nth_error_app2 by lia. rewrite Lf. destruct (Nat.ltb_spec j (pos + length vals)) as [D|D].
    + rewrite nth_error_app1 by lia. reflexivity.
    + rewrite nth_error_app2 by lia. rewrite nth_error_skipn. f_equal. lia.
  - rewrite nth_error_app1 by lia. rewrite nth_error_firstn. destruct (Nat.ltb_spec j pos); [reflexivity|lia].
Qed.
Lemma write_length l pos vals : pos + length vals <= length l -> length (write_at l pos vals) = length l.
Proof. intros H. unfold write_at. rewrite !app_length, firstn_length, skipn_length. lia. Qed.

Lemma read_nth h s j : nth_error (read h s) j = if j <? s_len s then cell h (s_arr s) (s_off s + j) else None.
Proof. unfold read. rewrite nth_error_firstn, nth_error_skipn. reflexivity. Qed.
Lemma read_length h s : valid h s -> length (read h s) = s_len s.
Proof.
  intros (V1 & V2 & V3). unfold read. rewrite firstn_length, skipn_length. lia.
Qed.
Lemma read_ext h h' s s' : s_len s = s_len s' ->
  (forall j, j < s_len s -> cell h (s_arr s) (s_off s + j) = cell h' (s_arr s') (s_off s' + j)) -> read h s = read h' s'.
Proof.
  intros E H. apply nth_error_ext'. intros j. rewrite !read_nth, <- E.
  destruct (Nat.ltb_spec j (s_len s)) as [C|C]; [apply H, C|reflexivity].
Qed.

(** what a call may change: nothing outside the window of [s], and neither its first nor its last cell *)
Definition frame (h h' : heap) (s : slice) : Prop :=
  length h <= length h' /\
  (forall a, a < length h -> length (arr h' a) = length (arr h a)) /\
  (forall a j, a < length h -> (a <> s_arr s \/ j <= s_off s \/ s_off s + s_len s <= j + 1) -> cell h' a j = cell h a j).

Definition place (h : heap) (s s' : slice) : Prop :=
  (s_arr s' = s_arr s /\ s_off s' = s_off s /\ s_cap s' = s_cap s) \/ length h <= s_arr s'.

Lemma frame_refl h s : frame h h s.
Proof. repeat split; auto. Qed.

Lemma subseq_length {A} (a b : list A) : subseq a b -> length a <= length b.
Proof. intros H; induction H; cbn; lia. Qed.
Lemma subseq_same_length {A} (a b : list A) : subseq a b -> length a = length b -> a = b.
Proof.
  intros H; induction H; cbn; intros E; auto.
  - f_equal. apply IHsubseq. lia.
  - apply subseq_length in H. lia.
Qed.

Lemma valid_frame h h' s0 s : frame h h' s0 -> valid h s -> valid h' s.
Proof.
  intros (F1 & F2 & F3) (V1 & V2 & V3). repeat split; try lia. rewrite F2 by exact V1. exact V2.
Qed.

Section S.
Variable grow : nat -> nat -> nat.

Lemma append_spec h s vals h' s' : valid h s -> append_slice grow h s vals = (h', s') ->
  valid h' s' /\ read h' s' = read h s ++ vals /\ length h <= length h' /\
  (forall a, a < length h -> length (arr h' a) = length (arr h a)) /\
  (forall a j, a < length h -> (a <> s_arr s \/ j < s_off s + s_len s \/ s_off s + s_len s + length vals <= j) -> cell h' a j = cell h a j) /\
  ((s_arr s' = s_arr s /\ s_off s' = s_off s /\ s_cap s' = s_cap s /\
     (forall j, j < length vals -> cell h' (s_arr s) (s_off s + s_len s + j) = nth_error vals j)) \/
   (length h <= s_arr s' /\ forall a j, a < length h -> cell h' a j = cell h a j)).
Proof.
  intros V E. pose proof (read_length h s V) as RL. destruct V as (V1 & V2 & V3).
  unfold append_slice in E. destruct (Nat.leb_spec (s_len s + length vals) (s_cap s)) as [C|C].
  - injection E as <- <-.
    assert (A : forall b, arr (set_nth (s_arr s) (write_at (arr h (s_arr s)) (s_off s + s_len s) vals) h) b =
       if s_arr s =? b then write_at (arr h (s_arr s)) (s_off s + s_len s) vals else arr h b) by (intros b; apply arr_set; exact V1).
    assert (WL : length (write_at (arr h (s_arr s)) (s_off s + s_len s) vals) = length (arr h (s_arr s))) by (apply write_length; lia).
    assert (CW : forall j, cell (set_nth (s_arr s) (write_at (arr h (s_arr s)) (s_off s + s_len s) vals) h) (s_arr s) j =
        if (s_off s + s_len s <=? j) && (j <? s_off s + s_len s + length vals) then nth_error vals (j - (s_off s + s_len s)) else cell h (s_arr s) j).
    { intros j. unfold cell. rewrite A, Nat.eqb_refl. apply cell_write. lia. }
    split; [|split; [|split; [|split; [|split]]]].
    + split; [|split]; cbn; [rewrite set_nth_length; exact V1| rewrite A, Nat.eqb_refl; rewrite WL; exact V2|exact C].
    + apply nth_error_ext'. intros j. rewrite read_nth. cbn [s_len s_arr s_off].
      destruct (Nat.ltb_spec j (s_len s + length vals)) as [D|D].
      * rewrite CW. destruct (Nat.leb_spec (s_off s + s_len s) (s_off s + j)) as [G|G]; cbn [andb].
        -- destruct (Nat.ltb_spec (s_off s + j) (s_off s + s_len s + length vals)); [|lia].
           rewrite nth_error_app2 by lia. f_equal. lia.
        -- rewrite nth_error_app1 by lia. rewrite read_nth. destruct (Nat.ltb_spec j (s_len s)); [reflexivity|lia].
      * symmetry. apply nth_error_None. rewrite app_length. lia.
    + rewrite set_nth_length. apply Nat.le_refl.
    + intros a Ha. rewrite A. destruct (Nat.eqb_spec (s_arr s) a) as [<-|N]; [exact WL|reflexivity].
    + intros a j Ha H. destruct (Nat.eq_dec a (s_arr s)) as [->|N].
      * rewrite CW. destruct (Nat.leb_spec (s_off s + s_len s) j); cbn [andb]; [|reflexivity].
        destruct (Nat.ltb_spec j (s_off s + s_len s + length vals)); [lia|reflexivity].
      * unfold cell. rewrite A. destruct (Nat.eqb_spec (s_arr s) a); [congruence|reflexivity].
    + left. cbn. repeat split. intros j Hj. rewrite CW.
      destruct (Nat.leb_spec (s_off s + s_len s) (s_off s + s_len s + j)); [cbn [andb]|lia].
      destruct (Nat.ltb_spec (s_off s + s_len s + j) (s_off s + s_len s + length vals)); [|lia]. f_equal. lia.
  - injection E as <- <-. set (nc := Nat.max (grow (s_cap s) (s_len s + length vals)) (s_len s + length vals)).
    set (new := read h s ++ vals ++ repeat (Pt 0%Z 0%Z) (nc - (s_len s + length vals))).
    assert (NL : length new = nc).
    { unfold new. rewrite !app_length, repeat_length, RL. unfold nc. lia. }
    split; [|split; [|split; [|split; [|split]]]].
    + split; [|split]; cbn; [rewrite app_length; cbn; lia|rewrite arr_app_new, NL; lia|unfold nc; lia].
    + unfold read at 1. cbn [s_len s_arr s_off]. rewrite arr_app_new. cbn [skipn]. unfold new.
      rewrite app_assoc. rewrite firstn_app. rewrite firstn_all2 by (rewrite app_length; lia).
      rewrite app_length, RL, Nat.sub_diag. cbn. apply app_nil_r.
    + rewrite app_length. lia.
    + intros a Ha. rewrite arr_app_old by exact Ha. reflexivity.
    + intros a j Ha _. unfold cell. rewrite arr_app_old by exact Ha. reflexivity.
    + right. cbn. split; [apply Nat.le_refl|]. intros a j Ha. unfold cell. rewrite arr_app_old by exact Ha. reflexivity.
Qed.

Lemma firstn_S_read h s i : valid h s -> S i <= s_len s ->
  read h (Sl (s_arr s) (s_off s) (S i) (s_cap s)) = firstn (S i) (read h s).
Proof.
  intros V H. apply nth_error_ext'. intros j. rewrite read_nth, nth_error_firstn, read_nth. cbn [s_len s_arr s_off].
  destruct (Nat.ltb_spec j (S i)); [|reflexivity]. destruct (Nat.ltb_spec j (s_len s)); [reflexivity|lia].
Qed.
Lemma skipn_read h s i : read h (Sl (s_arr s) (s_off s + i) (s_len s - i) (s_cap s - i)) = skipn i (read h s).
Proof.
  apply nth_error_ext'. intros j. rewrite read_nth, nth_error_skipn, read_nth. cbn [s_len s_arr s_off].
  destruct (Nat.ltb_spec j (s_len s - i)); destruct (Nat.ltb_spec (i + j) (s_len s)); try lia; [|reflexivity].
  f_equal. lia.
Qed.

Lemma last_nth_error {A} (l : list A) d : l <> [] -> nth_error l (length l - 1) = Some (last l d).
Proof.
  intros H. destruct l as [|x l'] using rev_ind; [contradiction|]. rewrite last_last, app_length. cbn.
  rewrite Nat.add_sub. rewrite nth_error_app2, Nat.sub_diag by lia. reflexivity.
Qed.

Theorem dpH_correct ep : forall fuel h s h' s',
  valid h s -> dpH grow fuel h s ep = (h', s') ->
  read h' s' = douglasPeucker fuel (read h s) ep /\ valid h' s' /\ frame h h' s /\ place h s s'.
Proof.
  induction fuel as [|fuel IH]; intros h s h' s' V E.
  - cbn in E. injection E as <- <-. repeat split; auto; [apply V..|left; repeat split].
  - cbn [dpH] in E. pose proof (read_length h s V) as RL.
    destruct (Nat.leb_spec (s_len s) 2) as [C|C].
    + injection E as <- <-. split; [|split; [exact V|split; [apply frame_refl|left; repeat split]]].
      destruct (read h s) as [|x [|y [|z l]]]; try reflexivity. cbn in RL. lia.
    + set (points := read h s) in *.
      assert (Hdp : douglasPeucker (S fuel) points ep =
        let p0 := hd (Pt 0%Z 0%Z) points in let pl := last points p0 in
        let '(i, maxDist) := seekMostDistantPoint p0 pl points in
        if (ep <=? maxDist)%Z then
          firstn (length (douglasPeucker fuel (firstn (S i) points) ep) - 1) (douglasPeucker fuel (firstn (S i) points) ep) ++ douglasPeucker fuel (skipn i points) ep
        else [p0; pl]).
      { destruct points as [|x [|y [|z l]]]; cbn [List.length] in RL; try lia. reflexivity. }
      rewrite Hdp. clear Hdp. cbv zeta. cbv zeta in E.
      set (p0 := hd (Pt 0%Z 0%Z) points) in *. set (pl := last points p0) in *.
      destruct (seekMostDistantPoint p0 pl points) as [i M] eqn:Es.
      assert (Hi : i < s_len s).
      { unfold seekMostDistantPoint in Es. apply seek_index in Es. destruct Es as [[-> _]|Es]; lia. }
      destruct (ep <=? M)%Z.
      2:{ injection E as <- <-. split; [|split; [|split]].
          - unfold read. cbn [s_len s_arr s_off]. rewrite arr_app_new. reflexivity.
          - split; [|split]; cbn; [rewrite app_length; cbn; lia|rewrite arr_app_new; cbn; lia|lia].
          - split; [rewrite app_length; lia|]. split; intros a; intros; unfold cell; rewrite arr_app_old by assumption; reflexivity.
          - right. cbn. apply Nat.le_refl. }
      destruct (dpH grow fuel h (Sl (s_arr s) (s_off s) (S i) (s_cap s)) ep) as [h1 lpart] eqn:E1.
      destruct (dpH grow fuel h1 (Sl (s_arr s) (s_off s + i) (s_len s - i) (s_cap s - i)) ep) as [h2 rpart] eqn:E2.
      destruct V as (V1 & V2 & V3).
      assert (VL : valid h (Sl (s_arr s) (s_off s) (S i) (s_cap s))) by (split; [|split]; cbn; lia).
      apply IH in E1; [|exact VL]. destruct E1 as (R1 & W1 & F1 & P1).
      rewrite firstn_S_read in R1; [|split; [|split]; assumption|lia]. fold points in R1.
      assert (VR : valid h1 (Sl (s_arr s) (s_off s + i) (s_len s - i) (s_cap s - i))).
      { eapply valid_frame; [exact F1|]. split; [|split]; cbn; lia. }
      apply IH in E2; [|exact VR]. destruct E2 as (R2 & W2 & F2 & P2).
      (* the right part still has its original contents *)
      assert (RR : read h1 (Sl (s_arr s) (s_off s + i) (s_len s - i) (s_cap s - i)) = skipn i points).
      { unfold points. rewrite <- skipn_read. apply read_ext; [reflexivity|]. cbn [s_len s_arr s_off]. intros j Hj.
        apply F1; [exact V1|]. right; right. cbn. lia. }
      rewrite RR in R2.
      (* the pure results *)
      destruct points as [|q0 points'] eqn:Ep; [cbn in RL; lia|].
      assert (Eq0 : exists x, nth_error (q0 :: points') i = Some x).
      { destruct (nth_error (q0 :: points') i) eqn:G; [eauto|]. apply nth_error_None in G. lia. }
      destruct Eq0 as (x & Ex). destruct (split_at _ _ _ Ex) as (S1 & S2 & S3).
      (* left contents unchanged by the right computation *)
      assert (WL2 : valid h2 lpart) by (eapply valid_frame; eassumption).
      assert (LenL : s_len lpart = length (douglasPeucker fuel (firstn (S i) (q0 :: points')) ep)).
      { rewrite <- R1. symmetry. apply read_length, W1. }
      assert (LenL1 : 1 <= s_len lpart <= S i).
      { rewrite LenL. pose proof (dp_subseq fuel (firstn (S i) (q0 :: points')) ep) as Sq.
        apply subseq_length in Sq. rewrite firstn_length in Sq. split; [|cbn [List.length] in *; lia].
        cbn [firstn]. destruct (dp_ends fuel q0 (firstn i points') ep) as (o & -> & _). cbn. lia. }
      assert (RL2 : read h2 lpart = douglasPeucker fuel (firstn (S i) (q0 :: points')) ep).
      { rewrite <- R1. apply read_ext; [reflexivity|]. intros j Hj.
        destruct W1 as (W1a & W1b & W1c).
        apply F2; [exact W1a|]. cbn [s_arr s_off s_len].
        destruct P1 as [(A1 & A2 & A3)|A1].
        - cbn in A1, A2, A3. right. left. lia.
        - left. cbn in A1. lia. }
      set (lpart' := Sl (s_arr lpart) (s_off lpart) (s_len lpart - 1) (s_cap lpart)) in *.
      assert (VL' : valid h2 lpart') by (destruct WL2 as (? & ? & ?); split; [|split]; cbn; lia).
      destruct (append_spec _ _ _ _ _ VL' E) as (VA & RA & LA & LA2 & FA & PA).
      assert (RLp : read h2 lpart' = firstn (s_len lpart - 1) (douglasPeucker fuel (firstn (S i) (q0 :: points')) ep)).
      { rewrite <- RL2. apply nth_error_ext'. intros j. rewrite nth_error_firstn, !read_nth. cbn [lpart' s_len s_arr s_off].
        destruct (Nat.ltb_spec j (s_len lpart - 1)); [|reflexivity]. destruct (Nat.ltb_spec j (s_len lpart)); [reflexivity|lia]. }
      assert (Res : read h' s' = firstn (s_len lpart - 1) (douglasPeucker fuel (firstn (S i) (q0 :: points')) ep) ++ douglasPeucker fuel (skipn i (q0 :: points')) ep).
      { rewrite RA, RLp, R2. reflexivity. }
      rewrite <- LenL. split; [exact Res|]. split; [exact VA|].
      (* the whole result is the pure result for the whole list *)
      assert (LenR : length (douglasPeucker fuel (skipn i (q0 :: points')) ep) <= s_len s - i).
      { pose proof (dp_subseq fuel (skipn i (q0 :: points')) ep) as Sq. apply subseq_length in Sq. rewrite skipn_length in Sq.
        cbn [List.length] in *. lia. }
      assert (LenR1 : 1 <= length (douglasPeucker fuel (skipn i (q0 :: points')) ep)).
      { rewrite S2. destruct (dp_ends fuel x (skipn (S i) (q0 :: points')) ep) as (o & -> & _). cbn. lia. }
      set (rv := douglasPeucker fuel (skipn i (q0 :: points')) ep) in *.
      rewrite R2 in FA, PA. fold rv in FA, PA.
      split.
      * (* frame *)
        destruct F1 as (Fa1 & Fa2 & Fa3). destruct F2 as (Fb1 & Fb2 & Fb3).
        split; [lia|]. split.
        { intros a Ha. rewrite LA2, Fb2, Fa2 by lia. reflexivity. }
        intros a j Ha Hout.
        assert (B12 : cell h2 a j = cell h a j).
        { rewrite Fb3; [|lia|]. 2:{ cbn [s_arr s_off s_len] in *. lia. }
          apply Fa3; [exact Ha|]. cbn [s_arr s_off s_len]. lia. }
        destruct PA as [(Q1 & Q2 & Q3 & Q4)|(Q1 & Q2)].
        2:{ rewrite Q2 by lia. exact B12. }
        cbn [lpart' s_arr s_off s_len s_cap] in *.
        destruct (Nat.eq_dec a (s_arr lpart)) as [Ea|Ea].
        2:{ rewrite FA; [exact B12|lia|]. left; exact Ea. }
        (* in place: then left lives in the array of s, at its offset *)
        destruct P1 as [(A1 & A2 & A3)|A1]; cbn in A1; [|lia]. cbn in A2, A3.
        destruct (Nat.lt_ge_cases j (s_off lpart + (s_len lpart - 1))) as [D|D].
        { rewrite FA; [exact B12|lia|]. right; left; lia. }
        destruct (Nat.le_gt_cases (s_off lpart + (s_len lpart - 1) + length rv) j) as [D2|D2].
        { rewrite FA; [exact B12|lia|]. right; right; lia. }
        (* a written cell that is the first or the last of the window *)
        rewrite Ea. replace j with (s_off lpart + (s_len lpart - 1) + (j - (s_off lpart + (s_len lpart - 1)))) by lia.
        rewrite Q4 by lia. rewrite <- Ea.
        replace (s_off lpart + (s_len lpart - 1) + (j - (s_off lpart + (s_len lpart - 1)))) with j by lia.
        assert (Whole : subseq (firstn (s_len lpart - 1) (douglasPeucker fuel (firstn (S i) (q0 :: points')) ep) ++ rv) (q0 :: points')).
        { match goal with |- subseq ?o _ => cut (subseq o (firstn i (q0 :: points') ++ x :: skipn (S i) (q0 :: points'))) end;
            [rewrite <- S3; auto|]. apply subseq_app.
          - (* left result minus its last point *)
            assert (HT : forall (l : path) (a b : pt) (i : nat) (M : Z), hd_error l = Some a -> last l a = b -> seekMostDistantPoint a b l = (i, M) -> (M < ep)%Z -> forall p, In p l -> True) by auto.
            pose proof (dp_simplifies (fun _ _ _ _ => True) ep HT fuel (firstn (S i) (q0 :: points')) q0 eq_refl) as HS.
            rewrite S1 in HS |- *. destruct (simp_out_last _ _ _ _ HS) as (o1 & Eo1).
            rewrite S1 in LenL. rewrite Eo1 in LenL. rewrite app_length in LenL. cbn in LenL.
            rewrite Eo1. replace (s_len lpart - 1) with (length o1) by lia.
            rewrite firstn_app, firstn_all, Nat.sub_diag. cbn. rewrite app_nil_r.
            apply simplifies_subseq in HS. rewrite Eo1 in HS. revert HS.
            clear. intros HS.
            assert (G : forall (u : list pt) w v y, subseq w v -> w = u ++ [x] -> forall v', v = v' ++ [y] -> subseq u v').
            { intros u w v y Hs. revert u. induction Hs as [|z w v Hs IH|z w v Hs IH]; intros u Ew v' Ev.
              - destruct u; discriminate.
              - destruct u as [|z' u].
                + apply subseq_nil.
                + cbn in Ew. injection Ew as <- Ew. destruct v' as [|y' v'].
                  * cbn in Ev. injection Ev as _ ->. inversion Hs; subst; destruct u; discriminate.
                  * cbn in Ev. injection Ev as <- Ev. constructor. apply IH; assumption.
              - destruct v' as [|y' v'].
                + cbn in Ev. injection Ev as _ ->. inversion Hs; subst; destruct u; discriminate.
                + cbn in Ev. injection Ev as <- Ev. constructor. apply IH; assumption. }
            eapply G; [exact HS|reflexivity|reflexivity].
          - rewrite <- S2. apply dp_subseq. }
        assert (Lw : length (firstn (s_len lpart - 1) (douglasPeucker fuel (firstn (S i) (q0 :: points')) ep)) = s_len lpart - 1).
        { rewrite firstn_length, <- LenL. lia. }
        assert (Hsub : cell h a j = nth_error (q0 :: points') (j - s_off s)).
        { rewrite <- Ep. unfold points. rewrite read_nth.
          destruct (Nat.ltb_spec (j - s_off s) (s_len s)); [|cbn [List.length] in *; lia].
          rewrite Ea, A1. f_equal. lia. }
        rewrite Hsub. destruct Hout as [Ho|[Ho|Ho]]; [congruence| |].
        -- (* first cell: left has length 1 and the right part starts with the first point *)
           assert (s_len lpart = 1) by lia. assert (j = s_off s) by lia. subst j.
           replace (s_off s - (s_off lpart + (s_len lpart - 1))) with 0 by lia. rewrite Nat.sub_diag.
           assert (Lx : s_len lpart = 1) by lia. 
           assert (Hl1 : exists y, douglasPeucker fuel (firstn (S i) (q0 :: points')) ep = [y]).
           { rewrite Lx in LenL. destruct (douglasPeucker fuel (firstn (S i) (q0 :: points')) ep) as [|y [|z w]]; try discriminate. eauto. }
           destruct Hl1 as (y & Hl1).
           cbn [firstn] in Hl1. destruct (dp_ends fuel q0 (firstn i points') ep) as (o & Eo & Elast).
           rewrite Hl1 in Eo. injection Eo as -> <-.
           rewrite Hl1 in Elast. specialize (Elast q0). cbn [last] in Elast.
           unfold rv. rewrite S2. destruct (dp_ends fuel x (skipn (S i) (q0 :: points')) ep) as (o' & -> & _). cbn.
           f_equal. assert (Lst : last (firstn (S i) (q0 :: points')) q0 = x) by (rewrite S1; apply last_last).
           cbn [firstn] in Lst. rewrite <- Lst. symmetry. exact Elast.
        -- (* last cell: then nothing was dropped *)
           assert (Hlen : length (firstn (s_len lpart - 1) (douglasPeucker fuel (firstn (S i) (q0 :: points')) ep) ++ rv) = length (q0 :: points')).
           { rewrite app_length, Lw. cbn [List.length] in *. lia. }
           apply subseq_same_length in Whole; [|exact Hlen].
           rewrite <- Whole. rewrite nth_error_app2 by (rewrite Lw; lia). rewrite Lw. f_equal. lia.
      * (* place *)
        destruct PA as [(Q1 & Q2 & Q3 & Q4)|(Q1 & Q2)]; cbn in Q1.
        -- destruct P1 as [(A1 & A2 & A3)|A1]; [|right; cbn in A1; rewrite Q1; exact A1].
           left. cbn in *. repeat split; congruence.
        -- right. destruct F1 as (Fa1 & _). destruct F2 as (Fb1 & _). lia.
Qed.
End S.
