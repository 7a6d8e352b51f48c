(** Consequences of the polygon building specification; closed surfaces. *)
From Coq Require Import Permutation Sorted.
From Verif Require Import GoBase GoFloat M_Micrometer M_Geom2D M_Model M_Slicer S_Geom S_Model S_Slicer L_Vec L_Model L_Slicer L_SliceLoop L_Chains L_Join L_Polygons.
Local Open Scope Z_scope.

Lemma last_map {A B} (f : A -> B) l d : last (map f l) (f d) = f (last l d).
Proof. induction l as [|a [|b l'] IH]; [reflexivity|reflexivity|]. exact IH. Qed.
Lemma forall2_last {A B} (R : A -> B -> Prop) l m a b : Forall2 R l m -> l <> [] -> R (last l a) (last m b).
Proof. induction 1 as [|x y l' m' r F IH]; intros N; [congruence|]. destruct F as [|x' y' l'' m'' r' F]; [exact r|]. apply IH. discriminate. Qed.

Lemma nodup_app_l {A} (l m : list A) : NoDup (l ++ m) -> NoDup l.
Proof. induction l as [|a l IH]; intros H; [constructor|]. inversion H; subst. constructor; [intros I; apply H2, in_or_app; auto|auto]. Qed.
Lemma nodup_app_r {A} (l m : list A) : NoDup (l ++ m) -> NoDup m.
Proof. induction l as [|a l IH]; intros H; [exact H|]. inversion H; subst. auto. Qed.
Section Facts.
Context (touch : Z -> res (Z * Z * Z)) (l : slayer) (meld join finish : Z).
Hypothesis Hm : 0 <= meld.

Lemma chain_bridged c ss : Forall2 (fun i s => idx (lsegs l) i = Ok s) c ss -> Sorted (follows touch l meld) c ->
  Sorted (bridged l meld join) (chain_points ss).
Proof.
  intros F S. assert (G : Sorted (bridged l meld join) (map send ss)).
  { revert S. induction F as [|i s c ss E F IH]; intros S; [constructor|]. inversion S as [|? ? S' HR]; subst. cbn [map].
    constructor; [apply IH, S'|]. destruct F as [|j t c ss E' F]; constructor. inversion HR as [|? ? R]; subst.
    destruct R as (a & b & ts & f & Ea & Eb & _ & _ & _ & _ & D). assert (a = s) by congruence. assert (b = t) by congruence. subst.
    left. exists t. split; [eapply idx_In; eauto|]. split; [reflexivity|exact D]. }
  destruct F as [|i s c ss E F]; [constructor|]. unfold chain_points. constructor; [exact G|]. cbn [map]. constructor.
  left. exists s. split; [eapply idx_In; eauto|]. split; [reflexivity|]. unfold dist2. rewrite !Z.sub_diag. nia.
Qed.

Lemma chained_facts U pbs cs : chained (follows touch l meld) (idx (lsegs l)) U pbs cs -> forall p b, In (p, b) pbs ->
  p <> [] /\ Sorted (bridged l meld join) p /\ (b = true -> closes meld p) /\
  (forall q, In q p -> exists s, In s (lsegs l) /\ (q = sstart s \/ q = send s)).
Proof.
  induction 1 as [|U c ss b pbs cs Nc F S B M C IH]; intros p b' I; [destruct I|]. destruct I as [E|I]; [|eauto].
  injection E as <- <-. assert (Ns : ss <> []) by (intros ->; inversion F; congruence).
  split; [destruct ss; [congruence|discriminate]|]. split; [eapply chain_bridged; eauto|]. split.
  - intros Eb. apply B in Eb. destruct Eb as (a & b' & ts & f & Ea & Eb & _ & _ & _ & _ & D).
    destruct F as [|i s c ss E F]; [congruence|]. cbn [hd] in Eb. assert (b' = s) by congruence. subst b'.
    pose proof (forall2_last _ (i :: c) (s :: ss) 0 s (Forall2_cons _ _ E F) ltac:(discriminate)) as EL. cbn beta in EL.
    assert (a = last (s :: ss) s) by congruence. subst a.
    unfold closes, first_point, final_point, chain_points. cbn [hd].
    replace (last (sstart s :: map send (s :: ss)) (Pt 0 0)) with (send (last (s :: ss) s)).
    + rewrite dist2_sym. exact D.
    + rewrite <- (last_map send (s :: ss) s). change (last (sstart s :: map send (s :: ss)) (Pt 0 0)) with (last (map send (s :: ss)) (Pt 0 0)).
      apply last_default. discriminate.
  - intros q I. assert (X : forall s, In s ss -> In s (lsegs l)).
    { intros s Is. clear -F Is. induction F; [destruct Is|]. destruct Is as [->|Is]; [eapply idx_In; eauto|auto]. }
    destruct ss as [|s ss]; [congruence|]. destruct I as [<-|I]; [exists s; split; [apply X; left; reflexivity|auto]|].
    apply in_map_iff in I. destruct I as (s' & <- & I). exists s'. split; [apply X, I|auto].
Qed.

Lemma pieces_facts pbs cs g : chained (follows touch l meld) (idx (lsegs l)) [] pbs cs -> piece_ok pbs join g ->
  Sorted (bridged l meld join) (pc_path g) /\ (pc_closed g = true -> closes meld (pc_path g) \/ closes join (pc_path g)) /\
  (forall q, In q (pc_path g) -> exists s, In s (lsegs l) /\ (q = sstart s \/ q = send s)).
Proof.
  intros C (qs & F & E & S & Q). pose proof (chained_facts [] pbs cs C) as G.
  assert (Iq : forall q, In q qs -> In q pbs).
  { intros q I. clear -F I. induction F; [destruct I|]. destruct I as [->|I]; [eapply idx_In; eauto|auto]. }
  split; [|split].
  - rewrite E. clear E Q F. induction qs as [|[p b] qs IH]; [constructor|].
    cbn [map concat fst]. destruct (G p b (Iq _ (or_introl eq_refl))) as (N & Sp & _).
    inversion S as [|? ? S' HR]; subst.
    apply sorted_app with (d := Pt 0 0); auto; [apply IH; auto; intros q I; apply Iq; right; exact I|].
    intros Nc. right. destruct qs as [|[p' b'] qs]; [cbn in Nc; congruence|]. cbn [map fst] in *. inversion HR as [|? ? R]; subst.
    destruct (G p' b' (Iq _ (or_intror (or_introl eq_refl)))) as (N' & _). unfold joins, first_point, final_point in R.
    cbn [concat]. destruct p' as [|x p']; [congruence|]. exact R.
  - intros Ec. destruct qs as [|[p b] [|q2 qs]]; [contradiction| |].
    + left. cbn in Q, E. rewrite app_nil_r in E. rewrite E. apply (G p b (Iq _ (or_introl eq_refl))). congruence.
    + right. destruct Q as (Q & _). rewrite Ec in Q. unfold closesb in Q. unfold closes. symmetry in Q. apply Z.leb_le, Q.
  - intros q I. rewrite E in I. apply in_concat in I. destruct I as (p & Ip & I). apply in_map_iff in Ip.
    destruct Ip as ([p' b'] & <- & Ip). exact (proj2 (proj2 (proj2 (G _ _ (Iq _ Ip)))) q I).
Qed.

(** *** closed layers: the follow relation is a bijection *)
Hypothesis TOT : forall s, 0 <= s < Z.of_nat (List.length (lsegs l)) -> exists t, follows touch l meld s t.
Hypothesis FUN : forall s t t', follows touch l meld s t -> follows touch l meld s t' -> t = t'.
Hypothesis INJ : forall s s' t, follows touch l meld s t -> follows touch l meld s' t -> s = s'.
Let R := follows touch l meld.

(** a set of used segments made of whole cycles *)
Definition cyclic (U : list Z) : Prop := forall t, In t U -> exists s, In s U /\ R s t.

Lemma sorted_prev (c : list Z) t : Sorted R c -> In t c -> (exists r, c = t :: r) \/ exists s, In s c /\ R s t /\ exists a b, c = (a ++ s :: t :: b)%list.
Proof.
  induction c as [|x c IH]; intros S I; [destruct I|]. destruct I as [->|I]; [left; eauto|]. right.
  inversion S as [|? ? S' HR]; subst. destruct (IH S' I) as [(r & ->)|(s & Is & Rs & a & b & ->)].
  - inversion HR; subst. exists x. split; [left; reflexivity|]. split; [assumption|]. exists [], r. reflexivity.
  - exists s. split; [right; exact Is|]. split; [exact Rs|]. exists (x :: a), b. reflexivity.
Qed.

Lemma last_split (c : list Z) : c <> [] -> exists a, c = (a ++ [last c 0])%list.
Proof. intros N. exists (removelast c). apply app_removelast_last, N. Qed.

Lemma all_closed U pbs cs : chained R (idx (lsegs l)) U pbs cs -> NoDup (U ++ concat cs) ->
  (forall i, In i (concat cs) -> 0 <= i < Z.of_nat (List.length (lsegs l))) -> cyclic U -> forall p b, In (p, b) pbs -> b = true.
Proof.
  induction 1 as [|U c ss b pbs cs Nc F S B M C IH]; intros ND Rg Cy p b' I; [destruct I|].
  cbn [concat] in *.
  assert (Hcl : R (last c 0) (hd 0 c)).
  { destruct (last_split c Nc) as (c0 & Ec).
    destruct (TOT (last c 0)) as (t & Ht). { apply Rg, in_or_app. left. apply last_in, Nc. }
    assert (It := M t Ht). apply in_app_or in It. destruct It as [It|It].
    - exfalso. destruct (Cy t It) as (s & Is & Rs). assert (s = last c 0) by (eapply INJ; eauto). subst s.
      rewrite app_assoc in ND. apply nodup_app_l in ND.
      assert (X : ~ In (last c 0) c). { intros Il. rewrite Ec, app_assoc in ND. apply NoDup_remove_2 in ND. apply ND. rewrite app_nil_r. apply in_or_app; auto. }
      apply X, last_in, Nc.
    - destruct (sorted_prev c t S It) as [(r & Er)|(s & Is & Rs & a & b0 & Es)].
      + rewrite Er in *. cbn [hd]. exact Ht.
      + exfalso. assert (s = last c 0) by (eapply INJ; eauto).
        assert (NDc : NoDup c) by (apply nodup_app_r in ND; apply nodup_app_l in ND; exact ND).
        rewrite Es in NDc. apply NoDup_remove_2 in NDc. apply NDc. apply in_or_app. right. rewrite H.
        rewrite Es. change (a ++ s :: t :: b0)%list with (a ++ [s] ++ t :: b0)%list. rewrite app_assoc.
        assert (LL : forall (x y : list Z) d, y <> [] -> last (x ++ y) d = last y d).
        { intros x y d Ny. induction x as [|z x IHx]; [reflexivity|]. cbn [app]. rewrite <- IHx. destruct (x ++ y)%list eqn:E0; [apply app_eq_nil in E0; tauto|reflexivity]. }
        rewrite LL by discriminate. apply last_in. discriminate. }
  destruct I as [E|I]; [injection E as <- <-; apply B, Hcl|].
  apply (IH) with (p := p); auto.
  - rewrite <- app_assoc. exact ND.
  - intros i Ii. apply Rg, in_or_app. auto.
  - intros t It. apply in_app_or in It. destruct It as [It|It].
    + destruct (Cy t It) as (s & Is & Rs). exists s. split; [apply in_or_app; auto|exact Rs].
    + destruct (sorted_prev c t S It) as [(r & Er)|(s & Is & Rs & _)].
      * exists (last c 0). split; [apply in_or_app; right; apply last_in, Nc|]. rewrite Er in *. exact Hcl.
      * exists s. split; [apply in_or_app; auto|exact Rs].
Qed.
End Facts.

(** *** surfaces *)
Lemma rises_crosses z f a b : In (a, b) (fedges f) -> vz a < z < vz b -> (forall v, In v (facePoints f) -> vz v <> z) -> crosses z f.
Proof.
  destruct f as [[p0 p1] p2]. intros I H N. unfold crosses, nbelow, nabove. cbn [facePoints filter fedges] in *.
  pose proof (N p0 (or_introl eq_refl)). pose proof (N p1 (or_intror (or_introl eq_refl))). pose proof (N p2 (or_intror (or_intror (or_introl eq_refl)))).
  destruct I as [I|[I|[I|[]]]]; injection I as <- <-;
  destruct (Z.ltb_spec (vz p0) z), (Z.ltb_spec (vz p1) z), (Z.ltb_spec (vz p2) z); try lia; cbn [List.length]; auto;
  destruct (Z.ltb_spec z (vz p0)), (Z.ltb_spec z (vz p1)), (Z.ltb_spec z (vz p2)); try lia; cbn [List.length]; auto.
Qed.
Lemma fedges_points f a b : In (a, b) (fedges f) -> In a (facePoints f) /\ In b (facePoints f).
Proof. destruct f as [[p0 p1] p2]. cbn. intros [I|[I|[I|[]]]]; injection I as <- <-; auto. Qed.

Lemma Forall2_in_r {A B} (Q : A -> B -> Prop) l m b : Forall2 Q l m -> In b m -> exists a, In a l /\ Q a b.
Proof. induction 1 as [|x y l m r F IH]; intros []; [subst; exists x; cbn; auto|destruct IH as (a & ? & ?); auto; exists a; cbn; auto]. Qed.

Lemma triangle_aux a b c e D : a * a + b * b <= D -> c * c + e * e <= D -> (c - a) * (c - a) + (e - b) * (e - b) <= 4 * D.
Proof.
  intros H1 H2. pose proof (Z.square_nonneg (c + a)). pose proof (Z.square_nonneg (e + b)).
  assert (E : (c - a) * (c - a) + (e - b) * (e - b) + ((c + a) * (c + a) + (e + b) * (e + b)) = 2 * (a * a + b * b) + 2 * (c * c + e * e)) by ring.
  lia.
Qed.
Lemma triangle p q r d : dist2 p q <= d ^ 2 -> dist2 p r <= d ^ 2 -> dist2 q r <= (2 * d) ^ 2.
Proof.
  unfold dist2. rewrite !Z.pow_2_r. intros H1 H2. pose proof (triangle_aux _ _ _ _ _ H1 H2) as T.
  replace (2 * d * (2 * d)) with (4 * (d * d)) by ring.
  replace (px r - px q) with (px r - px p - (px q - px p)) by ring. replace (py r - py q) with (py r - py p - (py q - py p)) by ring. exact T.
Qed.

Section Surface.
Context (z : Z) (fs : list face) (touch : Z -> res (Z * Z * Z)) (l : slayer) (meld : Z).
Hypothesis CS : closed_surface fs touch.
Hypothesis L : layer_of z fs l.
Hypothesis NV : forall f v, In f fs -> In v (facePoints f) -> vz v <> z.

Lemma seg_face s j : idx (lsegs l) j = Ok s -> exists f, idx fs (sface s) = Ok f /\ crosses z f /\ cuts z f (sstart s) (send s) /\ lf2s l (sface s) = Some j.
Proof.
  intros I. destruct L as (F & T). destruct (Forall2_in_l _ _ _ _ F (idx_In _ _ _ I)) as ([n f] & J & Es & Cu).
  apply filter_In in J. destruct J as (J & Cr). cbn [fst snd] in *. apply number_idx in J. rewrite Z.sub_0_r in J. subst n.
  exists f. split; [exact J|]. split; [apply crossesb_spec, Cr|]. split; [exact Cu|]. apply T. eauto.
Qed.
Lemma face_seg f i : idx fs i = Ok f -> crosses z f -> exists s j, idx (lsegs l) j = Ok s /\ sface s = i /\ cuts z f (sstart s) (send s) /\ lf2s l i = Some j.
Proof.
  intros I C. destruct L as (F & T).
  destruct (Forall2_in_r _ _ _ (i, f) F) as (s & Is & Es & Cu).
  { apply filter_In. split; [apply number_idx; rewrite Z.sub_0_r; exact I|apply crossesb_spec, C]. }
  cbn [fst snd] in *. apply In_idx in Is. destruct Is as (j & Ij). exists s, j. split; [exact Ij|]. split; [exact Es|]. split; [exact Cu|].
  apply T. eauto.
Qed.

Lemma meet a b p q : on_edge z a b p -> on_edge z b a q -> dist2 p q <= 2.
Proof.
  intros P Q. apply on_edge_sym in Q. destruct (on_edge_close _ _ _ _ _ P Q) as (A & B). unfold dist2.
  assert (X : forall x, Z.abs x <= 1 -> x ^ 2 <= 1) by (intros; nia).
  pose proof (X (px q - px p) ltac:(lia)). pose proof (X (py q - py p) ltac:(lia)). lia.
Qed.

Hypothesis Hmeld : 2 <= meld.

Lemma succ_exists s a : idx (lsegs l) s = Ok a -> exists t, follows touch l meld s t.
Proof.
  intros Ia. destruct (seg_face a s Ia) as (f & If & Cr & Cu & _).
  destruct Cu as (_ & (u & v & Ex) & _ & On). destruct (proj2 (Ex (u, v)) eq_refl) as (Iuv & Ruv).
  destruct (proj1 CS _ _ If) as (ts & Et & Nb). destruct (Nb u v Iuv) as (j & g & Uj & Ig & Ivu).
  assert (Nv : vz v <> z) by (apply (NV f); [eapply idx_In; eauto|apply (fedges_points f u v Iuv)]).
  assert (Cg : crosses z g).
  { unfold rises in Ruv. cbn [fst snd] in Ruv. clear -Ivu Ruv Nv NV Ig.
    assert (N : forall w, In w (facePoints g) -> vz w <> z) by (intros w; apply NV; eapply idx_In; eauto).
    (* the falling edge (v,u) of g crosses: some rising edge exists as well; use counts *)
    destruct g as [[p0 p1] p2]. unfold crosses, nbelow, nabove. cbn [facePoints filter fedges] in *.
    pose proof (N p0 (or_introl eq_refl)). pose proof (N p1 (or_intror (or_introl eq_refl))). pose proof (N p2 (or_intror (or_intror (or_introl eq_refl)))).
    destruct Ivu as [I|[I|[I|[]]]]; injection I as <- <-;
    destruct (Z.ltb_spec (vz p0) z), (Z.ltb_spec (vz p1) z), (Z.ltb_spec (vz p2) z); try lia; cbn [List.length]; auto;
    destruct (Z.ltb_spec z (vz p0)), (Z.ltb_spec z (vz p1)), (Z.ltb_spec z (vz p2)); try lia; cbn [List.length]; auto. }
  destruct (face_seg g j Ig Cg) as (b & t & Ib & Eb & (_ & _ & On' & _) & T).
  exists t, a, b, ts, j. split; [exact Ia|]. split; [exact Ib|]. split; [exact Et|]. split; [exact Uj|].
  split; [pose proof (idx_range _ _ _ Ig); lia|]. split; [exact T|].
  assert (D : dist2 (send a) (sstart b) <= 2).
  { apply (meet u v); [apply On; auto|]. apply On'; [exact Ivu|]. unfold rises, falls in *. cbn [fst snd] in *. lia. }
  nia.
Qed.

Lemma pred_exists t b : idx (lsegs l) t = Ok b -> exists s, follows touch l meld s t.
Proof.
  intros Ib. destruct (seg_face b t Ib) as (g & Ig & Cr & Cu & T).
  destruct Cu as ((v & u & Ex) & _ & On & _). destruct (proj2 (Ex (v, u)) eq_refl) as (Ivu & Fvu).
  unfold falls in Fvu. cbn [fst snd] in Fvu.
  destruct (proj1 CS _ _ Ig) as (ts & Et & Nb). destruct (Nb v u Ivu) as (i & f & Ui & If & Iuv).
  assert (Nv : vz v <> z) by (apply (NV g); [eapply idx_In; eauto|apply (fedges_points g v u Ivu)]).
  assert (Cf : crosses z f).
  { apply (rises_crosses z f u v); [exact Iuv|lia|]. intros w. apply NV. eapply idx_In; eauto. }
  destruct (face_seg f i If Cf) as (a & s & Ia & Ea & (_ & _ & _ & On') & _).
  (* the face touching f across (u,v) carries the edge (v,u): it is g *)
  destruct (proj1 CS _ _ If) as (ts' & Et' & Nb'). destruct (Nb' u v Iuv) as (j & g' & Uj & Ig' & Ivu').
  assert (j = sface b) by (eapply (proj2 CS); eauto). subst j.
  exists s, a, b, ts', (sface b). split; [exact Ia|]. split; [exact Ib|]. split; [congruence|]. split; [exact Uj|].
  split; [pose proof (idx_range _ _ _ Ig); lia|]. split; [exact T|].
  assert (D : dist2 (send a) (sstart b) <= 2).
  { apply (meet u v); [|apply On; auto]. apply On'; [exact Iuv|]. unfold rises. cbn [fst snd]. lia. }
  nia.
Qed.

Hypothesis SEP : forall i j a b, idx (lsegs l) i = Ok a -> idx (lsegs l) j = Ok b -> i <> j -> (2 * meld) ^ 2 < dist2 (sstart a) (sstart b).

Lemma succ_unique s t t' : follows touch l meld s t -> follows touch l meld s t' -> t = t'.
Proof.
  intros (a & b & ts & f & Ea & Eb & _ & _ & _ & _ & D) (a' & b' & ts' & f' & Ea' & Eb' & _ & _ & _ & _ & D').
  assert (a' = a) by congruence. subst a'. destruct (Z.eq_dec t t') as [E|N]; [exact E|]. exfalso.
  pose proof (SEP _ _ _ _ Eb Eb' N). pose proof (triangle (send a) (sstart b) (sstart b') meld D D'). lia.
Qed.
End Surface.

Lemma filter_lt {A} (f : A -> bool) l x : In x l -> f x = false -> (List.length (filter f l) < List.length l)%nat.
Proof.
  assert (G : forall m, (List.length (filter f m) <= List.length m)%nat) by (induction m as [|y m IH]; cbn; [lia|destruct (f y); cbn; lia]).
  induction l as [|y l IH]; intros I E; [destruct I|]. cbn [filter List.length]. destruct I as [->|I].
  - rewrite E. specialize (G l). lia.
  - specialize (IH I E). destruct (f y); cbn [List.length]; lia.
Qed.
(** a total, functional and surjective relation on a finite set is injective *)
Lemma pigeon (R : Z -> Z -> Prop) n : (forall s t, R s t -> 0 <= s < Z.of_nat n /\ 0 <= t < Z.of_nat n) ->
  (forall s, 0 <= s < Z.of_nat n -> exists t, R s t) -> (forall s t t', R s t -> R s t' -> t = t') ->
  (forall t, 0 <= t < Z.of_nat n -> exists s, R s t) -> forall s s' t, R s t -> R s' t -> s = s'.
Proof.
  intros Rg Tot Fun Sur s s' t H H'. destruct (Z.eq_dec s s') as [E|N]; [exact E|exfalso].
  (* choose a successor for every number except s': still surjective *)
  destruct (Rg _ _ H) as (Rs & Rt). destruct (Rg _ _ H') as (Rs' & _).
  set (D := filter (fun x => negb (x =? s')) (zseq n)).
  assert (LD : (List.length D < n)%nat).
  { unfold D. pose proof (zseq_length n) as Ln. rewrite <- Ln at 2. apply (filter_lt _ _ s'); [apply in_zseq; exact Rs'|]. rewrite Z.eqb_refl. reflexivity. }
  assert (G : exists l, List.length l = List.length D /\ forall x y, In x D -> R x y -> In y l).
  { assert (DR : forall x, In x D -> 0 <= x < Z.of_nat n) by (intros x I; apply filter_In in I; apply in_zseq; tauto).
    clear LD. induction D as [|x D IH]; [exists []; split; [reflexivity|intros x y []]|].
    destruct IH as (m & Lm & Hm); [intros y Iy; apply DR; right; exact Iy|].
    destruct (Tot x (DR x (or_introl eq_refl))) as (y & Ry). exists (y :: m). split; [cbn; congruence|].
    intros x' y' [<-|I] R'; [left; eapply Fun; eauto|right; eauto]. }
  destruct G as (m & Lm & Hm).
  assert (In_all : incl (zseq n) m).
  { intros y Iy. apply in_zseq in Iy. destruct (Sur y Iy) as (x & Rx). destruct (Rg _ _ Rx) as (Rxx & _).
    destruct (Z.eq_dec x s') as [->|Nx].
    - assert (y = t) by (eapply Fun; eauto). subst y. apply (Hm s t); [|exact H].
      unfold D. apply filter_In. split; [apply in_zseq; exact Rs|]. destruct (Z.eqb_spec s s'); [congruence|reflexivity].
    - apply (Hm x y); [|exact Rx]. unfold D. apply filter_In. split; [apply in_zseq; exact Rxx|].
      destruct (Z.eqb_spec x s'); [congruence|reflexivity]. }
  pose proof (NoDup_incl_length (zseq_nodup n) In_all). rewrite zseq_length in *. lia.
Qed.
