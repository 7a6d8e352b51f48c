(** Proofs about makePolygons: building chains. *)
From Coq Require Import Permutation Sorted.
From Verif Require Import GoBase GoFloat M_Micrometer M_Geom2D M_Model M_Slicer S_Geom S_Model S_Slicer L_Vec L_Model L_Slicer L_SliceLoop.
Local Open Scope Z_scope.

Lemma in_zseq n i : In i (zseq n) <-> 0 <= i < Z.of_nat n.
Proof.
  unfold zseq. rewrite in_map_iff. split.
  - intros (k & <- & H). apply in_seq in H. lia.
  - intros H. exists (Z.to_nat i). split; [lia|]. apply in_seq. lia.
Qed.
Lemma zseq_length n : List.length (zseq n) = n.
Proof. unfold zseq. rewrite map_length, seq_length. reflexivity. Qed.
Lemma zseq_nodup n : NoDup (zseq n).
Proof. unfold zseq. apply FinFun.Injective_map_NoDup; [intros a b; lia|apply seq_NoDup]. Qed.

Lemma ex_cons_skip (P : Z -> Prop) f ts : ~ P f -> ((exists g, In g (f :: ts) /\ P g) <-> (exists g, In g ts /\ P g)).
Proof.
  intros N. split; intros (g & Hg & H); exists g; (split; [|exact H]); [destruct Hg as [<-|Hg]; [contradiction|exact Hg]|right; exact Hg].
Qed.

Section Chains.
Context (touch : Z -> res (Z * Z * Z)) (l : slayer) (meld : Z).
Hypothesis W : wf_layer touch l.
Let n := List.length (lsegs l).

(** [follows] as tested by the code *)
Definition hit (p0 : pt) (f t : Z) : Prop := -1 < f /\ lf2s l f = Some t /\ exists b, idx (lsegs l) t = Ok b /\
  ptShorterThanOrEqual (ptSub p0 (sstart b)) meld = true.
Definition hits (s t : Z) : Prop := exists a ts f, idx (lsegs l) s = Ok a /\ touch (sface a) = Ok ts /\ uses ts f /\ hit (send a) f t.

Definition flags (U : list Z) (added : list bool) : Prop :=
  List.length added = n /\ (forall j b, idx added j = Ok b -> (b = true <-> In j U)).

Lemma seg_at j : 0 <= j < Z.of_nat n -> exists s, idx (lsegs l) j = Ok s.
Proof. intros H. destruct (idx_in_range (lsegs l) j) as (s & E & _); [exact H|eauto]. Qed.

Lemma scan_spec U added start p0 : flags U added -> forall ts cc nx, (nx = -1 \/ 0 <= nx) -> exists cc' nx',
  scan_touching l added meld start p0 ts (cc, nx) = Ok (cc', nx') /\
  (cc' = true <-> cc = true \/ exists f, In f ts /\ hit p0 f start) /\
  ((nx' = nx /\ forall f t, In f ts -> hit p0 f t -> In t U) \/
   (~ In nx' U /\ exists f, In f ts /\ hit p0 f nx')).
Proof.
  intros (FL & FU). induction ts as [|f ts IH]; intros cc nx Hnx; cbn [scan_touching].
  - exists cc, nx. split; [reflexivity|]. split; [split; [auto|intros [H|(g & [] & _)]; exact H]|]. left. split; [reflexivity|]. intros f t [].
  - destruct W as (W1 & _). destruct (lf2s l f) as [si|] eqn:Ef.
    2:{ destruct (IH cc nx Hnx) as (cc' & nx' & E & C & N). exists cc', nx'. split; [exact E|]. split.
        - rewrite C, ex_cons_skip; [reflexivity|]. intros (_ & Q & _). congruence.
        - destruct N as [(-> & N)|(N & g & Hg & Hh)]; [left|right].
          + split; [reflexivity|]. intros g t [<-|Hg] Hh; [destruct Hh as (_ & Q & _); congruence|eauto].
          + split; [exact N|]. exists g. split; [right; exact Hg|exact Hh]. }
    specialize (W1 _ _ Ef). fold n in W1. destruct (seg_at si W1) as (sg & Es).
    destruct (Z.ltb_spec (-1) f) as [Pf|Pf].
    2:{ destruct (IH cc nx Hnx) as (cc' & nx' & E & C & N). exists cc', nx'. split; [exact E|]. split.
        - rewrite C, ex_cons_skip; [reflexivity|]. intros (Q & _). lia.
        - destruct N as [(-> & N)|(N & g & Hg & Hh)]; [left|right].
          + split; [reflexivity|]. intros g t [<-|Hg] Hh; [destruct Hh as (Q & _); lia|eauto].
          + split; [exact N|]. exists g. split; [right; exact Hg|exact Hh]. }
    rewrite Es. cbn [bind].
    destruct (ptShorterThanOrEqual (ptSub p0 (sstart sg)) meld) eqn:Sh.
    2:{ destruct (IH cc nx Hnx) as (cc' & nx' & E & C & N). exists cc', nx'. split; [exact E|].
        assert (NH : forall t, ~ hit p0 f t). { intros t (_ & Q & b & I & S). assert (t = si) by congruence. subst. congruence. }
        split.
        - rewrite C, ex_cons_skip; [reflexivity|]. apply NH.
        - destruct N as [(-> & N)|(N & g & Hg & Hh)]; [left|right].
          + split; [reflexivity|]. intros g t [<-|Hg] Hh; [exfalso; eapply NH; eauto|eauto].
          + split; [exact N|]. exists g. split; [right; exact Hg|exact Hh]. }
    destruct (idx_in_range added si) as (a & Ea & _); [rewrite FL; exact W1|]. rewrite Ea. cbn [bind].
    assert (Hit : hit p0 f si) by (split; [exact Pf|split; [exact Ef|exists sg; auto]]).
    assert (Uniq : forall t, hit p0 f t -> t = si) by (intros t (_ & Q & _); congruence).
    pose proof (FU si a Ea) as Fa.
    set (cc1 := if si =? start then true else cc).
    assert (C1 : forall cc', (cc' = true <-> cc1 = true \/ (exists g, In g ts /\ hit p0 g start)) ->
                             (cc' = true <-> cc = true \/ (exists g, In g (f :: ts) /\ hit p0 g start))).
    { intros cc' ->. unfold cc1. destruct (Z.eqb_spec si start) as [<-|Ne].
      - split; [intros _; right; exists f; split; [left; reflexivity|exact Hit]|intros _; left; reflexivity].
      - rewrite ex_cons_skip; [reflexivity|]. intros Hh. specialize (Uniq _ Hh). congruence. }
    destruct a.
    + destruct (IH cc1 nx Hnx) as (cc' & nx' & E & C & N). exists cc', nx'. split; [exact E|]. split; [apply C1, C|].
      destruct N as [(-> & N)|(N & g & Hg & Hh)]; [left|right].
      * split; [reflexivity|]. intros g t [<-|Hg] Hh; [rewrite (Uniq _ Hh); tauto|eauto].
      * split; [exact N|]. exists g. split; [right; exact Hg|exact Hh].
    + destruct (IH cc1 si) as (cc' & nx' & E & C & N); [lia|]. exists cc', nx'. split; [exact E|]. split; [apply C1, C|].
      right. destruct N as [(-> & N)|(N & g & Hg & Hh)].
      * split; [intros I; apply Fa in I; discriminate|]. exists f. split; [left; reflexivity|exact Hit].
      * split; [exact N|]. exists g. split; [right; exact Hg|exact Hh].
Qed.

Lemma flags_set U added cur : flags U added -> 0 <= cur < Z.of_nat n -> flags (U ++ [cur]) (set_nth (Z.to_nat cur) true added).
Proof.
  intros (FL & FU) H. split; [rewrite set_nth_length; exact FL|]. intros j b I.
  destruct (idx_in_range added cur) as (a & Ea & _); [lia|].
  rewrite (idx_set_nth _ _ _ _ _ Ea) in I. rewrite in_app_iff. cbn [In]. destruct (Z.eqb_spec cur j) as [->|Ne].
  - injection I as <-. tauto.
  - rewrite (FU j b I). intuition.
Qed.

Lemma hits_range s t : hits s t -> 0 <= t < Z.of_nat n.
Proof. intros (a & ts & f & _ & _ & _ & _ & E & _). destruct W as (W1 & _). exact (W1 _ _ E). Qed.

Lemma walk_spec : forall fuel start cur poly U added, flags U added -> NoDup (U ++ [cur]) -> incl (U ++ [cur]) (zseq n) ->
  (n < fuel + List.length U)%nat ->
  exists c ss cc added', walk touch l meld start fuel cur poly added = Ok (poly ++ map send ss, cc, added') /\
    hd_error c = Some cur /\ Forall2 (fun i s => idx (lsegs l) i = Ok s) c ss /\
    NoDup (U ++ c) /\ incl (U ++ c) (zseq n) /\ flags (U ++ c) added' /\
    Sorted hits c /\ (cc = true <-> hits (last c 0) start) /\ (forall t, hits (last c 0) t -> In t (U ++ c)).
Proof.
  induction fuel as [|fuel IH]; intros start cur poly U added F ND IN Fu.
  { exfalso. assert (L : (List.length (U ++ [cur]) <= List.length (zseq n))%nat) by (apply NoDup_incl_length; auto).
    rewrite app_length, zseq_length in L. cbn in L. lia. }
  cbn [walk].
  assert (Rc : 0 <= cur < Z.of_nat n) by (apply in_zseq, IN, in_or_app; cbn; auto).
  destruct (seg_at cur Rc) as (sg & Es). rewrite Es. cbn [bind].
  destruct (proj2 W sg (idx_In _ _ _ Es)) as (ts & Et). rewrite Et. cbn [bind]. destruct ts as [[t0 t1] t2].
  pose proof (flags_set _ _ _ F Rc) as F1.
  destruct (scan_spec _ _ start (send sg) F1 [t0; t1; t2] false (-1) (or_introl eq_refl)) as (cc & nx & -> & C & N).
  cbn [bind].
  assert (UH : forall t, hits cur t <-> exists f, In f [t0; t1; t2] /\ hit (send sg) f t).
  { intros t. split.
    - intros (a & ts & f & Ea & Ets & U0 & H). assert (a = sg) by congruence. subst a.
      assert (ts = (t0, t1, t2)) by congruence. subst ts. exists f. split; [cbn in *; intuition|exact H].
    - intros (f & I & H). exists sg, (t0, t1, t2), f. split; [exact Es|]. split; [exact Et|]. split; [cbn in *; intuition|exact H]. }
  destruct (Z.eqb_spec nx (-1)) as [->|Nx].
  - exists [cur], [sg], cc, (set_nth (Z.to_nat cur) true added). cbn [map]. split; [reflexivity|]. split; [reflexivity|].
    split; [constructor; [exact Es|constructor]|]. split; [exact ND|]. split; [exact IN|]. split; [exact F1|].
    split; [repeat constructor|]. cbn [last]. split.
    + rewrite C, UH. split; [intros [H|H]; [discriminate|exact H]|auto].
    + intros t Ht. apply UH in Ht. destruct Ht as (f & I & H). destruct N as [(_ & N)|(_ & g & Ig & Hg)]; [eauto|].
      exfalso. destruct Hg as (_ & E & _). pose proof (proj1 W _ _ E). lia.
  - destruct N as [(Q & _)|(Nn & HN)]; [congruence|].
    assert (Hn : hits cur nx) by (apply UH; exact HN).
    pose proof (hits_range _ _ Hn) as Rn.
    destruct (IH start nx (poly ++ [send sg])%list (U ++ [cur])%list _ F1) as (c & ss & cc' & added' & E & Hc & F2 & ND' & IN' & Fl & S & CC & MX).
    + apply NoDup_rev in ND. rewrite <- (rev_involutive ((U ++ [cur]) ++ [nx])). apply NoDup_rev. rewrite rev_app_distr.
      cbn [rev app]. constructor; [rewrite <- in_rev; exact Nn|exact ND].
    + intros x Hx. apply in_app_or in Hx. destruct Hx as [Hx|[<-|[]]]; [auto|apply in_zseq; exact Rn].
    + rewrite app_length. cbn. lia.
    + exists (cur :: c), (sg :: ss), cc', added'.
      assert (Hne : c <> []) by (destruct c; discriminate || congruence).
      assert (HL : last (cur :: c) 0 = last c 0) by (destruct c; [congruence|reflexivity]).
      assert (EU : (U ++ cur :: c = (U ++ [cur]) ++ c)%list) by (rewrite <- app_assoc; reflexivity).
      rewrite E, HL, EU. cbn [map]. rewrite <- app_assoc. cbn [app].
      split; [reflexivity|]. split; [reflexivity|]. split; [constructor; auto|]. split; [exact ND'|]. split; [exact IN'|].
      split; [exact Fl|]. split; [|auto]. constructor; [exact S|]. destruct c as [|c0 c']; [constructor|].
      injection Hc as ->. constructor. exact Hn.
Qed.

Lemma chains_spec : forall is U added, flags U added -> NoDup U -> incl U (zseq n) -> (forall i, In i is -> 0 <= i < Z.of_nat n) ->
  exists pbs cs, chains touch l meld is added = Ok pbs /\ chained hits (idx (lsegs l)) U pbs cs /\
    NoDup (U ++ concat cs) /\ incl (U ++ concat cs) (zseq n) /\ (forall i, In i is -> In i (U ++ concat cs)).
Proof.
  induction is as [|i is IH]; intros U added F ND IN R; cbn [chains].
  - exists [], []. cbn [concat]. rewrite app_nil_r. split; [reflexivity|]. split; [constructor|]. split; [auto|]. split; [auto|]. intros i [].
  - pose proof (R i (or_introl eq_refl)) as Ri.
    destruct (idx_in_range added i) as (a & Ea & _); [rewrite (proj1 F); exact Ri|]. rewrite Ea. cbn [bind].
    pose proof (proj2 F i a Ea) as Fa.
    destruct a.
    + destruct (IH U added F ND IN (fun j Hj => R j (or_intror Hj))) as (pbs & cs & E & C & ND' & IN' & All).
      exists pbs, cs. split; [exact E|]. split; [exact C|]. split; [exact ND'|]. split; [exact IN'|].
      intros j [<-|Hj]; [apply in_or_app; left; apply Fa; reflexivity|auto].
    + destruct (seg_at i Ri) as (sg & Es). rewrite Es. cbn [bind]. fold n.
      assert (NI : ~ In i U) by (intros I; apply Fa in I; discriminate).
      destruct (walk_spec (S n) i i [sstart sg] U added F) as (c & ss & cc & added' & E & Hc & F2 & ND' & IN' & Fl & S & CC & MX).
      * apply NoDup_rev in ND. rewrite <- (rev_involutive (U ++ [i])). apply NoDup_rev. rewrite rev_app_distr.
        cbn [rev app]. constructor; [rewrite <- in_rev; exact NI|exact ND].
      * intros x Hx. apply in_app_or in Hx. destruct Hx as [Hx|[<-|[]]]; [auto|apply in_zseq; exact Ri].
      * lia.
      * rewrite E. cbn [bind]. destruct (IH (U ++ c)%list added' Fl ND' IN' (fun j Hj => R j (or_intror Hj)))
          as (pbs & cs & E' & C & ND2 & IN2 & All).
        rewrite E'. cbn [bind].
        destruct c as [|c0 c']; [discriminate|]. injection Hc as ->.
        inversion F2 as [|? s0 ? ss' Ei F2' ]; subst. assert (s0 = sg) by congruence. subst s0.
        exists ((chain_points (sg :: ss'), cc) :: pbs), ((i :: c') :: cs). cbn [concat]. rewrite app_assoc.
        split; [reflexivity|]. split; [|split; [exact ND2|split; [exact IN2|]]].
        -- constructor; auto; discriminate.
        -- intros j [<-|Hj]; [|auto]. apply in_or_app. left. apply in_or_app. right. left. reflexivity.
Qed.

Lemma chains_all : exists pbs cs, chains touch l meld (zseq n) (repeat false n) = Ok pbs /\
  chained hits (idx (lsegs l)) [] pbs cs /\ Permutation (concat cs) (zseq n).
Proof.
  destruct (chains_spec (zseq n) [] (repeat false n)) as (pbs & cs & E & C & ND & IN & All).
  - split; [apply repeat_length|]. intros j b I. apply idx_In, repeat_spec in I. subst. cbn. split; [discriminate|tauto].
  - constructor.
  - intros x [].
  - intros i. apply in_zseq.
  - exists pbs, cs. split; [exact E|]. split; [exact C|]. cbn [app] in *. apply NoDup_Permutation; [exact ND|apply zseq_nodup|].
    intros x. split; [apply IN|apply All].
Qed.

(** with bounded coordinates the test is exact *)
Lemma hits_follows : segs_bounded (2 ^ 24) l -> 0 <= meld <= 2 ^ 30 -> forall s t, hits s t <-> follows touch l meld s t.
Proof.
  intros B Hm s t. assert (X : forall a b, In a (lsegs l) -> In b (lsegs l) ->
     ptShorterThanOrEqual (ptSub (send a) (sstart b)) meld = true <-> dist2 (send a) (sstart b) <= meld ^ 2).
  { intros a b Ia Ib. destruct (B a Ia) as (_ & (A1 & A2)). destruct (B b Ib) as ((B1 & B2) & _).
    assert (Z.abs (px (sstart b) - px (send a)) <= 2 ^ 25) by lia. assert (Z.abs (py (sstart b) - py (send a)) <= 2 ^ 25) by lia.
    assert (dist2 (send a) (sstart b) < 2 ^ 62).
    { unfold dist2. pose proof (sq_bound _ _ H). pose proof (sq_bound _ _ H0). rewrite !Z.pow_2_r. lia. }
    rewrite ptSub_exact by (unfold int64; lia). rewrite ptShorter_exact.
    - replace (norm2 _) with (dist2 (send a) (sstart b)) by (unfold dist2, norm2; cbn [px py]; lia). reflexivity.
    - replace (norm2 _) with (dist2 (send a) (sstart b)) by (unfold dist2, norm2; cbn [px py]; lia). lia.
    - lia. }
  unfold hits, follows, hit. split.
  - intros (a & ts & f & Ea & Et & U & Pf & E & b & Eb & Sh). exists a, b, ts, f. repeat (split; auto).
    apply X; auto; eapply idx_In; eauto.
  - intros (a & b & ts & f & Ea & Eb & Et & U & Pf & E & D). exists a, ts, f. repeat (split; auto). exists b. split; auto.
    apply X; auto; eapply idx_In; eauto.
Qed.
End Chains.
