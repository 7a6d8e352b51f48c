(** Proofs about the slicing loop over faces and layers. *)
From Coq Require Import Permutation.
From Verif Require Import GoBase GoFloat M_Micrometer M_Geom2D M_Model M_Slicer S_Geom S_Model S_Slicer L_Model L_Slicer.
Local Open Scope Z_scope.

Lemma number_app {A} (l m : list A) : forall i, number i (l ++ m) = (number i l ++ number (i + Z.of_nat (List.length l)) m)%list.
Proof.
  induction l as [|a l IH]; intros i; cbn [number app List.length]; [f_equal; lia|].
  rewrite IH. do 3 f_equal. lia.
Qed.
Lemma number_range {A} (l : list A) : forall i n a, In (n, a) (number i l) -> i <= n < i + Z.of_nat (List.length l).
Proof.
  induction l as [|b l IH]; intros i n a H; [destruct H|]. cbn [List.length]. destruct H as [H|H]; [injection H as -> ->; lia|].
  apply IH in H. lia.
Qed.
Lemma idx_range {A} (l : list A) i a : idx l i = Ok a -> 0 <= i < Z.of_nat (List.length l).
Proof.
  intros H. apply idx_Ok in H. destruct H as (P & Q). split; [lia|].
  assert (Z.to_nat i < List.length l)%nat by (apply nth_error_Some; rewrite Q; discriminate). lia.
Qed.

Lemma Forall2_in_l {A B} (R : A -> B -> Prop) l m a : Forall2 R l m -> In a l -> exists b, In b m /\ R a b.
Proof. induction 1 as [|x y l m r F IH]; intros []; [subst; exists y; cbn; auto|destruct IH as (b & ? & ?); auto; exists b; cbn; auto]. Qed.

(** one more face, layer k *)
Lemma layer_of_snoc z fs f l : near_face f -> layer_of z fs l ->
  match slice_case z f with
  | None => layer_of z (fs ++ [f]) l
  | Some (a, b, c) => exists s e, SliceFace z a b c = Ok (s, e) /\
      layer_of z (fs ++ [f]) (add_segment l (Z.of_nat (List.length fs)) s e)
  end.
Proof.
  intros Hf (F & M). pose proof (slice_one z f Hf) as H. destruct (slice_case z f) as [[[a b] c]|].
  - destruct H as (C & s & e & E & Hc). exists s, e. split; [exact E|]. split.
    + cbn [add_segment lsegs]. rewrite number_app, filter_app. apply Forall2_app; [exact F|].
      cbn [number filter snd]. rewrite (proj2 (crossesb_spec z f) C). constructor; [|constructor]. cbn. split; [lia|exact Hc].
    + assert (Hn : forall s0 j, idx (lsegs l) j = Ok s0 -> sface s0 < Z.of_nat (List.length fs)).
      { intros s0 j I. apply idx_In in I. destruct (Forall2_in_l _ _ _ _ F I) as ([n g] & J & -> & _).
        apply filter_In in J. destruct J as (J & _). apply number_range in J. cbn [fst]. lia. }
      intros i j. cbn [add_segment lf2s lsegs]. destruct (Z.eqb_spec i (Z.of_nat (List.length fs))) as [->|Ni].
      * split.
        -- intros Q. injection Q as <-. eexists. split; [apply idx_app_end|reflexivity].
        -- intros (s0 & I & J). apply idx_app_inv in I. destruct I as [I|[-> ->]]; [|reflexivity].
           specialize (Hn _ _ I). lia.
      * rewrite M. split; intros (s0 & I & J); exists s0; split; auto.
        -- apply idx_app_l; exact I.
        -- apply idx_app_inv in I. destruct I as [I|[-> ->]]; [exact I|]. cbn in J. lia.
  - split; [|exact M]. rewrite number_app, filter_app. cbn [number filter snd].
    destruct (crossesb z f) eqn:X; [exfalso; apply H, crossesb_spec, X|]. rewrite app_nil_r. exact F.
Qed.

Lemma layer_of_new z fs : (forall f, In f fs -> ~ crosses z f) -> layer_of z fs newLayer.
Proof.
  intros H. split.
  - replace (filter _ _) with (@nil (Z * face)); [constructor|]. symmetry.
    assert (G : forall i, filter (fun nf : Z * face => crossesb z (snd nf)) (number i fs) = []); [|apply G].
    induction fs as [|f fs IH]; intros i; [reflexivity|]. cbn [number filter snd].
    destruct (crossesb z f) eqn:X; [exfalso; apply (H f); [left; reflexivity|apply crossesb_spec, X]|].
    apply IH. intros g Hg. apply H. right; exact Hg.
  - intros i j. cbn. split; [discriminate|]. intros (s & I & _). apply idx_range in I. cbn in I. lia.
Qed.

Lemma crosses_visited init thick k f : crosses (height init thick k) f -> visited init thick k f.
Proof.
  intros C. unfold visited. destruct (minmax_in f) as (a & b & Ia & Ib & -> & -> & L).
  destruct f as [[p0 p1] p2]. unfold crosses, nbelow, nabove, facePoints in *. cbn [filter] in C. cbn [In] in *.
  pose proof (L p0 (or_introl eq_refl)). pose proof (L p1 (or_intror (or_introl eq_refl))).
  pose proof (L p2 (or_intror (or_intror (or_introl eq_refl)))).
  set (z := height init thick k) in *.
  destruct (Z.ltb_spec (vz p0) z); destruct (Z.ltb_spec (vz p1) z); destruct (Z.ltb_spec (vz p2) z); cbn [List.length] in C;
    try (exfalso; lia); try lia.
  all: destruct (Z.ltb_spec z (vz p0)); destruct (Z.ltb_spec z (vz p1)); destruct (Z.ltb_spec z (vz p2)); cbn [List.length] in C; lia.
Qed.

Section Loop.
Context (init thick : Z).
Hypothesis Hi : Z.abs init <= 2 ^ 30.
Hypothesis Ht : 0 < thick <= 2 ^ 30.

Lemma quot_le_iff x k : 0 <= k -> (k <= Z.quot x thick <-> (k * thick <= x \/ (k = 0 /\ - thick < x))).
Proof.
  intros Hk. pose proof (quot_err x thick ltac:(lia)) as (A & B & C).
  pose proof (Z.quot_rem x thick ltac:(lia)) as E. set (q := Z.quot x thick) in *.
  split.
  - intros L. destruct (Z.le_gt_cases (k * thick) x); [left; auto|]. right. 
    assert (x < 0 \/ 0 <= x) as [N|P] by lia.
    + assert (q <= 0) by nia. split; [lia|]. nia.
    + exfalso. nia.
  - intros [L|[-> L]]; nia.
Qed.

Lemma height_go k : 0 <= k -> k * thick <= 2 ^ 32 -> add64 (mul64 k thick) init = height init thick k.
Proof. intros Hk L. unfold height. rewrite mul64_id by (unfold int64; nia). rewrite add64_id by (unfold int64; nia). lia. Qed.

(** layers with a given number of processed faces each *)
Definition state (n : Z) (faces_at : Z -> list face) (layers : list (option slayer)) : Prop :=
  Z.of_nat (List.length layers) = n /\
  forall k ol, idx layers k = Ok ol -> acc_ok init thick (faces_at k) k ol.

Lemma acc_skip fs f k ol : ~ visited init thick k f -> near_face f -> acc_ok init thick fs k ol -> acc_ok init thick (fs ++ [f]) k ol.
Proof.
  intros N Hf H. destruct ol as [l|]; cbn [acc_ok] in *.
  - destruct H as ((g & Hg & V) & L). split; [exists g; split; [apply in_or_app; auto|exact V]|].
    pose proof (layer_of_snoc _ _ _ _ Hf L) as Q. pose proof (slice_case_spec (height init thick k) f) as C.
    destruct (slice_case _ f) as [[[a b] c]|]; [|exact Q]. exfalso. apply N, crosses_visited. tauto.
  - intros g Hg. apply in_app_or in Hg. destruct Hg as [Hg|[<-|[]]]; auto.
Qed.

(** one step at layer k for the face [f], number = length fs *)
Lemma step_ok fs f layers k ol : near_face f -> 0 <= k -> k * thick <= 2 ^ 32 -> idx layers k = Ok ol ->
  (height init thick k <= MaxZ f \/ (k = 0 /\ init - thick < MaxZ f)) ->
  acc_ok init thick fs k ol -> exists ol', slice_step init thick (Z.of_nat (List.length fs)) f layers k = Ok (set_nth (Z.to_nat k) ol' layers) /\
    acc_ok init thick (fs ++ [f]) k ol'.
Proof.
  intros Hf Hk Hb E Hm A. unfold slice_step. rewrite height_go by auto.
  destruct (Z.ltb_spec (height init thick k) (MinZ f)) as [L|L].
  - exists ol. split; [f_equal; symmetry; apply set_nth_same; apply idx_Ok in E; tauto|].
    apply acc_skip; auto. unfold visited. lia.
  - destruct (Z.ltb_spec k 0); [lia|]. rewrite E. cbn [bind].
    assert (V : visited init thick k f) by (split; auto).
    set (l := match ol with Some l => l | None => newLayer end).
    assert (Lo : layer_of (height init thick k) fs l).
    { destruct ol as [l0|]; cbn [acc_ok] in A; [tauto|]. apply layer_of_new. intros g Hg C. exact (A g Hg (crosses_visited _ _ _ _ C)). }
    pose proof (layer_of_snoc _ _ _ _ Hf Lo) as Q.
    assert (V' : exists f0, In f0 (fs ++ [f]) /\ visited init thick k f0) by (exists f; split; [apply in_or_app; cbn; auto|exact V]).
    destruct (slice_case _ f) as [[[a b] c]|].
    + destruct Q as (s & e & -> & Q). cbn [bind]. eexists. split; [reflexivity|]. split; [exact V'|exact Q].
    + eexists. split; [reflexivity|]. split; [exact V'|exact Q].
Qed.

Lemma step_neg i f layers k : k < 0 -> slice_step init thick i f layers k = Ok layers.
Proof. intros H. unfold slice_step. destruct (Z.ltb_spec (add64 (mul64 k thick) init) (MinZ f)); [reflexivity|]. destruct (Z.ltb_spec k 0); [reflexivity|lia]. Qed.

Lemma from_ok fs f m : near_face f -> forall from layers,
  let N := Z.of_nat (List.length layers) in
  from + Z.of_nat m <= N -> N * thick <= 2 ^ 32 ->
  (forall k, 0 <= k -> from <= k < from + Z.of_nat m -> (height init thick k <= MaxZ f \/ (k = 0 /\ init - thick < MaxZ f))) ->
  (forall k ol, idx layers k = Ok ol -> acc_ok init thick (if Z.ltb k from then fs ++ [f] else fs) k ol) ->
  exists layers', slice_from init thick (Z.of_nat (List.length fs)) f layers from m = Ok layers' /\
    List.length layers' = List.length layers /\
    (forall k ol, idx layers' k = Ok ol -> acc_ok init thick (if Z.ltb k (from + Z.of_nat m) then fs ++ [f] else fs) k ol).
Proof.
  intros Hf. induction m as [|m IH]; intros from layers N Hn Hb Hm A; cbn [slice_from].
  - exists layers. split; [reflexivity|split; [reflexivity|]]. intros k ol E. specialize (A k ol E).
    replace (from + Z.of_nat 0) with from by lia. exact A.
  - assert (S : exists layers1, slice_step init thick (Z.of_nat (List.length fs)) f layers from = Ok layers1 /\
      List.length layers1 = List.length layers /\
      forall k ol, idx layers1 k = Ok ol -> acc_ok init thick (if Z.ltb k (from + 1) then fs ++ [f] else fs) k ol).
    { destruct (Z.lt_ge_cases from 0) as [Ng|P].
      - exists layers. rewrite step_neg by exact Ng. split; [reflexivity|split; [reflexivity|]]. intros k ol E.
        pose proof (idx_range _ _ _ E). specialize (A k ol E).
        destruct (Z.ltb_spec k from); [lia|]. destruct (Z.ltb_spec k (from + 1)); [lia|exact A].
      - destruct (idx_in_range layers from) as (ol & E & _). { lia. }
        pose proof (A from ol E) as A0. destruct (Z.ltb_spec from from); [lia|].
        destruct (step_ok fs f layers from ol Hf P ltac:(nia) E (Hm from P ltac:(lia)) A0) as (ol' & Q & A1).
        eexists. split; [exact Q|]. split; [apply set_nth_length|].
        intros k o I. rewrite (idx_set_nth layers from ol' k ol E) in I. destruct (Z.eqb_spec from k) as [<-|Nk].
        + injection I as <-. destruct (Z.ltb_spec from (from + 1)); [exact A1|lia].
        + specialize (A k o I). destruct (Z.ltb_spec k from); destruct (Z.ltb_spec k (from + 1)); try lia; exact A. }
    destruct S as (layers1 & -> & L1 & A1). cbn [bind].
    destruct (IH (from + 1) layers1) as (layers' & E & L' & A').
    { rewrite L1. lia. } { rewrite L1. exact Hb. }
    { intros k P R. apply Hm; lia. } { exact A1. }
    exists layers'. split; [exact E|]. split; [congruence|]. intros k ol I. specialize (A' k ol I).
    replace (from + 1 + Z.of_nat m) with (from + Z.of_nat (S m)) in A' by lia. exact A'.
Qed.

Lemma face_ok fs f layers : near_face f ->
  (Z.quot (MaxZ f - init) thick < Z.of_nat (List.length layers)) -> Z.of_nat (List.length layers) * thick <= 2 ^ 32 ->
  (forall k ol, idx layers k = Ok ol -> acc_ok init thick fs k ol) ->
  exists layers', slice_face init thick (Z.of_nat (List.length fs)) f layers = Ok layers' /\
    List.length layers' = List.length layers /\
    (forall k ol, idx layers' k = Ok ol -> acc_ok init thick (fs ++ [f]) k ol).
Proof.
  intros Hf Hn Hb A. unfold slice_face.
  destruct (minmax_in f) as (a & b & Ia & Ib & Ea & Eb & Lab).
  assert (Ba : near a /\ near b) by (unfold near_face in Hf; rewrite Forall_forall in Hf; auto).
  destruct Ba as ((_ & _ & Ba) & (_ & _ & Bb)). rewrite <- Ea in Ba. rewrite <- Eb in Bb.
  assert (Lm : MinZ f <= MaxZ f). { rewrite Ea. apply Lab. exact Ia. }
  rewrite !sub64_id by (unfold int64; lia). unfold quot64.
  pose proof (quot_err (MinZ f - init) thick ltac:(lia)) as (U1 & U2 & U3).
  pose proof (quot_err (MaxZ f - init) thick ltac:(lia)) as (W1 & W2 & W3).
  set (lo := Z.quot (MinZ f - init) thick) in *. set (hi := Z.quot (MaxZ f - init) thick) in *.
  rewrite !wrap_id by (unfold int64; nia).
  assert (Hlh : lo <= hi) by (apply Z.quot_le_mono; lia).
  destruct (from_ok fs f (Z.to_nat (hi - lo + 1)) Hf lo layers) as (layers' & E & L & A').
  - lia.
  - exact Hb.
  - intros k P R. assert (k <= hi) as K by lia. unfold hi in K. apply quot_le_iff in K; auto. unfold height. lia.
  - intros k ol I. specialize (A k ol I). destruct (Z.ltb_spec k lo) as [G|G]; [|exact A]. apply acc_skip; auto.
    pose proof (idx_range _ _ _ I). unfold visited. intros (V & _). unfold height in V.
    assert (lo <= k); [|lia]. unfold lo. destruct (Z.le_gt_cases (MinZ f - init) 0).
    + pose proof (Z.quot_le_mono (MinZ f - init) 0 thick ltac:(lia) ltac:(lia)). rewrite Z.quot_0_l in *; lia.
    + pose proof (Z.quot_le_mono (MinZ f - init) (k * thick) thick ltac:(lia) ltac:(lia)). rewrite Z.quot_mul in *; lia.
  - exists layers'. split; [exact E|]. split; [exact L|]. intros k ol I. specialize (A' k ol I).
    replace (lo + Z.of_nat (Z.to_nat (hi - lo + 1))) with (hi + 1) in A' by lia.
    destruct (Z.ltb_spec k (hi + 1)) as [G|G]; [exact A'|]. apply acc_skip; auto.
    pose proof (idx_range _ _ _ I). unfold visited, height. intros (_ & V). assert (k <= hi); [|lia].
    apply quot_le_iff; lia.
Qed.

Lemma faces_ok fs : forall pre layers, Forall near_face fs ->
  (forall f, In f fs -> Z.quot (MaxZ f - init) thick < Z.of_nat (List.length layers)) -> Z.of_nat (List.length layers) * thick <= 2 ^ 32 ->
  (forall k ol, idx layers k = Ok ol -> acc_ok init thick pre k ol) ->
  exists layers', slice_faces init thick (Z.of_nat (List.length pre)) fs layers = Ok layers' /\
    List.length layers' = List.length layers /\
    (forall k ol, idx layers' k = Ok ol -> acc_ok init thick (pre ++ fs) k ol).
Proof.
  induction fs as [|f fs IH]; intros pre layers Hf Hm Hb A; cbn [slice_faces].
  - exists layers. rewrite app_nil_r. auto.
  - inversion Hf as [|? ? Hf0 Hf1]; subst.
    destruct (face_ok pre f layers Hf0 (Hm f (or_introl eq_refl)) Hb A) as (l1 & -> & L1 & A1). cbn [bind].
    destruct (IH (pre ++ [f])%list l1 Hf1) as (l2 & E & L2 & A2).
    + intros g Hg. rewrite L1. apply Hm. right; exact Hg.
    + rewrite L1; exact Hb.
    + exact A1.
    + exists l2. rewrite app_length in E. cbn [List.length] in E. 
      replace (Z.of_nat (List.length pre + 1)) with (Z.of_nat (List.length pre) + 1) in E by lia. split; [exact E|].
      split; [congruence|]. rewrite <- app_assoc in A2. exact A2.
Qed.

(** all faces, from empty layers *)
Lemma slice_all fs top n : Forall near_face fs -> (forall f, In f fs -> MaxZ f <= top) -> Z.abs top <= 2 ^ 30 ->
  n = Z.quot (top - init) thick + 1 -> 0 <= n ->
  exists layers, slice_faces init thick 0 fs (repeat None (Z.to_nat n)) = Ok layers /\ Z.of_nat (List.length layers) = n /\
    (forall k ol, idx layers k = Ok ol -> acc_ok init thick fs k ol).
Proof.
  intros Hf Htop Bt En Hn.
  pose proof (quot_err (top - init) thick ltac:(lia)) as (U1 & U2 & U3).
  destruct (faces_ok fs [] (repeat None (Z.to_nat n)) Hf) as (layers & E & L & A).
  - intros f I. rewrite repeat_length. rewrite Z2Nat.id by lia.
    pose proof (Z.quot_le_mono (MaxZ f - init) (top - init) thick ltac:(lia) ltac:(specialize (Htop f I); lia)). lia.
  - rewrite repeat_length, Z2Nat.id by lia. rewrite En. nia.
  - intros k ol I. apply idx_In in I. apply repeat_spec in I. subst. intros f [].
  - exists layers. split; [exact E|]. split; [rewrite L, repeat_length; lia|exact A].
Qed.
End Loop.
