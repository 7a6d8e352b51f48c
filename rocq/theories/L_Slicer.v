(** Proofs about cutting faces. *)
From Coq Require Import Permutation.
From Verif Require Import GoBase GoFloat M_Micrometer M_Geom2D M_Model M_Slicer S_Geom S_Model S_Slicer L_Model.
Local Open Scope Z_scope.

Lemma quot_err a b : b <> 0 -> Z.abs (b * Z.quot a b - a) < Z.abs b /\ Z.abs (b * Z.quot a b) <= Z.abs a /\ 0 <= a * (b * Z.quot a b).
Proof.
  intros Hb. pose proof (Z.quot_rem a b Hb). pose proof (Z.rem_bound_abs a b Hb). split; [lia|].
  destruct (Z.le_ge_cases 0 a) as [P|P]; [pose proof (Z.mul_quot_le a b P Hb)|pose proof (Z.mul_quot_ge a b P Hb)]; nia.
Qed.

(** dx*t/d stays between 0 and dx for t between 0 and d *)
Lemma frac_between dx t d : d <> 0 -> between 0 d t -> between 0 dx (Z.quot (dx * t) d).
Proof.
  intros Hd Ht. unfold between in *. pose proof (quot_err (dx * t) d Hd) as (A & B & C).
  set (q := Z.quot (dx * t) d) in *.
  assert (Z.abs t <= Z.abs d) by lia. assert (0 <= t * d) by nia.
  assert (Z.abs q <= Z.abs dx).
  { rewrite !Z.abs_mul in B. assert (Z.abs d * Z.abs q <= Z.abs d * Z.abs dx) by nia. nia. }
  destruct (Z.eq_dec q 0) as [->|Hq]; [lia|].
  assert (0 <= dx * q); [|nia].
  destruct (Z.eq_dec t 0) as [->|Ht0]. { subst q. rewrite Z.mul_0_r, Z.quot_0_l in Hq by auto. lia. }
  assert (0 < t * d) by nia. assert ((dx * q) * (t * d) >= 0) by nia. nia.
Qed.

Lemma interp_ok c0 c1 z z0 z1 : Z.abs c0 <= 2 ^ 30 -> Z.abs c1 <= 2 ^ 30 -> Z.abs z0 <= 2 ^ 30 -> Z.abs z1 <= 2 ^ 30 ->
  z0 <> z1 -> between z0 z1 z ->
  exists c, interp c0 c1 z z0 z1 = Ok c /\ between c0 c1 c /\
    Z.abs ((c - c0) * (z1 - z0) - (c1 - c0) * (z - z0)) < Z.abs (z1 - z0).
Proof.
  intros H0 H1 H2 H3 Hz Hb. unfold interp.
  rewrite !(sub64_id z1 z0), !(sub64_id c1 c0), !(sub64_id z z0) by (unfold int64, between in *; lia).
  destruct (Z.eqb_spec (z1 - z0) 0); [lia|].
  assert (Z.abs ((c1 - c0) * (z - z0)) <= 2 ^ 31 * 2 ^ 31).
  { rewrite Z.abs_mul. apply Z.mul_le_mono_nonneg; unfold between in *; lia. }
  rewrite mul64_id by (unfold int64; lia).
  pose proof (frac_between (c1 - c0) (z - z0) (z1 - z0) n ltac:(unfold between in *; lia)) as F.
  pose proof (quot_err ((c1 - c0) * (z - z0)) (z1 - z0) n) as (A & _).
  unfold quot64. set (q := Z.quot _ _) in *. unfold between in *.
  rewrite wrap_id by (unfold int64; lia). rewrite add64_id by (unfold int64; lia).
  eexists. split; [reflexivity|]. split; [lia|].
  replace (c0 + q - c0) with q by lia. rewrite (Z.mul_comm q). exact A.
Qed.

Definition near (v : vec3) := vec_bounded (2 ^ 30) v.

Lemma SliceFace_ok z p0 p1 p2 : near p0 -> near p1 -> near p2 ->
  vz p0 <> vz p1 -> vz p0 <> vz p2 -> between (vz p0) (vz p1) z -> between (vz p0) (vz p2) z ->
  exists s e, SliceFace z p0 p1 p2 = Ok (s, e) /\ on_edge z p0 p1 s /\ on_edge z p0 p2 e.
Proof.
  intros (A1 & A2 & A3) (B1 & B2 & B3) (C1 & C2 & C3) N1 N2 W1 W2. unfold SliceFace.
  destruct (interp_ok (vx p0) (vx p1) z (vz p0) (vz p1)) as (sx & -> & S1 & S2); auto.
  destruct (interp_ok (vy p0) (vy p1) z (vz p0) (vz p1)) as (sy & -> & S3 & S4); auto.
  destruct (interp_ok (vx p0) (vx p2) z (vz p0) (vz p2)) as (ex & -> & E1 & E2); auto.
  destruct (interp_ok (vy p0) (vy p2) z (vz p0) (vz p2)) as (ey & -> & E3 & E4); auto.
  cbn [bind]. do 2 eexists. split; [reflexivity|]. unfold on_edge; cbn [px py]. tauto.
Qed.

Lemma on_edge_sym z a b p : on_edge z a b p -> on_edge z b a p.
Proof.
  unfold on_edge, between. intros (A & B & C & D). repeat split; try lia.
Qed.
Lemma on_edge_close z a b p q : on_edge z a b p -> on_edge z a b q -> Z.abs (px p - px q) <= 1 /\ Z.abs (py p - py q) <= 1.
Proof.
  unfold on_edge. intros (_ & _ & A & B) (_ & _ & C & D).
  set (d := vz b - vz a) in *.
  split.
  - assert (Z.abs ((px p - px q) * d) < 2 * Z.abs d) by nia. rewrite Z.abs_mul in *. nia.
  - assert (Z.abs ((py p - py q) * d) < 2 * Z.abs d) by nia. rewrite Z.abs_mul in *. nia.
Qed.

Lemma crossesb_spec z f : crossesb z f = true <-> crosses z f.
Proof. unfold crossesb, crosses. rewrite orb_true_iff, andb_true_iff, !Nat.eqb_eq. tauto. Qed.

Ltac zcases := repeat match goal with
  | |- context [?a <? ?b] => destruct (Z.ltb_spec a b); try lia
  | |- context [?a <=? ?b] => destruct (Z.leb_spec a b); try lia
  end.

(** every crossed face gives one of the six cases; nothing else does *)
Lemma slice_case_spec z f : match slice_case z f with
  | Some (a, b, c) => crosses z f /\ In a (facePoints f) /\ In b (facePoints f) /\ In c (facePoints f) /\
      ((vz a < z /\ z <= vz b /\ z <= vz c) \/ (z < vz a /\ vz b < z /\ vz c < z)) /\
      (forall e, In e (fedges f) /\ falls z e <-> e = if vz a <? z then (b, a) else (a, b)) /\
      (forall e, In e (fedges f) /\ rises z e <-> e = if vz a <? z then (a, c) else (c, a))
  | None => ~ crosses z f end.
Proof.
  destruct f as [[p0 p1] p2]. unfold slice_case, crosses, nbelow, nabove, facePoints, fedges, falls, rises.
  cbn [filter In].
  destruct (Z.ltb_spec (vz p0) z); destruct (Z.ltb_spec (vz p1) z); destruct (Z.ltb_spec (vz p2) z);
  destruct (Z.leb_spec z (vz p0)); try lia; destruct (Z.leb_spec z (vz p1)); try lia; destruct (Z.leb_spec z (vz p2)); try lia;
  destruct (Z.ltb_spec z (vz p0)); try lia; destruct (Z.ltb_spec z (vz p1)); try lia; destruct (Z.ltb_spec z (vz p2)); try lia;
  cbn [andb List.length].
  all: try (intros [C|[C D]]; discriminate).
  all: split; [solve [left; reflexivity | right; split; reflexivity]|].
  all: do 3 (split; [tauto|]).
  all: split; [lia|].
  all: zcases.
  all: split; intros [e1 e2]; split.
  all: try (intros E; injection E as -> ->; cbn [fst snd]; split; [tauto|lia]).
  all: intros [[E|[E|[E|[]]]] F]; injection E as <- <-; cbn [fst snd] in F; solve [reflexivity|exfalso; lia].
Qed.

Definition near_face (f : face) := Forall near (facePoints f).

Lemma slice_one z f : near_face f -> match slice_case z f with
  | Some (a, b, c) => crosses z f /\ exists s e, SliceFace z a b c = Ok (s, e) /\ cuts z f s e
  | None => ~ crosses z f end.
Proof.
  intros Hf. pose proof (slice_case_spec z f) as H. destruct (slice_case z f) as [[[a b] c]|]; [|exact H].
  destruct H as (C & Ia & Ib & Ic & Hz & F & R). split; [exact C|].
  unfold near_face in Hf. rewrite Forall_forall in Hf.
  destruct (SliceFace_ok z a b c) as (s & e & E & S1 & S2); auto; try (unfold between; lia).
  exists s, e. split; [exact E|]. unfold cuts.
  split. { destruct (vz a <? z); eexists _, _; exact F. }
  split. { destruct (vz a <? z); eexists _, _; exact R. }
  split; intros x y I X.
  - pose proof (proj1 (F (x, y)) (conj I X)) as Q. destruct (vz a <? z); injection Q as -> ->; [apply on_edge_sym|]; exact S1.
  - pose proof (proj1 (R (x, y)) (conj I X)) as Q. destruct (vz a <? z); injection Q as -> ->; [|apply on_edge_sym]; exact S2.
Qed.

(** *** the layer loop *)
Lemma minmax_in f : exists a b, In a (facePoints f) /\ In b (facePoints f) /\ MinZ f = vz a /\ MaxZ f = vz b /\
  forall v, In v (facePoints f) -> MinZ f <= vz v <= MaxZ f.
Proof.
  destruct f as [[p0 p1] p2]. unfold MinZ, MaxZ, facePoints. 
  assert (L : forall v, In v [p0; p1; p2] <-> v = p0 \/ v = p1 \/ v = p2) by (intros; cbn; intuition).
  destruct (Z.ltb_spec (vz p1) (vz p0)); destruct (Z.ltb_spec (vz p0) (vz p1)); try lia;
  match goal with |- context [vz p2 <? ?m] => destruct (Z.ltb_spec (vz p2) m) end;
  match goal with |- context [?m <? vz p2] => destruct (Z.ltb_spec m (vz p2)) end;
  do 2 eexists; (split; [|split; [|split; [reflexivity|split; [reflexivity|]]]]); try (apply L; tauto);
  intros v Hv; apply L in Hv; destruct Hv as [->|[->| ->]]; lia.
Qed.

(** [done z i fs l]: layer l after faces [fs] (numbers 0..) *)
Definition acc_ok (init thick : Z) (fs : list face) (k : Z) (ol : option slayer) : Prop :=
  match ol with
  | None => forall f, In f fs -> ~ visited init thick k f
  | Some l => (exists f, In f fs /\ visited init thick k f) /\ layer_of (height init thick k) fs l
  end.
