(** Specification vocabulary for slicing (exact integers, no wrap-around). *)
From Coq Require Import Permutation Sorted.
From Verif Require Import GoBase M_Micrometer M_Geom2D M_Model M_Slicer S_Geom S_Model.
Local Open Scope Z_scope.

(** vertices of a triangle strictly below / strictly above the height z *)
Definition nbelow (z : Z) (f : face) : nat := List.length (filter (fun v => vz v <? z) (facePoints f)).
Definition nabove (z : Z) (f : face) : nat := List.length (filter (fun v => z <? vz v) (facePoints f)).
(** the plane at height z properly cuts the triangle *)
Definition crosses (z : Z) (f : face) : Prop := nbelow z f = 1%nat \/ (nbelow z f = 2%nat /\ nabove z f = 1%nat).
Definition crossesb (z : Z) (f : face) : bool :=
  (Nat.eqb (nbelow z f) 1) || (Nat.eqb (nbelow z f) 2 && Nat.eqb (nabove z f) 1).

(** the three directed edges *)
Definition fedges (f : face) : list (vec3 * vec3) := let '(a, b, c) := f in [(a, b); (b, c); (c, a)].

Definition between (a b x : Z) : Prop := a <= x <= b \/ b <= x <= a.
(** p is the point where the edge a-b passes the height z: in the box of the edge and less than 1 um off the
    exact intersection a + (b-a)(z-a.z)/(b.z-a.z) in each coordinate *)
Definition on_edge (z : Z) (a b : vec3) (p : pt) : Prop :=
  between (vx a) (vx b) (px p) /\ between (vy a) (vy b) (py p) /\
  Z.abs ((px p - vx a) * (vz b - vz a) - (vx b - vx a) * (z - vz a)) < Z.abs (vz b - vz a) /\
  Z.abs ((py p - vy a) * (vz b - vz a) - (vy b - vy a) * (z - vz a)) < Z.abs (vz b - vz a).

(** a directed edge that passes the height z upwards / downwards *)
Definition rises (z : Z) (e : vec3 * vec3) : Prop := vz (fst e) < z <= vz (snd e).
Definition falls (z : Z) (e : vec3 * vec3) : Prop := vz (snd e) < z <= vz (fst e).
(** the segment from s to e cuts the triangle f at height z: it starts on the falling edge and ends on the
    rising edge, of which there is exactly one each *)
Definition cuts (z : Z) (f : face) (s e : pt) : Prop :=
  (exists a b, forall e', In e' (fedges f) /\ falls z e' <-> e' = (a, b)) /\
  (exists a b, forall e', In e' (fedges f) /\ rises z e' <-> e' = (a, b)) /\
  (forall a b, In (a, b) (fedges f) -> falls z (a, b) -> on_edge z a b s) /\
  (forall a b, In (a, b) (fedges f) -> rises z (a, b) -> on_edge z a b e).

(** height of layer k, and the faces that the slicer looks at for layer k *)
Definition height (init thick k : Z) : Z := init + k * thick.
Definition visited (init thick k : Z) (f : face) : Prop :=
  MinZ f <= height init thick k /\ (height init thick k <= MaxZ f \/ (k = 0 /\ init - thick < MaxZ f)).

(** numbered list *)
Fixpoint number {A} (i : Z) (l : list A) : list (Z * A) :=
  match l with [] => [] | a :: l' => (i, a) :: number (i + 1) l' end.

(** the segments of a layer: one for each crossed face, in face order *)
Definition layer_of (z : Z) (fs : list face) (l : slayer) : Prop :=
  Forall2 (fun s nf => sface s = fst nf /\ cuts z (snd nf) (sstart s) (send s))
          (lsegs l) (filter (fun nf => crossesb z (snd nf)) (number 0 fs)) /\
  (forall i j, lf2s l i = Some j <-> exists s, idx (lsegs l) j = Ok s /\ sface s = i).

(** *** polygons of a layer *)
(** A layer whose tables fit together: the face table names existing segments and every segment's face has
    touching information. *)
Definition wf_layer (touch : Z -> res (Z * Z * Z)) (l : slayer) : Prop :=
  (forall i j, lf2s l i = Some j -> 0 <= j < Z.of_nat (List.length (lsegs l))) /\
  (forall s, In s (lsegs l) -> exists t, touch (sface s) = Ok t).
Definition pt_bounded (B : Z) (p : pt) : Prop := Z.abs (px p) <= B /\ Z.abs (py p) <= B.
Definition segs_bounded (B : Z) (l : slayer) : Prop := forall s, In s (lsegs l) -> pt_bounded B (sstart s) /\ pt_bounded B (send s).

(** segment number t starts, within [meld], where segment number s ends, and their faces touch *)
Definition follows (touch : Z -> res (Z * Z * Z)) (l : slayer) (meld s t : Z) : Prop :=
  exists a b ts f, idx (lsegs l) s = Ok a /\ idx (lsegs l) t = Ok b /\ touch (sface a) = Ok ts /\
    uses ts f /\ -1 < f /\ lf2s l f = Some t /\ dist2 (send a) (sstart b) <= meld ^ 2.

(** the points of a chain of segments *)
Definition chain_points (ss : list segment) : path :=
  match ss with [] => [] | s :: _ => sstart s :: map send ss end.

(** [chained R seg U pbs cs]: [cs] are chains of segment numbers with respect to R, [pbs] their points and
    whether they are closed.  No chain can be prolonged by a segment outside U, itself and the chains before. *)
Inductive chained (R : Z -> Z -> Prop) (seg : Z -> res segment) : list Z -> list (path * bool) -> list (list Z) -> Prop :=
| chained_nil U : chained R seg U [] []
| chained_cons U c ss b pbs cs :
    c <> [] -> Forall2 (fun i s => seg i = Ok s) c ss -> Sorted R c ->
    (b = true <-> R (last c 0) (hd 0 c)) ->
    (forall t, R (last c 0) t -> In t (U ++ c)) ->
    chained R seg (U ++ c) pbs cs -> chained R seg U ((chain_points ss, b) :: pbs) (c :: cs).

Definition first_point (p : path) : pt := hd (Pt 0 0) p.
Definition final_point (p : path) : pt := last p (Pt 0 0).
(** lengths rounded down per edge *)
Fixpoint path_len (p : path) : Z :=
  match p with a :: (b :: _) as r => Z.sqrt (dist2 a b) + path_len r | _ => 0 end.
Definition closes (d : Z) (p : path) : Prop := dist2 (first_point p) (final_point p) <= d ^ 2.
Definition closesb (d : Z) (p : path) : bool := dist2 (first_point p) (final_point p) <=? d ^ 2.
(** the end of p is at most d away from the start of q *)
Definition joins (d : Z) (p q : path) : Prop := dist2 (final_point p) (first_point q) <= d ^ 2.

(** a polygon made of chains *)
Record piece := Piece { pc_chains : list Z; pc_path : path; pc_closed : bool }.
(** The polygon consists of the points of its chains (numbers into [pbs]) in order; consecutive chains are at
    most [d] apart; it is closed if it is a closed chain, or made by joining and ends at most [d] from its start. *)
Definition piece_ok (pbs : list (path * bool)) (d : Z) (g : piece) : Prop :=
  exists qs, Forall2 (fun i q => idx pbs i = Ok q) (pc_chains g) qs /\
    pc_path g = concat (map fst qs) /\ Sorted (joins d) (map fst qs) /\
    match qs with
    | [] => False
    | [q] => pc_closed g = snd q
    | _ => pc_closed g = closesb d (pc_path g) /\ forall q, In q qs -> snd q = false
    end.
(** closed or almost finished, and not tiny *)
Definition keep (finish : Z) (g : piece) : bool := (pc_closed g || closesb finish (pc_path g)) && (finish <? path_len (pc_path g)).

(** two consecutive polygon points: the second is the end of a cut segment that starts (up to [meld]) at the
    first, or they are at most [join] apart *)
Definition bridged (l : slayer) (meld join : Z) (a b : pt) : Prop :=
  (exists s, In s (lsegs l) /\ b = send s /\ dist2 a (sstart s) <= meld ^ 2) \/ dist2 a b <= join ^ 2.

(** [touch] describes a closed oriented surface: every directed edge belongs to one face only, and the face
    with the reversed edge exists and is known as touching *)
Definition closed_surface (fs : list face) (touch : Z -> res (Z * Z * Z)) : Prop :=
  (forall i f, idx fs i = Ok f -> exists ts, touch i = Ok ts /\
     forall a b, In (a, b) (fedges f) -> exists j g, uses ts j /\ idx fs j = Ok g /\ In (b, a) (fedges g)) /\
  (forall i j f g e, idx fs i = Ok f -> idx fs j = Ok g -> In e (fedges f) -> In e (fedges g) -> i = j).

(** the touching information of an optimized model *)
Definition touch_of (om : omodel) (i : Z) : res (Z * Z * Z) := let* f := idx (om_faces om) i in Ok (otouch f).
(** closed and consistently oriented: every directed edge (pair of point numbers) belongs to one face only and
    its reverse belongs to some face *)
Definition closed_model (om : omodel) : Prop :=
  (forall i f k, idx (om_faces om) i = Ok f -> (k < 3)%nat ->
     exists j g m, idx (om_faces om) j = Ok g /\ (m < 3)%nat /\ edge (oi g) m = (snd (edge (oi f) k), fst (edge (oi f) k))) /\
  (forall i j f g k m, idx (om_faces om) i = Ok f -> idx (om_faces om) j = Ok g -> (k < 3)%nat -> (m < 3)%nat ->
     edge (oi f) k = edge (oi g) m -> i = j).
