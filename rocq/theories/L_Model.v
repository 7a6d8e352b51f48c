(** Proofs about the optimizer. *)
From Verif Require Import GoBase GoFloat M_Micrometer M_Model S_Geom S_Model L_Vec L_Float L_Micrometer.
Local Open Scope Z_scope.

(** *** indexing *)
Lemma idx_app_l {A} (l l' : list A) i a : idx l i = Ok a -> idx (l ++ l') i = Ok a.
Proof.
  intros H. destruct (idx_Ok _ _ _ H) as [R N]. unfold idx. destruct (Z.ltb_spec i 0); [lia|].
  rewrite nth_error_app1 by lia. rewrite N. reflexivity.
Qed.
Lemma idx_app_end {A} (l : list A) a : idx (l ++ [a]) (Z.of_nat (List.length l)) = Ok a.
Proof.
  unfold idx. destruct (Z.ltb_spec (Z.of_nat (List.length l)) 0); [lia|]. rewrite Nat2Z.id.
  rewrite nth_error_app2 by lia. rewrite Nat.sub_diag. reflexivity.
Qed.
Lemma idx_app_inv {A} (l : list A) x i a : idx (l ++ [x]) i = Ok a -> idx l i = Ok a \/ (i = Z.of_nat (List.length l) /\ a = x).
Proof.
  intros H. destruct (idx_Ok _ _ _ H) as [R N]. rewrite app_length in R. cbn in R.
  destruct (Z.eq_dec i (Z.of_nat (List.length l))) as [->|Ne].
  - right. rewrite idx_app_end in H. injection H as <-. auto.
  - left. unfold idx. destruct (Z.ltb_spec i 0); [lia|]. rewrite nth_error_app1 in N by lia. rewrite N. reflexivity.
Qed.
Lemma idx_In {A} (l : list A) i a : idx l i = Ok a -> In a l.
Proof. intros H. apply idx_Ok in H. destruct H as [_ H]. eapply nth_error_In, H. Qed.
Lemma In_idx {A} (l : list A) a : In a l -> exists i, idx l i = Ok a.
Proof.
  intros H. apply In_nth_error in H. destruct H as [n H]. exists (Z.of_nat n). unfold idx.
  destruct (Z.ltb_spec (Z.of_nat n) 0); [lia|]. rewrite Nat2Z.id, H. reflexivity.
Qed.
Lemma idx_map {A B} (f : A -> B) l i : idx (map f l) i = bind (idx l i) (fun x => Ok (f x)).
Proof. unfold idx. destruct (i <? 0); [reflexivity|]. rewrite nth_error_map. destruct (nth_error l (Z.to_nat i)); reflexivity. Qed.
Lemma idx_set_nth {A} (l : list A) i x j a : idx l i = Ok a ->
  idx (set_nth (Z.to_nat i) x l) j = if i =? j then Ok x else idx l j.
Proof.
  intros H. apply idx_Ok in H. destruct H as [R N]. unfold idx at 1. destruct (Z.eqb_spec i j) as [->|Ne].
  - destruct (Z.ltb_spec j 0); [lia|]. rewrite nth_error_set_nth_eq by lia. reflexivity.
  - unfold idx. destruct (Z.ltb_spec j 0); [reflexivity|]. rewrite nth_error_set_nth_neq by lia. reflexivity.
Qed.

(** *** bounding box (reader) *)
Lemma min_fold l : forall a, let r := fold_left min_step l a in
  (vx r <= vx a /\ vy r <= vy a /\ vz r <= vz a) /\
  (forall v, In v l -> vx r <= vx v /\ vy r <= vy v /\ vz r <= vz v) /\
  (exists v, In v (a :: l) /\ vx v = vx r) /\ (exists v, In v (a :: l) /\ vy v = vy r) /\ (exists v, In v (a :: l) /\ vz v = vz r).
Proof.
  induction l as [|b l IH]; intros a; cbn [fold_left].
  - split; [lia|]. split; [intros v []|]. repeat split; exists a; (split; [left; reflexivity|reflexivity]).
  - specialize (IH (min_step a b)). cbv zeta in *. set (r := fold_left min_step l (min_step a b)) in *.
    destruct IH as (H1 & H2 & Ex & Ey & Ez). unfold min_step in H1; cbn [vx vy vz] in H1.
    split; [|split].
    + destruct (Z.ltb_spec (vx b) (vx a)); destruct (Z.ltb_spec (vy b) (vy a)); destruct (Z.ltb_spec (vz b) (vz a)); lia.
    + intros v [<-|Hv]; [|apply H2, Hv].
      destruct (Z.ltb_spec (vx b) (vx a)); destruct (Z.ltb_spec (vy b) (vy a)); destruct (Z.ltb_spec (vz b) (vz a)); lia.
    + split; [|split].
      * destruct Ex as (v & [<-|Hv] & Ev); [|exists v; split; [right; right; exact Hv|exact Ev]].
        unfold min_step in Ev; cbn [vx vy vz] in Ev. destruct (vx b <? vx a);
          [exists b; split; [right; left; reflexivity|exact Ev]|exists a; split; [left; reflexivity|exact Ev]].
      * destruct Ey as (v & [<-|Hv] & Ev); [|exists v; split; [right; right; exact Hv|exact Ev]].
        unfold min_step in Ev; cbn [vx vy vz] in Ev. destruct (vy b <? vy a);
          [exists b; split; [right; left; reflexivity|exact Ev]|exists a; split; [left; reflexivity|exact Ev]].
      * destruct Ez as (v & [<-|Hv] & Ev); [|exists v; split; [right; right; exact Hv|exact Ev]].
        unfold min_step in Ev; cbn [vx vy vz] in Ev. destruct (vz b <? vz a);
          [exists b; split; [right; left; reflexivity|exact Ev]|exists a; split; [left; reflexivity|exact Ev]].
Qed.
Lemma max_fold l : forall a, let r := fold_left max_step l a in
  (vx a <= vx r /\ vy a <= vy r /\ vz a <= vz r) /\
  (forall v, In v l -> vx v <= vx r /\ vy v <= vy r /\ vz v <= vz r) /\
  (exists v, In v (a :: l) /\ vx v = vx r) /\ (exists v, In v (a :: l) /\ vy v = vy r) /\ (exists v, In v (a :: l) /\ vz v = vz r).
Proof.
  induction l as [|b l IH]; intros a; cbn [fold_left].
  - split; [lia|]. split; [intros v []|]. repeat split; exists a; (split; [left; reflexivity|reflexivity]).
  - specialize (IH (max_step a b)). cbv zeta in *. set (r := fold_left max_step l (max_step a b)) in *.
    destruct IH as (H1 & H2 & Ex & Ey & Ez). unfold max_step in H1; cbn [vx vy vz] in H1.
    split; [|split].
    + destruct (Z.ltb_spec (vx a) (vx b)); destruct (Z.ltb_spec (vy a) (vy b)); destruct (Z.ltb_spec (vz a) (vz b)); lia.
    + intros v [<-|Hv]; [|apply H2, Hv].
      destruct (Z.ltb_spec (vx a) (vx b)); destruct (Z.ltb_spec (vy a) (vy b)); destruct (Z.ltb_spec (vz a) (vz b)); lia.
    + split; [|split].
      * destruct Ex as (v & [<-|Hv] & Ev); [|exists v; split; [right; right; exact Hv|exact Ev]].
        unfold max_step in Ev; cbn [vx vy vz] in Ev. destruct (vx a <? vx b);
          [exists b; split; [right; left; reflexivity|exact Ev]|exists a; split; [left; reflexivity|exact Ev]].
      * destruct Ey as (v & [<-|Hv] & Ev); [|exists v; split; [right; right; exact Hv|exact Ev]].
        unfold max_step in Ev; cbn [vx vy vz] in Ev. destruct (vy a <? vy b);
          [exists b; split; [right; left; reflexivity|exact Ev]|exists a; split; [left; reflexivity|exact Ev]].
      * destruct Ez as (v & [<-|Hv] & Ev); [|exists v; split; [right; right; exact Hv|exact Ev]].
        unfold max_step in Ev; cbn [vx vy vz] in Ev. destruct (vz a <? vz b);
          [exists b; split; [right; left; reflexivity|exact Ev]|exists a; split; [left; reflexivity|exact Ev]].
Qed.
Lemma model_bounds fs : fs <> [] -> exists mn mx, ModelMin fs = Ok mn /\ ModelMax fs = Ok mx /\ tight_box3 (vertices fs) mn mx.
Proof.
  destruct fs as [|[[a b] c] fs]; [contradiction|]. intros _.
  unfold ModelMin, ModelMax. set (l := vertices ((a, b, c) :: fs)).
  assert (Ha : In a l) by (left; reflexivity).
  destruct (min_fold l a) as (N1 & N2 & Nx & Ny & Nz). destruct (max_fold l a) as (X1 & X2 & Xx & Xy & Xz).
  set (mn := fold_left min_step l a) in *. set (mx := fold_left max_step l a) in *.
  exists mn, mx. split; [reflexivity|]. split; [reflexivity|].
  assert (K : forall f k, (exists v : vec3, In v (a :: l) /\ f v = k) -> exists v, In v l /\ f v = k :> Z).
  { intros f k (v & [<-|Hv] & E); eauto. }
  split; [|repeat split; apply K; assumption].
  intros v Hv. specialize (N2 v Hv). specialize (X2 v Hv). lia.
Qed.
Lemma model_bounds_empty : (exists m, ModelMin [] = Panic m) /\ exists m, ModelMax [] = Panic m.
Proof. split; eexists; reflexivity. Qed.

(** *** point lookup *)
Definition locate (meld : Z) (st : ost) (v : vec3) : res (option Z) :=
  find_near (st_points st) meld v (st_hash st (pointHash (uint64 meld) v)).

Lemma find_near_spec pts meld v l : (forall i, In i l -> exists p, idx pts i = Ok p) ->
  exists r, find_near pts meld v l = Ok r /\
    match r with
    | Some i => In i l /\ exists p, idx pts i = Ok p /\ v3ShorterThanOrEqual (v3Sub (opos p) v) meld = true
    | None => forall i p, In i l -> idx pts i = Ok p -> v3ShorterThanOrEqual (v3Sub (opos p) v) meld = false
    end.
Proof.
  induction l as [|i l IH]; intros H; cbn [find_near].
  - eexists. split; [reflexivity|]. intros i p [].
  - destruct (H i ltac:(left; reflexivity)) as (p & E). rewrite E. cbn [bind].
    destruct (v3ShorterThanOrEqual (v3Sub (opos p) v) meld) eqn:S.
    + eexists. split; [reflexivity|]. split; [left; reflexivity|]. eauto.
    + destruct IH as (r & Er & Hr); [intros j Hj; apply H; right; exact Hj|]. exists r. split; [exact Er|].
      destruct r as [j|].
      * destruct Hr as [Hj Hq]. split; [right; exact Hj|exact Hq].
      * intros j q [<-|Hj] Hq; [congruence|]. eapply Hr; eassumption.
Qed.
Lemma find_near_ext pts pts' meld v l l' i : (forall j p, idx pts j = Ok p -> exists p', idx pts' j = Ok p' /\ opos p' = opos p) ->
  find_near pts meld v l = Ok (Some i) -> find_near pts' meld v (l ++ l') = Ok (Some i).
Proof.
  intros X. induction l as [|j l IH]; cbn [find_near app]; [discriminate|]. destruct (idx pts j) as [p| | |] eqn:E; try discriminate.
  destruct (X j p E) as (p' & E' & Ep). rewrite E'. cbn [bind]. rewrite Ep.
  destruct (v3ShorterThanOrEqual (v3Sub (opos p) v) meld); [auto|exact IH].
Qed.

Section Vert.
Variable meld : Z.
Hypothesis Hm : uint64 meld <> 0.
Let H (v : vec3) : Z := pointHash (uint64 meld) v.
(** a point is "within the meld distance" of itself *)
Hypothesis Hself : forall v, v3ShorterThanOrEqual (v3Sub v v) meld = true.

Record VInv (st : ost) (V : list vec3) : Prop := {
  hash_in : forall h i, In i (st_hash st h) -> exists p, idx (st_points st) i = Ok p /\ H (opos p) = h;
  hash_all : forall i p, idx (st_points st) i = Ok p -> In i (st_hash st (H (opos p)));
  src : forall i p, idx (st_points st) i = Ok p -> In (opos p) V;
  sep : forall i j p q, i < j -> idx (st_points st) i = Ok p -> idx (st_points st) j = Ok q -> H (opos p) = H (opos q) ->
        v3ShorterThanOrEqual (v3Sub (opos p) (opos q)) meld = false;
  located : forall v, In v V -> exists i, locate meld st v = Ok (Some i) }.

Definition ext (st st' : ost) : Prop :=
  (exists new, st_points st' = st_points st ++ new /\ Forall (fun p => ofaces p = []) new) /\
  st_faces st' = st_faces st /\ forall h, exists l, st_hash st' h = st_hash st h ++ l.

Lemma ext_refl st : ext st st.
Proof. split; [exists []; rewrite app_nil_r; auto|]. split; [reflexivity|]. intros h. exists []. rewrite app_nil_r. reflexivity. Qed.
Lemma ext_trans a b c : ext a b -> ext b c -> ext a c.
Proof.
  intros ((n1 & E1 & F1) & G1 & H1) ((n2 & E2 & F2) & G2 & H2). split; [|split].
  - exists (n1 ++ n2). rewrite E2, E1, app_assoc. split; [reflexivity|]. apply Forall_app. auto.
  - congruence.
  - intros h. destruct (H1 h) as [l1 L1]. destruct (H2 h) as [l2 L2]. exists (l1 ++ l2). rewrite L2, L1, app_assoc. reflexivity.
Qed.
Lemma ext_locate st st' v i : ext st st' -> locate meld st v = Ok (Some i) -> locate meld st' v = Ok (Some i).
Proof.
  intros ((n & E & _) & _ & X) L. unfold locate in *. destruct (X (pointHash (uint64 meld) v)) as [l ->].
  eapply find_near_ext; [|exact L]. intros j p Hj. exists p. rewrite E. split; [apply idx_app_l, Hj|reflexivity].
Qed.

Lemma add_vertex_spec st V v : VInv st V -> exists i st', add_vertex meld st v = Ok (i, st') /\
  VInv st' (V ++ [v]) /\ ext st st' /\ locate meld st' v = Ok (Some i) /\ exists p, idx (st_points st') i = Ok p.
Proof.
  intros I. unfold add_vertex. destruct (Z.eqb_spec (uint64 meld) 0) as [C|_]; [contradiction|]. cbv zeta. fold (H v).
  destruct (find_near_spec (st_points st) meld v (st_hash st (H v))) as (r & Er & Hr).
  { intros i Hi. destruct (hash_in _ _ I _ _ Hi) as (p & E & _). eauto. }
  rewrite Er. cbn [bind]. destruct r as [i|].
  - exists i, st. split; [reflexivity|]. destruct Hr as (Hi & p & Ep & Sp).
    assert (L : locate meld st v = Ok (Some i)) by exact Er.
    split; [|split; [apply ext_refl|split; [exact L|eauto]]]. destruct I as [A B S D F]. constructor; try assumption.
    + intros j q Hq. apply in_or_app. left. eapply S, Hq.
    + intros w Hw. apply in_app_or in Hw. destruct Hw as [Hw|[<-|[]]]; [apply F, Hw|eauto].
  - set (n := Z.of_nat (List.length (st_points st))).
    set (st' := OSt (st_points st ++ [OPoint v []]) (st_faces st) (fun h' => if h' =? H v then st_hash st h' ++ [n] else st_hash st h')).
    exists n, st'. split; [reflexivity|].
    assert (X : ext st st').
    { split; [|split].
      - exists [OPoint v []]. split; [reflexivity|]. repeat constructor.
      - reflexivity.
      - intros h. cbn. destruct (h =? H v); [eauto|exists []; rewrite app_nil_r; reflexivity]. }
    assert (L : locate meld st' v = Ok (Some n)).
    { unfold locate. cbn [st' st_points st_hash]. fold (H v). rewrite Z.eqb_refl.
      assert (G : forall l, (forall i, In i l -> In i (st_hash st (H v))) -> find_near (st_points st ++ [OPoint v []]) meld v (l ++ [n]) = Ok (Some n)).
      { induction l as [|i l IH]; intros Hl; cbn [find_near app].
        - unfold n. rewrite idx_app_end. cbn [bind opos]. rewrite Hself. reflexivity.
        - destruct (hash_in _ _ I _ _ (Hl i ltac:(left; reflexivity))) as (p & Ep & _). rewrite (idx_app_l _ _ _ _ Ep). cbn [bind].
          rewrite (Hr i p (Hl i ltac:(left; reflexivity)) Ep). apply IH. intros j Hj. apply Hl. right; exact Hj. }
      apply G. auto. }
    split; [|split; [exact X|split; [exact L|exists (OPoint v []); apply idx_app_end]]].
    destruct I as [A B S D F]. constructor; cbn [st' st_points st_hash].
    + intros h i Hi. destruct (Z.eqb_spec h (H v)) as [->|Ne].
      * apply in_app_or in Hi. destruct Hi as [Hi|[<-|[]]].
        -- destruct (A _ _ Hi) as (p & Ep & Eh). exists p. split; [apply idx_app_l, Ep|exact Eh].
        -- exists (OPoint v []). split; [apply idx_app_end|reflexivity].
      * destruct (A _ _ Hi) as (p & Ep & Eh). exists p. split; [apply idx_app_l, Ep|exact Eh].
    + intros i p Hp. apply idx_app_inv in Hp. destruct Hp as [Hp|[-> ->]].
      * specialize (B i p Hp). destruct (Z.eqb_spec (H (opos p)) (H v)) as [E|_]; [apply in_or_app; left|]; exact B.
      * cbn [opos]. rewrite Z.eqb_refl. apply in_or_app. right. left. reflexivity.
    + intros i p Hp. apply in_or_app. apply idx_app_inv in Hp. destruct Hp as [Hp|[_ ->]]; [left; eapply S, Hp|right; left; reflexivity].
    + intros i j p q Hij Hp Hq Eh. apply idx_app_inv in Hp, Hq. destruct Hp as [Hp|[-> ->]]; destruct Hq as [Hq|[-> ->]].
      * eapply D; [exact Hij|exact Hp|exact Hq|exact Eh].
      * cbn [opos] in *. apply (Hr i p); [|exact Hp]. rewrite <- Eh. apply B, Hp.
      * apply idx_Ok in Hq. lia.
      * lia.
    + intros w Hw. apply in_app_or in Hw. destruct Hw as [Hw|[<-|[]]]; [|eauto].
      destruct (F w Hw) as (i & Hi). exists i. eapply ext_locate; eassumption.
Qed.

(** *** face lists *)
Definition usesb (t : Z * Z * Z) (p : Z) : bool := let '(a, b, c) := t in (p =? a) || (p =? b) || (p =? c).
Lemma usesb_spec t p : usesb t p = true <-> uses t p.
Proof.
  destruct t as [[a b] c]. unfold usesb, uses. rewrite !orb_true_iff, !Z.eqb_eq. tauto.
Qed.
Fixpoint facelist (n : Z) (fs : list oface) (p : Z) : list Z :=
  match fs with
  | [] => []
  | f :: r => if usesb (oi f) p then n :: facelist (n + 1) r p else facelist (n + 1) r p
  end.
Lemma facelist_app fs f p : forall n, facelist n (fs ++ [f]) p = (facelist n fs p ++ (if usesb (oi f) p then [n + Z.of_nat (List.length fs)] else []))%list.
Proof.
  induction fs as [|g fs IH]; intros n; cbn [facelist app List.length].
  - rewrite Z.add_0_r. destruct (usesb (oi f) p); reflexivity.
  - rewrite IH. replace (n + 1 + Z.of_nat (List.length fs)) with (n + Z.of_nat (S (List.length fs))) by lia.
    destruct (usesb (oi g) p); [rewrite <- app_comm_cons|]; reflexivity.
Qed.
Lemma facelist_In fs p : forall n j, In j (facelist n fs p) <-> exists f, n <= j /\ idx fs (j - n) = Ok f /\ uses (oi f) p.
Proof.
  assert (Sk : forall n j (g : oface) fs, n < j -> idx (g :: fs) (j - n) = idx fs (j - (n + 1))).
  { clear. intros n j g fs Hj. unfold idx. destruct (Z.ltb_spec (j - n) 0); [lia|]. destruct (Z.ltb_spec (j - (n + 1)) 0); [lia|].
    replace (Z.to_nat (j - n)) with (S (Z.to_nat (j - (n + 1)))) by lia. reflexivity. }
  induction fs as [|g fs IH]; intros n j; cbn [facelist].
  - split; [contradiction|]. intros (f & _ & E & _). apply idx_Ok in E. cbn in E. lia.
  - assert (T : In j (facelist (n + 1) fs p) <-> exists f, n < j /\ idx (g :: fs) (j - n) = Ok f /\ uses (oi f) p).
    { rewrite IH. split; intros (f & Hj & E & U); exists f.
      - rewrite Sk by lia. repeat split; [lia|exact E|exact U].
      - rewrite Sk in E by lia. repeat split; [lia|exact E|exact U]. }
    destruct (usesb (oi g) p) eqn:Ug.
    + split.
      * intros [<-|Hj]; [exists g; rewrite Z.sub_diag; repeat split; [lia|apply usesb_spec, Ug]|].
        apply T in Hj. destruct Hj as (f & Hj & E & U). exists f. repeat split; [lia|exact E|exact U].
      * intros (f & Hj & E & U). destruct (Z.eq_dec j n) as [->|Ne]; [left; reflexivity|]. right. apply T. exists f. repeat split; [lia|exact E|exact U].
    + rewrite T. split; intros (f & Hj & E & U); exists f.
      * repeat split; [lia|exact E|exact U].
      * destruct (Z.eq_dec j n) as [->|Ne]; [|repeat split; [lia|exact E|exact U]].
        rewrite Z.sub_diag in E. injection E as ->. apply usesb_spec in U. congruence.
Qed.
Lemma facelist_nil fs p : Forall (fun f => ~ uses (oi f) p) fs -> forall n, facelist n fs p = [].
Proof.
  induction 1 as [|f fs Hf _ IH]; intros n; [reflexivity|]. cbn [facelist].
  destruct (usesb (oi f) p) eqn:U; [apply usesb_spec in U; contradiction|apply IH].
Qed.
Lemma common_face_spec l0 l1 l2 : common_face l0 l1 l2 = true <-> exists f, In f l0 /\ In f l1 /\ In f l2.
Proof.
  unfold common_face. rewrite existsb_exists. split.
  - intros (f0 & H0 & E). apply existsb_exists in E. destruct E as (f1 & H1 & E). apply existsb_exists in E. destruct E as (f2 & H2 & E).
    apply andb_prop in E. destruct E as [E1 E2]. apply Z.eqb_eq in E1, E2. subst. eauto.
  - intros (f & H0 & H1 & H2). exists f. split; [exact H0|]. apply existsb_exists. exists f. split; [exact H1|].
    apply existsb_exists. exists f. split; [exact H2|]. rewrite Z.eqb_refl. reflexivity.
Qed.

(** *** faces *)
Definition loc (st : ost) (v : vec3) : Z := match locate meld st v with Ok (Some i) => i | _ => -1 end.
Definition loc3 (st : ost) (f : face) : Z * Z * Z := let '(a, b, c) := f in (loc st a, loc st b, loc st c).

Record FInv (st : ost) (done : list face) : Prop := {
  fv : VInv st (vertices done);
  face_ok : forall j f, idx (st_faces st) j = Ok f -> oindex f = j /\ ~ degenerate (oi f) /\ (forall p, uses (oi f) p -> exists q, idx (st_points st) p = Ok q);
  lists : forall i p, idx (st_points st) i = Ok p -> ofaces p = facelist 0 (st_faces st) i;
  nodup : forall j k f g, idx (st_faces st) j = Ok f -> idx (st_faces st) k = Ok g -> same_set (oi f) (oi g) -> j = k;
  order : subseq (map oi (st_faces st)) (map (loc3 st) done);
  all : forall f, In f done -> degenerate (loc3 st f) \/ exists g, In g (st_faces st) /\ same_set (oi g) (loc3 st f) }.

Lemma vertices_app a b : vertices (a ++ b) = (vertices a ++ vertices b)%list.
Proof. apply flat_map_app. Qed.
Lemma ext_loc st st' v : ext st st' -> (exists i, locate meld st v = Ok (Some i)) -> loc st' v = loc st v.
Proof. intros X (i & L). unfold loc. rewrite L, (ext_locate _ _ _ _ X L). reflexivity. Qed.
Lemma in_vertices f fs v : In f fs -> In v (facePoints f) -> In v (vertices fs).
Proof. intros Hf Hv. apply in_flat_map. eauto. Qed.

(** only the face lists of points change *)
Definition same_pos (pts pts' : list opoint) : Prop := map opos pts = map opos pts'.
Lemma same_pos_idx pts pts' i p : same_pos pts pts' -> idx pts i = Ok p -> exists p', idx pts' i = Ok p' /\ opos p' = opos p.
Proof.
  intros S E. assert (M : idx (map opos pts) i = Ok (opos p)) by (rewrite idx_map, E; reflexivity).
  rewrite S, idx_map in M. destruct (idx pts' i) as [p'| | |]; try discriminate. injection M as M. eauto.
Qed.
Lemma same_pos_find pts pts' v l : same_pos pts pts' -> find_near pts' meld v l = find_near pts meld v l.
Proof.
  intros S. induction l as [|i l IH]; [reflexivity|]. cbn [find_near].
  assert (M : idx (map opos pts) i = idx (map opos pts') i) by (rewrite S; reflexivity). rewrite !idx_map in M.
  destruct (idx pts i) as [p| | |], (idx pts' i) as [p'| | |]; try discriminate; cbn [bind] in *; try reflexivity; try congruence.
  injection M as ->. destruct (v3ShorterThanOrEqual _ _); [reflexivity|exact IH].
Qed.
Lemma set_nth_map {A B} (f : A -> B) n x l : map f (set_nth n x l) = set_nth n (f x) (map f l).
Proof. revert n; induction l as [|a l IH]; intros [|n]; cbn; [reflexivity..|]. f_equal. apply IH. Qed.
Lemma set_nth_same {A} n (l : list A) a : nth_error l n = Some a -> set_nth n a l = l.
Proof. revert n; induction l as [|b l IH]; intros [|n] E; cbn in *; try discriminate; [congruence|]. f_equal. apply IH, E. Qed.
Lemma add_face_index_spec pts i f p : idx pts i = Ok p -> exists pts', add_face_index pts i f = Ok pts' /\ same_pos pts pts' /\
  forall j q, idx pts j = Ok q -> exists q', idx pts' j = Ok q' /\ ofaces q' = (if i =? j then ofaces q ++ [f] else ofaces q)%list.
Proof.
  intros E. unfold add_face_index. rewrite E. cbn [bind]. eexists. split; [reflexivity|]. split.
  - unfold same_pos. rewrite set_nth_map. cbn [opos]. symmetry. apply set_nth_same. apply idx_Ok in E.
    rewrite nth_error_map. destruct E as [_ E]. rewrite E. reflexivity.
  - intros j q Hq. rewrite (idx_set_nth pts i _ j p E). destruct (Z.eqb_spec i j) as [->|Ne]; [|eauto].
    eexists. split; [reflexivity|]. cbn. rewrite E in Hq. injection Hq as ->. reflexivity.
Qed.

Lemma same_pos_trans a b c : same_pos a b -> same_pos b c -> same_pos a c.
Proof. unfold same_pos. congruence. Qed.
Lemma same_pos_sym a b : same_pos a b -> same_pos b a.
Proof. unfold same_pos. congruence. Qed.

Lemma VInv_same_pos pts pts' fs fs' hm V : same_pos pts pts' -> VInv (OSt pts fs hm) V -> VInv (OSt pts' fs' hm) V.
Proof.
  intros S [A B C D F]. cbn in *. pose proof (same_pos_sym _ _ S) as S'.
  constructor; cbn.
  - intros h i Hi. destruct (A h i Hi) as (p & E & Eh). destruct (same_pos_idx _ _ _ _ S E) as (p' & E' & P). exists p'. rewrite P. auto.
  - intros i p' E'. destruct (same_pos_idx _ _ _ _ S' E') as (p & E & P). rewrite <- P. apply B, E.
  - intros i p' E'. destruct (same_pos_idx _ _ _ _ S' E') as (p & E & P). rewrite <- P. eapply C, E.
  - intros i j p' q' Hij Ep Eq Eh. destruct (same_pos_idx _ _ _ _ S' Ep) as (p & Ep' & P). destruct (same_pos_idx _ _ _ _ S' Eq) as (q & Eq' & Q).
    rewrite <- P, <- Q in *. eapply D; eassumption.
  - intros v Hv. destruct (F v Hv) as (i & L). exists i. unfold locate in *. cbn in *. rewrite (same_pos_find pts pts'); assumption.
Qed.

Lemma subseq_snoc {A} (l m : list A) x : subseq l m -> subseq l (m ++ [x]).
Proof. induction 1; cbn; repeat constructor; assumption. Qed.
Lemma subseq_snoc2 {A} (l m : list A) x : subseq l m -> subseq (l ++ [x]) (m ++ [x]).
Proof. induction 1; cbn; repeat constructor; assumption. Qed.

Lemma add_face_spec st done f : FInv st done -> exists st', add_face meld st f = Ok st' /\ FInv st' (done ++ [f]).
Proof.
  intros I. destruct f as [[a b] c]. unfold add_face.
  destruct (add_vertex_spec st _ a (fv _ _ I)) as (i & st1 & E1 & V1 & X1 & L1 & _). rewrite E1. cbn [bind].
  destruct (add_vertex_spec st1 _ b V1) as (j & st2 & E2 & V2 & X2 & L2 & _). rewrite E2. cbn [bind].
  destruct (add_vertex_spec st2 _ c V2) as (k & st3 & E3 & V3' & X3 & L3 & P3). rewrite E3. cbn [bind].
  assert (X : ext st st3) by (eapply ext_trans; [exact X1|eapply ext_trans; eassumption]).
  assert (V : VInv st3 (vertices (done ++ [(a, b, c)]))).
  { rewrite vertices_app. cbn. rewrite <- !app_assoc in V3'. exact V3'. }
  apply (ext_locate _ _ _ _ X2) in L1. apply (ext_locate _ _ _ _ X3) in L1, L2.
  assert (Lf : loc3 st3 (a, b, c) = (i, j, k)). { unfold loc3, loc. rewrite L1, L2, L3. reflexivity. }
  assert (Lo : map (loc3 st3) done = map (loc3 st) done).
  { apply map_ext_in. intros [[x y] z] Hf. unfold loc3. f_equal; [f_equal|]; apply ext_loc; try exact X;
    apply (located _ _ (fv _ _ I)); eapply in_vertices; try exact Hf; cbn; auto. }
  assert (Lo1 : forall f, In f done -> loc3 st3 f = loc3 st f).
  { intros f Hf. apply (ext_in_map Lo f Hf). }
  destruct X as ((new & Enew & Fnew) & Efaces & _).
  assert (FO : forall j f, idx (st_faces st3) j = Ok f -> oindex f = j /\ ~ degenerate (oi f) /\ (forall p, uses (oi f) p -> exists q, idx (st_points st3) p = Ok q)).
  { intros n f E. rewrite Efaces in E. destruct (face_ok _ _ I n f E) as (O1 & O2 & O3). split; [exact O1|]. split; [exact O2|].
    intros p U. destruct (O3 p U) as (q & Q). exists q. rewrite Enew. apply idx_app_l, Q. }
  assert (FL : forall i p, idx (st_points st3) i = Ok p -> ofaces p = facelist 0 (st_faces st3) i).
  { intros n p E. rewrite Efaces. rewrite Enew in E.
    destruct (idx (st_points st) n) as [q| | |] eqn:Q.
    1: { pose proof (idx_app_l _ new _ _ Q) as Q'. rewrite Q' in E. injection E as <-. apply (lists _ _ I), Q. }
    all: assert (Hn : In p new); [ destruct (idx_Ok _ _ _ E) as [R N]; unfold idx in Q; destruct (Z.ltb_spec n 0); [lia|];
           destruct (nth_error (st_points st) (Z.to_nat n)) eqn:N0; try discriminate; rewrite nth_error_app2 in N by (apply nth_error_None, N0);
           eapply nth_error_In, N|];
      rewrite Forall_forall in Fnew; rewrite (Fnew p Hn); symmetry; apply facelist_nil; apply Forall_forall; intros f Hf U;
      destruct (In_idx _ _ Hf) as (m & Em); destruct (face_ok _ _ I m f Em) as (_ & _ & O3); destruct (O3 n U) as (q & Q'); congruence. }
  assert (FD : forall j k f g, idx (st_faces st3) j = Ok f -> idx (st_faces st3) k = Ok g -> same_set (oi f) (oi g) -> j = k).
  { rewrite Efaces. apply (nodup _ _ I). }
  assert (Skip : (degenerate (i, j, k) \/ exists g, In g (st_faces st3) /\ same_set (oi g) (i, j, k)) -> FInv st3 (done ++ [(a, b, c)])).
  { intros D. constructor; try assumption.
    - rewrite map_app, Lo, Efaces. apply subseq_snoc. apply (order _ _ I).
    - intros f Hf. apply in_app_or in Hf. destruct Hf as [Hf|[<-|[]]]; [|rewrite Lf; exact D].
      rewrite Lo1 by exact Hf. rewrite Efaces. apply (all _ _ I), Hf. }
  destruct ((i =? j) || (i =? k) || (j =? k)) eqn:Deg.
  { exists st3. split; [reflexivity|]. apply Skip. left. cbn.
    apply orb_prop in Deg. destruct Deg as [Deg|Deg]; [apply orb_prop in Deg; destruct Deg as [Deg|Deg]|]; apply Z.eqb_eq in Deg; auto. }
  apply orb_false_elim in Deg. destruct Deg as [Deg Djk]. apply orb_false_elim in Deg. destruct Deg as [Dij Dik].
  apply Z.eqb_neq in Dij, Dik, Djk.
  assert (LP : forall v n, locate meld st3 v = Ok (Some n) -> exists p, idx (st_points st3) n = Ok p).
  { intros v n L. unfold locate in L.
    destruct (find_near_spec (st_points st3) meld v (st_hash st3 (pointHash (uint64 meld) v))) as (r & Er & Hr).
    { intros m Hm'. destruct (hash_in _ _ V _ _ Hm') as (p & E & _). eauto. }
    rewrite L in Er. injection Er as <-. destruct Hr as (_ & p & E & _). eauto. }
  destruct (LP _ _ L1) as (pi & Pi). destruct (LP _ _ L2) as (pj & Pj). destruct (LP _ _ L3) as (pk & Pk).
  rewrite Pi, Pj, Pk. cbn [bind].
  destruct (common_face (ofaces pi) (ofaces pj) (ofaces pk)) eqn:CF.
  { exists st3. split; [reflexivity|]. apply Skip. right. apply common_face_spec in CF. destruct CF as (n & Ni & Nj & Nk).
    rewrite (FL _ _ Pi) in Ni. rewrite (FL _ _ Pj) in Nj. rewrite (FL _ _ Pk) in Nk.
    apply facelist_In in Ni, Nj, Nk. destruct Ni as (g & _ & Eg & Ui). destruct Nj as (g2 & _ & Eg2 & Uj). destruct Nk as (g3 & _ & Eg3 & Uk).
    assert (g2 = g) by congruence. assert (g3 = g) by congruence. subst g2 g3.
    exists g. split; [eapply idx_In, Eg|]. destruct (oi g) as [[x y] z]. unfold same_set. cbn in *. intros p. split; lia. }
  destruct (add_face_index_spec (st_points st3) i (Z.of_nat (List.length (st_faces st3))) pi Pi) as (p1 & A1 & S1 & Q1). rewrite A1. cbn [bind].
  destruct (same_pos_idx _ _ _ _ S1 Pj) as (pj' & Pj' & _).
  destruct (add_face_index_spec p1 j (Z.of_nat (List.length (st_faces st3))) pj' Pj') as (p2 & A2 & S2 & Q2). rewrite A2. cbn [bind].
  pose proof (same_pos_trans _ _ _ S1 S2) as S12. destruct (same_pos_idx _ _ _ _ S12 Pk) as (pk' & Pk' & _).
  destruct (add_face_index_spec p2 k (Z.of_nat (List.length (st_faces st3))) pk' Pk') as (p3 & A3 & S3 & Q3). rewrite A3. cbn [bind].
  pose proof (same_pos_trans _ _ _ S12 S3) as S.
  eexists. split; [reflexivity|].
  set (st4 := OSt p3 (st_faces st3 ++ [OFace (i, j, k) (0, 0, 0) (Z.of_nat (List.length (st_faces st3)))]) (st_hash st3)).
  assert (Ll : forall v, locate meld st4 v = locate meld st3 v).
  { intros v. unfold locate. cbn. apply same_pos_find, S. }
  assert (L3' : forall f, loc3 st4 f = loc3 st3 f). { intros [[x y] z]. unfold loc3, loc. rewrite !Ll. reflexivity. }
  constructor.
  - destruct st3 as [pts fcs hm]. unfold st4. cbn in *. eapply VInv_same_pos; eassumption.
  - intros n f E. cbn in E. apply idx_app_inv in E. destruct E as [E|[-> ->]].
    + destruct (FO n f E) as (O1 & O2 & O3). split; [exact O1|]. split; [exact O2|]. intros p U. destruct (O3 p U) as (q & Q).
      destruct (same_pos_idx _ _ _ _ S Q) as (q' & Q' & _). exists q'. exact Q'.
    + cbn. split; [reflexivity|]. split; [lia|]. intros p U.
      destruct U as [->|[->| ->]]; [destruct (same_pos_idx _ _ _ _ S Pi) as (q & Q & _)|destruct (same_pos_idx _ _ _ _ S Pj) as (q & Q & _)|destruct (same_pos_idx _ _ _ _ S Pk) as (q & Q & _)]; exists q; exact Q.
  - intros n p E. cbn in E. destruct (same_pos_idx _ _ _ _ (same_pos_sym _ _ S) E) as (q & Q & _).
    destruct (Q1 n q Q) as (q1 & R1 & F1). destruct (Q2 n q1 R1) as (q2 & R2 & F2). destruct (Q3 n q2 R2) as (q3 & R3 & F3).
    rewrite E in R3. injection R3 as <-. rewrite F3, F2, F1, (FL _ _ Q). cbn [st4 st_faces]. rewrite facelist_app. cbn [oi usesb]. rewrite Z.add_0_l.
    rewrite !(Z.eqb_sym n).
    destruct (Z.eqb_spec i n) as [<-|Ni]; [|destruct (Z.eqb_spec j n) as [<-|Nj]; [|destruct (Z.eqb_spec k n) as [<-|Nk]]]; cbn [orb].
    + destruct (Z.eqb_spec j i); [lia|]. destruct (Z.eqb_spec k i); [lia|]. reflexivity.
    + destruct (Z.eqb_spec k j); [lia|]. reflexivity.
    + reflexivity.
    + rewrite app_nil_r. reflexivity.
  - cbn [st4 st_faces].
    assert (K : forall m g, idx (st_faces st3) m = Ok g -> ~ same_set (oi g) (i, j, k)).
    { intros m g E C. enough (common_face (ofaces pi) (ofaces pj) (ofaces pk) = true) by congruence.
      apply common_face_spec. exists m. rewrite (FL _ _ Pi), (FL _ _ Pj), (FL _ _ Pk).
      pose proof (idx_Ok _ _ _ E) as [R _].
      repeat split; apply facelist_In; exists g; rewrite Z.sub_0_r; (split; [lia|]); (split; [exact E|]); apply C; cbn; auto. }
    intros m n f g Ef Eg SS. apply idx_app_inv in Ef, Eg. destruct Ef as [Ef|[-> ->]]; destruct Eg as [Eg|[-> ->]].
    + eapply FD; eassumption.
    + exfalso. eapply K; eassumption.
    + exfalso. eapply K; [exact Eg|]. intros p. symmetry. apply SS.
    + reflexivity.
  - cbn [st4 st_faces]. rewrite !map_app. rewrite (map_ext _ _ L3'). rewrite (map_ext _ _ L3'), Lo. cbn [map oi]. rewrite Lf.
    apply subseq_snoc2. rewrite Efaces. apply (order _ _ I).
  - intros f Hf. rewrite L3'. cbn [st4 st_faces]. apply in_app_or in Hf. destruct Hf as [Hf|[<-|[]]].
    + rewrite Lo1 by exact Hf. destruct (all _ _ I f Hf) as [D|(g & Hg & SS)]; [left; exact D|right].
      exists g. split; [|exact SS]. apply in_or_app. left. rewrite Efaces. exact Hg.
    + right. eexists. split; [apply in_or_app; right; left; reflexivity|]. rewrite Lf. cbn. intros p; reflexivity.
Qed.

Lemma FInv_init : FInv (OSt [] [] (fun _ => [])) [].
Proof.
  assert (N : forall A i (a : A), idx [] i <> Ok a).
  { intros A i a E. apply idx_Ok in E. cbn in E. lia. }
  constructor; cbn.
  - constructor; cbn; try contradiction; intros; exfalso; eapply N; eassumption.
  - intros j f E. exfalso. eapply N, E.
  - intros j f E. exfalso. eapply N, E.
  - intros j k f g E. exfalso. eapply N, E.
  - constructor.
  - contradiction.
Qed.
Lemma add_faces_spec fs : forall st done, FInv st done -> exists st', add_faces meld st fs = Ok st' /\ FInv st' (done ++ fs).
Proof.
  induction fs as [|f fs IH]; intros st done I; cbn [add_faces].
  - exists st. rewrite app_nil_r. auto.
  - destruct (add_face_spec st done f I) as (st1 & E1 & I1). rewrite E1. cbn [bind].
    destruct (IH st1 _ I1) as (st2 & E2 & I2). exists st2. split; [exact E2|]. rewrite <- app_assoc in I2. exact I2.
Qed.

(** *** touching faces *)
Definition touch_spec (fs : list oface) (t a b i : Z) : Prop :=
  (t = -1 /\ forall j f, idx fs j = Ok f -> uses (oi f) a -> uses (oi f) b -> j = i) \/
  (t <> i /\ exists f, idx fs t = Ok f /\ uses (oi f) a /\ uses (oi f) b).
Lemma getFaceIdx_spec st done a b i p q : FInv st done -> idx (st_points st) a = Ok p -> idx (st_points st) b = Ok q ->
  exists t, getFaceIdxWithPoints (st_points st) a b i = Ok t /\ touch_spec (st_faces st) t a b i.
Proof.
  intros I Ea Eb. unfold getFaceIdxWithPoints. rewrite Ea. cbn [bind].
  assert (G : forall l, (forall j, In j l -> In j (facelist 0 (st_faces st) a)) ->
    exists t, touch_loop (st_points st) b i l = Ok t /\
     ((t = -1 /\ forall j, In j l -> j <> i -> ~ In j (ofaces q)) \/ (t <> i /\ In t l /\ In t (ofaces q)))).
  { induction l as [|f0 l IH]; intros Hl; cbn [touch_loop].
    - exists (-1). split; [reflexivity|]. left. split; [reflexivity|]. intros j [].
    - destruct IH as (t & Et & Ht); [intros j Hj; apply Hl; right; exact Hj|].
      destruct (Z.eqb_spec f0 i) as [->|Ne].
      + exists t. split; [exact Et|]. destruct Ht as [[-> Ht]|[N [H1 H2]]].
        * left. split; [reflexivity|]. intros j [<-|Hj] Nj; [contradiction|apply Ht; assumption].
        * right. repeat split; [exact N|right; exact H1|exact H2].
      + rewrite Eb. cbn [bind]. destruct (existsb _ (ofaces q)) eqn:X.
        * exists f0. split; [reflexivity|]. right. split; [exact Ne|]. split; [left; reflexivity|].
          apply existsb_exists in X. destruct X as (f1 & Hf1 & X). apply andb_prop in X. destruct X as [_ X]. apply Z.eqb_eq in X. subst; exact Hf1.
        * exists t. split; [exact Et|].
          assert (Nq : ~ In f0 (ofaces q)).
          { intros C. enough (existsb (fun f1 => negb (f1 =? i) && (f0 =? f1)) (ofaces q) = true) by congruence.
            apply existsb_exists. exists f0. split; [exact C|]. rewrite Z.eqb_refl. destruct (Z.eqb_spec f0 i); [contradiction|reflexivity]. }
          destruct Ht as [[-> Ht]|[N [H1 H2]]].
          -- left. split; [reflexivity|]. intros j [<-|Hj] Nj; [exact Nq|apply Ht; assumption].
          -- right. repeat split; [exact N|right; exact H1|exact H2]. }
  destruct (G (ofaces p)) as (t & Et & Ht). { intros j Hj. rewrite (lists _ _ I _ _ Ea) in Hj. exact Hj. }
  exists t. split; [exact Et|]. rewrite (lists _ _ I _ _ Ea), (lists _ _ I _ _ Eb) in Ht.
  destruct Ht as [[-> Ht]|[N [H1 H2]]].
  - left. split; [reflexivity|]. intros j f Ef Ua Ub. destruct (Z.eq_dec j i) as [->|Nj]; [reflexivity|]. exfalso.
    pose proof (idx_Ok _ _ _ Ef) as [R _].
    apply (Ht j); [|exact Nj|]; apply facelist_In; exists f; rewrite Z.sub_0_r; repeat split; try assumption; lia.
  - right. split; [exact N|]. apply facelist_In in H1, H2. destruct H1 as (f & _ & Ef & Ua). destruct H2 as (g & _ & Eg & Ub).
    rewrite Z.sub_0_r in *. exists f. assert (g = f) by congruence. subst. auto.
Qed.

Definition open3 (f : oface) : Z := let '(a, b, c) := otouch f in open1 a + open1 b + open1 c.
Lemma touch_faces_spec st done : FInv st done -> forall fs n pre, st_faces st = (pre ++ fs)%list -> n = Z.of_nat (List.length pre) ->
  exists fs' open, touch_faces (st_points st) n fs = Ok (fs', open) /\
    open = fold_right Z.add 0 (map open3 fs') /\
    Forall2 (fun f g => oi g = oi f /\ oindex g = oindex f) fs fs' /\
    forall j g, idx fs' j = Ok g -> forall k, (k < 3)%nat ->
      touch_spec (st_faces st) (sel3 (otouch g) k) (fst (edge (oi g) k)) (snd (edge (oi g) k)) (n + j).
Proof.
  intros I. induction fs as [|f fs IH]; intros n pre E Hn; cbn [touch_faces].
  - exists [], 0. repeat split; [constructor|]. intros j g Eg. apply idx_Ok in Eg. cbn in Eg. lia.
  - destruct (oi f) as [[a b] c] eqn:Eo.
    assert (Ef : idx (st_faces st) n = Ok f).
    { rewrite E. change (f :: fs) with ([f] ++ fs)%list. rewrite app_assoc. apply idx_app_l. subst n. apply idx_app_end. }
    destruct (face_ok _ _ I _ _ Ef) as (_ & _ & P). rewrite Eo in P.
    destruct (P a ltac:(cbn; auto)) as (pa & Pa). destruct (P b ltac:(cbn; auto)) as (pb & Pb). destruct (P c ltac:(cbn; auto)) as (pc & Pc).
    destruct (getFaceIdx_spec st done a b n pa pb I Pa Pb) as (t0 & E0 & T0). rewrite E0. cbn [bind].
    destruct (getFaceIdx_spec st done b c n pb pc I Pb Pc) as (t1 & E1 & T1). rewrite E1. cbn [bind].
    destruct (getFaceIdx_spec st done c a n pc pa I Pc Pa) as (t2 & E2 & T2). rewrite E2. cbn [bind].
    destruct (IH (n + 1) (pre ++ [f])%list) as (fs' & open & Er & Eo' & F2 & T).
    { rewrite <- app_assoc. exact E. } { rewrite app_length. cbn. lia. }
    rewrite Er. cbn [bind]. do 2 eexists. split; [reflexivity|]. split; [|split].
    + cbn [map fold_right]. rewrite <- Eo'. reflexivity.
    + constructor; [split; [symmetry; exact Eo|reflexivity]|exact F2].
    + intros j g Eg k Hk. destruct (Z.eq_dec j 0) as [->|Nj].
      * cbn in Eg. injection Eg as <-. rewrite Z.add_0_r. cbn [oi otouch]. destruct k as [|[|[|]]]; try lia; cbn; assumption.
      * pose proof (idx_Ok _ _ _ Eg) as [R _].
        assert (Eg' : idx fs' (j - 1) = Ok g).
        { unfold idx in *. destruct (Z.ltb_spec j 0); [lia|]. destruct (Z.ltb_spec (j - 1) 0); [lia|].
          replace (Z.to_nat j) with (S (Z.to_nat (j - 1))) in Eg by lia. exact Eg. }
        replace (n + j) with (n + 1 + (j - 1)) by lia. apply T; assumption.
Qed.
End Vert.
