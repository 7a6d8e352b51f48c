(** Property C105: the reported number of open faces. *)
From Coq Require Import Lia.
From Verif Require Import GoBase M_Micrometer M_Model S_Geom S_Model S_Slicer S_Place S_Print S_Solid S_Body L_Model L_SliceAll P_Model P_Complete P_Print P_Body.
Local Open Scope list_scope.
Local Open Scope Z_scope.

Lemma f2_intro {A B} (R : A -> B -> Prop) l m : List.length l = List.length m -> (forall i x y, nth_error l i = Some x -> nth_error m i = Some y -> R x y) -> Forall2 R l m.
Proof.
  revert m. induction l as [|x l IH]; intros [|y m] E H; try discriminate; constructor.
  - exact (H 0%nat x y eq_refl eq_refl).
  - apply IH; [injection E; auto|]. intros i a b. exact (H (S i) a b).
Qed.
Lemma f2_counted {A} (L : A -> Prop) (l : list A) (ts : list Z) : Forall2 (fun x t => t = -1 <-> L x) l ts -> NoDup l ->
  exists m, List.length m = List.length (filter (fun t => t =? -1) ts) /\ NoDup m /\ forall x, In x m <-> In x l /\ L x.
Proof.
  induction 1 as [|x t l ts H F IH]; intros Nd.
  - exists []. split; [reflexivity|]. split; [constructor|]. intros y. cbn. tauto.
  - inversion Nd as [|? ? N Nd' E]; subst. destruct (IH Nd') as (m & Lm & Nm & Im). cbn [filter]. destruct (Z.eqb_spec t (-1)) as [Et|Et].
    + exists (x :: m). split; [cbn; congruence|]. split; [constructor; [rewrite Im; tauto|exact Nm]|]. intros y. cbn [In]. rewrite Im. split; [intros [<-|(Iy & Ly)]; [tauto|auto]|intros ([->|Iy] & Ly); auto].
    + exists m. split; [exact Lm|]. split; [exact Nm|]. intros y. cbn [In]. rewrite Im. split; [tauto|]. intros ([<-|Iy] & Ly); [exfalso; tauto|auto].
Qed.
Definition pairs (fs : list face) : list (face * (vec3 * vec3)) := flat_map (fun f => map (pair f) (fedges f)) fs.
Lemma in_pairs fs f e : In (f, e) (pairs fs) <-> In f fs /\ In e (fedges f).
Proof.
  unfold pairs. rewrite in_flat_map. split.
  - intros (g & Ig & I). apply in_map_iff in I. destruct I as (e' & [= -> ->] & Ie). auto.
  - intros (If & Ie). exists f. split; [exact If|]. apply in_map. exact Ie.
Qed.
Lemma pairs_nodup fs : NoDup fs -> Forall proper_face fs -> NoDup (pairs fs).
Proof.
  induction 1 as [|f fs N Nd IH]; intros P; [constructor|]. inversion P as [|? ? Pf P']; subst. cbn [pairs flat_map]. fold (pairs fs).
  assert (D : forall x, In x (map (pair f) (fedges f)) -> ~ In x (pairs fs)). { intros [g e] I J. apply in_map_iff in I. destruct I as (e' & [= -> ->] & _). apply in_pairs in J. tauto. }
  assert (N1 : NoDup (map (pair f) (fedges f))).
  { destruct f as [[a b] c]. destruct Pf as (P1 & P2 & P3). cbn. repeat (constructor; [cbn; intuition congruence|]). constructor. }
  revert D N1. generalize (map (pair f) (fedges f)). induction l as [|x l IHl]; intros D N1; [exact (IH P')|]. inversion N1; subst. cbn [app]. constructor.
  - rewrite in_app_iff. intros [J|J]; [contradiction|]. exact (D x (or_introl eq_refl) J).
  - apply IHl; [intros y Iy; apply D; right; exact Iy|assumption].
Qed.

(** *** C105 *)
(** The number of open faces that is reported for a model with separate vertices is the number of edges that belong to one
    face only: 0 exactly for models all of whose edges belong to two or more faces. *)
Theorem open_faces_reported : forall meld center fs om open, usable meld center fs -> apart meld fs -> Forall proper_face fs -> NoDup fs ->
  (forall f g, In f fs -> In g fs -> (forall v, In v (facePoints f) <-> In v (facePoints g)) -> f = g) ->
  Optimize meld center fs = Ok (om, open) ->
  (exists edges, NoDup edges /\ open = Z.of_nat (List.length edges) /\
     forall f e, In (f, e) edges <-> In f fs /\ In e (fedges f) /\ lonely fs f e) /\
  (open = 0 <-> forall f e, In f fs -> In e (fedges f) -> ~ lonely fs f e) /\
  (watertight fs -> open = 0).
Proof.
  intros meld center fs om open U A Pp Nd Di Eo.
  assert (Main : exists edges, NoDup edges /\ open = Z.of_nat (List.length edges) /\ forall f e, In (f, e) edges <-> In f fs /\ In e (fedges f) /\ lonely fs f e).
  { destruct (optimizer_exact _ _ _ _ _ U A Eo) as (mn & mx & _ & Tb & _). pose proof (optimizer_identity _ _ _ _ _ _ _ U A Pp Nd Di Eo Tb) as Ef. set (d := back (plate_offset mn mx center)) in *.
    pose proof (omFaces_forall2 _ _ _ Ef) as F2.
    destruct (optimizer_separation _ _ _ _ _ U Eo) as (mn' & mx' & _ & Sep).
    assert (PI : forall i j p q, idx (om_points om) i = Ok p -> idx (om_points om) j = Ok q -> opos p = opos q -> i = j).
    { intros i j p q Ip Iq E. destruct (Z.eq_dec i j) as [|N]; [assumption|exfalso].
      pose proof (Sep i j p q N Ip Iq) as S. rewrite E in S. specialize (S (conj eq_refl (conj eq_refl eq_refl))).
      unfold dist3 in S. rewrite !Z.sub_diag in S. destruct U as (Hm & _). nia. }
    assert (PU : forall o f i p, oPoints om o = Ok f -> idx (om_points om) i = Ok p -> (uses (oi o) i <-> In (opos p) (facePoints f))).
    { intros o f i p E Ip. unfold oPoints in E. destruct (oi o) as [[a b] c]. apply bind_Ok in E. destruct E as (p1 & E1 & E).
      apply bind_Ok in E. destruct E as (p2 & E2 & E). apply bind_Ok in E. destruct E as (p3 & E3 & E). injection E as <-. cbn [uses facePoints In]. split.
      - intros [->|[->| ->]]; [left|right; left|right; right; left]; congruence.
      - intros [H|[H|[H|[]]]]; [left; exact (eq_sym (PI _ _ _ _ E1 Ip H))|right; left; exact (eq_sym (PI _ _ _ _ E2 Ip H))|right; right; exact (eq_sym (PI _ _ _ _ E3 Ip H))]. }
    assert (PE : forall o f k, oPoints om o = Ok f -> (k < 3)%nat -> exists p q, idx (om_points om) (fst (edge (oi o) k)) = Ok p /\ idx (om_points om) (snd (edge (oi o) k)) = Ok q /\ nth_error (fedges f) k = Some (opos p, opos q)).
    { intros o f k E Hk. unfold oPoints in E. destruct (oi o) as [[a b] c]. apply bind_Ok in E. destruct E as (p & Ep & E).
      apply bind_Ok in E. destruct E as (q & Eq & E). apply bind_Ok in E. destruct E as (r & Er & E). injection E as <-. destruct k as [|[|[|k]]]; [| | |lia]; cbn [edge fst snd fedges nth_error]; eauto 8. }
    assert (Len : List.length (om_faces om) = List.length fs). { transitivity (List.length (moved d fs)); [clear - F2; induction F2; cbn; congruence|apply map_length]. }
    assert (Fs : forall i o, nth_error (om_faces om) i = Some o -> exists f, nth_error fs i = Some f /\ oPoints om o = Ok (move d f)).
    { intros i o Io. assert (Io' : idx (om_faces om) (Z.of_nat i) = Ok o) by (unfold idx; destruct (Z.ltb_spec (Z.of_nat i) 0); [lia|]; rewrite Nat2Z.id, Io; reflexivity).
      destruct (forall2_idx_l _ _ _ F2 _ _ Io') as (g & Ig & Pg). unfold moved in Ig. unfold idx in Ig. destruct (Z.of_nat i <? 0); [discriminate|]. rewrite Nat2Z.id, nth_error_map in Ig.
      destruct (nth_error fs i) as [f|]; [|discriminate]. cbn [option_map] in Ig. injection Ig as <-. eauto. }
    assert (Ix : forall i o, nth_error (om_faces om) i = Some o -> idx (om_faces om) (Z.of_nat i) = Ok o).
    { intros i o Io. unfold idx. destruct (Z.ltb_spec (Z.of_nat i) 0); [lia|]. rewrite Nat2Z.id, Io. reflexivity. }
    assert (FF : Forall2 (fun o f => forall k e, nth_error (fedges f) k = Some e -> (sel3 (otouch o) k = -1 <-> lonely fs f e)) (om_faces om) fs).
    { apply f2_intro; [exact Len|]. intros i o f Io If k e Ee. assert (Hk : (k < 3)%nat) by (assert (H : nth_error (fedges f) k <> None) by congruence; apply nth_error_Some in H; destruct f as [[? ?] ?]; exact H).
      destruct (Fs i o Io) as (f' & If' & Po). assert (f' = f) by congruence. subst f'. clear If'. destruct (PE _ _ k Po Hk) as (p & q & Ip & Iq & En).
      rewrite fedges_move, nth_error_map, Ee in En. cbn [option_map] in En. destruct e as [a b]. unfold shift_edge in En. cbn [fst snd] in En. injection En as Ea Eb.
      destruct (edge (oi o) k) as [ia ib] eqn:Ed. cbn [fst snd] in Ip, Iq. destruct (optimizer_touching _ _ _ _ _ U Eo (Z.of_nat i) o k ia ib (Ix i o Io) Hk Ed) as (T & _). cbv zeta in T. rewrite T. clear T.
      assert (Sh : forall v, V3 (vx v + vx d) (vy v + vy d) (vz v + vz d) = shift3 v d) by reflexivity.
      unfold lonely. cbn [fst snd]. split; intros N C; apply N; clear N.
      - destruct C as (g & Ig & Ng & Iva & Ivb). apply In_nth_error in Ig. destruct Ig as (j & Ej). destruct (nth_error (om_faces om) j) as [og|] eqn:Eog.
        2: { apply nth_error_None in Eog. rewrite Len in Eog. apply nth_error_None in Eog. congruence. }
        destruct (Fs j og Eog) as (g' & Eg' & Pg). assert (g' = g) by congruence. subst g'. exists (Z.of_nat j), og. split; [intros C; apply Nat2Z.inj in C; subst j; congruence|]. split; [exact (Ix j og Eog)|].
        split; [apply (PU _ _ _ _ Pg Ip)|apply (PU _ _ _ _ Pg Iq)]; apply move_points; [exists a|exists b]; split; auto.
      - destruct C as (j & og & Nj & Ij & Ua & Ub). assert (Hj : 0 <= j) by (apply idx_Ok in Ij; lia). assert (Eog : nth_error (om_faces om) (Z.to_nat j) = Some og).
        { unfold idx in Ij. destruct (Z.ltb_spec j 0); [lia|]. destruct (nth_error (om_faces om) (Z.to_nat j)) as [x|] eqn:Q; [congruence|discriminate]. }
        destruct (Fs _ og Eog) as (g & Eg & Pg). exists g. split; [eapply nth_error_In; eassumption|]. split.
        + intros ->. apply Nj. assert (Z.to_nat j = i); [|lia]. apply (proj1 (NoDup_nth_error fs) Nd); [apply nth_error_Some; congruence|congruence].
        + apply (PU _ _ _ _ Pg Ip) in Ua. apply (PU _ _ _ _ Pg Iq) in Ub. apply move_points in Ua, Ub. destruct Ua as (a' & Ia & Ea'), Ub as (b' & Ib & Eb').
          assert (a' = a) by (apply (shift3_inj _ _ d); rewrite <- Ea'; symmetry; exact Ea). assert (b' = b) by (apply (shift3_inj _ _ d); rewrite <- Eb'; symmetry; exact Eb). subst. auto. }
    assert (FP : Forall2 (fun (x : face * (vec3 * vec3)) t => t = -1 <-> lonely fs (fst x) (snd x)) (pairs fs) (flat_map (fun f => [sel3 (otouch f) 0; sel3 (otouch f) 1; sel3 (otouch f) 2]) (om_faces om))).
    { revert FF. generalize (lonely fs). intros L FF. clear - FF. induction FF as [|o f os fs H F IH]; [constructor|]. cbn [pairs flat_map]. fold (pairs fs). destruct f as [[a b] c]. cbn [fedges map app].
      constructor; [exact (H 0%nat _ eq_refl)|]. constructor; [exact (H 1%nat _ eq_refl)|]. constructor; [exact (H 2%nat _ eq_refl)|exact IH]. }
    destruct (f2_counted _ _ _ FP (pairs_nodup _ Nd Pp)) as (m & Lm & Nm & Im). exists m. split; [exact Nm|]. split; [rewrite (optimizer_open_count _ _ _ _ _ U Eo), Lm; reflexivity|].
    intros f e. rewrite Im, in_pairs. cbn [fst snd]. tauto. }
  split; [exact Main|]. destruct Main as (edges & Ne & Eop & Ie).
  assert (Zero : open = 0 <-> forall f e, In f fs -> In e (fedges f) -> ~ lonely fs f e).
  { split.
    - intros E0 f e If Iee Ll. assert (I : In (f, e) edges) by (apply Ie; auto). destruct edges; [destruct I|cbn in Eop; lia].
    - intros H. destruct edges as [|[f e] edges]; [exact Eop|]. exfalso. destruct (proj1 (Ie f e) (or_introl eq_refl)) as (If & Iee & Ll). exact (H f e If Iee Ll). }
  split; [exact Zero|]. intros (W1 & W2 & _). apply Zero. intros f [a b] If Iee Ll. apply Ll. destruct (W1 f a b If Iee) as (g & Ig & Ig'). exists g. split; [exact Ig|]. cbn [fst snd].
  assert (Pts : forall h u v, In (u, v) (fedges h) -> In u (facePoints h) /\ In v (facePoints h)) by (intros [[x y] w] u v; cbn; intuition congruence).
  destruct (Pts _ _ _ Ig'). split; [|auto]. intros ->. rewrite Forall_forall in Pp. specialize (Pp f If). destruct f as [[x y] w]. destruct Pp as (P1 & P2 & P3). cbn in Iee, Ig'. intuition congruence.
Qed.
Print Assumptions open_faces_reported.
(** the tetrahedron is closed; without its last face it has three open edges *)
Example open_faces_ex : usable 30 (V3 100000 100000 0) corner_fs /\ apart 30 corner_fs /\ Forall proper_face corner_fs /\ watertight corner_fs /\
  (exists om, Optimize 30 (V3 100000 100000 0) corner_fs = Ok (om, 0)) /\ exists om, Optimize 30 (V3 100000 100000 0) (firstn 3 corner_fs) = Ok (om, 3).
Proof.
  split; [split; [vm_compute; intuition discriminate|]; split; [repeat constructor; vm_compute; discriminate|]; repeat split; vm_compute; discriminate|].
  assert (Pr : printable 30 200 corner_fs) by (apply corner_printable; left; reflexivity).
  split; [apply (p_apart 30 200); exact Pr|]. split; [apply (p_proper 30 200); exact Pr|]. split; [exact corner_watertight|]. split; eexists; vm_compute; reflexivity.
Qed.
