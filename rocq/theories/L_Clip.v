(** Proofs about package clip: trees, offsets, traversal. *)
From Coq Require Import Permutation.
From Verif Require Import GoBase GoFloat M_Micrometer M_Geom2D M_Clip S_Geom S_Slicer S_Clip L_FloatInt.
Local Open Scope Z_scope.

(** *** trees *)
Lemma evens_eq n : evens n = n :: flat_map evens (flat_map childs (childs n)).
Proof.
  destruct n as [c l]. cbn [evens childs]. f_equal. induction l as [|[c' l'] l IH]; [reflexivity|].
  cbn [flat_map childs]. rewrite IH, flat_map_app. reflexivity.
Qed.
Lemma nsize_eq n : nsize n = S (list_sum (map nsize (childs n))).
Proof. destruct n as [c l]. cbn [nsize childs]. f_equal. induction l as [|x l IH]; cbn in *; [reflexivity|]. rewrite IH. reflexivity. Qed.
Lemma round_eq ns : round ns = (map part_of ns, flat_map (fun n => flat_map childs (childs n)) ns).
Proof. induction ns as [|p ns IH]; cbn [round]; [reflexivity|]. rewrite IH. reflexivity. Qed.
Lemma lsum_app l m : list_sum (l ++ m) = (list_sum l + list_sum m)%nat.
Proof. apply list_sum_app. Qed.
Lemma lsum_cons a l : list_sum (a :: l) = (a + list_sum l)%nat.
Proof. reflexivity. Qed.
Opaque list_sum.
Lemma childs_size l : (list_sum (map nsize (flat_map childs l)) <= list_sum (map nsize l))%nat.
Proof.
  induction l as [|n l IH]; cbn [flat_map map]; [lia|]. rewrite map_app, lsum_app, lsum_cons, (nsize_eq n). lia.
Qed.
Definition deeper (ns : list node) : list node := flat_map (fun n => flat_map childs (childs n)) ns.
Lemma next_size ns : (list_sum (map nsize (deeper ns)) + List.length ns <= list_sum (map nsize ns))%nat.
Proof.
  induction ns as [|n ns IH]; [cbn; lia|]. unfold deeper in *. cbn [flat_map map List.length]. rewrite map_app, lsum_app, lsum_cons, (nsize_eq n).
  pose proof (childs_size (childs n)). lia.
Qed.
Lemma evens_next ns : Permutation (flat_map evens ns) (ns ++ flat_map evens (deeper ns)).
Proof.
  induction ns as [|n ns IH]; [reflexivity|]. unfold deeper in *. cbn [flat_map]. rewrite evens_eq, flat_map_app. cbn [app].
  apply perm_skip. rewrite IH, !app_assoc. apply Permutation_app_tail, Permutation_app_comm.
Qed.
Lemma rounds_spec fuel : forall ns, (list_sum (map nsize ns) <= fuel)%nat ->
  exists ps, rounds fuel ns = Ok ps /\ Permutation ps (map part_of (flat_map evens ns)) /\
    forall n, (list_sum (map nsize ns) <= n)%nat -> ps = flat_map (fun k => map part_of (level k ns)) (seq 0 n).
Proof.
  induction fuel as [|fuel IH]; intros [|x ns] Hf.
  - exists []. split; [reflexivity|]. split; [reflexivity|]. intros n _.
    assert (G : forall l, flat_map (fun k => map part_of (level k [])) l = []).
    { induction l as [|k l IHl]; [reflexivity|]. cbn [flat_map]. rewrite IHl. replace (level k []) with (@nil node); [reflexivity|]. clear. induction k; cbn; auto. }
    symmetry. apply G.
  - cbn [map] in Hf. rewrite lsum_cons, nsize_eq in Hf. lia.
  - exists []. split; [reflexivity|]. split; [reflexivity|]. intros n _.
    assert (G : forall l, flat_map (fun k => map part_of (level k [])) l = []).
    { induction l as [|k l IHl]; [reflexivity|]. cbn [flat_map]. rewrite IHl. replace (level k []) with (@nil node); [reflexivity|]. clear. induction k; cbn; auto. }
    symmetry. apply G.
  - cbn [rounds]. rewrite round_eq. fold (deeper (x :: ns)).
    pose proof (next_size (x :: ns)) as Ns. cbn [List.length] in Ns.
    destruct (IH (deeper (x :: ns))) as (ps & E & P & L); [lia|]. rewrite E. cbn [bind].
    exists (map part_of (x :: ns) ++ ps). split; [reflexivity|]. split.
    + rewrite evens_next, map_app, P. reflexivity.
    + intros n Hn. destruct n as [|n]; [lia|]. cbn [seq flat_map level]. f_equal. rewrite (L n) by lia.
      rewrite <- seq_shift. clear. induction (seq 0 n) as [|k l IHl]; cbn [map flat_map]; [reflexivity|]. rewrite IHl. reflexivity.
Qed.
Lemma tree_spec t : exists ps, polyTreeToLayerParts t = Ok ps /\ Permutation ps (map part_of (flat_map evens t)) /\
  forall n, (list_sum (map nsize t) <= n)%nat -> ps = flat_map (fun k => map part_of (level k t)) (seq 0 n).
Proof. apply rounds_spec. lia. Qed.

Lemma flat_flat {A B C} (f : B -> list C) (g : A -> list B) l : flat_map f (flat_map g l) = flat_map (fun a => flat_map f (g a)) l.
Proof. induction l as [|a l IH]; cbn; [reflexivity|]. rewrite flat_map_app, IH. reflexivity. Qed.
Lemma flat_perm {A B} (f g : A -> list B) l : (forall a, In a l -> Permutation (f a) (g a)) -> Permutation (flat_map f l) (flat_map g l).
Proof. induction l as [|a l IH]; intros H; cbn; [reflexivity|]. apply Permutation_app; [apply H; left; reflexivity|]. apply IH. intros b Hb. apply H. right. exact Hb. Qed.
Lemma flat_cons_perm {A B} (f : A -> B) (g : A -> list B) l : Permutation (flat_map (fun a => f a :: g a) l) (map f l ++ flat_map g l).
Proof. induction l as [|a l IH]; cbn; [reflexivity|]. apply perm_skip. rewrite IH, !app_assoc. apply Permutation_app_tail, Permutation_app_comm. Qed.
Lemma flat_map_map {A B C} (f : B -> list C) (g : A -> B) l : flat_map f (map g l) = flat_map (fun a => f (g a)) l.
Proof. induction l as [|a l IH]; cbn; [reflexivity|]. rewrite IH. reflexivity. Qed.
Lemma in_sum (l : list node) n : In n l -> (nsize n <= list_sum (map nsize l))%nat.
Proof. induction l as [|a l IH]; cbn [In map]; [tauto|]. rewrite lsum_cons. intros [->|H]; [lia|]. specialize (IH H). lia. Qed.
Lemma contours_spec k : forall n, (nsize n <= k)%nat ->
  Permutation (flat_map (fun p => outline p :: holes p) (map part_of (evens n))) (contours n).
Proof.
  induction k as [|k IH]; intros n Hk; [rewrite nsize_eq in Hk; lia|].
  rewrite flat_map_map, evens_eq. cbn [flat_map part_of outline holes]. rewrite flat_flat.
  destruct n as [c l]. cbn [contours contour childs] in *. cbn [app]. apply perm_skip.
  rewrite nsize_eq in Hk. cbn [childs] in Hk.
  rewrite (flat_perm _ contours (flat_map childs l)).
  2:{ intros a Ha. etransitivity; [|apply IH]; [rewrite flat_map_map; reflexivity|].
      pose proof (in_sum _ _ Ha). pose proof (childs_size l). lia. }
  rewrite flat_flat. rewrite <- flat_cons_perm. apply flat_perm. intros [c' l'] _. reflexivity.
Qed.
Lemma tree_contours t ps : polyTreeToLayerParts t = Ok ps -> Permutation (flat_map (fun p => outline p :: holes p) ps) (flat_map contours t).
Proof.
  intros E. destruct (tree_spec t) as (ps' & E' & P & _). rewrite E in E'. injection E' as <-.
  transitivity (flat_map (fun p => outline p :: holes p) (map part_of (flat_map evens t))).
  - clear E. induction P; cbn [flat_map]; [reflexivity| |rewrite !app_assoc; apply Permutation_app_tail, Permutation_app_comm|etransitivity; eassumption].
    apply Permutation_app_head, IHP.
  - clear. induction t as [|n t IH]; [reflexivity|]. cbn [flat_map]. rewrite map_app, flat_map_app.
    apply Permutation_app; [eapply contours_spec; reflexivity|exact IH].
Qed.

(** *** traversal *)
Section Traverse.
Context {S : Type} (cb : S -> part -> Z -> Z -> Z -> S * bool).
Definition cb' (s : S) (x : part * Z * Z * Z) : S * bool := match x with (p, i, j, k) => cb s p i j k end.
(** run with the stop flag *)
Fixpoint run_flag (s : S) (l : list (part * Z * Z * Z)) : S * bool :=
  match l with
  | [] => (s, false)
  | a :: l' => let '(s', stop) := cb' s a in if stop then (s', true) else run_flag s' l'
  end.
Lemma run_flag_app l m s : run_flag s (l ++ m) = let '(s', stop) := run_flag s l in if stop then (s', true) else run_flag s' m.
Proof.
  revert s. induction l as [|a l IH]; intros s; cbn [run_flag app]; [reflexivity|]. destruct (cb' s a) as (s', [|]); [reflexivity|apply IH].
Qed.
Lemma run_flag_fst l s : fst (run_flag s l) = run_until cb' s l.
Proof. revert s. induction l as [|a l IH]; intros s; cbn [run_flag run_until]; [reflexivity|]. destruct (cb' s a) as (s', [|]); [reflexivity|apply IH]. Qed.
Lemma each_part_run l : forall s i j k, each_part cb s i j k l = run_flag s (map (fun z => (snd z, i, j, fst z)) (number k l)).
Proof. induction l as [|p l IH]; intros s i j k; cbn; [reflexivity|]. destruct (cb s p i j k) as (s', [|]); [reflexivity|apply IH]. Qed.
Lemma each_inset_run l : forall s i j, each_inset cb s i j l =
  run_flag s (flat_map (fun y => map (fun z => (snd z, i, fst y, fst z)) (number 0 (snd y))) (number j l)).
Proof.
  induction l as [|p l IH]; intros s i j; cbn; [reflexivity|]. rewrite run_flag_app, each_part_run.
  destruct (run_flag s _) as (s', [|]); [reflexivity|apply IH].
Qed.
Lemma each_outer_run l : forall s i, each_outer cb s i l =
  run_flag s (flat_map (fun x => flat_map (fun y => map (fun z => (snd z, fst x, fst y, fst z)) (number 0 (snd y))) (number 0 (snd x))) (number i l)).
Proof.
  induction l as [|p l IH]; intros s i; cbn; [reflexivity|]. rewrite run_flag_app, each_inset_run.
  destruct (run_flag s _) as (s', [|]); [reflexivity|apply IH].
Qed.
Lemma for_each_run o s : ForEach cb o s = run_until cb' s (indexed o).
Proof. unfold ForEach. rewrite each_outer_run. apply run_flag_fst. Qed.
End Traverse.

Lemma number_map {A} (l : list A) i : map snd (number i l) = l.
Proof. revert i. induction l as [|a l IH]; intros i; cbn; [reflexivity|]. rewrite IH. reflexivity. Qed.
Lemma indexed_parts o : map (fun x => fst (fst (fst x))) (indexed o) = ToOneDimension o.
Proof.
  unfold indexed, ToOneDimension. generalize 0 at 3. induction o as [|x o IH]; intros i; [reflexivity|]. cbn [number flat_map concat].
  rewrite map_app, IH, concat_app. f_equal. cbn [snd fst].
  clear. generalize 0 at 2. induction x as [|y x IH]; intros j; [reflexivity|]. cbn [number flat_map concat]. rewrite map_app, IH. f_equal.
  rewrite map_map. cbn [snd fst]. apply number_map.
Qed.
Lemma number_in {A} (l : list A) : forall i j a, In (j, a) (number i l) <-> idx l (j - i) = Ok a.
Proof.
  induction l as [|x l IH]; intros i j a; cbn [number In].
  - unfold idx. destruct (j - i <? 0); [split; [tauto|discriminate]|]. destruct (Z.to_nat (j - i)); cbn; split; (tauto || discriminate).
  - rewrite IH. split.
    + intros [E|H].
      * injection E as <- <-. rewrite Z.sub_diag. reflexivity.
      * unfold idx in *. destruct (Z.ltb_spec (j - (i + 1)) 0); [discriminate|]. destruct (Z.ltb_spec (j - i) 0); [lia|].
        replace (Z.to_nat (j - i)) with (Datatypes.S (Z.to_nat (j - (i + 1)))) by lia. exact H.
    + intros H. destruct (Z.eq_dec i j) as [-> |N].
      * rewrite Z.sub_diag in H. left. cbn in H. injection H as ->. reflexivity.
      * right. unfold idx in *. destruct (Z.ltb_spec (j - i) 0); [discriminate|]. destruct (Z.ltb_spec (j - (i + 1)) 0); [lia|].
        replace (Z.to_nat (j - i)) with (Datatypes.S (Z.to_nat (j - (i + 1)))) in H by lia. exact H.
Qed.
Lemma indexed_in o p i j k : In (p, i, j, k) (indexed o) <-> exists x y, idx o i = Ok x /\ idx x j = Ok y /\ idx y k = Ok p.
Proof.
  unfold indexed. rewrite in_flat_map. split.
  - intros ((i' & x) & Ix & H). apply in_flat_map in H. destruct H as ((j' & y) & Iy & H). apply in_map_iff in H. destruct H as ((k' & q) & E & Iq).
    cbn [fst snd] in *. injection E as -> -> -> ->. apply number_in in Ix, Iy, Iq. rewrite Z.sub_0_r in *. eauto.
  - intros (x & y & Hx & Hy & Hp). exists (i, x). split; [apply number_in; rewrite Z.sub_0_r; exact Hx|]. apply in_flat_map. exists (j, y).
    split; [apply number_in; rewrite Z.sub_0_r; exact Hy|]. apply in_map_iff. exists (k, p). split; [reflexivity|]. apply number_in. rewrite Z.sub_0_r. exact Hp.
Qed.

(** *** insets *)
Lemma inset_loop_spec lib p off n : forall init, Z.abs init + Z.of_nat n * Z.abs off <= 2 ^ 53 -> Z.abs off <= 2 ^ 53 ->
  exists ins, inset_loop lib p off n (f64_of_Z init) = Ok ins /\ List.length ins = n /\
    forall k x, nth_error ins k = Some x -> polyTreeToLayerParts (offset lib (f64_of_Z (init - Z.of_nat k * off)) (outline p :: holes p)) = Ok x.
Proof.
  induction n as [|n IH]; intros init H Ho; cbn [inset_loop].
  - exists []. split; [reflexivity|]. split; [reflexivity|]. intros [|k] x; discriminate.
  - destruct (tree_spec (offset lib (f64_of_Z init) (outline p :: holes p))) as (one & E & _). rewrite E. cbn [bind].
    assert (A : Z.abs off <= Z.of_nat (S n) * Z.abs off) by nia.
    unfold neg64. rewrite wrap_id by (unfold int64; lia).
    rewrite add_int; [|lia|lia|nia]. destruct (IH (init + - off)) as (rest & E' & L & G); [nia|exact Ho|]. rewrite E'. cbn [bind].
    exists (one :: rest). split; [reflexivity|]. split; [cbn; lia|]. intros [|k] x; cbn [nth_error].
    + intros X. injection X as <-. rewrite Z.sub_0_r. exact E.
    + intros X. specialize (G k x X). replace (init - Z.of_nat (S k) * off) with (init + - off - Z.of_nat k * off) by lia. exact G.
Qed.
Lemma inset_spec lib p off count init : Z.abs init + Z.max 0 count * Z.abs off <= 2 ^ 53 -> Z.abs off <= 2 ^ 53 ->
  exists ins, Inset lib p off count init = Ok ins /\ Z.of_nat (List.length ins) = Z.max 0 count /\
    forall k x, idx ins k = Ok x -> polyTreeToLayerParts (offset lib (f64_of_Z (init - k * off)) (outline p :: holes p)) = Ok x.
Proof.
  intros H Ho. unfold Inset. destruct (inset_loop_spec lib p off (Z.to_nat count) init) as (ins & E & L & G); [|exact Ho|].
  - replace (Z.of_nat (Z.to_nat count)) with (Z.max 0 count) by lia. exact H.
  - exists ins. split; [exact E|]. split; [lia|]. intros k x I. apply idx_Ok in I. destruct I as (R & N).
    replace k with (Z.of_nat (Z.to_nat k)) by lia. apply G. exact N.
Qed.
Lemma inset_layer_spec lib off count init : Z.abs init + Z.max 0 count * Z.abs off <= 2 ^ 53 -> Z.abs off <= 2 ^ 53 ->
  forall layer, exists o, InsetLayer lib layer off count init = Ok o /\ Forall2 (fun p x => Inset lib p off count init = Ok x) layer o.
Proof.
  intros H Ho. induction layer as [|p l IH]; cbn [InsetLayer]; [exists []; auto|].
  destruct (inset_spec lib p off count init H Ho) as (x & E & _). rewrite E. cbn [bind]. destruct IH as (o & -> & F). cbn [bind].
  exists (x :: o). auto.
Qed.
