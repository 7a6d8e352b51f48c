(** Simplifying a polygon changes only what lies in the removed triangles. *)
From Coq Require Import Reals.
From Verif Require Import GoBase GoFloat M_Micrometer M_Geom2D M_Model M_Clip S_Geom S_Simplify S_Model S_Slicer S_Area L_Simplify S_Solid L_Ray L_Solid P_Data.
Local Open Scope Z_scope.

Lemma last_map {A B} (f : A -> B) l d : last (map f l) (f d) = f (last l d).
Proof. induction l as [|a [|b l] IH]; [reflexivity|reflexivity|exact IH]. Qed.
Lemma last_default {A} (l : list A) d d' : l <> [] -> last l d = last l d'.
Proof. induction l as [|a [|b l] IH]; [congruence|reflexivity|]. intros _. exact (IH ltac:(discriminate)). Qed.
Lemma last_in_d {A} (l : list A) d : l <> [] -> In (last l d) l.
Proof. induction l as [|a [|b l] IH]; [congruence|left; reflexivity|]. intros _. right. exact (IH ltac:(discriminate)). Qed.
Lemma last_app_r {A} (l m : list A) d : m <> [] -> last (l ++ m) d = last m d.
Proof. intros N. induction l as [|a l IH]; [reflexivity|]. rewrite <- IH. destruct l, m; try congruence; reflexivity. Qed.
Lemma crossings_app x l a r : crossings x (l ++ a :: r) = xorb (crossings x (l ++ [a])) (crossings x (a :: r)).
Proof.
  induction l as [|b l IH]; [symmetry; apply xorb_false_l|]. destruct l as [|c l].
  - cbn [app crossings]. rewrite xorb_false_r. reflexivity.
  - change (crossings x ((b :: c :: l) ++ a :: r)) with (xorb (crossed x b c) (crossings x ((c :: l) ++ a :: r))). rewrite IH.
    change (crossings x ((b :: c :: l) ++ [a])) with (xorb (crossed x b c) (crossings x ((c :: l) ++ [a]))). rewrite xorb_assoc. reflexivity.
Qed.
Lemma surrounded_cons x a l : surrounded (a :: l) x = crossings x (map exactly (a :: l ++ [a])).
Proof. reflexivity. Qed.
(** the starting point does not matter *)
Lemma surrounded_turn x l m : surrounded (l ++ m) x = surrounded (m ++ l) x.
Proof.
  destruct l as [|a l]; [rewrite app_nil_r; reflexivity|]. destruct m as [|b m]; [rewrite app_nil_r; reflexivity|].
  change ((a :: l) ++ b :: m)%list with (a :: (l ++ b :: m))%list. change ((b :: m) ++ a :: l)%list with (b :: (m ++ a :: l))%list. rewrite !surrounded_cons.
  rewrite !app_comm_cons, <- !app_assoc. cbn [app].
  rewrite !map_cons, !map_app, !map_cons, !map_app. cbn [map].
  change (exactly a :: map exactly l ++ exactly b :: map exactly m ++ [exactly a])%list with ((exactly a :: map exactly l) ++ exactly b :: map exactly m ++ [exactly a])%list.
  change (exactly b :: map exactly m ++ exactly a :: map exactly l ++ [exactly b])%list with ((exactly b :: map exactly m) ++ exactly a :: map exactly l ++ [exactly b])%list.
  rewrite (crossings_app x _ (exactly b)), (crossings_app x _ (exactly a)). cbn [app]. apply xorb_comm.
Qed.
Lemma surrounded_less x c m : m <> [] -> surrounded (c :: m) x = xorb (surrounded m x) (surrounded [last m c; c; hd c m] x).
Proof.
  intros N. destruct m as [|a m]; [congruence|]. cbn [hd]. rewrite surrounded_cons. cbn [app].
  change (map exactly (c :: a :: m ++ [c])) with (exactly c :: exactly a :: map exactly (m ++ [c])). rewrite map_app. cbn [map].
  change (crossings x (exactly c :: exactly a :: map exactly m ++ [exactly c])) with (xorb (crossed x (exactly c) (exactly a)) (crossings x ((exactly a :: map exactly m) ++ [exactly c]))).
  rewrite (surrounded_cons x a m). change (a :: m ++ [a])%list with ((a :: m) ++ [a])%list. rewrite map_app. cbn [map].
  rewrite !(crossings_snoc x _ _ (exactly c)) by discriminate. change (exactly a :: map exactly m) with (map exactly (a :: m)). rewrite (last_map exactly (a :: m) c).
  generalize (crossings x (map exactly (a :: m))) as k. intros k. set (la := last (a :: m) c). unfold surrounded. cbn [firstn app map crossings]. rewrite (crossed_sym x (exactly a) (exactly la)).
  destruct (crossed x (exactly c) (exactly a)), k, (crossed x (exactly la) (exactly c)), (crossed x (exactly la) (exactly a)); reflexivity.
Qed.
Lemma surrounded_few x c : (List.length c <= 2)%nat -> surrounded c x = false.
Proof.
  destruct c as [|a [|b [|d c]]]; intros H; try reflexivity; [| |cbn in H; lia]; unfold surrounded; cbn [firstn app map crossings].
  - rewrite crossed_refl. reflexivity.
  - rewrite (crossed_sym x (exactly b)). destruct (crossed x (exactly a) (exactly b)); reflexivity.
Qed.

Lemma run_slivers may must p0 prev removed rest kept out : run may must p0 prev removed rest kept out ->
  (rest <> [] -> prev = last kept (last rest prev)) ->
  exists ts, (forall t, In t ts -> let '(a, c, n) := t in In a (kept ++ rest) /\ In c rest /\ In n (kept ++ rest) /\ exists removed, may a removed c n) /\
    forall x, surrounded (kept ++ rest) x = xorb (surrounded out x) (parity surrounded (map triangle_of ts) x).
Proof.
  induction 1 as [prev removed kept|prev removed c rest kept out K R IH|prev removed c rest kept out K R IH]; intros Pv.
  - exists []. split; [intros t []|]. intros x. rewrite app_nil_r. cbn. symmetry. apply xorb_false_r.
  - destruct IH as (ts & I & E). { intros N. rewrite last_last. reflexivity. }
    exists ts. rewrite <- app_assoc in I, E. cbn [app] in I, E. split; [|exact E]. intros [[a b] n] It. destruct (I _ It) as (Ia & Ib & In_ & M). split; [exact Ia|]. split; [right; exact Ib|]. auto.
  - assert (Pv' : rest <> [] -> prev = last kept (last rest prev)).
    { intros N. rewrite (Pv ltac:(discriminate)). destruct kept as [|k kept].
      - cbn [last]. destruct rest as [|r rest]; [congruence|]. change (last (c :: r :: rest) prev) with (last (r :: rest) prev). apply last_default. discriminate.
      - apply last_default. discriminate. }
    destruct (IH Pv') as (ts & I & E).
    assert (Sub : forall v, In v (kept ++ rest) -> In v (kept ++ c :: rest)) by (intros v Iv; apply in_app_or in Iv; apply in_or_app; destruct Iv; [left|right; right]; assumption).
    assert (Old : forall t, In t ts -> let '(a, b, n) := t in In a (kept ++ c :: rest) /\ In b (c :: rest) /\ In n (kept ++ c :: rest) /\ exists removed, may a removed b n).
    { intros [[a b] n] It. destruct (I _ It) as (Ia & Ib & In_ & M). split; [auto|]. split; [right; exact Ib|]. auto. }
    assert (T : forall x, surrounded (kept ++ c :: rest) x = surrounded (c :: rest ++ kept) x) by (intros x; rewrite surrounded_turn; reflexivity).
    destruct (Nat.le_gt_cases (List.length (kept ++ rest)) 1) as [Few|Many].
    + exists ts. split; [exact Old|]. intros x. rewrite <- E, !surrounded_few; [reflexivity|lia|]. rewrite app_length in *. cbn. lia.
    + exists ((prev, c, next_of p0 rest kept) :: ts).
      assert (Hm : (rest ++ kept)%list <> []) by (intros X; rewrite app_length in Many; apply app_eq_nil in X; destruct X as (-> & ->); cbn in Many; lia).
      assert (Lp : last (rest ++ kept) c = prev).
      { rewrite (Pv ltac:(discriminate)). destruct kept as [|k kept].
        - cbn [last]. rewrite app_nil_r. destruct rest as [|r rest]; [cbn in Many; lia|]. change (last (c :: r :: rest) prev) with (last (r :: rest) prev). apply last_default. discriminate.
        - rewrite last_app_r by discriminate. apply last_default. discriminate. }
      assert (Hn : hd c (rest ++ kept) = next_of p0 rest kept).
      { destruct rest as [|r rest]; [|reflexivity]. cbn [app] in *. destruct kept as [|k [|k' kept]]; cbn in *; try lia. reflexivity. }
      split.
      * intros t [<-|It]; [|apply Old, It]. assert (X : forall v, In v (rest ++ kept) -> In v (kept ++ c :: rest)) by (intros v Iv; apply in_app_or in Iv; apply in_or_app; destruct Iv; [right; right|left]; assumption).
        split; [apply X; rewrite <- Lp; apply last_in_d, Hm|]. split; [left; reflexivity|]. split; [apply X; rewrite <- Hn; destruct (rest ++ kept)%list; [congruence|left; reflexivity]|]. eauto.
      * intros x. rewrite T, (surrounded_less x c _ Hm), Lp, Hn, (surrounded_turn x rest kept), E. cbn [map parity triangle_of].
        destruct (surrounded out x), (parity surrounded (map triangle_of ts) x), (surrounded [prev; c; next_of p0 rest kept] x); reflexivity.
Qed.

Lemma parity_app {P} (inside : path -> P -> bool) l m x : parity inside (l ++ m) x = xorb (parity inside l x) (parity inside m x).
Proof. induction l as [|a l IH]; [symmetry; apply xorb_false_l|]. cbn [app parity]. rewrite IH, xorb_assoc. reflexivity. Qed.
Lemma parity_perm {P} (inside : path -> P -> bool) l m x : Permutation.Permutation l m -> parity inside l x = parity inside m x.
Proof. induction 1 as [|a l m H IH|a b l|l m n H1 IH1 H2 IH2]; cbn [parity]; try congruence. rewrite <- !xorb_assoc, (xorb_comm (inside b x)). reflexivity. Qed.
Lemma parity_filter {P} (inside : path -> P -> bool) f l x : parity inside l x = xorb (parity inside (filter f l) x) (parity inside (filter (fun a => negb (f a)) l) x).
Proof.
  induction l as [|a l IH]; [reflexivity|]. cbn [filter parity]. rewrite IH. destruct (f a); cbn [negb parity]; destruct (inside a x), (parity inside (filter f l) x), (parity inside (filter (fun a => negb (f a)) l) x); reflexivity.
Qed.
Lemma parity_at {P} (at_ : P -> rpt) l x : parity (fun c x => surrounded c (at_ x)) l x = parity surrounded l (at_ x).
Proof. induction l as [|a l IH]; [reflexivity|]. cbn [parity]. rewrite IH. reflexivity. Qed.

Lemma simplify_slivers p : (forall a b, In a p -> In b p -> dist2 a b < 2 ^ 61) -> exists ts,
  (forall a c n, In (a, c, n) ts -> In a p /\ In c p /\ In n p /\ exists removed, may_remove 100 25 a removed c n) /\
  forall x, surrounded (Simplify p (-1) (-1)) x = xorb (surrounded p x) (parity surrounded (map triangle_of ts) x).
Proof.
  intros D. destruct (Nat.le_gt_cases (List.length p) 2) as [Few|Many].
  - exists []. split; [intros a c n []|]. intros x. rewrite (surrounded_few x p Few). cbn [map parity].
    destruct p as [|a [|b [|c p]]]; try reflexivity. cbn in Few. lia.
  - destruct (Nat.le_gt_cases (List.length p) 3) as [Three|More].
    + exists []. split; [intros a c n []|]. intros x. cbn [map parity]. rewrite xorb_false_r. destruct p as [|a [|b [|c [|e p]]]]; cbn in Many, Three; try lia. reflexivity.
    + pose proof (simplify_rules_wide p (-1) (-1) D More (Pt 0 0)) as R. change (defv 100 (-1)) with 100 in R. change (defv 25 (-1)) with 25 in R.
      destruct (run_slivers _ _ _ _ _ _ _ _ R) as (ts & I & E).
      { intros N. cbn [last]. apply last_default, N. }
      cbn [app] in I, E. exists ts. split.
      * intros a c n It. destruct (I _ It) as (Ia & Ic & In_ & M). auto.
      * intros x. rewrite E. destruct (surrounded (Simplify p (-1) (-1)) x), (parity surrounded (map triangle_of ts) x); reflexivity.
Qed.
Lemma simplify_all ps : (forall p a b, In p ps -> In a p -> In b p -> dist2 a b < 2 ^ 61) -> exists ts,
  (forall t, In t ts -> sliver t) /\
  forall x, parity surrounded (map (fun p => Simplify p (-1) (-1)) ps) x = xorb (parity surrounded ps x) (parity surrounded (map triangle_of ts) x).
Proof.
  induction ps as [|p ps IH]; intros D.
  - exists []. split; [intros t []|reflexivity].
  - destruct IH as (ts & I & E); [intros q a b Iq; apply D; right; exact Iq|]. destruct (simplify_slivers p) as (ts' & I' & E'); [intros a b; apply D; left; reflexivity|].
    exists (ts' ++ ts)%list. split.
    + intros [[a c] n] It. apply in_app_or in It. destruct It as [It|It]; [|exact (I _ It)]. destruct (I' _ _ _ It) as (_ & _ & _ & rm & [M|[(M & _)|(M & M' & _)]]); cbn; auto.
    + intros x. cbn [map parity]. rewrite E, E', map_app, parity_app.
      destruct (surrounded p x), (parity surrounded ps x), (parity surrounded (map triangle_of ts') x), (parity surrounded (map triangle_of ts) x); reflexivity.
Qed.
