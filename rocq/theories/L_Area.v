(** Lemmas about areas. *)
From Coq Require Import Permutation.
From Verif Require Import GoBase GoFloat M_Micrometer M_Geom2D M_Clip S_Clip L_Clip S_Area.
Local Open Scope Z_scope.

Section Area.
Context {P : Type} (inside : path -> P -> bool).
Notation parity := (parity inside).
Notation in_part := (in_part inside).
Notation covered := (covered inside).
Notation proper_part := (proper_part inside).
Notation proper := (proper inside).
Notation nested := (nested inside).
Notation nested_tree := (nested_tree inside).

Lemma parity_app a b x : parity (a ++ b) x = xorb (parity a x) (parity b x).
Proof. induction a as [|c a IH]; cbn; [destruct (parity b x); reflexivity|]. rewrite IH, xorb_assoc. reflexivity. Qed.
Lemma contours_app a b : contours_of (a ++ b) = contours_of a ++ contours_of b.
Proof. apply flat_map_app. Qed.
Lemma covered_app a b x : covered (a ++ b) x <-> covered a x \/ covered b x.
Proof.
  split.
  - intros (p & I & H). apply in_app_iff in I. destruct I as [I|I]; [left|right]; exists p; auto.
  - intros [(p & I & H)|(p & I & H)]; exists p; rewrite in_app_iff; auto.
Qed.
Lemma covered_cons p ps x : covered (p :: ps) x <-> in_part p x \/ covered ps x.
Proof.
  split.
  - intros (q & [<-|I] & H); [left; exact H|right; exists q; auto].
  - intros [H|(q & I & H)]; [exists p; split; [left; reflexivity|exact H]|exists q; split; [right; exact I|exact H]].
Qed.
Lemma covered_nil x : ~ covered [] x.
Proof. intros (p & [] & _). Qed.

(** contours of which at most one surrounds the point *)
Lemma parity_one cs x : at_most_one (fun h => inside h x = true) cs -> (parity cs x = true <-> exists h, In h cs /\ inside h x = true).
Proof.
  induction cs as [|c cs IH]; cbn [at_most_one S_Area.parity].
  - intros _. split; [discriminate|intros (h & [] & _)].
  - intros [H A]. specialize (IH A). destruct (inside c x) eqn:E.
    + assert (parity cs x = false) as ->.
      { destruct (parity cs x); [|reflexivity]. destruct (proj1 IH eq_refl) as (h & I & Eh). exfalso. exact (H eq_refl h I Eh). }
      split; [intros _; exists c; split; [left; reflexivity|exact E]|reflexivity].
    + replace (xorb false (parity cs x)) with (parity cs x) by (destruct (parity cs x); reflexivity). rewrite IH. split.
      * intros (h & I & Eh). exists h. split; [right; exact I|exact Eh].
      * intros (h & [<-|I] & Eh); [congruence|exists h; auto].
Qed.
Lemma proper_part_parity p x : proper_part p -> (parity (outline p :: holes p) x = true <-> in_part p x).
Proof.
  intros H. destruct (H x) as [Hi Ho]. pose proof (parity_one _ _ Ho) as Hp. cbn [S_Area.parity]. unfold S_Area.in_part. split.
  - intros E. destruct (inside (outline p) x) eqn:Eo.
    + split; [reflexivity|]. intros h I. destruct (inside h x) eqn:Eh; [|reflexivity].
      assert (T : parity (holes p) x = true) by (apply Hp; exists h; auto). rewrite T in E. discriminate.
    + destruct (parity (holes p) x) eqn:Eh; [|discriminate]. destruct (proj1 Hp eq_refl) as (h & I & Ih). pose proof (Hi h I Ih). congruence.
  - intros [-> Hn]. destruct (parity (holes p) x) eqn:Eh; [|reflexivity]. destruct (proj1 Hp eq_refl) as (h & I & Ih). rewrite (Hn h I) in Ih. discriminate.
Qed.
Lemma proper_parity ps x : proper ps -> (parity (contours_of ps) x = true <-> covered ps x).
Proof.
  intros [Hp Ha]. specialize (Ha x). induction ps as [|p ps IH]; [split; [cbn; discriminate|intros C; destruct (covered_nil x C)]|].
  cbn [at_most_one] in Ha. destruct Ha as [H1 Ha]. assert (IH' := IH (fun q Iq => Hp q (or_intror Iq)) Ha). clear IH.
  change (contours_of (p :: ps)) with ((outline p :: holes p) ++ contours_of ps). rewrite parity_app, covered_cons.
  pose proof (proper_part_parity p x (Hp p (or_introl eq_refl))) as Hq.
  destruct (parity (outline p :: holes p) x) eqn:E1.
  - pose proof (proj1 Hq eq_refl) as Ip. destruct (parity (contours_of ps) x) eqn:E2.
    + destruct (proj1 IH' eq_refl) as (q & Iq & Hc). exfalso. exact (H1 Ip q Iq Hc).
    + split; [intros _; left; exact Ip|reflexivity].
  - replace (xorb false (parity (contours_of ps) x)) with (parity (contours_of ps) x) by (destruct (parity (contours_of ps) x); reflexivity).
    rewrite IH'. split; [auto|]. intros [Ip|C]; [apply Hq in Ip; discriminate|exact C].
Qed.
Lemma amo_sub {A} (f : A -> Prop) l1 a l2 : at_most_one f (l1 ++ a :: l2) -> at_most_one f (l1 ++ l2).
Proof.
  induction l1 as [|b l1 IH]; cbn [app at_most_one]; [intros [_ H]; exact H|]. intros [H1 H2]. split; [|exact (IH H2)].
  intros Hb c I. apply (H1 Hb). apply in_app_iff in I. apply in_app_iff. destruct I; [left; assumption|right; right; assumption].
Qed.
Lemma proper_nil : proper [].
Proof. split; [intros p []|intros x; exact I]. Qed.
Lemma proper_one p : proper_part p -> proper [p].
Proof. intros H. split; [intros q [<-|[]]; exact H|]. intros x. split; [|exact I]. intros _ b []. Qed.
Lemma proper_in p ps : proper ps -> In p ps -> proper [p].
Proof. intros [H _] I. apply proper_one. exact (H p I). Qed.
Lemma amo_app {A} (f : A -> Prop) a b : at_most_one f (a ++ b) <-> at_most_one f a /\ at_most_one f b /\ (forall x y, In x a -> In y b -> f x -> ~ f y).
Proof.
  induction a as [|c a IH]; cbn [app at_most_one].
  - split; [intros H; repeat split; auto; intros x y []|intros (_ & H & _); exact H].
  - rewrite IH. split.
    + intros (H1 & H2 & H3 & H4). split; [split; [intros Hc d I; apply (H1 Hc); apply in_app_iff; auto|exact H2]|]. split; [exact H3|].
      intros x y [<-|I] J Hx; [apply (H1 Hx); apply in_app_iff; auto|exact (H4 x y I J Hx)].
    + intros ((H1 & H2) & H3 & H4). split; [|split; [exact H2|split; [exact H3|]]].
      * intros Hc d I. apply in_app_iff in I. destruct I as [I|I]; [exact (H1 Hc d I)|apply (H4 c d (or_introl eq_refl) I Hc)].
      * intros x y I J. exact (H4 x y (or_intror I) J).
Qed.
Lemma proper_app a b : proper a -> proper b -> (forall x, covered a x -> ~ covered b x) -> proper (a ++ b).
Proof.
  intros [A1 A2] [B1 B2] D. split.
  - intros p I. apply in_app_iff in I. destruct I; [apply A1|apply B1]; assumption.
  - intros x. apply amo_app. split; [apply A2|]. split; [apply B2|]. intros p q Ip Iq Hp Hq. apply (D x); [exists p|exists q]; auto.
Qed.

(** *** trees *)
Lemma amo_perm {A} (f : A -> Prop) a b : Permutation a b -> at_most_one f a -> at_most_one f b.
Proof.
  induction 1 as [|x a b H IH|x y a|a b c H1 IH1 H2 IH2]; cbn [at_most_one]; auto.
  - intros [H1 H2]. split; [|auto]. intros Hx c I. apply (H1 Hx). apply (Permutation_in c (Permutation_sym H) I).
  - intros (H1 & H2 & H3). split; [|split; [|exact H3]].
    + intros Hx c [<-|I]; [|exact (H2 Hx c I)]. intros Hy. exact (H1 Hy x (or_introl eq_refl) Hx).
    + intros Hy c I. exact (H1 Hy c (or_intror I)).
Qed.
Lemma amo_none {A} (f : A -> Prop) l : (forall a, In a l -> ~ f a) -> at_most_one f l.
Proof.
  induction l as [|a l IH]; intros H; [exact I|]. split; [intros Ha; destruct (H a (or_introl eq_refl) Ha)|]. apply IH. intros b Ib. apply H. right. exact Ib.
Qed.
(** the parts below a node: in_part only where the contour is *)
Fixpoint node_ind' (Q : node -> Prop) (H : forall c l, (forall n, In n l -> Q n) -> Q (Node c l)) (n : node) : Q n :=
  match n with Node c l => H c l ((fix go (l : list node) : forall n, In n l -> Q n :=
    match l return forall n, In n l -> Q n with
    | [] => fun n I => match I with end
    | m :: l' => fun n I => match I with or_introl e => match e in _ = y return Q y with eq_refl => node_ind' Q H m end | or_intror I' => go l' n I' end
    end) l) end.

(** the two statements about a tree: the parity is that of being in one of the even parts, which lie apart *)
Definition good (ns : list node) : Prop := forall x,
  (parity (flat_map contours ns) x = true <-> exists m, In m (flat_map evens ns) /\ in_part (part_of m) x) /\
  at_most_one (fun m => in_part (part_of m) x) (flat_map evens ns) /\
  (forall m, In m (flat_map evens ns) -> in_part (part_of m) x -> exists n, In n ns /\ inside (contour n) x = true).
Definition good_node (n : node) : Prop := nested n -> good [n].
Lemma good_forest ns : (forall n, In n ns -> good [n]) -> (forall x, at_most_one (fun n => inside (contour n) x = true) ns) -> good ns.
Proof.
  intros G A x. specialize (A x). induction ns as [|n ns IH].
  - cbn. split; [|split; [exact I|intros m []]]. split; [discriminate|intros (m & [] & _)].
  - cbn [at_most_one] in A. destruct A as [A1 A2]. destruct (IH (fun m Im => G m (or_intror Im)) A2) as (P1 & O1 & C1).
    destruct (G n (or_introl eq_refl) x) as (P0 & O0 & C0). cbn [flat_map] in *. rewrite (app_nil_r (evens n)) in *. rewrite (app_nil_r (contours n)) in *.
    assert (Apart : forall m m', In m (evens n) -> In m' (flat_map evens ns) -> in_part (part_of m) x -> ~ in_part (part_of m') x).
    { intros m m' Im Im' Hm Hm'. destruct (C0 m Im Hm) as (k & [<-|[]] & Hk). destruct (C1 m' Im' Hm') as (k' & Ik' & Hk'). exact (A1 Hk k' Ik' Hk'). }
    split; [|split].
    + rewrite parity_app. destruct (parity (contours n) x) eqn:E0; destruct (parity (flat_map contours ns) x) eqn:E1; cbn [xorb].
      * split; [discriminate|]. intros _. exfalso. destruct (proj1 P0 eq_refl) as (m & Im & Hm). destruct (proj1 P1 eq_refl) as (m' & Im' & Hm').
        exact (Apart m m' Im Im' Hm Hm').
      * split; [intros _|reflexivity]. destruct (proj1 P0 eq_refl) as (m & Im & Hm). exists m. rewrite in_app_iff. auto.
      * split; [intros _|reflexivity]. destruct (proj1 P1 eq_refl) as (m & Im & Hm). exists m. rewrite in_app_iff. auto.
      * split; [discriminate|]. intros (m & Im & Hm). apply in_app_iff in Im. destruct Im as [Im|Im]; [apply P0|apply P1]; exists m; auto.
    + apply amo_app. auto.
    + intros m Im Hm. apply in_app_iff in Im. destruct Im as [Im|Im].
      * destruct (C0 m Im Hm) as (k & [<-|[]] & Hk). exists n. split; [left; reflexivity|exact Hk].
      * destruct (C1 m Im Hm) as (k & Ik & Hk). exists k. split; [right; exact Ik|exact Hk].
Qed.
(** nodes of odd depth: the parity below is that of not being in a part below *)
Lemma good_below c l : (forall n, In n l -> nested n) -> (forall n, In n l -> good_node n) -> nested (Node c l) ->
  (forall h, In h l -> good (childs h)) -> good [Node c l].
Proof.
  intros Hn _ N Gc x. inversion N as [c' l' _ Hin Hone]; subst c' l'. clear N. specialize (Hone x).
  (* what the children contribute *)
  set (below := flat_map (fun h => match h with Node _ l' => flat_map evens l' end) l).
  assert (Ev : flat_map evens [Node c l] = Node c l :: below). { cbn [flat_map evens]. rewrite app_nil_r. reflexivity. }
  assert (Ct : flat_map contours [Node c l] = c :: flat_map contours l). { cbn [flat_map contours]. rewrite app_nil_r. reflexivity. }
  rewrite Ev, Ct.
  (* statement about the children, by induction over them *)
  assert (K : (parity (flat_map contours l) x = true <->
                (exists h, In h l /\ inside (contour h) x = true) /\ ~ (exists m, In m below /\ in_part (part_of m) x)) /\
              at_most_one (fun m => in_part (part_of m) x) below /\
              (forall m, In m below -> in_part (part_of m) x -> exists h, In h l /\ inside (contour h) x = true)).
  { subst below. clear Ev Ct. induction l as [|h l IH].
    - cbn. split; [|split; [exact I|intros m []]]. split; [discriminate|intros [(h & [] & _) _]].
    - cbn [at_most_one] in Hone. destruct Hone as [H1 H2].
      destruct (IH (fun n In_ => Hn n (or_intror In_)) (fun n In_ => Gc n (or_intror In_)) (fun n y In_ => Hin n y (or_intror In_)) H2) as (P1 & O1 & C1). clear IH.
      destruct (Gc h (or_introl eq_refl) x) as (P0 & O0 & C0). destruct h as [ch lh]. cbn [childs contour flat_map contours] in *.
      assert (Nh := Hn (Node ch lh) (or_introl eq_refl)). inversion Nh as [c' l' _ Hinh _]; subst c' l'.
      set (below := flat_map (fun h => match h with Node _ l' => flat_map evens l' end) l) in *.
      assert (C0' : forall m, In m (flat_map evens lh) -> in_part (part_of m) x -> inside ch x = true).
      { intros m Im Hm. destruct (C0 m Im Hm) as (k & Ik & Hk). exact (Hinh k x Ik Hk). }
      assert (Apart : forall m m', In m (flat_map evens lh) -> In m' below -> in_part (part_of m) x -> ~ in_part (part_of m') x).
      { intros m m' Im Im' Hm Hm'. destruct (C1 m' Im' Hm') as (k & Ik & Hk). exact (H1 (C0' m Im Hm) k Ik Hk). }
      split; [|split].
      + change (ch :: flat_map contours lh ++ flat_map contours l) with ((ch :: flat_map contours lh) ++ flat_map contours l).
        rewrite parity_app. cbn [S_Area.parity]. destruct (inside ch x) eqn:Ech.
        * assert (F1 : parity (flat_map contours l) x = false).
          { destruct (parity (flat_map contours l) x); [|reflexivity]. destruct (proj1 P1 eq_refl) as ((k & Ik & Hk) & _). exfalso. exact (H1 eq_refl k Ik Hk). }
          rewrite F1. destruct (parity (flat_map contours lh) x) eqn:E0; cbn [xorb].
          -- split; [discriminate|]. intros [_ Nm]. exfalso. apply Nm. destruct (proj1 P0 eq_refl) as (m & Im & Hm). exists m. rewrite in_app_iff. auto.
          -- split; [intros _|reflexivity]. split; [exists (Node ch lh); split; [left; reflexivity|exact Ech]|].
             intros (m & Im & Hm). apply in_app_iff in Im. destruct Im as [Im|Im].
             ++ assert (false = true) by (apply P0; exists m; auto). discriminate.
             ++ destruct (C1 m Im Hm) as (k & Ik & Hk). exact (H1 eq_refl k Ik Hk).
        * assert (F0 : parity (flat_map contours lh) x = false).
          { destruct (parity (flat_map contours lh) x); [|reflexivity]. destruct (proj1 P0 eq_refl) as (m & Im & Hm). pose proof (C0' m Im Hm). congruence. }
          rewrite F0. cbn [xorb]. replace (if parity (flat_map contours l) x then true else false) with (parity (flat_map contours l) x) by (destruct (parity (flat_map contours l) x); reflexivity).
          rewrite P1. split.
          -- intros [(k & Ik & Hk) Nm]. split; [exists k; split; [right; exact Ik|exact Hk]|]. intros (m & Im & Hm). apply in_app_iff in Im. destruct Im as [Im|Im].
             ++ pose proof (C0' m Im Hm). congruence.
             ++ apply Nm. exists m. auto.
          -- intros [(k & [<-|Ik] & Hk) Nm]; [cbn [contour] in Hk; congruence|]. split; [exists k; auto|]. intros (m & Im & Hm). apply Nm. exists m. rewrite in_app_iff. auto.
      + apply amo_app. auto.
      + intros m Im Hm. apply in_app_iff in Im. destruct Im as [Im|Im].
        * exists (Node ch lh). split; [left; reflexivity|exact (C0' m Im Hm)].
        * destruct (C1 m Im Hm) as (k & Ik & Hk). exists k. split; [right; exact Ik|exact Hk]. }
  destruct K as (K1 & K2 & K3).
  assert (Top : in_part (part_of (Node c l)) x <-> inside c x = true /\ ~ (exists h, In h l /\ inside (contour h) x = true)).
  { unfold S_Area.in_part, part_of. cbn [outline holes contour childs]. split.
    - intros [H1 H2]. split; [exact H1|]. intros (h & Ih & Hh). rewrite (H2 (contour h) (in_map contour l h Ih)) in Hh. discriminate.
    - intros [H1 H2]. split; [exact H1|]. intros q Iq. apply in_map_iff in Iq. destruct Iq as (h & <- & Ih). destruct (inside (contour h) x) eqn:E; [|reflexivity].
      exfalso. apply H2. exists h. auto. }
  split; [|split].
  - cbn [S_Area.parity]. destruct (inside c x) eqn:Ec.
    + destruct (parity (flat_map contours l) x) eqn:El; cbn [xorb].
      * split; [discriminate|]. intros (m & [<-|Im] & Hm).
        -- apply Top in Hm. destruct (proj1 K1 eq_refl) as [Hh _]. exfalso. apply (proj2 Hm). exact Hh.
        -- destruct (proj1 K1 eq_refl) as [_ Nm]. exfalso. apply Nm. exists m. auto.
      * split; [intros _|reflexivity].
        (* in a part below, or in this one *)
        assert (D : (exists m, In m below /\ in_part (part_of m) x) \/ ~ (exists h, In h l /\ inside (contour h) x = true)).
        { destruct (existsb (fun h => inside (contour h) x) l) eqn:Ex.
          - apply existsb_exists in Ex. left.
            assert (Dec : forall ms, (exists m, In m ms /\ in_part (part_of m) x) \/ ~ (exists m, In m ms /\ in_part (part_of m) x)).
            { intros ms. assert (B : forall p, in_part p x \/ ~ in_part p x).
              { intros p. unfold S_Area.in_part. destruct (inside (outline p) x); [|right; intros [? _]; discriminate].
                destruct (existsb (fun h => inside h x) (holes p)) eqn:E; [right|left].
                - apply existsb_exists in E. destruct E as (h & Ih & Hh). intros [_ H]. rewrite (H h Ih) in Hh. discriminate.
                - split; [reflexivity|]. intros h Ih. destruct (inside h x) eqn:Eh; [|reflexivity].
                  assert (existsb (fun h => inside h x) (holes p) = true) by (apply existsb_exists; exists h; auto). congruence. }
              induction ms as [|m ms IHm]; [right; intros (m & [] & _)|]. destruct (B (part_of m)) as [Hm|Hm]; [left; exists m; split; [left; reflexivity|exact Hm]|].
              destruct IHm as [(m' & Im' & Hm')|Nm]; [left; exists m'; split; [right; exact Im'|exact Hm']|]. right. intros (m' & [<-|Im'] & Hm'); [exact (Hm Hm')|apply Nm; exists m'; auto]. }
            destruct (Dec below) as [D|D]; [exact D|]. assert (false = true) by (apply K1; split; [destruct Ex as (h & Ih & Hh); exists h; auto|exact D]). discriminate.
          - right. intros (h & Ih & Hh). assert (existsb (fun h => inside (contour h) x) l = true) by (apply existsb_exists; exists h; auto). congruence. }
        destruct D as [(m & Im & Hm)|D]; [exists m; split; [right; exact Im|exact Hm]|]. exists (Node c l). split; [left; reflexivity|]. apply Top. auto.
    + assert (El : parity (flat_map contours l) x = false).
      { destruct (parity (flat_map contours l) x); [|reflexivity]. destruct (proj1 K1 eq_refl) as [(h & Ih & Hh) _]. rewrite (Hin h x Ih Hh) in Ec. discriminate. }
      rewrite El. cbn [xorb]. split; [discriminate|]. intros (m & [<-|Im] & Hm).
      * apply Top in Hm. destruct Hm as [Hm _]. congruence.
      * destruct (K3 m Im Hm) as (h & Ih & Hh). rewrite (Hin h x Ih Hh) in Ec. discriminate.
  - cbn [at_most_one]. split; [|exact K2]. intros Hm m Im Hm'. apply Top in Hm. apply (proj2 Hm). exact (K3 m Im Hm').
  - intros m [<-|Im] Hm; exists (Node c l); (split; [left; reflexivity|]); cbn [contour].
    + apply Top in Hm. exact (proj1 Hm).
    + destruct (K3 m Im Hm) as (h & Ih & Hh). exact (Hin h x Ih Hh).
Qed.
Lemma nested_good n : nested n -> good [n] /\ good (childs n).
Proof.
  induction n as [c l IH] using node_ind'. intros N. inversion N as [c' l' Hn Hin Hone]; subst c' l'.
  split.
  - apply good_below; auto.
    + intros n In_ Nn. exact (proj1 (IH n In_ Nn)).
    + intros h Ih. exact (proj2 (IH h Ih (Hn h Ih))).
  - cbn [childs]. apply good_forest; [|exact Hone]. intros n In_. exact (proj1 (IH n In_ (Hn n In_))).
Qed.
Lemma tree_good t : nested_tree t -> good t.
Proof. intros [H1 H2]. apply good_forest; [|exact H2]. intros n In_. exact (proj1 (nested_good n (H1 n In_))). Qed.

Lemma proper_part_of n : nested n -> proper_part (part_of n).
Proof.
  intros N. destruct n as [c l]. inversion N as [c' l' Hn Hin Hone]; subst c' l'. intros x. unfold part_of. cbn [outline holes contour childs]. split.
  - intros h Ih Hh. apply in_map_iff in Ih. destruct Ih as (m & <- & Im). exact (Hin m x Im Hh).
  - specialize (Hone x). clear N Hn Hin. induction l as [|m l IH]; [exact I|]. cbn [map at_most_one] in *. destruct Hone as [H1 H2]. split; [|exact (IH H2)].
    intros Hm q Iq. apply in_map_iff in Iq. destruct Iq as (k & <- & Ik). exact (H1 Hm k Ik).
Qed.
Lemma evens_nested n : nested n -> forall m, In m (evens n) -> nested m.
Proof.
  assert (A : forall n, nested n -> (forall m, In m (evens n) -> nested m) /\ (forall h, In h (childs n) -> forall m, In m (evens h) -> nested m)).
  { clear n. intros n. induction n as [c l IH] using node_ind'. intros N. inversion N as [c' l' Hn Hin Hone]; subst c' l'. split.
    - intros m Im. cbn [evens] in Im. destruct Im as [<-|Im]; [exact N|]. apply in_flat_map in Im. destruct Im as ([ch lh] & Ih & Im).
      apply in_flat_map in Im. destruct Im as (g & Ig & Im). exact (proj2 (IH _ Ih (Hn _ Ih)) g Ig m Im).
    - cbn [childs]. intros h Ih m Im. exact (proj1 (IH h Ih (Hn h Ih)) m Im). }
  intros N. exact (proj1 (A n N)).
Qed.
(** the parts made from a well nested tree *)
Theorem tree_parts t ps : nested_tree t -> polyTreeToLayerParts t = Ok ps ->
  proper ps /\ forall x, covered ps x <-> parity (flat_map contours t) x = true.
Proof.
  intros N E. destruct (tree_spec t) as (ps' & E' & Pm & _). rewrite E in E'. injection E' as <-.
  pose proof (tree_good t N) as G. split.
  - split.
    + intros p Ip. apply (Permutation_in _ Pm) in Ip. apply in_map_iff in Ip. destruct Ip as (m & <- & Im). apply in_flat_map in Im.
      destruct Im as (n & In_ & Im). apply proper_part_of. exact (evens_nested n (proj1 N n In_) m Im).
    + intros x. destruct (G x) as (_ & O & _). apply (amo_perm _ _ _ (Permutation_sym Pm)). clear Pm E G N.
      induction (flat_map evens t) as [|m l IH]; [exact I|]. cbn [map at_most_one] in *. destruct O as [O1 O2]. split; [|exact (IH O2)].
      intros Hm q Iq. apply in_map_iff in Iq. destruct Iq as (k & <- & Ik). exact (O1 Hm k Ik).
  - intros x. destruct (G x) as (Px & _ & _). rewrite Px. split.
    + intros (p & Ip & Hp). apply (Permutation_in _ Pm) in Ip. apply in_map_iff in Ip. destruct Ip as (m & <- & Im). exists m. auto.
    + intros (m & Im & Hm). exists (part_of m). split; [|exact Hm]. apply (Permutation_in _ (Permutation_sym Pm)). apply in_map. exact Im.
Qed.
End Area.
