(** Path.Simplify obeys its removal rules. *)
From Coq Require Import ZifyBool.
From Verif Require Import GoBase GoFloat M_Micrometer M_Geom2D S_Geom S_Simplify L_Vec L_Geom2D.
Local Open Scope Z_scope.

Lemma edge_sum_snoc l a b : edge_sum (l ++ [a; b]) = edge_sum (l ++ [a]) + (px a * py b - py a * px b).
Proof.
  induction l as [|x l IH]; [cbn; ring|]. destruct l as [|y l].
  - cbn. ring.
  - cbn [app] in *. change (edge_sum (x :: y :: l ++ [a; b])) with ((px x * py y - py x * px y) + edge_sum (y :: l ++ [a; b])).
    change (edge_sum (x :: y :: l ++ [a])) with ((px x * py y - py x * px y) + edge_sum (y :: l ++ [a])). rewrite IH. ring.
Qed.

Lemma wrap_eq_mod a b : wrap a = wrap b -> forall c, wrap (a + c) = wrap (b + c).
Proof. intros H c. rewrite <- (wrap_add_l a c), H, wrap_add_l. reflexivity. Qed.

Lemma step_area prev removed c n ar :
  wrap ar = wrap (edge_sum (prev :: removed ++ [c])) ->
  wrap (add64 (add64 ar (sub64 (mul64 (px c) (py n)) (mul64 (py c) (px n))))
       (sub64 (mul64 (px n) (py prev)) (mul64 (py n) (px prev)))) = wrap (cut_area2 prev removed c n)
  /\ wrap (add64 ar (sub64 (mul64 (px c) (py n)) (mul64 (py c) (px n)))) = wrap (edge_sum (prev :: (removed ++ [c]) ++ [n])).
Proof.
  intros H. unfold add64, sub64, mul64, cut_area2.
  assert (E1 : edge_sum (prev :: (removed ++ [c]) ++ [n]) = edge_sum (prev :: removed ++ [c]) + (px c * py n - py c * px n)).
  { rewrite <- app_assoc. apply (edge_sum_snoc (prev :: removed)). }
  assert (E2 : edge_sum (prev :: removed ++ [c; n; prev]) = edge_sum (prev :: (removed ++ [c]) ++ [n]) + (px n * py prev - py n * px prev)).
  { replace (prev :: removed ++ [c; n; prev]) with ((prev :: removed ++ [c]) ++ [n; prev]) by (cbn; rewrite <- app_assoc; reflexivity).
    rewrite edge_sum_snoc. cbn [app]. reflexivity. }
  rewrite E2, E1.
  assert (N : wrap (wrap (px c * py n) - wrap (py c * px n)) = wrap (px c * py n - py c * px n)) by (rewrite wrap_sub_l, wrap_sub_r; reflexivity).
  assert (N' : wrap (wrap (px n * py prev) - wrap (py n * px prev)) = wrap (px n * py prev - py n * px prev)) by (rewrite wrap_sub_l, wrap_sub_r; reflexivity).
  rewrite N, N'. rewrite !wrap_add_r, !wrap_wrap, wrap_add_l.
  split.
  - apply wrap_eq_mod, wrap_eq_mod, H.
  - apply wrap_eq_mod, H.
Qed.

Definition wide (P : pt -> Prop) : Prop := forall p q, P p -> P q -> dist2 p q < 2 ^ 61.

Section Step.
Variable P : pt -> Prop.
Hypothesis HP : wide P.

Lemma sz a b : P a -> P b -> ptSize2 (ptSub a b) = dist2 b a.
Proof.
  intros Ha Hb. pose proof (HP b a Hb Ha). rewrite ptSub_dist by lia. rewrite ptSize2_exact; rewrite norm2_sub; lia.
Qed.

Lemma near5 c prev n : P c -> P prev -> P n -> PerpendicularDistance2 c prev n <= 25 -> near_line 5 c prev n.
Proof.
  intros Hc Hp Hn H. pose proof (HP c prev Hc Hp). pose proof (HP c n Hc Hn). split; intros E.
  - rewrite <- E in H. rewrite perp_same in H by lia. lia.
  - pose proof (perp_upper c prev n ltac:(lia) ltac:(lia) E). pose proof (dist2_nonneg c prev). nia.
Qed.

Lemma height_small prev removed c n S lim : 0 < dist2 prev n -> S = wrap (cut_area2 prev removed c n) ->
  quot64 (mul64 S S) (dist2 prev n) <= lim -> small_height lim prev removed c n.
Proof.
  intros Hb HS Hq HA.
  assert (ES : S = cut_area2 prev removed c n) by (rewrite HS; apply wrap_id; unfold int64; lia).
  set (A := cut_area2 prev removed c n) in *. rewrite ES in Hq.
  assert (A2 : 0 <= A * A < 2 ^ 63) by nia.
  rewrite mul64_id in Hq by (unfold int64; lia). rewrite quot64_pos in Hq by lia.
  rewrite Z.pow_2_r. pose proof (Z.div_mod (A * A) (dist2 prev n) ltac:(lia)).
  pose proof (Z.mod_pos_bound (A * A) (dist2 prev n) Hb). nia.
Qed.

Lemma step_may sls aed prev removed c n ar ar' :
  P prev -> P c -> P n ->
  wrap ar = wrap (edge_sum (prev :: removed ++ [c])) ->
  simplify_step sls aed prev c n ar = (false, ar') ->
  may_remove sls aed prev removed c n /\ wrap ar' = wrap (edge_sum (prev :: (removed ++ [c]) ++ [n])).
Proof.
  intros Hp Hc Hn Har E. destruct (step_area prev removed c n ar Har) as [EA EB].
  unfold simplify_step in E. rewrite !sz in E by assumption.
  set (S := add64 (add64 ar (sub64 (mul64 (px c) (py n)) (mul64 (py c) (px n))))
       (sub64 (mul64 (px n) (py prev)) (mul64 (py n) (px prev)))) in *.
  assert (ES : S = wrap (cut_area2 prev removed c n)).
  { rewrite <- EA. symmetry. apply wrap_id. unfold S. apply add64_int64. }
  destruct (Z.eqb_spec (dist2 prev n) 0) as [Z0|Z0].
  - injection E as <-. split; [left; apply dist2_0; exact Z0|exact EB].
  - assert (Hb : 0 < dist2 prev n) by (pose proof (dist2_nonneg prev n); lia).
    match type of E with (if ?b then _ else _) = _ => destruct b eqn:Eb; [|discriminate] end.
    injection E as <-. split; [right|exact EB].
    apply orb_prop in Eb as [Eb|Eb].
    + apply andb_prop in Eb as [Eb1 Eb2]. left. split; [apply near5; auto; apply Z.leb_le; exact Eb2|].
      apply (height_small prev removed c n S); auto. apply Z.leb_le; exact Eb1.
    + apply andb_prop in Eb as [Eb1 Eb3]. apply andb_prop in Eb1 as [Eb1 Eb2]. right.
      split; [|split].
      * apply Z.ltb_lt; exact Eb1.
      * rewrite dist2_sym. apply Z.ltb_lt; exact Eb2.
      * apply (height_small prev removed c n S); auto. apply Z.leb_le; exact Eb3.
Qed.

Lemma step_keep_area sls aed prev c n ar ar' :
  simplify_step sls aed prev c n ar = (true, ar') -> wrap ar' = wrap (edge_sum (c :: [] ++ [n])).
Proof.
  intros E. unfold simplify_step in E.
  destruct (_ =? 0); [discriminate|]. match type of E with (if ?b then _ else _) = _ => destruct b; [discriminate|] end.
  injection E as <-. unfold sub64, mul64. cbn. rewrite wrap_wrap, wrap_sub_l, wrap_sub_r. f_equal. ring.
Qed.

Lemma loop_run sls aed (must : pt -> list pt -> pt -> pt -> Prop) p0 :
  (forall prev removed c n ar ar', P prev -> P c -> P n ->
     wrap ar = wrap (edge_sum (prev :: removed ++ [c])) ->
     simplify_step sls aed prev c n ar = (true, ar') -> ~ must prev removed c n) ->
  P p0 ->
  forall rest prev removed ar kept,
  P prev -> (forall x, In x rest -> P x) -> (forall x, In x kept -> P x) ->
  (forall c rest', rest = c :: rest' -> wrap ar = wrap (edge_sum (prev :: removed ++ [c]))) ->
  run (may_remove sls aed) must p0 prev removed rest kept (simplify_loop sls aed p0 rest prev ar kept).
Proof.
  intros Hmust H0. induction rest as [|c rest IH]; intros prev removed ar kept Hp Hr Hk Har; cbn [simplify_loop].
  - constructor.
  - fold (next_of p0 rest kept). set (n := next_of p0 rest kept).
    assert (Hc : P c) by (apply Hr; left; reflexivity).
    assert (Hn : P n).
    { unfold n, next_of. destruct rest as [|x rest'].
      - destruct kept as [|q [|q2 k']]; auto. apply Hk; left; reflexivity.
      - apply Hr; right; left; reflexivity. }
    specialize (Har c rest eq_refl).
    destruct (simplify_step sls aed prev c n ar) as [[] ar'] eqn:E.
    + apply run_keep; [eapply Hmust; eauto|].
      apply IH; [exact Hc|intros x Hx; apply Hr; right; exact Hx| |].
      * intros x Hx. apply in_app_or in Hx as [Hx|[<-|[]]]; auto.
      * intros c' rest' ->. apply step_keep_area in E. exact E.
    + destruct (step_may _ _ _ _ _ _ _ _ Hp Hc Hn Har E) as [Hm Ha].
      apply run_drop; [exact Hm|].
      apply IH; [exact Hp|intros x Hx; apply Hr; right; exact Hx|exact Hk|].
      intros c' rest' ->. exact Ha.
Qed.
End Step.

Definition defv (d v : Z) : Z := if v =? -1 then d else v.

Lemma run_top must p sls aed (P : pt -> Prop) :
  wide P -> (forall x, In x p -> P x) -> (4 <= List.length p)%nat ->
  (forall prev removed c n ar ar', P prev -> P c -> P n ->
     wrap ar = wrap (edge_sum (prev :: removed ++ [c])) ->
     simplify_step (defv 100 sls) (defv 25 aed) prev c n ar = (true, ar') -> ~ must prev removed c n) ->
  forall d, run (may_remove (defv 100 sls) (defv 25 aed)) must (hd d p) (last p d) [] p [] (Simplify p sls aed).
Proof.
  intros HP Hin Hlen Hmust d. unfold Simplify. fold (defv 100 sls) (defv 25 aed).
  destruct p as [|p0 [|p1 [|p2 [|p3 p']]]]; cbn [List.length] in Hlen; try lia.
  set (p := p0 :: p1 :: p2 :: p3 :: p') in *. cbn [hd].
  replace (last p d) with (last p p0) by (unfold p; clear; generalize (p1 :: p2 :: p3 :: p') as l; intros l; revert p0; induction l as [|x l IH]; intros p0; [reflexivity|]; destruct l; [reflexivity|]; exact (IH p0)).
  apply (loop_run P HP); auto.
  - apply Hin. left; reflexivity.
  - apply Hin. apply last_In. discriminate.
  - intros x [].
  - intros c rest' E. injection E as <- _. unfold sub64, mul64. cbn. rewrite wrap_wrap, wrap_sub_l, wrap_sub_r. f_equal. ring.
Qed.

Lemma simplify_wide p sls aed : (forall a b, In a p -> In b p -> dist2 a b < 2 ^ 61) -> (4 <= List.length p)%nat ->
  forall d, run (may_remove (defv 100 sls) (defv 25 aed)) (fun _ _ _ _ => False) (hd d p) (last p d) [] p [] (Simplify p sls aed).
Proof.
  intros H Hl d. apply (run_top (fun _ _ _ _ => False) p sls aed (fun x => In x p)); auto. 
Qed.

Lemma keep_not_must (P : pt -> Prop) sls aed (prev : pt) removed c n ar ar' :
  (forall p q, P p -> P q -> dist2 p q <= 3037000499) ->
  P prev -> P c -> P n ->
  wrap ar = wrap (edge_sum (prev :: removed ++ [c])) ->
  simplify_step sls aed prev c n ar = (true, ar') -> ~ must_remove prev removed c n.
Proof.
  intros HP Hp Hc Hn Har E HM. destruct (step_area prev removed c n ar Har) as [EA EB].
  assert (HW : wide P) by (intros p q A B; specialize (HP p q A B); lia).
  unfold simplify_step in E. rewrite !(sz P HW) in E by assumption.
  set (S := add64 (add64 ar (sub64 (mul64 (px c) (py n)) (mul64 (py c) (px n))))
       (sub64 (mul64 (px n) (py prev)) (mul64 (py n) (px prev)))) in *.
  destruct (Z.eqb_spec (dist2 prev n) 0) as [Z0|Z0]; [discriminate|].
  destruct HM as [HM|(Hcp & HM1 & HM2)]; [apply Z0, dist2_0; exact HM|].
  assert (ES : S = 0).
  { transitivity (wrap S); [symmetry; apply wrap_id; apply add64_int64|]. rewrite EA, HM1. reflexivity. }
  rewrite ES in E. change (mul64 0 0) with 0 in E. unfold quot64 at 1 in E. rewrite Z.quot_0_l in E by exact Z0.
  change (wrap 0 <=? 25) with true in E. cbn [andb] in E.
  assert (EP : PerpendicularDistance2 c prev n <= 25).
  { pose proof (HP c prev Hc Hp) as D1. pose proof (HP c n Hc Hn) as D2.
    assert (H : c <> prev) by congruence.
    pose proof (perp_bounds c prev n D1 D2 H) as [_ B]. rewrite HM2 in B.
    pose proof (dist2_nonneg c prev). nia. }
  apply Z.leb_le in EP. rewrite EP in E. discriminate.
Qed.

Lemma simplify_small p sls aed : (forall a b, In a p -> In b p -> dist2 a b <= 3037000499) -> (4 <= List.length p)%nat ->
  forall d, run (may_remove (defv 100 sls) (defv 25 aed)) must_remove (hd d p) (last p d) [] p [] (Simplify p sls aed).
Proof.
  intros H Hl d. apply (run_top must_remove p sls aed (fun x => In x p)); auto.
  - intros a b Ha Hb. specialize (H a b Ha Hb). lia.
  - intros prev removed c n ar ar' H1 H2 H3 H4 H5. eapply (keep_not_must (fun x => In x p)); eauto.
Qed.

Lemma run_subseq may must p0 prev removed rest kept out :
  run may must p0 prev removed rest kept out -> exists o, out = kept ++ o /\ subseq o rest.
Proof.
  intros H; induction H as [prev removed kept|prev removed c rest kept out Hm Hr IH|prev removed c rest kept out Hm Hr IH].
  - exists []. rewrite app_nil_r. split; [reflexivity|constructor].
  - destruct IH as (o & -> & Ho). exists (c :: o). rewrite <- app_assoc. split; [reflexivity|constructor; exact Ho].
  - destruct IH as (o & -> & Ho). exists o. split; [reflexivity|constructor; exact Ho].
Qed.

Lemma loop_subseq sls aed p0 rest : forall prev ar kept,
  exists o, simplify_loop sls aed p0 rest prev ar kept = kept ++ o /\ subseq o rest.
Proof.
  induction rest as [|c rest IH]; intros prev ar kept; cbn [simplify_loop].
  - exists []. rewrite app_nil_r. split; [reflexivity|constructor].
  - match goal with |- context [simplify_step ?a ?b ?c ?d ?e ?f] => destruct (simplify_step a b c d e f) as [[] ar'] end.
    + destruct (IH c ar' (kept ++ [c])) as (o & -> & Ho). exists (c :: o). rewrite <- app_assoc.
      split; [reflexivity|constructor; exact Ho].
    + destruct (IH prev ar' kept) as (o & -> & Ho). exists o. split; [reflexivity|constructor; exact Ho].
Qed.
Lemma Simplify_subseq p sls aed : subseq (Simplify p sls aed) p.
Proof.
  unfold Simplify. destruct p as [|p0 [|p1 [|p2 [|p3 p']]]]; try apply subseq_nil; try apply subseq_refl.
  set (l := p0 :: p1 :: p2 :: p3 :: p'). match goal with |- subseq (simplify_loop ?a ?b ?c ?d ?e ?f ?g) _ =>
    destruct (loop_subseq a b c d e f g) as (o & -> & Ho) end. exact Ho.
Qed.
