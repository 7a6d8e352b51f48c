(** Lemmas about the support modifiers. *)
From Verif Require Import GoBase GoFloat GoStr M_Micrometer M_Geom2D M_Option M_Clip M_Builder M_Layer M_Modifier S_Clip L_Clip S_Area L_Area S_Modifier L_Modifier L_Amount L_ModArea L_Infill S_Support.
Local Open Scope string_scope.
Local Open Scope list_scope.
Local Open Scope Z_scope.

Lemma oddly_xor {A} (f : A -> bool) l : oddly f l = xor_all f l.
Proof. induction l as [|a l IH]; cbn; congruence. Qed.
Lemma has_det layers i name a b : has layers i name a -> has layers i name b -> a = b.
Proof. intros (l & E1 & H1) (l' & E2 & H2). rewrite E1 in E2. injection E2 as <-. congruence. Qed.
Lemma has_same layers layers' i name ps : nth_error layers' i = nth_error layers i -> has layers i name ps -> has layers' i name ps.
Proof. intros E (l & El & H). exists l. split; [congruence|exact H]. Qed.

Section Support.
Context {P : Type} (inside : path -> P -> bool).
Notation covered := (covered inside).
Notation proper := (proper inside).
Notation par := (par inside).
Variable lib : clib.
Hypothesis E : exact inside lib.
Variable o : options.
Notation sup := (Support (Print o)).
Notation gap := (ToMicrometer (s_Gap sup)).

Lemma enlarge_ok ps off d : exists r, (let* x := InsetLayer lib ps off 1 d in Ok (ToOneDimension x)) = Ok r /\ (forall x, par r x = oddly (fun p => near inside lib d p x) ps) /\ (near_apart inside lib d ps -> proper r).
Proof.
  induction ps as [|p ps (r & Er & Hr & Pr)]; cbn [InsetLayer bind oddly]; [exists []; split; [reflexivity|split; [reflexivity|intros _; apply proper_nil]]|].
  unfold Inset. change (Z.to_nat 1) with 1%nat. cbn [inset_loop]. destruct (offset_ok inside lib E (f64_of_Z d) p) as (q & -> & Pq & Hq). cbn [bind].
  apply bind_Ok in Er. destruct Er as (y & Ey & Er). injection Er as <-. rewrite Ey. cbn [bind]. exists (q ++ ToOneDimension y). split; [reflexivity|]. split.
  - intros x. rewrite par_app, Hq, Hr. reflexivity.
  - intros A. assert (Q : proper (ToOneDimension y)) by (apply Pr; intros x; exact (proj2 (A x))). apply proper_app; [exact Pq|exact Q|]. intros x C1 C2.
    apply (par_proper inside _ _ Pq) in C1. apply (par_proper inside _ _ Q) in C2. rewrite Hq in C1. rewrite Hr, oddly_xor in C2. apply (xor_one _ _ (proj2 (A x))) in C2. destruct C2 as (p' & Ip' & N'). exact (proj1 (A x) C1 p' Ip' N').
Qed.

(** *** the generator *)
Variable layers : list layer.
Notation N := (List.length layers).
Hypothesis Typed : support_typed layers.
Hypothesis Fresh : fresh ["fullSupport"; "supportInterface"] layers.
Hypothesis IL : 0 <= s_InterfaceLayers sup.
(** layer [j] has its final attributes *)
Definition done (cur : list layer) (j : nat) : Prop := exists l l' D S I W B,
  nth_error layers j = Some l /\ nth_error cur j = Some l' /\ PartsAttribute l "support" = Ok D /\ BrimOuterDimension l = Ok B /\
  PartsAttribute l' "fullSupport" = Ok S /\ PartsAttribute l' "supportInterface" = Ok I /\ PartsAttribute l' "support" = Ok W /\ proper S /\ proper I /\ proper W /\ (S = [] -> W = []) /\
  (forall x, covered S x <-> (from_above inside layers cur j x \/ par D x = true) /\ oddly (fun p => near inside lib (quot64 gap 2) p x) (LayerParts l) = false) /\
  (forall x, covered I x <-> covered S x /\ ~ deep inside cur (s_InterfaceLayers sup) j x /\ par B x = false) /\
  (forall x, covered W x <-> covered S x /\ deep inside cur (s_InterfaceLayers sup) j x /\ par B x = false).
Lemma from_above_same cur cur' j x : (forall k, (j < k)%nat -> nth_error cur' k = nth_error cur k) -> from_above inside layers cur j x <-> from_above inside layers cur' j x.
Proof.
  intros H. assert (G : forall s, has cur (j + 1) "fullSupport" s <-> has cur' (j + 1) "fullSupport" s). { intros s. split; apply has_same; [|symmetry]; apply H; lia. }
  unfold from_above. split; (intros [A|(L & s & Hs & C)]; [left; exact A|right; split; [exact L|]; exists s; split; [apply G, Hs|exact C]]).
Qed.
Lemma deep_same cur cur' c j x : List.length cur' = List.length cur -> (j < List.length cur)%nat -> (forall k, (j < k)%nat -> nth_error cur' k = nth_error cur k) -> (S j < List.length cur)%nat ->
  deep inside cur c j x <-> deep inside cur' c j x.
Proof.
  intros L Hj H Hs. unfold deep. rewrite L. split; intros (C & s & Hx & Cx); (split; [exact C|]); exists s; (split; [|exact Cx]); revert Hx; apply has_same; [|symmetry]; apply H; lia.
Qed.
Lemma done_same cur cur' j : List.length cur' = List.length cur -> List.length cur = N -> (j + 2 < N)%nat -> (forall k, (j <= k)%nat -> nth_error cur' k = nth_error cur k) -> done cur j -> done cur' j.
Proof.
  intros L LN Hj H (l & l' & D & S & I & W & B & H1 & H2 & H3 & H4 & H5 & H6 & H7 & H8 & H9 & H10 & H0 & H11 & H12 & H13).
  exists l, l', D, S, I, W, B. split; [exact H1|]. split; [rewrite H by lia; exact H2|]. repeat (split; [assumption|]).
  assert (G : forall k, (j < k)%nat -> nth_error cur' k = nth_error cur k) by (intros k Hk; apply H; lia). split; [|split]; intros x.
  - rewrite H11, (from_above_same cur cur' j x G). reflexivity.
  - rewrite H12, (deep_same cur cur' (s_InterfaceLayers sup) j x L) by (lia || exact G). reflexivity.
  - rewrite H13, (deep_same cur cur' (s_InterfaceLayers sup) j x L) by (lia || exact G). reflexivity.
Qed.
Definition ginv (n : nat) (last : list part) (cur : list layer) : Prop :=
  List.length cur = N /\ (forall j, (j < n)%nat -> nth_error cur j = nth_error layers j) /\ (forall j, (N <= j + 2)%nat -> nth_error cur j = nth_error layers j) /\
  (forall j, (n <= j)%nat -> (j + 2 < N)%nat -> done cur j) /\
  ((n + 2 = N)%nat /\ last = [] \/ (n + 2 < N)%nat /\ has cur n "fullSupport" last \/ (N < n + 2)%nat).
Lemma fresh_none j l name : nth_error layers j = Some l -> In name ["fullSupport"; "supportInterface"] -> attribute l name = None.
Proof. intros El I. unfold fresh in Fresh. rewrite Forall_forall in Fresh. apply Fresh; [exact (nth_error_In _ _ El)|exact I]. Qed.
(** what the loop finds in "fullSupport" above *)
Lemma full_above n last cur j : ginv (S n) last cur -> (S n + 2 <= N)%nat -> (n < j < N)%nat -> exists s, has cur j "fullSupport" s /\ proper s.
Proof.
  intros (L & B & T & D & _) Hn Hj. destruct (Nat.lt_ge_cases (j + 2) N) as [Lt|Ge].
  - destruct (D j ltac:(lia) Lt) as (l & l' & D0 & S & I & W & B0 & H1 & H2 & H3 & H4 & H5 & H6 & H7 & H8 & _). exists S. split; [exists l'; auto|exact H8].
  - destruct (nth_error layers j) as [l|] eqn:El; [|apply nth_error_None in El; lia]. exists []. split; [|apply proper_nil]. exists l. split; [rewrite T by lia; exact El|].
    unfold PartsAttribute. rewrite (fresh_none j l "fullSupport" El) by (left; reflexivity). reflexivity.
Qed.
Lemma split_ok n last cur target S : ginv (Datatypes.S n) last cur -> (Datatypes.S n + 2 <= N)%nat -> nth_error layers n = Some target -> proper S ->
  exists I W B, split_support lib o cur (Z.of_nat (Datatypes.S n)) target S = Ok (I, W) /\ BrimOuterDimension target = Ok B /\ proper I /\ proper W /\ (S = [] -> W = []) /\
    (forall x, covered I x <-> covered S x /\ ~ deep inside cur (s_InterfaceLayers sup) n x /\ par B x = false) /\
    (forall x, covered W x <-> covered S x /\ deep inside cur (s_InterfaceLayers sup) n x /\ par B x = false).
Proof.
  intros G Hn Et PS. destruct (proj2 (Typed target (nth_error_In _ _ Et))) as (B & EB). pose proof G as (L & Lo & _). destruct S as [|s0 S].
  { exists [], [], B. split; [reflexivity|]. split; [exact EB|]. split; [apply proper_nil|]. split; [apply proper_nil|]. split; [reflexivity|]. split; intros x; split; try (intros C; destruct (covered_nil inside x C)); intros (C & _); destruct (covered_nil inside x C). }
  set (SS := s0 :: S) in *. unfold split_support. fold SS. unfold SS at 1. rewrite L.
  assert (A : exists la sa, idx cur (if Z.of_nat N <=? Z.of_nat (Datatypes.S n) + s_InterfaceLayers sup - 1 then Z.of_nat N - 1 else Z.of_nat (Datatypes.S n) + s_InterfaceLayers sup - 1) = Ok la /\
              PartsAttribute la "fullSupport" = Ok sa /\ proper sa /\ forall x, deep inside cur (s_InterfaceLayers sup) n x <-> covered sa x).
  { set (m := Z.to_nat (Z.min (Z.of_nat n + s_InterfaceLayers sup) (Z.of_nat N - 1))).
    replace (if Z.of_nat N <=? _ then _ else _) with (Z.of_nat m) by (unfold m; destruct (Z.leb_spec (Z.of_nat N) (Z.of_nat (Datatypes.S n) + s_InterfaceLayers sup - 1)); lia).
    rewrite idx_nth. destruct (Z.eqb_spec (s_InterfaceLayers sup) 0) as [Z0|NZ].
    - assert (m = n) as -> by (unfold m; lia). rewrite Lo by lia. rewrite Et. exists target, []. split; [reflexivity|]. split; [unfold PartsAttribute; rewrite (fresh_none n target "fullSupport" Et) by (left; reflexivity); reflexivity|].
      split; [apply proper_nil|]. intros x. split; [intros (C & _); lia|intros C; destruct (covered_nil inside x C)].
    - destruct (full_above n last cur m G Hn ltac:(unfold m; lia)) as (s & (la & Ela & Hs) & Ps). rewrite Ela. exists la, s. split; [reflexivity|]. split; [exact Hs|]. split; [exact Ps|].
      intros x. unfold deep. rewrite L. fold m. split.
      + intros (_ & s' & H' & C). assert (s' = s) as -> by (apply (has_det _ _ _ _ _ H'); exists la; auto). exact C.
      + intros C. split; [lia|]. exists s. split; [exists la; auto|exact C]. }
  destruct A as (la & sa & Ela & Esa & Psa & Hd). unfold SS at 1. rewrite Ela. cbn [bind]. rewrite Esa. cbn [bind]. fold SS.
  destruct (ok_run inside lib E "error while calculating interface parts" CtDifference SS sa) as (I & EI & PI & _ & HI). unfold Difference. rewrite EI. cbn [bind].
  destruct (ok_run inside lib E "error while calculating the actual support without the interface parts" CtDifference SS I) as (W & EW & PW & _ & HW). rewrite EW. cbn [bind]. rewrite EB. cbn [bind].
  assert (CI : forall x, par I x = true <-> covered SS x /\ ~ deep inside cur (s_InterfaceLayers sup) n x).
  { intros x. rewrite HI. cbn [op]. rewrite andb_true_iff, negb_true_iff, (par_proper inside SS x PS), <- not_true_iff_false, (par_proper inside sa x Psa), Hd. reflexivity. }
  assert (CW : forall x, par W x = true <-> covered SS x /\ deep inside cur (s_InterfaceLayers sup) n x).
  { intros x. rewrite HW. cbn [op]. rewrite andb_true_iff, negb_true_iff, (par_proper inside SS x PS), HI. cbn [op]. rewrite Hd, <- (par_proper inside sa x Psa), <- (par_proper inside SS x PS). destruct (par SS x), (par sa x); cbn; intuition congruence. }
  destruct B as [|b0 B].
  - exists I, W, []. split; [reflexivity|]. split; [reflexivity|]. split; [exact PI|]. split; [exact PW|]. split; [discriminate|]. split; intros x.
    + rewrite <- (par_proper inside I x PI), CI, par_nil. tauto.
    + rewrite <- (par_proper inside W x PW), CW, par_nil. tauto.
  - destruct (run_ok inside lib E CtDifference I (b0 :: B)) as (I' & EI' & PI' & _ & HI'). rewrite EI'. cbn [bind]. destruct (run_ok inside lib E CtDifference W (b0 :: B)) as (W' & EW' & PW' & _ & HW'). rewrite EW'. cbn [bind].
    exists I', W', (b0 :: B). split; [reflexivity|]. split; [reflexivity|]. split; [exact PI'|]. split; [exact PW'|]. split; [discriminate|]. split; intros x.
    + rewrite <- (par_proper inside I' x PI'), HI'. cbn [op]. rewrite andb_true_iff, negb_true_iff, CI. tauto.
    + rewrite <- (par_proper inside W' x PW'), HW'. cbn [op]. rewrite andb_true_iff, negb_true_iff, CW. tauto.
Qed.
Lemma generator_ok : forall n last cur, (n + 2 <= N)%nat -> ginv n last cur -> exists cur' last', generator_loop lib o n last cur = Ok cur' /\ ginv 0 last' cur'.
Proof.
  induction n as [|n IH]; intros last cur Hn G; cbn [generator_loop]; [eauto|]. pose proof G as (L & Lo & T & D & La). rewrite idx_nth.
  destruct (nth_error cur (S n)) as [l|] eqn:El; [|apply nth_error_None in El; lia]. cbn [bind].
  (* the support from above *)
  assert (CS : exists cs, match last with [] => PartsAttribute l "support" | _ => Ok last end = Ok cs /\ forall x, par cs x = true <-> from_above inside layers cur n x).
  { destruct La as [(Ln & ->)|[(Ln & Hl)|Ln]]; [| |lia].
    - assert (El0 : nth_error layers (S n) = Some l) by (rewrite <- T by lia; exact El). destruct (proj1 (Typed l (nth_error_In _ _ El0))) as (d & Hd). exists d. split; [exact Hd|]. intros x. split.
      + intros C. left. split; [lia|]. exists d. split; [|exact C]. exists l. replace (n + 1)%nat with (S n) by lia. auto.
      + intros [(_ & d' & (l' & El' & Hd') & C)|(Hx & _)]; [|lia]. replace (n + 1)%nat with (S n) in El' by lia. rewrite El0 in El'. injection El' as <-. rewrite Hd in Hd'. injection Hd' as <-. exact C.
    - destruct (D (S n) ltac:(lia) Ln) as (l0 & l' & D0 & S0 & I & W & B0 & H1 & H2 & H3 & H4 & H5 & H6 & H7 & H8 & H9 & H10 & H11 & _). rewrite El in H2. injection H2 as <-.
      assert (last = S0) as -> by (apply (has_det _ _ _ _ _ Hl); exists l; auto). exists (match S0 with [] => W | _ => S0 end). split; [destruct S0; auto|].
      assert (Q : forall x, covered S0 x <-> from_above inside layers cur n x).
      { intros x. split; [intros C; right; split; [lia|]; exists S0; split; [exists l; replace (n + 1)%nat with (S n) by lia; auto|exact C]|].
        intros [(Hx & _)|(_ & s' & Hs' & C)]; [lia|]. assert (s' = S0) as -> by (apply (has_det _ _ _ _ _ Hs'); exists l; replace (n + 1)%nat with (S n) by lia; auto). exact C. }
      intros x. rewrite <- Q, <- (par_proper inside S0 x H8). destruct S0; [rewrite H11 by reflexivity; reflexivity|reflexivity]. }
  destruct CS as (cs & Ecs & Hcs). rewrite Ecs. cbn [bind]. replace (Z.of_nat (S n) - 1) with (Z.of_nat n) by lia. rewrite idx_nth, Lo by lia.
  destruct (nth_error layers n) as [target|] eqn:Et; [|apply nth_error_None in Et; lia]. cbn [bind]. destruct (proj1 (Typed target (nth_error_In _ _ Et))) as (bs & Ebs). rewrite Ebs. cbn [bind].
  (* a round with a result *)
  assert (R : exists cur' last', (let* result := ok_or ("could not union the supports for layer " ++ itoa (Z.of_nat (S n)) ++ " to generate support")%string (Union lib cs bs) in
          let gap := gap in
          let* biggerLayer := enlarged lib target (neg64 gap) (quot64 gap 2) in
          let* actualSupport := ok_or ("could not subtract the model from the supports for layer " ++ itoa (Z.of_nat (S n)))%string (Difference lib result biggerLayer) in
          let* (interfaceParts, without) := split_support lib o cur (Z.of_nat (S n)) target actualSupport in
          let l' := set_attribute "support" (AParts without)
                      (set_parts "supportInterface" interfaceParts (set_parts "fullSupport" actualSupport (newExtendedLayer target))) in
          let* layers' := put (Z.of_nat n) l' cur in
          generator_loop lib o n actualSupport layers') = Ok cur' /\ ginv 0 last' cur').
  { destruct (ok_run inside lib E ("could not union the supports for layer " ++ itoa (Z.of_nat (S n)) ++ " to generate support")%string CtUnion cs bs) as (result & Er & Pr & _ & Hr). unfold Union. rewrite Er. cbn [bind]. cbv zeta.
    unfold enlarged. destruct (enlarge_ok (LayerParts target) (neg64 gap) (quot64 gap 2)) as (big & Eb & Hb & _). rewrite Eb. cbn [bind].
    destruct (ok_run inside lib E ("could not subtract the model from the supports for layer " ++ itoa (Z.of_nat (S n)))%string CtDifference result big) as (S1 & Es & Ps & _ & Hs). unfold Difference. rewrite Es. cbn [bind].
    destruct (split_ok n last cur target S1 G ltac:(lia) Et Ps) as (I & W & B & Esp & EB & PI & PW & HW0 & HI & HW). rewrite Esp. cbn [bind]. rewrite put_in by lia. cbn [bind].
    set (l' := set_attribute "support" (AParts W) _). apply IH; [lia|].
    assert (K : forall k, (n < k)%nat -> nth_error (set_nth n l' cur) k = nth_error cur k) by (intros k Hk; rewrite nth_set by lia; destruct (Nat.eqb_spec n k); [lia|reflexivity]).
    assert (A1 : PartsAttribute l' "fullSupport" = Ok S1). { unfold l', PartsAttribute. rewrite lookup_set, !lookup_parts, lookup_new, (fresh_none n target "fullSupport" Et) by (left; reflexivity). cbn [String.eqb Ascii.eqb Bool.eqb]. destruct S1; reflexivity. }
    assert (A2 : PartsAttribute l' "supportInterface" = Ok I). { unfold l', PartsAttribute. rewrite lookup_set, !lookup_parts, lookup_new, (fresh_none n target "supportInterface" Et) by (right; left; reflexivity). cbn [String.eqb Ascii.eqb Bool.eqb]. destruct I; reflexivity. }
    assert (A3 : PartsAttribute l' "support" = Ok W). { unfold l', PartsAttribute. rewrite lookup_set. reflexivity. }
    split; [rewrite set_nth_length; exact L|]. split; [intros j Hj; rewrite nth_set by lia; destruct (Nat.eqb_spec n j); [lia|]; apply Lo; lia|].
    split; [intros j Hj; rewrite K by lia; apply T; lia|]. split.
    - intros j Hj Hj2. destruct (Nat.eq_dec j n) as [->|Nj].
      + exists target, l', bs, S1, I, W, B. split; [exact Et|]. split; [rewrite nth_set by lia; rewrite Nat.eqb_refl; reflexivity|]. repeat (split; [assumption|]). split; [|split]; intros x.
        * rewrite <- (par_proper inside S1 x Ps), Hs. cbn [op]. rewrite andb_true_iff, negb_true_iff, Hr, Hb. cbn [op]. rewrite orb_true_iff, Hcs, (from_above_same cur (set_nth n l' cur) n x K). reflexivity.
        * rewrite HI, (deep_same cur (set_nth n l' cur) (s_InterfaceLayers sup) n x) by (rewrite ?set_nth_length; lia || reflexivity || exact K). reflexivity.
        * rewrite HW, (deep_same cur (set_nth n l' cur) (s_InterfaceLayers sup) n x) by (rewrite ?set_nth_length; lia || reflexivity || exact K). reflexivity.
      + apply (done_same cur); [rewrite set_nth_length; lia|exact L|exact Hj2|intros k Hk; apply K; lia|]. apply D; lia.
    - right. left. split; [lia|]. exists l'. split; [rewrite nth_set by lia; rewrite Nat.eqb_refl; reflexivity|exact A1]. }
  destruct cs as [|c cs]; [destruct bs as [|b bs]|]; [|exact R|exact R]. clear R. apply IH; [lia|].
  assert (Z0 : forall x, ~ from_above inside layers cur n x) by (intros x C; apply Hcs in C; discriminate).
  assert (last = []) as Z1. { destruct last; [reflexivity|]. discriminate. } rewrite Z1 in *. clear Ecs.
  assert (F1 : attribute target "fullSupport" = None) by (apply (fresh_none n target _ Et); left; reflexivity). assert (F2 : attribute target "supportInterface" = None) by (apply (fresh_none n target _ Et); right; left; reflexivity).
  split; [exact L|]. split; [intros j Hj; apply Lo; lia|]. split; [exact T|]. split.
  - intros j Hj Hj2. destruct (Nat.eq_dec j n) as [->|Nj]; [|apply D; lia]. destruct (proj2 (Typed target (nth_error_In _ _ Et))) as (B & EB).
    exists target, target, [], [], [], [], B. split; [exact Et|]. split; [rewrite Lo by lia; exact Et|]. split; [exact Ebs|]. split; [exact EB|]. unfold PartsAttribute at 1 2. rewrite F1, F2. split; [reflexivity|]. split; [reflexivity|]. split; [exact Ebs|].
    do 3 (split; [apply proper_nil|]). split; [reflexivity|]. split; [|split]; intros x; (split; [intros C; destruct (covered_nil inside x C)|]).
    + intros ([C|C] & _); [destruct (Z0 x C)|discriminate].
    + intros (C & _); destruct (covered_nil inside x C).
    + intros (C & _); destruct (covered_nil inside x C).
  - right. left. split; [lia|]. exists target. split; [rewrite Lo by lia; exact Et|]. unfold PartsAttribute. rewrite F1. reflexivity.
Qed.
Lemma generator_spec : s_Enabled sup = true -> exists layers', SupportGeneratorModify lib o layers = Ok layers' /\ List.length layers' = N /\ (forall j, (N <= j + 2)%nat -> nth_error layers' j = nth_error layers j) /\
  forall j, (j + 2 < N)%nat -> done layers' j.
Proof.
  intros En. unfold SupportGeneratorModify. rewrite En. cbn [negb]. destruct (Nat.lt_ge_cases N 2) as [Lt|Ge].
  - replace (N - 2)%nat with O by lia. exists layers. split; [reflexivity|]. split; [reflexivity|]. split; [reflexivity|]. intros j Hj. lia.
  - destruct (generator_ok (N - 2) [] layers) as (layers' & last' & H & (L & _ & T & D & _)); [lia| |].
    + split; [reflexivity|]. split; [reflexivity|]. split; [reflexivity|]. split; [intros j Hj Hj2; lia|]. left. split; [lia|reflexivity].
    + exists layers'. split; [exact H|]. split; [exact L|]. split; [exact T|]. intros j Hj. apply D; lia.
Qed.
End Support.

(** *** the detector *)
Lemma overhang_ext lib o tangent l l' a a' : lparts l = lparts l' -> lparts a = lparts a' -> overhang lib o tangent l a = overhang lib o tangent l' a'.
Proof. intros H1 H2. unfold overhang, enlarged. rewrite (LayerParts_eq l l' H1), H2. reflexivity. Qed.
Section Detector.
Variables (lib : clib) (o : options) (tangent : f64 -> f64) (layers : list layer).
Notation sup := (Support (Print o)).
Notation N := (List.length layers).
Hypothesis En : s_Enabled sup = true.
Hypothesis TG : 0 <= s_TopGapLayers sup.
Notation T := (Z.to_nat (s_TopGapLayers sup)).
Definition dinv (i : nat) (cur : list layer) : Prop := List.length cur = N /\ forall j l, nth_error layers j = Some l ->
  ((j + T < i)%nat /\ (j + T + 1 < N)%nat -> exists a b s, nth_error layers (j + T) = Some a /\ nth_error layers (j + T + 1) = Some b /\ overhang lib o tangent a b = Ok s /\ nth_error cur j = Some (set_parts "support" s (newExtendedLayer l))) /\
  (~ ((j + T < i)%nat /\ (j + T + 1 < N)%nat) -> nth_error cur j = Some l).
Lemma dinv_parts i cur j l : dinv i cur -> nth_error layers j = Some l -> exists l', nth_error cur j = Some l' /\ lparts l' = lparts l.
Proof.
  intros (L & H) El. destruct (H j l El) as (H1 & H2). destruct (lt_dec (j + T) i) as [A|A]; [destruct (lt_dec (j + T + 1) N) as [B|B]|].
  - destruct (H1 (conj A B)) as (a & b & s & _ & _ & _ & Ec). eexists. split; [exact Ec|]. rewrite parts_parts. reflexivity.
  - exists l. split; [apply H2; lia|reflexivity].
  - exists l. split; [apply H2; lia|reflexivity].
Qed.
Lemma dinv_step i cur : (i < N)%nat -> dinv i cur ->
  (exists cur', detector_step lib o tangent (Z.of_nat i) cur = Ok (Some cur') /\ dinv (S i) cur') \/
  exists a b, nth_error layers i = Some a /\ nth_error layers (i + 1) = Some b /\ (forall s, overhang lib o tangent a b <> Ok s) /\ (forall r, detector_step lib o tangent (Z.of_nat i) cur <> Ok r).
Proof.
  intros Hi I. pose proof I as (L & H). unfold detector_step. rewrite En. cbn [negb]. rewrite L.
  destruct ((Z.of_nat i =? Z.of_nat N - 1) || (Z.of_nat i <? s_TopGapLayers sup)) eqn:Sk.
  - left. exists cur. split; [reflexivity|]. split; [exact L|]. intros j l El. destruct (H j l El) as (H1 & H2).
    assert (Q : ~ ((j + T < S i)%nat /\ (j + T + 1 < N)%nat) \/ (j + T < i)%nat). { apply orb_true_iff in Sk. rewrite Z.eqb_eq, Z.ltb_lt in Sk. lia. }
    split; [intros HH; apply H1; lia|intros HH; apply H2; lia].
  - apply orb_false_iff in Sk. rewrite Z.eqb_neq, Z.ltb_ge in Sk. destruct Sk as (S1 & S2).
    destruct (nth_error layers i) as [a|] eqn:Ea; [|apply nth_error_None in Ea; lia]. destruct (nth_error layers (i + 1)) as [b|] eqn:Eb; [|apply nth_error_None in Eb; lia].
    destruct (dinv_parts i cur i a I Ea) as (a' & Ea' & Pa). destruct (dinv_parts i cur (i + 1) b I Eb) as (b' & Eb' & Pb).
    rewrite idx_nth, Ea'. cbn [bind]. replace (Z.of_nat i + 1) with (Z.of_nat (i + 1)) by lia. rewrite idx_nth, Eb'. cbn [bind]. rewrite (overhang_ext lib o tangent a' a b' b Pa Pb).
    destruct (overhang lib o tangent a b) as [s|m|m|] eqn:Eo; [|right; exists a, b; (split; [reflexivity|]); (split; [reflexivity|]); split; [intros ? ?; congruence|intros ? HH; discriminate HH]..].
    left. cbn [bind]. replace (Z.of_nat i - s_TopGapLayers sup) with (Z.of_nat (i - T)) by lia. rewrite idx_nth. destruct (nth_error layers (i - T)) as [t|] eqn:Et; [|apply nth_error_None in Et; lia].
    destruct (H (i - T)%nat t Et) as (_ & Ht). rewrite Ht by lia. cbn [bind]. rewrite put_in by lia. cbn [bind]. eexists. split; [reflexivity|]. split; [rewrite set_nth_length; exact L|].
    intros j l El. rewrite nth_set by lia. destruct (H j l El) as (H1 & H2). destruct (Nat.eqb_spec (i - T) j) as [<-|Nj].
    + replace (i - T + T)%nat with i by lia. split; [|lia]. intros _. rewrite Et in El. injection El as <-. exists a, b, s. auto.
    + split; [intros HH; apply H1; lia|intros HH; apply H2; lia].
Qed.
Lemma detector_spec layers' : SupportDetectorModify lib o tangent layers = Ok layers' -> dinv N layers'.
Proof.
  intros Ed. unfold SupportDetectorModify in Ed. destruct (over_layers_partial dinv (fun _ => False) (detector_step lib o tangent) N) with (n := N) (i := O) (ls := layers) (ls' := layers') as [H|[]]; try assumption; [|reflexivity|].
  - intros i cur r Hi I Er. destruct (dinv_step i cur Hi I) as [(cur' & E1 & I')|(a & b & _ & _ & _ & C)]; [|destruct (C r Er)]. rewrite Er in E1. injection E1 as ->. exact I'.
  - split; [reflexivity|]. intros j l El. split; [lia|intros _; exact El].
Qed.
Lemma detector_total : (forall a b, exists s, overhang lib o tangent a b = Ok s) -> exists layers', SupportDetectorModify lib o tangent layers = Ok layers'.
Proof.
  intros To. unfold SupportDetectorModify. apply (over_layers_total dinv (detector_step lib o tangent) N) with (i := O); [|reflexivity|].
  - intros i cur Hi I. destruct (dinv_step i cur Hi I) as [(cur' & E1 & I')|(a & b & _ & _ & C & _)]; [eauto|]. destruct (To a b) as (s & Hs). destruct (C s Hs).
  - split; [reflexivity|]. intros j l El. split; [lia|intros _; exact El].
Qed.
End Detector.
Section Overhang.
Context {P : Type} (inside : path -> P -> bool).
Variable lib : clib.
Hypothesis E : exact inside lib.
Variables (o : options) (tangent : f64 -> f64).
Notation spacing := (ToMicrometer (s_PatternSpacing (Support (Print o)))).
Lemma overhang_ok a b : exists raw s, overhang lib o tangent a b = Ok s /\ proper inside raw /\ (raw = [] \/ clip_result lib raw) /\
  (forall x, par inside raw x = par inside (LayerParts b) x && negb (oddly (fun p => near inside lib (quot64 (neg64 (support_distance o tangent)) 2) p x) (LayerParts a))) /\
  (forall x, par inside s x = oddly (fun p => near inside lib (quot64 (mul64 spacing 3) 2) p x) raw) /\ (near_apart inside lib (quot64 (mul64 spacing 3) 2) raw -> proper inside s).
Proof.
  unfold overhang, enlarged. destruct (enlarge_ok inside lib E (LayerParts a) (support_distance o tangent) (quot64 (neg64 (support_distance o tangent)) 2)) as (off & -> & Ho & _). cbn [bind].
  assert (R : exists raw, ok_or "could not calculate the support parts" (difference_of lib (lparts b) off) = Ok raw /\ proper inside raw /\ (raw = [] \/ clip_result lib raw) /\ forall x, par inside raw x = par inside (LayerParts b) x && negb (par inside off x)).
  { unfold difference_of, ok_or, LayerParts. destruct (lparts b) as [ps|]; [|destruct off as [|o0 off]].
    - destruct (clip_ok inside lib E CtDifference ps off) as (r & -> & H2 & H3 & H4). cbn [bind]. exists r. auto.
    - exists []. split; [reflexivity|]. split; [apply proper_nil|]. split; [left; reflexivity|reflexivity].
    - destruct (clip_ok inside lib E CtDifference [] (o0 :: off)) as (r & -> & H2 & H3 & H4). cbn [bind]. exists r. auto. }
  destruct R as (raw & -> & Pr & Cr & Hr). cbn [bind]. cbv zeta. destruct (enlarge_ok inside lib E raw (mul64 (neg64 spacing) 3) (quot64 (mul64 spacing 3) 2)) as (s & -> & Hs & Ps).
  exists raw, s. split; [reflexivity|]. split; [exact Pr|]. split; [exact Cr|]. split; [intros x; rewrite Hr, Ho; reflexivity|]. split; [exact Hs|exact Ps].
Qed.
End Overhang.
