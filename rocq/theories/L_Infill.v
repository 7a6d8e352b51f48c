(** Perimeters, solid and internal infill of a stack of layers. *)
From Verif Require Import GoBase GoFloat GoStr M_Micrometer M_Geom2D M_Option M_Clip M_Builder M_Layer M_Modifier S_Clip L_Clip S_Area L_Area S_Modifier L_Modifier L_Amount L_ModArea.
Local Open Scope string_scope.
Local Open Scope list_scope.
Local Open Scope Z_scope.

Lemma f2_nth {A B} (R : A -> B -> Prop) l m i a : Forall2 R l m -> nth_error l i = Some a -> exists b, nth_error m i = Some b /\ R a b.
Proof.
  intros F. revert i. induction F as [|x y l m H F IH]; intros [|i]; cbn [nth_error]; intros E; try discriminate.
  - injection E as ->. eauto.
  - exact (IH i E).
Qed.
Lemma f2_nth_r {A B} (R : A -> B -> Prop) l m i b : Forall2 R l m -> nth_error m i = Some b -> exists a, nth_error l i = Some a /\ R a b.
Proof.
  intros F. revert i. induction F as [|x y l m H F IH]; intros [|i]; cbn [nth_error]; intros E; try discriminate.
  - injection E as ->. eauto.
  - exact (IH i E).
Qed.
Lemma f2_len {A B} (R : A -> B -> Prop) l m : Forall2 R l m -> List.length l = List.length m.
Proof. induction 1; cbn; congruence. Qed.

Section Perimeter.
Variable lib : clib.
Variable o : options.
Notation width := (ExtrusionWidth (Printer o)).
Notation IC := (InsetCount (Print o)).
Notation IOP := (InfillOverlapPercent (Print o)).
Lemma inset_layer_f2 off count init : forall layer r, InsetLayer lib layer off count init = Ok r -> Forall2 (fun p x => Inset lib p off count init = Ok x) layer r.
Proof.
  induction layer as [|p l IH]; intros r; cbn [InsetLayer]; [intros [= <-]; constructor|]. intros H. apply bind_Ok in H. destruct H as (x & Ex & H).
  apply bind_Ok in H. destruct H as (r' & Er & H). injection H as <-. constructor; auto.
Qed.
Lemma inset_total p off count init : exists x, Inset lib p off count init = Ok x /\ List.length x = Z.to_nat count.
Proof.
  unfold Inset. generalize (f64_of_Z init) as cur. induction (Z.to_nat count) as [|n IH]; intros cur; cbn [inset_loop]; [exists []; auto|].
  destruct (tree_spec (offset lib cur (outline p :: holes p))) as (one & -> & _). cbn [bind]. destruct (IH (add64f cur (f64_of_Z (neg64 off)))) as (r & -> & L). cbn [bind]. exists (one :: r). cbn; auto.
Qed.
Lemma inset_layer_total off count init : forall layer, exists r, InsetLayer lib layer off count init = Ok r.
Proof.
  induction layer as [|p l (r & IH)]; cbn [InsetLayer]; [eauto|]. destruct (inset_total p off count init) as (x & -> & _). cbn [bind]. rewrite IH. cbn [bind]. eauto.
Qed.
Lemma overlap_entries_f2 : forall pe ov, overlap_entries lib o pe = Ok ov -> Forall2 (fun e x => e <> [] /\ overlap_all lib o IOP (last e []) = Ok x) pe ov.
Proof.
  induction pe as [|e pe IH]; intros ov; cbn [overlap_entries]; [intros [= <-]; constructor|]. intros H. apply bind_Ok in H. destruct H as (inner & Ei & H).
  apply bind_Ok in H. destruct H as (x & Ex & H). apply bind_Ok in H. destruct H as (r & Er & H). injection H as <-. constructor; [|auto].
  assert (N : e <> []) by (intros ->; discriminate). split; [exact N|]. rewrite (idx_last e [] N) in Ei. injection Ei as ->. exact Ex.
Qed.
(** what the perimeter modifier stores *)
Definition per_layer (l l' : layer) : Prop := exists pe ov,
  Perimeters l' = Ok pe /\ OverlapPerimeters l' = Ok ov /\
  Forall2 (fun p e => Inset lib p width IC (quot64 (neg64 width) 2) = Ok e) (LayerParts l) pe /\
  Forall2 (fun e x => e <> [] /\ overlap_all lib o IOP (last e []) = Ok x) pe ov.
Lemma perimeter_layer_spec l l' : perimeter_layer lib o l = Ok l' -> per_layer l l'.
Proof.
  unfold perimeter_layer. intros H. apply bind_Ok in H. destruct H as (pe & Ep & H). apply bind_Ok in H. destruct H as (ov & Eo & H). injection H as <-.
  exists pe, ov. split; [reflexivity|]. split; [reflexivity|]. split; [exact (inset_layer_f2 _ _ _ _ _ Ep)|exact (overlap_entries_f2 _ _ Eo)].
Qed.
End Perimeter.

Section Area.
Context {P : Type} (inside : path -> P -> bool).
Notation parity := (parity inside).
Notation in_part := (in_part inside).
Notation covered := (covered inside).
Notation proper_part := (proper_part inside).
Notation proper := (proper inside).
Notation par := (par inside).
Variable lib : clib.
Hypothesis E : exact inside lib.
Variable o : options.
Notation width := (ExtrusionWidth (Printer o)).
Notation IC := (InsetCount (Print o)).
Notation IOP := (InfillOverlapPercent (Print o)).
Notation full := (add64 IOP (AdditionalInternalInfillOverlapPercent (Print o))).
Hypothesis Hfull : amount_ok width full.
Notation solid_b := (solid_b inside lib o).
Notation solid_t := (solid_t inside lib o).

(** every inset is proper *)
Lemma inset_loop_proper p off n : forall cur ins, inset_loop lib p off n cur = Ok ins -> forall x, In x ins -> proper x.
Proof.
  induction n as [|n IH]; intros cur ins; cbn [inset_loop]; [intros [= <-] x []|]. destruct (offset_ok inside lib E cur p) as (r & -> & Pr & _). cbn [bind]. intros H.
  apply bind_Ok in H. destruct H as (rest & Er & H). injection H as <-. intros x [<-|I]; [exact Pr|exact (IH _ _ Er x I)].
Qed.
Lemma last_in {A} (l : list A) d : l <> [] -> In (last l d) l.
Proof. intros N. destruct (exists_last N) as (l' & a & ->). rewrite last_last, in_app_iff. right. left. reflexivity. Qed.
Lemma inner_proper l l' pe k e : per_layer lib o l l' -> Perimeters l' = Ok pe -> nth_error pe k = Some e -> proper (last e []).
Proof.
  intros (pe' & ov & E1 & _ & F1 & F2) E2 Ek. rewrite E1 in E2. injection E2 as ->. destruct (f2_nth_r _ _ _ _ _ F1 Ek) as (p & _ & Ei).
  destruct (f2_nth _ _ _ _ _ F2 Ek) as (x & _ & N & _). unfold Inset in Ei. exact (inset_loop_proper p _ _ _ _ Ei _ (last_in e [] N)).
Qed.

Lemma infill_layer_ok layers n l pe ov : (n < List.length layers)%nat -> Perimeters l = Ok pe -> OverlapPerimeters l = Ok ov -> pe <> [] -> List.length ov = List.length pe ->
  (forall e, In e pe -> e <> []) -> attribute l "bottom" = None -> attribute l "top" = None ->
  exists l' bs ts, infill_layer lib o layers n l = Ok (Some l') /\ PartsAttribute l' "bottom" = Ok bs /\ PartsAttribute l' "top" = Ok ts /\ proper bs /\ proper ts /\
    (forall x, covered bs x <-> exists j e bd p, nth_error pe j = Some e /\ nth_error ov j = Some bd /\ In p (last e []) /\ solid_b layers n p x /\ par bd x = true) /\
    (forall x, covered ts x <-> (exists j e bd p, nth_error pe j = Some e /\ nth_error ov j = Some bd /\ In p (last e []) /\ solid_t layers n p x /\ par bd x = true) /\ ~ covered bs x).
Proof.
  intros Hn Ep Eo Np Lo Ne Nb Nt. unfold infill_layer. rewrite Eo. cbn [bind]. destruct ov as [|ov0 ov1]; [destruct pe; [contradiction|discriminate]|]. set (ov := ov0 :: ov1) in *.
  rewrite Ep. cbn [bind]. destruct pe as [|pe0 pe1]; [contradiction|]. set (pe := pe0 :: pe1) in *.
  destruct (infill_entries_ok inside lib E o Hfull layers n ov Hn pe 0 [] [] ltac:(lia) Ne (proper_nil inside) (proper_nil inside)) as (bs & ts & Ee & Pb & Pt & Hb & Ht).
  change (Z.of_nat 0) with 0 in Ee. rewrite Ee. cbn [bind].
  assert (T : exists ts', match ts, bs with
              | _ :: _, _ :: _ => ok_or "error while calculating the difference of new top infill with the bottom infill to avoid duplicates" (Difference lib ts bs)
              | _, _ => Ok ts end = Ok ts' /\ proper ts' /\ forall x, covered ts' x <-> covered ts x /\ ~ covered bs x).
  { destruct ts as [|t0 ts1]; [exists []; split; [reflexivity|]; split; [apply proper_nil|]; intros x; split; [intros C; destruct (covered_nil inside x C)|intros [C _]; exact C]|].
    destruct bs as [|b0 bs1]; [exists (t0 :: ts1); split; [reflexivity|]; split; [exact Pt|]; intros x; split; [intros C; split; [exact C|apply covered_nil]|intros [C _]; exact C]|].
    destruct (ok_run inside lib E "error while calculating the difference of new top infill with the bottom infill to avoid duplicates" CtDifference (t0 :: ts1) (b0 :: bs1)) as (r & Er & Pr & _ & Hr).
    exists r. split; [exact Er|]. split; [exact Pr|]. intros x. rewrite <- (par_proper inside r x Pr), Hr. cbn [op]. rewrite andb_true_iff, negb_true_iff, (par_proper inside _ x Pt), <- (par_proper inside _ x Pb), not_true_iff_false. reflexivity. }
  destruct T as (ts' & -> & Pt' & Ht'). cbn [bind]. eexists. exists bs, ts'. split; [reflexivity|]. unfold PartsAttribute. rewrite !lookup_parts, !lookup_new, Nb, Nt. cbn [String.eqb Ascii.eqb Bool.eqb].
  split; [destruct bs; reflexivity|]. split; [destruct ts'; reflexivity|]. split; [exact Pb|]. split; [exact Pt'|]. split; intros x.
  - rewrite Hb. split; [intros [C|C]; [destruct (covered_nil inside x C)|exact C]|intros C; right; exact C].
  - rewrite Ht', Ht. split.
    + intros [[C|C] N]; [destruct (covered_nil inside x C)|split; [exact C|exact N]].
    + intros [C N]. split; [right; exact C|exact N].
Qed.

Lemma internal_parts_ok clipped : forall ov, exists is, internal_parts lib o ov clipped = Ok is /\
  forall x, covered is x <-> InfillPercent (Print o) <> 0 /\ (exists bd, In bd ov /\ par bd x = true) /\ par clipped x = false.
Proof.
  induction ov as [|bd ov (is & IH & Hi)]; cbn [internal_parts].
  - exists []. split; [reflexivity|]. intros x. split; [intros C; destruct (covered_nil inside x C)|intros (_ & (bd & [] & _) & _)].
  - destruct (Z.eqb_spec (InfillPercent (Print o)) 0) as [Z0|NZ].
    + exists is. split; [exact IH|]. intros x. rewrite Hi. split; intros (C & _); contradiction.
    + assert (G : exists r, (let* parts := ok_or "error while calculating the difference between the max overlap border and the bottom infill" (Difference lib bd clipped) in
                      let* r := internal_parts lib o ov clipped in Ok (parts ++ r)) = Ok r /\
                 forall x, covered r x <-> InfillPercent (Print o) <> 0 /\ (exists bd0, In bd0 (bd :: ov) /\ par bd0 x = true) /\ par clipped x = false).
      { destruct (ok_run inside lib E "error while calculating the difference between the max overlap border and the bottom infill" CtDifference bd clipped) as (r & Er & Pr & _ & Hr).
        change (Difference lib bd clipped) with (runClipper lib CtDifference bd clipped). rewrite Er. cbn [bind]. rewrite IH. cbn [bind]. exists (r ++ is). split; [reflexivity|].
        intros x. rewrite covered_app, <- (par_proper inside r x Pr), Hr, Hi. cbn [op]. rewrite andb_true_iff, negb_true_iff. split.
        - intros [[H1 H2]|(_ & (b & Ib & H1) & H2)]; (split; [exact NZ|]); (split; [|exact H2]); [exists bd; split; [left; reflexivity|exact H1]|exists b; split; [right; exact Ib|exact H1]].
        - intros (_ & (b & [<-|Ib] & H1) & H2); [left; auto|right]. split; [exact NZ|]. split; [exists b; auto|exact H2]. }
      destruct bd as [|b0 bd1]; [destruct clipped as [|c0 cl]|]; try exact G.
      exists is. split; [exact IH|]. intros x. rewrite Hi. split.
      * intros (_ & (b & Ib & H1) & H2). split; [exact NZ|]. split; [exists b; split; [right; exact Ib|exact H1]|exact H2].
      * intros (_ & (b & [<-|Ib] & H1) & H2); [rewrite par_nil in H1; discriminate|]. split; [exact NZ|]. split; [exists b; auto|exact H2].
Qed.
Lemma internal_layer_ok i l ov bs ts : OverlapPerimeters l = Ok ov -> ov <> [] -> PartsAttribute l "bottom" = Ok bs -> PartsAttribute l "top" = Ok ts -> attribute l "infill" = None ->
  proper bs -> proper ts -> (forall x, covered ts x -> ~ covered bs x) ->
  exists l' is, internal_layer lib o i l = Ok (Some l') /\ PartsAttribute l' "infill" = Ok is /\
    forall x, covered is x <-> InfillPercent (Print o) <> 0 /\ (exists bd, In bd ov /\ par bd x = true) /\ ~ covered bs x /\ ~ covered ts x.
Proof.
  intros Eo No Eb Et Ni Pb Pt D. unfold internal_layer. rewrite Eo. cbn [bind]. destruct ov as [|ov0 ov1]; [contradiction|]. rewrite Eb. cbn [bind]. rewrite Et. cbn [bind].
  destruct (internal_parts_ok (bs ++ ts) (ov0 :: ov1)) as (is & -> & Hi). cbn [bind]. eexists. exists is. split; [reflexivity|].
  unfold PartsAttribute. rewrite lookup_parts, Ni. cbn [String.eqb Ascii.eqb Bool.eqb]. split; [destruct is; reflexivity|].
  intros x. rewrite Hi. assert (Q : par (bs ++ ts) x = false <-> ~ covered bs x /\ ~ covered ts x).
  { assert (Pr : proper (bs ++ ts)) by (apply proper_app; [exact Pb|exact Pt|]; intros y C1 C2; exact (D y C2 C1)).
    rewrite <- not_true_iff_false, (par_proper inside _ x Pr), covered_app. tauto. }
  rewrite Q. tauto.
Qed.

(** *** the three modifiers *)
Variables layers l1 l2 l3 : list layer.
Hypothesis H1 : PerimeterModify lib o layers = Ok l1.
Hypothesis H2 : InfillModify lib o l1 = Ok l2.
Hypothesis H3 : InternalInfillModify lib o l2 = Ok l3.
Hypothesis F : fresh ["bottom"; "top"; "infill"] layers.

Lemma fresh_nth names ls i l name : fresh names ls -> nth_error ls i = Some l -> In name names -> attribute l name = None.
Proof. intros Hf En In_. unfold fresh in Hf. rewrite Forall_forall in Hf. exact (Hf l (nth_error_In _ _ En) name In_). Qed.
Lemma keeps_nth names a b i l' : keeps names a b -> nth_error b i = Some l' -> exists l, nth_error a i = Some l /\ lparts l' = lparts l /\ forall name, ~ In name names -> attribute l' name = attribute l name.
Proof. intros K En. destruct (f2_nth_r _ _ _ _ _ K En) as (l & El & Hl). eauto. Qed.
Lemma keeps_nth_l names a b i l : keeps names a b -> nth_error a i = Some l -> exists l', nth_error b i = Some l' /\ lparts l' = lparts l /\ forall name, ~ In name names -> attribute l' name = attribute l name.
Proof. intros K En. destruct (f2_nth _ _ _ _ _ K En) as (l' & El & Hl). eauto. Qed.
Lemma perimeters_eq l l' : attribute l' "perimeters" = attribute l "perimeters" -> Perimeters l' = Perimeters l.
Proof. unfold Perimeters. intros ->. reflexivity. Qed.
Lemma overlap_eq l l' : attribute l' "overlapPerimeters" = attribute l "overlapPerimeters" -> OverlapPerimeters l' = OverlapPerimeters l.
Proof. unfold OverlapPerimeters. intros ->. reflexivity. Qed.
Lemma parts_attr_eq l l' name : attribute l' name = attribute l name -> PartsAttribute l' name = PartsAttribute l name.
Proof. unfold PartsAttribute. intros ->. reflexivity. Qed.

(** the loops stop at the first layer without parts *)
Lemma infill_stop : exists stop, stepwise (infill_layer lib o l1) l1 l2 stop /\ forall n, (n < stop)%nat <-> filled layers n.
Proof.
  destruct (infill_spec lib o l1 l2 H2) as (stop & S). exists stop. split; [exact S|]. pose proof S as S0. destruct S as [L Ls B A T].
  pose proof (perimeter_spec lib o layers l1 H1) as F1. pose proof (f2_len _ _ _ F1) as Len.
  intros n. split.
  - intros Hn i Hi. assert (Hi' : (i < stop)%nat) by lia. destruct (nth_error l1 i) as [a|] eqn:Ea; [|apply nth_error_None in Ea; lia].
    destruct (B i a Hi' Ea) as (a' & _ & Ef). destruct (f2_nth_r _ _ _ _ _ F1 Ea) as (l & El & Hl). exists l. split; [exact El|]. intros Z0.
    apply perimeter_layer_spec in Hl. destruct Hl as (pe & ov & Ep & Eo & G1 & G2). rewrite Z0 in G1. inversion G1; subst. inversion G2; subst.
    unfold infill_layer in Ef. rewrite Eo in Ef. discriminate.
  - intros Fn. destruct (Nat.lt_ge_cases n stop) as [Lt|Ge]; [exact Lt|]. exfalso. destruct (Fn stop Ge) as (l & El & Nl).
    destruct (f2_nth _ _ _ _ _ F1 El) as (a & Ea & Hl). assert (Hs : (stop < List.length l1)%nat) by (apply nth_error_Some; congruence).
    destruct (T Hs) as (a' & Ea' & Ef). rewrite Ea in Ea'. injection Ea' as <-. apply perimeter_layer_spec in Hl. destruct Hl as (pe & ov & Ep & Eo & G1 & G2).
    unfold infill_layer in Ef. rewrite Eo in Ef. cbn [bind] in Ef. destruct ov as [|ov0 ov1].
    + inversion G2; subst. inversion G1; subst. congruence.
    + rewrite Ep in Ef. cbn [bind] in Ef. destruct pe as [|pe0 pe1]; [inversion G2|]. apply bind_Ok in Ef. destruct Ef as ([bs ts] & _ & Ef). apply bind_Ok in Ef. destruct Ef as (ts' & _ & Ef). discriminate.
Qed.
Lemma internal_stop : exists stop, stepwise (internal_layer lib o) l2 l3 stop /\ forall n, (n < stop)%nat <-> filled layers n.
Proof.
  destruct (internal_spec lib o l2 l3 H3) as (stop & S). exists stop. split; [exact S|]. destruct S as [L Ls B A T].
  pose proof (perimeter_spec lib o layers l1 H1) as F1. pose proof (infill_keeps_all lib o l1 l2 H2) as K2.
  intros n. split.
  - intros Hn i Hi. assert (Hi' : (i < stop)%nat) by lia. destruct (nth_error l2 i) as [a|] eqn:Ea; [|apply nth_error_None in Ea; lia].
    destruct (B i a Hi' Ea) as (a' & _ & Ef). destruct (keeps_nth _ _ _ _ _ K2 Ea) as (b & Eb & _ & Ab). destruct (f2_nth_r _ _ _ _ _ F1 Eb) as (l & El & Hl). exists l. split; [exact El|]. intros Z0.
    apply perimeter_layer_spec in Hl. destruct Hl as (pe & ov & Ep & Eo & G1 & G2). rewrite Z0 in G1. inversion G1; subst. inversion G2; subst.
    unfold internal_layer in Ef. rewrite (overlap_eq b a), Eo in Ef by (apply Ab; cbn; intuition discriminate). discriminate.
  - intros Fn. destruct (Nat.lt_ge_cases n stop) as [Lt|Ge]; [exact Lt|]. exfalso. destruct (Fn stop Ge) as (l & El & Nl).
    destruct (f2_nth _ _ _ _ _ F1 El) as (b & Eb & Hl). destruct (keeps_nth_l _ _ _ _ _ K2 Eb) as (a & Ea & _ & Ab).
    assert (Hs : (stop < List.length l2)%nat) by (apply nth_error_Some; congruence).
    destruct (T Hs) as (a' & Ea' & Ef). rewrite Ea in Ea'. injection Ea' as <-. apply perimeter_layer_spec in Hl. destruct Hl as (pe & ov & Ep & Eo & G1 & G2).
    unfold internal_layer in Ef. rewrite (overlap_eq b a), Eo in Ef by (apply Ab; cbn; intuition discriminate). cbn [bind] in Ef. destruct ov as [|ov0 ov1].
    + inversion G2; subst. inversion G1; subst. congruence.
    + apply bind_Ok in Ef. destruct Ef as (bs & _ & Ef). apply bind_Ok in Ef. destruct Ef as (ts & _ & Ef). apply bind_Ok in Ef. destruct Ef as (is & _ & Ef). discriminate.
Qed.

(** everything about a layer with infill *)
Lemma layer_spec n : filled layers n -> exists l l' pe ov bs ts is,
  nth_error layers n = Some l /\ nth_error l3 n = Some l' /\ Perimeters l' = Ok pe /\ OverlapPerimeters l' = Ok ov /\ per_layer lib o l l' /\
  PartsAttribute l' "bottom" = Ok bs /\ PartsAttribute l' "top" = Ok ts /\ PartsAttribute l' "infill" = Ok is /\ proper bs /\ proper ts /\
  (forall x, covered bs x <-> exists j e bd p, nth_error pe j = Some e /\ nth_error ov j = Some bd /\ In p (last e []) /\ solid_b l1 n p x /\ par bd x = true) /\
  (forall x, covered ts x <-> (exists j e bd p, nth_error pe j = Some e /\ nth_error ov j = Some bd /\ In p (last e []) /\ solid_t l1 n p x /\ par bd x = true) /\ ~ covered bs x) /\
  (forall x, covered is x <-> InfillPercent (Print o) <> 0 /\ (exists bd, In bd ov /\ par bd x = true) /\ ~ covered bs x /\ ~ covered ts x).
Proof.
  intros Fn. destruct infill_stop as (s2 & S2 & G2). destruct internal_stop as (s3 & S3 & G3). apply G2 in Fn as N2. apply G3 in Fn as N3. clear G2 G3.
  destruct S2 as [L2 _ B2 _ _]. destruct S3 as [L3 _ B3 _ _].
  destruct (Fn n (le_n n)) as (l & El & Nl). pose proof (perimeter_spec lib o layers l1 H1) as F1. destruct (f2_nth _ _ _ _ _ F1 El) as (a & Ea & Ha).
  pose proof (perimeter_keeps lib o layers l1 H1) as K1. destruct (keeps_nth _ _ _ _ _ K1 Ea) as (l_ & El_ & _ & Aa). rewrite El in El_. injection El_ as <-.
  pose proof (perimeter_layer_spec lib o l a Ha) as Hp. pose proof Hp as (pe & ov & Ep & Eo & Q1 & Q2).
  assert (Npe : pe <> []). { intros ->. inversion Q1 as [X|]. congruence. }
  assert (Lov : List.length ov = List.length pe) by (symmetry; exact (f2_len _ _ _ Q2)).
  assert (Ne : forall e, In e pe -> e <> []). { intros e Ie. apply In_nth_error in Ie. destruct Ie as (k & Ek). destruct (f2_nth _ _ _ _ _ Q2 Ek) as (x & _ & N & _). exact N. }
  assert (An : forall name, In name ["bottom"; "top"; "infill"] -> attribute a name = None).
  { intros name In_. rewrite (Aa name); [exact (fresh_nth _ _ _ _ _ F El In_)|]. destruct In_ as [<-|[<-|[<-|[]]]]; cbn; intuition discriminate. }
  destruct (infill_layer_ok l1 n a pe ov) as (b & bs & ts & Ef & Eb & Et & Pb & Pt & Cb & Ct); try assumption; [apply nth_error_Some; congruence|apply An; cbn; auto|apply An; cbn; auto|].
  destruct (B2 n a N2 Ea) as (b' & Enb & Ef'). rewrite Ef in Ef'. injection Ef' as <-. destruct (infill_keeps lib o l1 n a b Ef) as (_ & Ab).
  destruct (internal_layer_ok n b ov bs ts) as (c & is & Ei & Ec & Ci); try assumption.
  - rewrite (overlap_eq a b); [exact Eo|apply Ab; cbn; intuition discriminate].
  - intros ->. destruct pe; [contradiction|discriminate].
  - rewrite Ab by (cbn; intuition discriminate). apply An. cbn; auto.
  - intros x C. exact (proj2 (proj1 (Ct x) C)).
  - destruct (B3 n b N3 Enb) as (c' & Enc & Ei'). rewrite Ei in Ei'. injection Ei' as <-. destruct (internal_keeps lib o n b c Ei) as (_ & Ac).
    assert (Op : OverlapPerimeters c = Ok ov). { rewrite (overlap_eq b c), (overlap_eq a b); [exact Eo| |]; [apply Ab|apply Ac]; cbn; intuition discriminate. }
    assert (Pe : Perimeters c = Ok pe). { rewrite (perimeters_eq b c), (perimeters_eq a b); [exact Ep| |]; [apply Ab|apply Ac]; cbn; intuition discriminate. }
    exists l, c, pe, ov, bs, ts, is. split; [exact El|]. split; [exact Enc|]. split; [exact Pe|]. split; [exact Op|]. split; [exists pe, ov; auto|].
    split; [rewrite (parts_attr_eq b c); [exact Eb|apply Ac; cbn; intuition discriminate]|]. split; [rewrite (parts_attr_eq b c); [exact Et|apply Ac; cbn; intuition discriminate]|].
    split; [exact Ec|]. auto 8.
Qed.
(** and without *)
Lemma no_infill n l' : ~ filled layers n -> nth_error l3 n = Some l' -> attribute l' "bottom" = None /\ attribute l' "top" = None /\ attribute l' "infill" = None.
Proof.
  intros Fn En. destruct infill_stop as (s2 & S2 & G2). destruct internal_stop as (s3 & S3 & G3). rewrite <- G2 in Fn. assert (Fn3 : ~ (n < s3)%nat) by (rewrite G3, <- G2; exact Fn).
  rewrite (sw_after _ _ _ _ S3) in En by lia. rewrite (sw_after _ _ _ _ S2) in En by lia.
  destruct (keeps_nth _ _ _ _ _ (perimeter_keeps lib o layers l1 H1) En) as (l & El & _ & A).
  repeat split; (rewrite A; [apply (fresh_nth _ _ _ _ _ F El); cbn; auto|cbn; intuition discriminate]).
Qed.
End Area.
