(** Lemmas about the layer modifiers: which layers and attributes change. *)
From Verif Require Import GoBase GoFloat GoStr M_Micrometer M_Geom2D M_Option M_Clip M_Builder M_Layer M_Modifier S_Clip L_Clip S_Modifier.
Local Open Scope string_scope.
Local Open Scope list_scope.
Local Open Scope Z_scope.

(** *** attributes *)
Lemma lookup_set name a l n : attribute (set_attribute name a l) n = if String.eqb name n then Some a else attribute l n.
Proof. unfold attribute, set_attribute. cbn [lattrs lookup]. destruct (lattrs l); reflexivity. Qed.
Lemma lookup_new l n : attribute (newExtendedLayer l) n = attribute l n.
Proof. unfold attribute, newExtendedLayer. cbn [lattrs]. destruct (lattrs l); reflexivity. Qed.
Lemma lookup_parts name ps l n : attribute (set_parts name ps l) n = if String.eqb name n then match ps with [] => attribute l n | _ => Some (AParts ps) end else attribute l n.
Proof. destruct ps as [|p ps]; cbn [set_parts]; [destruct (String.eqb name n); reflexivity|]. apply lookup_set. Qed.
Lemma parts_set name a l : lparts (set_attribute name a l) = lparts l. Proof. reflexivity. Qed.
Lemma parts_new l : lparts (newExtendedLayer l) = lparts l. Proof. reflexivity. Qed.
Lemma parts_parts name ps l : lparts (set_parts name ps l) = lparts l. Proof. destruct ps; reflexivity. Qed.
Lemma LayerParts_eq l l' : lparts l = lparts l' -> LayerParts l = LayerParts l'.
Proof. unfold LayerParts. intros ->. reflexivity. Qed.

(** *** put *)
Lemma put_Ok {A} i (x : A) l l' : put i x l = Ok l' -> 0 <= i < Z.of_nat (List.length l) /\ l' = set_nth (Z.to_nat i) x l.
Proof.
  unfold put. destruct (Z.ltb_spec i 0); [discriminate|]. destruct (Z.leb_spec (Z.of_nat (List.length l)) i); [discriminate|]. cbn. intros [= <-]. split; [lia|reflexivity].
Qed.
Lemma put_in {A} i (x : A) l : (i < List.length l)%nat -> put (Z.of_nat i) x l = Ok (set_nth i x l).
Proof.
  intros H. unfold put. destruct (Z.ltb_spec (Z.of_nat i) 0); [lia|]. destruct (Z.leb_spec (Z.of_nat (List.length l)) (Z.of_nat i)); [lia|]. cbn. rewrite Nat2Z.id. reflexivity.
Qed.
Lemma idx_nth {A} (l : list A) i : idx l (Z.of_nat i) = match nth_error l i with Some a => Ok a | None => Panic "index out of range" end.
Proof. unfold idx. destruct (Z.ltb_spec (Z.of_nat i) 0); [lia|]. rewrite Nat2Z.id. reflexivity. Qed.
Lemma nth_set {A} i j (x : A) l : (i < List.length l)%nat -> nth_error (set_nth i x l) j = if Nat.eqb i j then Some x else nth_error l j.
Proof.
  intros H. destruct (Nat.eqb_spec i j) as [<-|N]; [apply nth_error_set_nth_eq; exact H|apply nth_error_set_nth_neq; exact N].
Qed.

(** *** loops over the layers *)
Lemma over_layers_partial (Inv : nat -> list layer -> Prop) (Q : list layer -> Prop) step N :
  (forall i ls r, (i < N)%nat -> Inv i ls -> step (Z.of_nat i) ls = Ok r -> match r with Some ls' => Inv (S i) ls' | None => Q ls end) ->
  forall n i ls ls', (i + n = N)%nat -> Inv i ls -> over_layers step n (Z.of_nat i) ls = Ok ls' -> Inv N ls' \/ Q ls'.
Proof.
  intros H. induction n as [|n IH]; intros i ls ls' E I; cbn [over_layers].
  - intros [= <-]. left. replace N with i by lia. exact I.
  - intros R. apply bind_Ok in R. destruct R as (r & Er & R). pose proof (H i ls r ltac:(lia) I Er) as Hr. destruct r as [ls1|].
    + apply (IH (S i) ls1 ls'); [lia|exact Hr|]. replace (Z.of_nat (S i)) with (Z.of_nat i + 1) by lia. exact R.
    + injection R as <-. right. exact Hr.
Qed.
Lemma over_layers_total (Inv : nat -> list layer -> Prop) step N :
  (forall i ls, (i < N)%nat -> Inv i ls -> exists r, step (Z.of_nat i) ls = Ok r /\ match r with Some ls' => Inv (S i) ls' | None => True end) ->
  forall n i ls, (i + n = N)%nat -> Inv i ls -> exists ls', over_layers step n (Z.of_nat i) ls = Ok ls'.
Proof.
  intros H. induction n as [|n IH]; intros i ls E I; cbn [over_layers]; [eauto|].
  destruct (H i ls ltac:(lia) I) as (r & -> & Hr). cbn [bind]. destruct r as [ls1|]; [|eauto].
  replace (Z.of_nat i + 1) with (Z.of_nat (S i)) by lia. apply IH; [lia|exact Hr].
Qed.

(** a step that changes its own layer only and looks at the others' parts only *)
Definition local_step (f : nat -> layer -> res (option layer)) (i : nat) (cur : list layer) : res (option (list layer)) :=
  let* l := idx cur (Z.of_nat i) in
  let* r := f i l in
  match r with
  | None => Ok None
  | Some l' => let* cur' := put (Z.of_nat i) l' cur in Ok (Some cur')
  end.
(** the layers before [stop] are changed by [f], which then says stop *)
Record stepwise (f : nat -> layer -> res (option layer)) (layers layers' : list layer) (stop : nat) : Prop := Stepwise {
  sw_length : List.length layers' = List.length layers;
  sw_stop : (stop <= List.length layers)%nat;
  sw_before : forall i l, (i < stop)%nat -> nth_error layers i = Some l -> exists l', nth_error layers' i = Some l' /\ f i l = Ok (Some l');
  sw_after : forall i, (stop <= i)%nat -> nth_error layers' i = nth_error layers i;
  sw_at : (stop < List.length layers)%nat -> exists l, nth_error layers stop = Some l /\ f stop l = Ok None }.
Lemma stepwise_parts f layers layers' stop : stepwise f layers layers' stop ->
  (forall i l l', f i l = Ok (Some l') -> lparts l' = lparts l) -> map lparts layers' = map lparts layers.
Proof.
  intros [L S B A _] K. apply nth_ext with (d := None) (d' := None); [rewrite !map_length; exact L|].
  intros i Hi. rewrite map_length in Hi. apply nth_error_nth'  with (d := Layer None None) in Hi as Hn.
  assert (E : nth_error (map lparts layers') i = nth_error (map lparts layers) i).
  { rewrite !nth_error_map. destruct (Nat.lt_ge_cases i stop) as [Lt|Ge].
    - destruct (nth_error layers i) as [l|] eqn:El; [|apply nth_error_None in El; lia]. destruct (B i l Lt El) as (l' & -> & Hf). cbn. rewrite (K i l l' Hf). reflexivity.
    - rewrite (A i Ge). reflexivity. }
  destruct (nth_error (map lparts layers) i) as [o|] eqn:Eo.
  - rewrite (nth_error_nth _ _ _ Eo). exact (nth_error_nth _ _ _ E).
  - apply nth_error_None in Eo. rewrite map_length in Eo. lia.
Qed.
Lemma stepwise_keeps f layers layers' stop names : stepwise f layers layers' stop ->
  (forall i l l', f i l = Ok (Some l') -> lparts l' = lparts l /\ forall name, ~ In name names -> attribute l' name = attribute l name) -> keeps names layers layers'.
Proof.
  intros [L S B A _] K. unfold keeps.
  assert (H : forall i l l', nth_error layers i = Some l -> nth_error layers' i = Some l' -> lparts l' = lparts l /\ forall name, ~ In name names -> attribute l' name = attribute l name).
  { intros i l l' El El'. destruct (Nat.lt_ge_cases i stop) as [Lt|Ge].
    - destruct (B i l Lt El) as (l2 & E2 & Hf). rewrite E2 in El'. injection El' as <-. exact (K i l l2 Hf).
    - rewrite (A i Ge), El in El'. injection El' as <-. auto. }
  clear B A S K stop. revert layers' L H. induction layers as [|l layers IH]; intros [|l' layers'] L H; try discriminate L; constructor.
  - exact (H O l l' eq_refl eq_refl).
  - apply IH; [injection L as L; exact L|]. intros i a b. exact (H (S i) a b).
Qed.
Section Local.
Variable layers : list layer.
Variable step : Z -> list layer -> res (option (list layer)).
Variable f : nat -> layer -> res (option layer).
Hypothesis Hstep : forall i cur, map lparts cur = map lparts layers -> step (Z.of_nat i) cur = local_step f i cur.
Hypothesis Hf : forall i l l', f i l = Ok (Some l') -> lparts l' = lparts l.

Definition inv (i : nat) (cur : list layer) : Prop :=
  List.length cur = List.length layers /\
  (forall j l, (j < i)%nat -> nth_error layers j = Some l -> exists l', nth_error cur j = Some l' /\ f j l = Ok (Some l')) /\
  (forall j, (i <= j)%nat -> nth_error cur j = nth_error layers j).
Lemma inv_parts i cur : inv i cur -> map lparts cur = map lparts layers.
Proof.
  intros (L & B & A). apply nth_ext with (d := None) (d' := None); [rewrite !map_length; exact L|]. intros j Hj. rewrite map_length in Hj.
  assert (E : nth_error (map lparts cur) j = nth_error (map lparts layers) j).
  { rewrite !nth_error_map. destruct (Nat.lt_ge_cases j i) as [Lt|Ge].
    - destruct (nth_error layers j) as [l|] eqn:El; [|apply nth_error_None in El; lia]. destruct (B j l Lt El) as (l' & -> & Hl). cbn. rewrite (Hf j l l' Hl). reflexivity.
    - rewrite (A j Ge). reflexivity. }
  destruct (nth_error (map lparts layers) j) as [o|] eqn:Eo.
  - rewrite (nth_error_nth _ _ _ Eo). exact (nth_error_nth _ _ _ E).
  - apply nth_error_None in Eo. rewrite map_length in Eo. lia.
Qed.
Lemma inv_step i cur l l' : inv i cur -> nth_error layers i = Some l -> f i l = Ok (Some l') -> inv (S i) (set_nth i l' cur).
Proof.
  intros (L & B & A) El El'. assert (Hi : (i < List.length cur)%nat) by (rewrite L; apply nth_error_Some; congruence). split; [rewrite set_nth_length; exact L|]. split.
  - intros j m Hj Em. rewrite nth_set by exact Hi. destruct (Nat.eqb_spec i j) as [<-|N].
    + rewrite El in Em. injection Em as <-. exists l'. auto.
    + apply B; [lia|exact Em].
  - intros j Hj. rewrite nth_set by exact Hi. destruct (Nat.eqb_spec i j); [lia|]. apply A. lia.
Qed.
Lemma local_spec layers' : over_layers step (List.length layers) 0 layers = Ok layers' -> exists stop, stepwise f layers layers' stop.
Proof.
  intros E.
  destruct (over_layers_partial inv (fun ls => exists stop, stepwise f layers ls stop) step (List.length layers)) with (n := List.length layers) (i := O) (ls := layers) (ls' := layers') as [(L & B & A)|H].
  - intros i ls r Hi I Er. pose proof I as I0. destruct I as (L & B & A). rewrite (Hstep i ls (inv_parts i ls I0)) in Er. unfold local_step in Er.
    rewrite idx_nth, (A i (le_n i)) in Er. destruct (nth_error layers i) as [l|] eqn:El; [|discriminate]. cbn [bind] in Er.
    apply bind_Ok in Er. destruct Er as (r1 & E1 & Er). destruct r1 as [l'|].
    + rewrite put_in in Er by lia. cbn [bind] in Er. injection Er as <-. exact (inv_step i ls l l' I0 El E1).
    + injection Er as <-. exists i. split; [exact L|lia| | |].
      * intros j m Hj Em. exact (B j m Hj Em).
      * intros j Hj. exact (A j Hj).
      * intros _. exists l. auto.
  - reflexivity.
  - split; [reflexivity|]. split; [intros j l Hj; lia|reflexivity].
  - exact E.
  - exists (List.length layers). split; [exact L|lia|exact B|exact A|lia].
  - exact H.
Qed.
Lemma local_total : (forall i l, nth_error layers i = Some l -> exists r, f i l = Ok r) -> exists layers', over_layers step (List.length layers) 0 layers = Ok layers'.
Proof.
  intros T. apply (over_layers_total inv step (List.length layers)) with (i := O); [|reflexivity|].
  - intros i ls Hi I. pose proof I as I0. destruct I as (L & B & A). rewrite (Hstep i ls (inv_parts i ls I0)). unfold local_step.
    rewrite idx_nth, (A i (le_n i)). destruct (nth_error layers i) as [l|] eqn:El; [|apply nth_error_None in El; lia]. cbn [bind].
    destruct (T i l El) as (r & Er). rewrite Er. cbn [bind]. destruct r as [l'|]; [|exists None; split; [reflexivity|exact Logic.I]]. rewrite put_in by lia. cbn [bind]. eexists. split; [reflexivity|].
    exact (inv_step i ls l l' I0 El Er).
  - split; [reflexivity|]. split; [intros j l Hj; lia|reflexivity].
Qed.
End Local.

(** *** the three local modifiers *)
Section Mod.
Variable lib : clib.
Variable o : options.
Lemma perimeter_local i cur : (let* l := idx cur (Z.of_nat i) in let* l' := perimeter_layer lib o l in let* layers' := put (Z.of_nat i) l' cur in Ok (Some layers')) =
  local_step (fun _ l => let* l' := perimeter_layer lib o l in Ok (Some l')) i cur.
Proof. unfold local_step. destruct (idx cur (Z.of_nat i)) as [l| | |]; cbn [bind]; try reflexivity. destruct (perimeter_layer lib o l); reflexivity. Qed.
Lemma perimeter_parts l l' : perimeter_layer lib o l = Ok l' -> lparts l' = lparts l.
Proof. unfold perimeter_layer. intros E. apply bind_Ok in E. destruct E as (x & _ & E). apply bind_Ok in E. destruct E as (y & _ & E). injection E as <-. reflexivity. Qed.
Lemma perimeter_spec layers layers' : PerimeterModify lib o layers = Ok layers' -> Forall2 (fun l l' => perimeter_layer lib o l = Ok l') layers layers'.
Proof.
  unfold PerimeterModify. intros E.
  eapply (local_spec layers _ (fun _ l => let* l' := perimeter_layer lib o l in Ok (Some l'))) in E; [destruct E as (stop & [L S B A T])| |].
  2: { intros i cur _. exact (perimeter_local i cur). }
  2: { intros _ l l' H. apply bind_Ok in H. destruct H as (l1 & H1 & H2). injection H2 as <-. exact (perimeter_parts l l1 H1). }
  - assert (stop = List.length layers).
    { destruct (Nat.eq_dec stop (List.length layers)) as [e|N]; [exact e|]. destruct (T ltac:(lia)) as (l & _ & H). apply bind_Ok in H. destruct H as (l1 & _ & H). discriminate. }
    subst stop. clear S A T.
    assert (H : forall i l, nth_error layers i = Some l -> exists l', nth_error layers' i = Some l' /\ perimeter_layer lib o l = Ok l').
    { intros i l El. destruct (B i l) as (l' & E1 & E2); [apply nth_error_Some; congruence|exact El|]. exists l'. split; [exact E1|].
      apply bind_Ok in E2. destruct E2 as (l1 & H1 & H2). injection H2 as <-. exact H1. }
    clear B. revert layers' L H. induction layers as [|l layers IH]; intros [|l' layers'] L H; try discriminate L; constructor.
    + destruct (H O l eq_refl) as (l2 & E2 & E3). injection E2 as <-. exact E3.
    + apply IH; [injection L as L; exact L|]. intros i a. exact (H (S i) a).
Qed.

Lemma bind_idx_parts {T} a b i (k k' : layer -> res T) : map lparts a = map lparts b -> (forall l l', lparts l = lparts l' -> k l = k' l') -> bind (idx a i) k = bind (idx b i) k'.
Proof.
  intros E K. unfold idx. destruct (i <? 0); [reflexivity|].
  assert (N : option_map lparts (nth_error a (Z.to_nat i)) = option_map lparts (nth_error b (Z.to_nat i))) by (rewrite <- !nth_error_map, E; reflexivity).
  destruct (nth_error a (Z.to_nat i)), (nth_error b (Z.to_nat i)); cbn in *; try discriminate; [|reflexivity]. injection N as N. exact (K _ _ N).
Qed.
Lemma length_parts a b : map lparts a = map lparts b -> List.length a = List.length b.
Proof. intros E. rewrite <- (map_length lparts a), E. apply map_length. Qed.
Lemma diff_parts p l l' : lparts l = lparts l' -> partDifference lib p l = partDifference lib p l'.
Proof. unfold partDifference. intros E. rewrite (LayerParts_eq l l' E). reflexivity. Qed.
Lemma bottom_ext a b nr p : map lparts a = map lparts b -> forall n i acc, bottom_loop lib a nr p n i acc = bottom_loop lib b nr p n i acc.
Proof.
  intros E. induction n as [|n IH]; intros i acc; cbn [bottom_loop]; [reflexivity|]. destruct (nr - i =? 0).
  - destruct (union_up lib _ acc [p]); cbn [bind]; auto.
  - destruct (nr <? i); [reflexivity|]. apply bind_idx_parts; [exact E|]. intros l l' El. rewrite (diff_parts p l l' El).
    destruct (partDifference lib p l'); cbn [bind]; auto. destruct (union_up lib _ acc a0); cbn [bind]; auto.
Qed.
Lemma top_ext a b nr p : map lparts a = map lparts b -> forall n i acc, top_loop lib a nr p n i acc = top_loop lib b nr p n i acc.
Proof.
  intros E. pose proof (length_parts a b E) as L. induction n as [|n IH]; intros i acc; cbn [top_loop]; [reflexivity|]. rewrite L. destruct (nr + i =? Z.of_nat (List.length b) - 1).
  - destruct (union_up lib _ acc [p]); cbn [bind]; auto.
  - destruct (Z.of_nat (List.length b) <=? nr + 1 + i); [reflexivity|]. apply bind_idx_parts; [exact E|]. intros l l' El. rewrite (diff_parts p l l' El).
    destruct (partDifference lib p l'); cbn [bind]; auto. destruct (union_up lib _ acc a0); cbn [bind]; auto.
Qed.
Lemma infill_parts_ext a b nr ov k : map lparts a = map lparts b -> forall ps s, infill_parts lib o a nr ov k ps s = infill_parts lib o b nr ov k ps s.
Proof.
  intros E. induction ps as [|p ps IH]; intros s; cbn [infill_parts]; [reflexivity|].
  assert (H : infill_part lib o a nr ov k p s = infill_part lib o b nr ov k p s). { unfold infill_part. destruct s as [s1 s2]. rewrite (bottom_ext a b nr p E), (top_ext a b nr p E). reflexivity. }
  rewrite H. destruct (infill_part lib o b nr ov k p s); cbn [bind]; auto.
Qed.
Lemma infill_entries_ext a b nr ov : map lparts a = map lparts b -> forall pe k s, infill_entries lib o a nr ov k pe s = infill_entries lib o b nr ov k pe s.
Proof.
  intros E. induction pe as [|e pe IH]; intros k s; cbn [infill_entries]; [reflexivity|].
  destruct (idx e (Z.of_nat (List.length e) - 1)) as [inner| | |]; cbn [bind]; try reflexivity. rewrite (infill_parts_ext a b nr ov k E).
  destruct (infill_parts lib o b nr ov k inner s); cbn [bind]; auto.
Qed.
(** the infill of one layer *)
Definition infill_layer (layers : list layer) (i : nat) (l : layer) : res (option layer) :=
  let* overlappingPerimeters := OverlapPerimeters l in
  match overlappingPerimeters with
  | [] => Ok None
  | _ =>
      let* perimeters := Perimeters l in
      match perimeters with
      | [] => Ok None
      | _ =>
          let* (bottomInfill, topInfill) := infill_entries lib o layers (Z.of_nat i) overlappingPerimeters 0 perimeters ([], []) in
          let* topInfill :=
            match topInfill, bottomInfill with
            | _ :: _, _ :: _ => ok_or "error while calculating the difference of new top infill with the bottom infill to avoid duplicates"
                                  (Difference lib topInfill bottomInfill)
            | _, _ => Ok topInfill
            end in
          Ok (Some (set_parts "top" topInfill (set_parts "bottom" bottomInfill (newExtendedLayer l))))
      end
  end.
Lemma infill_local layers i cur : map lparts cur = map lparts layers -> infill_step lib o (Z.of_nat i) cur = local_step (infill_layer layers) i cur.
Proof.
  intros E. unfold infill_step, local_step. destruct (idx cur (Z.of_nat i)) as [l| | |]; cbn [bind]; try reflexivity. unfold infill_layer.
  destruct (OverlapPerimeters l) as [[|ov0 ov]| | |]; cbn [bind]; try reflexivity. destruct (Perimeters l) as [[|pe0 pe]| | |]; cbn [bind]; try reflexivity.
  rewrite (infill_entries_ext cur layers (Z.of_nat i) (ov0 :: ov) E). destruct (infill_entries lib o layers _ _ _ _ _) as [[bs ts]| | |]; cbn [bind]; try reflexivity.
  match goal with |- bind ?X _ = _ => destruct X end; reflexivity.
Qed.
Lemma infill_keeps layers i l l' : infill_layer layers i l = Ok (Some l') -> lparts l' = lparts l /\ forall name, ~ In name ["bottom"; "top"] -> attribute l' name = attribute l name.
Proof.
  unfold infill_layer. intros E. apply bind_Ok in E. destruct E as (ov & _ & E). destruct ov as [|ov0 ov]; [discriminate|]. apply bind_Ok in E. destruct E as (pe & _ & E).
  destruct pe as [|pe0 pe]; [discriminate|]. apply bind_Ok in E. destruct E as ([bs ts] & _ & E). apply bind_Ok in E. destruct E as (ts' & _ & E). injection E as <-.
  rewrite !parts_parts. split; [reflexivity|]. intros name N. rewrite !lookup_parts, lookup_new.
  destruct (String.eqb_spec "top" name) as [<-|_]; [destruct N; cbn; auto|]. destruct (String.eqb_spec "bottom" name) as [<-|_]; [destruct N; cbn; auto|]. reflexivity.
Qed.
Lemma infill_spec layers layers' : InfillModify lib o layers = Ok layers' -> exists stop, stepwise (infill_layer layers) layers layers' stop.
Proof.
  unfold InfillModify. apply local_spec.
  - intros i cur. apply infill_local.
  - intros i l l' H. exact (proj1 (infill_keeps layers i l l' H)).
Qed.

Definition internal_layer (i : nat) (l : layer) : res (option layer) :=
  let* overlappingPerimeters := OverlapPerimeters l in
  match overlappingPerimeters with
  | [] => Ok None
  | _ =>
      let* bottomInfill := PartsAttribute l "bottom" in
      let* topInfill := PartsAttribute l "top" in
      let* internalInfill := internal_parts lib o overlappingPerimeters (bottomInfill ++ topInfill) in
      Ok (Some (set_parts "infill" internalInfill l))
  end.
Lemma internal_local i cur : internal_step lib o (Z.of_nat i) cur = local_step internal_layer i cur.
Proof.
  unfold internal_step, local_step. destruct (idx cur (Z.of_nat i)) as [l| | |]; cbn [bind]; try reflexivity. unfold internal_layer.
  destruct (OverlapPerimeters l) as [[|ov0 ov]| | |]; cbn [bind]; try reflexivity. destruct (PartsAttribute l "bottom") as [bs| | |]; cbn [bind]; try reflexivity.
  destruct (PartsAttribute l "top") as [ts| | |]; cbn [bind]; try reflexivity. destruct (internal_parts lib o _ _); reflexivity.
Qed.
Lemma internal_keeps i l l' : internal_layer i l = Ok (Some l') -> lparts l' = lparts l /\ forall name, ~ In name ["infill"] -> attribute l' name = attribute l name.
Proof.
  unfold internal_layer. intros E. apply bind_Ok in E. destruct E as (ov & _ & E). destruct ov as [|ov0 ov]; [discriminate|].
  apply bind_Ok in E. destruct E as (bs & _ & E). apply bind_Ok in E. destruct E as (ts & _ & E). apply bind_Ok in E. destruct E as (is & _ & E). injection E as <-.
  rewrite parts_parts. split; [reflexivity|]. intros name N. rewrite lookup_parts. destruct (String.eqb_spec "infill" name) as [<-|_]; [destruct N; cbn; auto|]. reflexivity.
Qed.
Lemma internal_spec layers layers' : InternalInfillModify lib o layers = Ok layers' -> exists stop, stepwise internal_layer layers layers' stop.
Proof.
  unfold InternalInfillModify. apply local_spec.
  - intros i cur _. apply internal_local.
  - intros i l l' H. exact (proj1 (internal_keeps i l l' H)).
Qed.
End Mod.

(** *** keeping *)
Lemma keeps_refl names layers : keeps names layers layers.
Proof. unfold keeps. induction layers as [|l layers IH]; constructor; auto. Qed.
Lemma keeps_set names layers cur i l l' : keeps names layers cur -> nth_error cur i = Some l -> lparts l' = lparts l ->
  (forall name, ~ In name names -> attribute l' name = attribute l name) -> keeps names layers (set_nth i l' cur).
Proof.
  intros K. revert i. induction K as [|a b layers cur [Hp Ha] K IH]; intros [|i]; cbn [nth_error set_nth]; intros E Ep Ea; try discriminate.
  - injection E as ->. constructor; [|exact K]. split; [congruence|]. intros name N. rewrite (Ea name N). exact (Ha name N).
  - constructor; [auto|]. exact (IH i E Ep Ea).
Qed.
Lemma keeps_length names a b : keeps names a b -> List.length b = List.length a.
Proof. intros K. induction K; cbn; congruence. Qed.
Lemma keeps_trans n1 n2 a b c : keeps n1 a b -> keeps n2 b c -> keeps (n1 ++ n2) a c.
Proof.
  intros K. revert c. induction K as [|x y a b [Hp Ha] K IH]; intros c K2; inversion K2 as [|y' z b' c' [Hp2 Ha2] K3]; subst; constructor; [|exact (IH _ K3)].
  split; [congruence|]. intros name N. rewrite in_app_iff in N. rewrite Ha2, Ha by tauto. reflexivity.
Qed.
Lemma perimeter_keeps lib o layers layers' : PerimeterModify lib o layers = Ok layers' -> keeps ["perimeters"; "overlapPerimeters"] layers layers'.
Proof.
  intros E. apply perimeter_spec in E. unfold keeps. induction E as [|l l' layers layers' H E IH]; constructor; [|exact IH].
  unfold perimeter_layer in H. apply bind_Ok in H. destruct H as (x & _ & H). apply bind_Ok in H. destruct H as (y & _ & H). injection H as <-.
  split; [reflexivity|]. intros name N. rewrite !lookup_set, lookup_new.
  destruct (String.eqb_spec "overlapPerimeters" name) as [<-|_]; [destruct N; cbn; auto|]. destruct (String.eqb_spec "perimeters" name) as [<-|_]; [destruct N; cbn; auto|]. reflexivity.
Qed.
Lemma infill_keeps_all lib o layers layers' : InfillModify lib o layers = Ok layers' -> keeps ["bottom"; "top"] layers layers'.
Proof. intros E. apply infill_spec in E. destruct E as (stop & E). apply (stepwise_keeps _ _ _ _ _ E). intros i l l'. apply infill_keeps. Qed.
Lemma internal_keeps_all lib o layers layers' : InternalInfillModify lib o layers = Ok layers' -> keeps ["infill"] layers layers'.
Proof. intros E. apply internal_spec in E. destruct E as (stop & E). apply (stepwise_keeps _ _ _ _ _ E). intros i l l'. apply internal_keeps. Qed.
Lemma brim_keeps lib o layers layers' : BrimModify lib o layers = Ok layers' -> keeps ["brim"; "outerBrim"] layers layers' /\ skipn 1 layers' = skipn 1 layers.
Proof.
  unfold BrimModify. destruct (s_BrimCount (BrimSkirt (Print o)) =? 0); [intros [= <-]; split; [apply keeps_refl|reflexivity]|]. intros E.
  apply bind_Ok in E. destruct E as (l & El & E). apply bind_Ok in E. destruct E as (pe & _ & E). destruct pe as [|pe0 pe]; [injection E as <-; split; [apply keeps_refl|reflexivity]|].
  destruct (map _ _) as [|q qs] in E; [injection E as <-; split; [apply keeps_refl|reflexivity]|]. apply bind_Ok in E. destruct E as (brim & _ & E).
  apply bind_Ok in E. destruct E as (outer & _ & E). apply put_Ok in E. destruct E as (_ & ->). apply idx_Ok in El. destruct El as (_ & El). change (Z.to_nat 0) with O in *. split.
  - apply keeps_set with (l := l); [apply keeps_refl|exact El|rewrite parts_parts; destruct brim; reflexivity|].
    intros name N. rewrite lookup_parts. destruct (String.eqb_spec "outerBrim" name) as [<-|_]; [destruct N; cbn; auto|].
    destruct brim as [|b0 brim]; [apply lookup_new|]. rewrite lookup_set, lookup_new. destruct (String.eqb_spec "brim" name) as [<-|_]; [destruct N; cbn; auto|]. reflexivity.
  - destruct layers; reflexivity.
Qed.
Lemma detector_keeps lib o tangent layers layers' : SupportDetectorModify lib o tangent layers = Ok layers' -> keeps ["support"] layers layers'.
Proof.
  unfold SupportDetectorModify. intros E.
  destruct (over_layers_partial (fun _ ls => keeps ["support"] layers ls) (fun ls => keeps ["support"] layers ls) (detector_step lib o tangent) (List.length layers)) with (n := List.length layers) (i := O) (ls := layers) (ls' := layers') as [H|H]; try assumption; [|reflexivity|apply keeps_refl].
  intros i ls r Hi K Er. unfold detector_step in Er. destruct (negb (s_Enabled (Support (Print o)))); [injection Er as <-; exact K|].
  destruct ((Z.of_nat i =? Z.of_nat (List.length ls) - 1) || (Z.of_nat i <? s_TopGapLayers (Support (Print o))))%bool; [injection Er as <-; exact K|].
  apply bind_Ok in Er. destruct Er as (l & _ & Er). apply bind_Ok in Er. destruct Er as (above & _ & Er). apply bind_Ok in Er. destruct Er as (support & _ & Er).
  apply bind_Ok in Er. destruct Er as (target & Et & Er). apply bind_Ok in Er. destruct Er as (ls' & Ep & Er). injection Er as <-. apply put_Ok in Ep. destruct Ep as (_ & ->).
  apply idx_Ok in Et. destruct Et as (_ & Et). apply keeps_set with (l := target); [exact K|exact Et|rewrite parts_parts; reflexivity|].
  intros name N. rewrite lookup_parts, lookup_new. destruct (String.eqb_spec "support" name) as [<-|_]; [destruct N; cbn; auto|]. reflexivity.
Qed.
Lemma generator_keeps lib o layers0 : forall n last layers layers', keeps ["support"; "supportInterface"; "fullSupport"] layers0 layers ->
  generator_loop lib o n last layers = Ok layers' -> keeps ["support"; "supportInterface"; "fullSupport"] layers0 layers'.
Proof.
  induction n as [|n IH]; intros last layers layers' K; [cbn; intros [= <-]; exact K|]. cbn [generator_loop]. intros E.
  apply bind_Ok in E. destruct E as (l & _ & E). apply bind_Ok in E. destruct E as (cs & _ & E). apply bind_Ok in E. destruct E as (target & Et & E).
  apply bind_Ok in E. destruct E as (bs & _ & E).
  assert (G : forall R, (let* result := ok_or ("could not union the supports for layer " ++ itoa (Z.of_nat (S n)) ++ " to generate support")%string (Union lib cs bs) in
          let gap := ToMicrometer (s_Gap (Support (Print o))) in
          let* biggerLayer := enlarged lib target (neg64 gap) (quot64 gap 2) in
          let* actualSupport := ok_or ("could not subtract the model from the supports for layer " ++ itoa (Z.of_nat (S n)))%string (Difference lib result biggerLayer) in
          let* (interfaceParts, without) := split_support lib o layers (Z.of_nat (S n)) target actualSupport in
          let l' := set_attribute "support" (AParts without)
                      (set_parts "supportInterface" interfaceParts (set_parts "fullSupport" actualSupport (newExtendedLayer target))) in
          let* layers' := put (Z.of_nat (S n) - 1) l' layers in
          generator_loop lib o n actualSupport layers') = Ok R -> keeps ["support"; "supportInterface"; "fullSupport"] layers0 R).
  { clear E. intros R E. apply bind_Ok in E. destruct E as (result & _ & E). cbn zeta in E. apply bind_Ok in E. destruct E as (big & _ & E).
    apply bind_Ok in E. destruct E as (act & _ & E). apply bind_Ok in E. destruct E as ([i w] & _ & E). apply bind_Ok in E. destruct E as (ls' & Ep & E).
    apply put_Ok in Ep. destruct Ep as (_ & ->). apply (IH _ _ _) in E; [exact E|]. apply idx_Ok in Et. destruct Et as (_ & Et).
    apply keeps_set with (l := target); [exact K|exact Et|rewrite parts_set, !parts_parts; reflexivity|].
    intros name N. rewrite lookup_set, !lookup_parts, lookup_new. destruct (String.eqb_spec "support" name) as [<-|_]; [destruct N; cbn; auto|].
    destruct (String.eqb_spec "supportInterface" name) as [<-|_]; [destruct N; cbn; auto|]. destruct (String.eqb_spec "fullSupport" name) as [<-|_]; [destruct N; cbn; auto|]. reflexivity. }
  destruct cs as [|c cs]; [destruct bs as [|b bs]|].
  - exact (IH last layers layers' K E).
  - exact (G layers' E).
  - exact (G layers' E).
Qed.
