(** Proofs about the generator and the renderers. *)
From Verif Require Import GoBase GoFloat GoStr M_Micrometer M_Geom2D M_Option M_Clip M_Builder M_Layer M_Render
  S_Text S_Printer S_Builder S_Calls S_Machine S_Render L_Str L_Data L_Printer L_Builder L_Calls.
From Coq Require Import Permutation.
Local Open Scope string_scope.
Local Open Scope list_scope.
Local Open Scope Z_scope.

(** *** C44 *)
Section Gen.
Context {S : Type}.
Lemma perform_app mx (a b : list (step S)) : forall s g,
  perform mx (a ++ b) s g = match perform mx a s g with (s', Ok g') => perform mx b s' g' | x => x end.
Proof.
  induction a as [|[[[r nr] l] z] a IH]; intros s g; [reflexivity|]. cbn [app perform].
  destruct (r s nr mx l z g) as [s' [g'| | |]]; try reflexivity. apply IH.
Qed.
Lemma render_layer_perform (rs : list (Renderer S)) nr mx l z : forall s g,
  render_layer rs s nr mx l z g = perform mx (map (fun r => (r, nr, l, z)) rs) s g.
Proof.
  induction rs as [|r rs IH]; intros s g; [reflexivity|]. cbn [render_layer map perform].
  destruct (r s nr mx l z g) as [s' [g'| | |]]; try reflexivity. apply IH.
Qed.
Lemma render_layers_perform o (rs : list (Renderer S)) mx layers : forall n s g,
  (forall k, (k < n + List.length layers)%nat ->
     int64 (InitialLayerThickness (Print o) + Z.of_nat k * LayerThickness (Print o)) /\ int64 (Z.of_nat k * LayerThickness (Print o))) ->
  render_layers o rs s (Z.of_nat n) mx layers g =
  perform mx (flat_map (fun '(nr, l) => map (fun r => (r, Z.of_nat nr, l, InitialLayerThickness (Print o) + Z.of_nat nr * LayerThickness (Print o))) rs)
                (combine (seq n (List.length layers)) layers)) s g.
Proof.
  induction layers as [|l layers IH]; intros n s g H; [reflexivity|].
  cbn [render_layers List.length seq combine flat_map]. rewrite perform_app, render_layer_perform.
  destruct (H n ltac:(cbn [List.length]; lia)) as [H1 H2].
  unfold add64, mul64. rewrite (wrap_id _ H2), (wrap_id _ H1).
  destruct (perform mx _ s g) as [s' [g'| | |]]; try reflexivity.
  replace (Z.of_nat n + 1) with (Z.of_nat (Datatypes.S n)) by lia. apply IH. intros k Hk. apply H. cbn [List.length]. lia.
Qed.
Lemma generate_perform o (rs : list (Renderer S)) layers s :
  (forall k, (k < List.length layers)%nat ->
     int64 (InitialLayerThickness (Print o) + Z.of_nat k * LayerThickness (Print o)) /\ int64 (Z.of_nat k * LayerThickness (Print o))) ->
  Generate o rs layers s =
  let '(s', x) := perform (Z.of_nat (List.length layers) - 1)
     (schedule (InitialLayerThickness (Print o)) (LayerThickness (Print o)) rs layers) s
     (NewGCodeBuilder (FilamentDiameter (Filament o)) (ExtrusionMultiplier (Filament o))) in
  (s', match x with Ok b => Ok (BuilderString b) | Err e => Err e | Panic w => Panic w | Diverge => Diverge end).
Proof.
  intros H. unfold Generate, schedule. change 0 with (Z.of_nat 0).
  rewrite (render_layers_perform o rs _ layers 0%nat s _ H).
  destruct (perform _ _ s _) as [s' [g'| | |]]; reflexivity.
Qed.
Lemma render_state_free (rs : list (Renderer S)) : 
  (forall r, In r rs -> forall s s' nr mx l z g, snd (r s nr mx l z g) = snd (r s' nr mx l z g)) ->
  forall s s' nr mx l z g, snd (render_layer rs s nr mx l z g) = snd (render_layer rs s' nr mx l z g).
Proof.
  induction rs as [|r rs IH]; intros H s s' nr mx l z g; [reflexivity|]. cbn [render_layer].
  pose proof (H r (or_introl eq_refl) s s' nr mx l z g) as E.
  destruct (r s nr mx l z g) as [s1 x1], (r s' nr mx l z g) as [s2 x2]. cbn in E. subst x2.
  destruct x1; try reflexivity. apply IH. intros r' Hr'. apply H. right. exact Hr'.
Qed.
Lemma layers_state_free o (rs : list (Renderer S)) :
  (forall r, In r rs -> forall s s' nr mx l z g, snd (r s nr mx l z g) = snd (r s' nr mx l z g)) ->
  forall layers s s' nr mx g, snd (render_layers o rs s nr mx layers g) = snd (render_layers o rs s' nr mx layers g).
Proof.
  intros H. induction layers as [|l layers IH]; intros s s' nr mx g; [reflexivity|]. cbn [render_layers].
  pose proof (render_state_free rs H s s' nr mx l (add64 (InitialLayerThickness (Print o)) (mul64 nr (LayerThickness (Print o)))) g) as E.
  destruct (render_layer rs s nr mx l _ g) as [s1 x1], (render_layer rs s' nr mx l _ g) as [s2 x2]. cbn in E. subst x2.
  destruct x1; try reflexivity. apply IH.
Qed.
Lemma generate_state_free o (rs : list (Renderer S)) layers s s' :
  (forall r, In r rs -> forall s s' nr mx l z g, snd (r s nr mx l z g) = snd (r s' nr mx l z g)) ->
  snd (Generate o rs layers s) = snd (Generate o rs layers s').
Proof.
  intros H. unfold Generate.
  pose proof (layers_state_free o rs H layers s s' 0 (Z.of_nat (List.length layers) - 1)
    (NewGCodeBuilder (FilamentDiameter (Filament o)) (ExtrusionMultiplier (Filament o)))) as E.
  destruct (render_layers o rs s _ _ _ _) as [s1 x1], (render_layers o rs s' _ _ _ _) as [s2 x2]. cbn in E. subst x2. reflexivity.
Qed.
End Gen.

(** *** renderers are sequences of calls *)
Section Lib.
Variable lib : clib.
Lemma run_calls_app a b : forall g, run_calls lib (a ++ b) g = bind (run_calls lib a g) (run_calls lib b).
Proof.
  induction a as [|c a IH]; intros g; [reflexivity|]. cbn [app run_calls].
  destruct (run_call lib c g); cbn [bind]; try reflexivity. apply IH.
Qed.
Lemma bind_assoc {A B C} (x : res A) (f : A -> res B) (h : B -> res C) : bind (bind x f) h = bind x (fun a => bind (f a) h).
Proof. destruct x; reflexivity. Qed.
Lemma each_calls {A} (f : A -> builder -> res builder) (F : A -> list call) l :
  (forall x b, In x l -> f x b = run_calls lib (F x) b) -> forall b, each f l b = run_calls lib (flat_map F l) b.
Proof.
  induction l as [|x l IH]; intros H b; [reflexivity|]. cbn [each flat_map]. rewrite run_calls_app, (H x b) by (left; reflexivity).
  destruct (run_calls lib (F x) b); cbn [bind]; try reflexivity. apply IH. intros y c Hy. apply H. right. exact Hy.
Qed.
Lemma each_map {A B} (f : B -> builder -> res builder) (h : A -> B) l : forall b, each f (map h l) b = each (fun x => f (h x)) l b.
Proof. induction l as [|x l IH]; intros b; [reflexivity|]. cbn [map each]. destruct (f (h x) b); cbn [bind]; auto. Qed.
Lemma each_app {A} (f : A -> builder -> res builder) l l' : forall b, each f (l ++ l') b = bind (each f l b) (each f l').
Proof. induction l as [|x l IH]; intros b; [reflexivity|]. cbn [app each]. destruct (f x b); cbn [bind]; auto. Qed.
Lemma flat_map_single {A B} (f : A -> B) l : flat_map (fun x => [f x]) l = map f l.
Proof. induction l as [|x l IH]; [reflexivity|]. cbn. rewrite IH. reflexivity. Qed.
Lemma commands_calls lines : forall b, run_calls lib (map CCommand lines) b = Ok (add_commands lines b).
Proof. induction lines as [|l lines IH]; intros b; [reflexivity|]. cbn [map run_calls run_call bind]. apply IH. Qed.
Lemma comments_calls cs : forall b, run_calls lib (map CComment cs) b = Ok (fold_left (fun b c => AddComment c b) cs b).
Proof. induction cs as [|l cs IH]; intros b; [reflexivity|]. cbn [map run_calls run_call bind fold_left]. apply IH. Qed.

Variable o : options.
Lemma start_calls_ok b : run_calls lib (start_calls o (map (fill_template o) (StartGCode (Printer o)))) b = Ok (start_print o b).
Proof.
  unfold start_calls, start_print. cbv zeta.
  destruct (ForceSafeStartStopGCode (Printer o)), (HasHeatedBed (Printer o));
    change ["M140"; "M190"] with BedTempCodes; change ["M104"; "M109"] with HotendTempCodes; cbn [andb];
    repeat match goal with |- context [negb (DoesInstructionContainCodes ?a ?b)] => destruct (negb (DoesInstructionContainCodes a b)) end;
    repeat (rewrite ?commands_calls, ?run_calls_app; cbn [run_calls run_call bind]); reflexivity.
Qed.
Lemma pre_calls nr mx l z b : PreLayer o nr mx l z b = run_calls lib (pre_plan o nr) b.
Proof.
  unfold PreLayer, pre_plan. cbv zeta.
  destruct (nr =? 0); [rewrite run_calls_app, start_calls_ok; cbn [bind]|destruct (nr =? 1); cbn [app run_calls run_call bind]];
  match goal with |- context [AddCommentInt _ _ ?x] => generalize x; clear b; intros b end;
  (destruct (0 <? nr), (nr =? InitialTemperatureLayerCount (Filament o)), (lut_get (FanSpeed (Filament o)) nr) as [v|];
   try (destruct (Z.eqb_spec v 0) as [->|Hv]; [|destruct v; [contradiction| |]]); reflexivity).
Qed.
Lemma post_calls nr mx l z b : PostLayer o nr mx l z b = run_calls lib (if nr =? mx then end_calls o else []) b.
Proof.
  unfold PostLayer, end_calls. cbv zeta. destruct (nr =? mx); [|reflexivity].
  change ["M140"; "M190"] with BedTempCodes; change ["M104"; "M109"] with HotendTempCodes.
  destruct (ForceSafeStartStopGCode (Printer o)), (HasHeatedBed (Printer o)); cbn [andb];
    repeat match goal with |- context [negb (DoesInstructionContainCodes ?a ?b)] => destruct (negb (DoesInstructionContainCodes a b)) end;
    repeat (rewrite ?commands_calls, ?run_calls_app; cbn [run_calls run_call bind]); reflexivity.
Qed.
Lemma walls_calls l z p b : print_walls lib l z p b = run_calls lib (closed_walls l z p) b.
Proof.
  unfold print_walls, closed_walls. rewrite run_calls_app, <- flat_map_single.
  rewrite (each_calls _ (fun h => [CPolygon (Some (LayerParts l)) h z false])).
  - destruct (run_calls lib _ b) as [b'| | |]; cbn [bind]; try reflexivity. cbn [run_calls run_call].
    destruct (AddPolygon lib _ _ z false b'); reflexivity.
  - intros x c _. cbn [run_calls run_call]. destruct (AddPolygon lib _ _ z false c); reflexivity.
Qed.
Lemma inset_calls l z nr ps b : print_inset lib o l z nr ps b =
  run_calls lib (flat_map (if nr =? 0 then outer_wall o l z else inner_wall o l z) ps) b.
Proof.
  unfold print_inset. apply each_calls. intros p c _. destruct (nr =? 0); unfold outer_wall, inner_wall; rewrite run_calls_app;
  cbn [run_calls run_call bind]; apply walls_calls.
Qed.
Lemma inner_loop l z ins : forall pre b,
  each (fun i b => let insetNr := if Z.of_nat (List.length (pre ++ ins)) - 1 <=? i then 0 else i + 1 in
                   let* ps := idx (pre ++ ins) insetNr in print_inset lib o l z insetNr ps b)
    (map Z.of_nat (seq (List.length pre - 1) (List.length ins))) b = run_calls lib (flat_map (inner_wall o l z) (concat ins)) b \/ pre = [].
Proof.
  induction ins as [|ps ins IH]; intros pre b; [left; reflexivity|]. destruct pre as [|p0 pre]; [right; reflexivity|left].
  cbn [List.length seq map each concat]. rewrite flat_map_app, run_calls_app.
  assert (N : (Z.of_nat (List.length ((p0 :: pre) ++ ps :: ins)) - 1 <=? Z.of_nat (Datatypes.S (List.length pre) - 1)) = false).
  { apply Z.leb_gt. rewrite app_length. cbn [List.length]. lia. }
  rewrite N. cbv zeta.
  assert (I : idx ((p0 :: pre) ++ ps :: ins) (Z.of_nat (Datatypes.S (List.length pre) - 1) + 1) = Ok ps).
  { unfold idx. destruct (Z.ltb_spec (Z.of_nat (Datatypes.S (List.length pre) - 1) + 1) 0); [lia|].
    replace (Z.to_nat _) with (List.length (p0 :: pre)) by (cbn [List.length]; lia).
    rewrite nth_error_app2, Nat.sub_diag by lia. reflexivity. }
  rewrite I. cbn [bind]. rewrite inset_calls.
  destruct (Z.eqb_spec (Z.of_nat (Datatypes.S (List.length pre) - 1) + 1) 0) as [C|_]; [lia|].
  destruct (run_calls lib (flat_map (inner_wall o l z) ps) b) as [b'| | |]; cbn [bind]; try reflexivity.
  destruct (IH ((p0 :: pre) ++ [ps]) b') as [E|C]; [|discriminate].
  replace (List.length ((p0 :: pre) ++ [ps]) - 1)%nat with (Datatypes.S (Datatypes.S (List.length pre) - 1)) in E
    by (rewrite app_length; cbn [List.length]; lia).
  rewrite <- app_assoc in E. exact E.
Qed.
Lemma part_calls l z insets b : print_part lib o l z insets b = run_calls lib (part_plan o l z insets) b.
Proof.
  unfold print_part, part_plan. destruct insets as [|outer inner]; [reflexivity|].
  cbn [List.length]. rewrite seq_S, map_app, each_app, run_calls_app.
  destruct (inner_loop l z inner [outer] b) as [E|C]; [|discriminate]. cbn [List.length app Nat.sub] in E. rewrite E.
  destruct (run_calls lib _ b) as [b'| | |]; cbn [bind]; try reflexivity. cbn [map each plus].
  destruct (Z.leb_spec (Z.of_nat (Datatypes.S (List.length inner)) - 1) (Z.of_nat (List.length inner))) as [_|C]; [|lia].
  cbv zeta. cbn [idx Z.ltb Z.compare Z.to_nat nth_error bind]. rewrite inset_calls. change (0 =? 0) with true. cbv iota.
  destruct (run_calls lib (flat_map (outer_wall o l z) outer) b'); reflexivity.
Qed.
Lemma perimeter_calls nr mx l z b : Perimeter lib o nr mx l z b = let* cs := perimeter_plan o l z in run_calls lib cs b.
Proof.
  unfold Perimeter, perimeter_plan. rewrite bind_assoc. destruct (Perimeters l) as [ps| | |]; cbn [bind]; try reflexivity.
  apply each_calls. intros x c _. apply part_calls.
Qed.
Lemma polygons_calls (layer : option (list part)) z open ps : forall b,
  each (fun p => AddPolygon lib layer p z open) ps b = run_calls lib (map (fun p => CPolygon layer p z open) ps) b.
Proof.
  intros b. rewrite <- flat_map_single. apply each_calls. intros x c _. cbn [run_calls run_call]. destruct (AddPolygon lib layer x z open c); reflexivity.
Qed.
Lemma skirt_calls nr mx l z b : Skirt lib o nr mx l z b = let* cs := skirt_plan lib o nr l z in run_calls lib cs b.
Proof.
  unfold Skirt, skirt_plan. cbv zeta. destruct (s_SkirtCount (BrimSkirt (Print o)) =? 0); [reflexivity|]. cbn [orb].
  destruct (nr =? 0); [|reflexivity]. cbn [negb]. rewrite !bind_assoc. destruct (Perimeters l) as [ps| | |]; cbn [bind]; try reflexivity.
  rewrite !bind_assoc. destruct (FullSupport l) as [su| | |]; cbn [bind]; try reflexivity.
  unfold add64, mul64, neg64. rewrite wrap_add_l. rewrite <- (wrap_add_l (_ + wrap _)), wrap_add_r, wrap_add_l.
  assert (G : forall n x, bind (Inset lib x (wrap (- ExtrusionWidth (Printer o))) (s_SkirtCount (BrimSkirt (Print o))) n)
      (fun skirt => each (each (fun loopPart => AddPolygon lib None (outline loopPart) z false)) skirt (AddComment "TYPE:SKIRT" b)) =
     bind (bind (Inset lib x (wrap (- ExtrusionWidth (Printer o))) (s_SkirtCount (BrimSkirt (Print o))) n)
       (fun lines => Ok (CComment "TYPE:SKIRT" :: map (fun p => CPolygon None (outline p) z false) (concat lines))))
       (fun cs => run_calls lib cs b)).
  { intros n x. rewrite bind_assoc. destruct (Inset lib x _ _ n) as [lines| | |]; cbn [bind]; try reflexivity.
    cbn [run_calls run_call bind]. rewrite <- flat_map_single, (flat_map_concat_map _ (concat lines)), concat_map.
    rewrite (each_calls _ (fun w => map (fun p => CPolygon None (outline p) z false) w)).
    - f_equal. rewrite flat_map_concat_map. clear. induction lines as [|w lines IH]; [reflexivity|]. cbn [map concat]. rewrite IH.
      rewrite concat_app. f_equal. clear. induction w as [|p w IH]; [reflexivity|]. cbn. rewrite <- IH. reflexivity.
    - intros w c _. rewrite <- flat_map_single. apply each_calls. intros p d _. cbn [run_calls run_call].
      destruct (AddPolygon lib None (outline p) z false d); reflexivity. }
  destruct su as [|s1 su], ps as [|p1 ps]; [reflexivity| | |]; apply G.
Qed.
Lemma foreach_concat {St} (cb : St -> part -> St * bool) br : forall s,
  ForEach (fun s p _ _ _ => cb s p) br s =
  fst ((fix go (s : St) (l : list part) := match l with [] => (s, false) | p :: l' => let '(s', stop) := cb s p in if stop then (s', true) else go s' l' end)
         s (ToOneDimension br)).
Proof.
  set (go := fix go (s : St) (l : list part) := match l with [] => (s, false) | p :: l' => let '(s', stop) := cb s p in if stop then (s', true) else go s' l' end).
  assert (A : forall a b s, go s (a ++ b) = let '(s', stop) := go s a in if stop then (s', true) else go s' b).
  { induction a as [|p a IH]; intros b s; [reflexivity|]. cbn [app]. cbn [go]. destruct (cb s p) as [s' [|]]; [reflexivity|]. apply IH. }
  assert (P : forall l s i j k, each_part (fun s p _ _ _ => cb s p) s i j k l = go s l).
  { induction l as [|p l IH]; intros s i j k; [reflexivity|]. cbn [each_part]. cbn [go]. destruct (cb s p) as [s' [|]]; [reflexivity|]. apply IH. }
  assert (I : forall l s i j, each_inset (fun s p _ _ _ => cb s p) s i j l = go s (concat l)).
  { induction l as [|x l IH]; intros s i j; [reflexivity|]. cbn [each_inset concat]. rewrite A, P. destruct (go s x) as [s' [|]]; [reflexivity|]. apply IH. }
  assert (O : forall l s i, each_outer (fun s p _ _ _ => cb s p) s i l = go s (concat (concat l))).
  { induction l as [|x l IH]; intros s i; [reflexivity|]. cbn [each_outer concat]. rewrite concat_app, A, I. destruct (go s (concat x)) as [s' [|]]; [reflexivity|]. apply IH. }
  intros s. unfold ForEach, ToOneDimension. rewrite O. reflexivity.
Qed.
Lemma brim_calls nr mx l z b : BrimRenderer lib nr mx l z b = let* cs := brim_plan l z in run_calls lib cs b.
Proof.
  unfold BrimRenderer, brim_plan. rewrite bind_assoc. destruct (Brim l) as [br| | |]; cbn [bind]; try reflexivity.
  destruct br as [|x br]; [reflexivity|]. cbn [bind run_calls run_call].
  rewrite (foreach_concat (fun s p => match s with Ok b => let s' := AddPolygon lib None (outline p) z false b in (s', negb (isOk s')) | err => (err, true) end)).
  generalize (ToOneDimension (x :: br)) as l'. generalize (AddComment "TYPE:SKIRT" b) as b0. intros b0 l'. revert b0.
  induction l' as [|p l' IH]; intros b0; [reflexivity|]. cbn [map run_calls run_call]. cbv zeta.
  destruct (AddPolygon lib None (outline p) z false b0) as [b1| | |]; cbn [isOk negb bind fst]; try reflexivity. apply IH.
Qed.
Lemma infill_calls fuel pat name cs nr mx l z b b' : Infill lib fuel pat name cs nr mx l z b = Ok b' <->
  exists plan, infill_plan lib fuel pat name cs nr l z = Ok plan /\ run_calls lib plan b = Ok b'.
Proof.
  unfold Infill, infill_plan. destruct pat as [p|].
  2: { split; [intros [= <-]; exists []; split; reflexivity|intros (plan & [= <-] & E); exact E]. }
  destruct (PartsAttribute l name) as [parts|e|e|]; cbn [bind].
  2-4: split; [discriminate|intros (plan & E & _); discriminate].
  revert b. induction parts as [|q parts IH]; intros b.
  - cbn. split; [intros [= <-]; exists []; split; reflexivity|intros (plan & [= <-] & E); exact E].
  - cbn [each map_res]. rewrite !bind_assoc. destruct (Fill lib fuel p nr q) as [ls|e|e|]; cbn [bind].
    2-4: split; [discriminate|intros (plan & E & _); discriminate].
    rewrite polygons_calls. split.
    + intros E. apply bind_Ok in E. destruct E as (b1 & E1 & E2). apply IH in E2. destruct E2 as (plan & P1 & P2).
      apply bind_Ok in P1. destruct P1 as (fl & F1 & F2). rewrite F1. cbn [bind]. eexists. split; [reflexivity|]. cbn [flat_map].
      rewrite !run_calls_app, comments_calls. cbn [bind]. rewrite E1. cbn [bind]. injection F2 as <-. exact P2.
    + intros (plan & P1 & P2). apply bind_Ok in P1. destruct P1 as (fl & F1 & F2). apply bind_Ok in F1. destruct F1 as (fl' & F3 & F4).
      injection F4 as <-. injection F2 as <-. cbn [flat_map] in P2. rewrite !run_calls_app, comments_calls in P2. cbn [bind] in P2.
      destruct (run_calls lib (map _ ls) _) as [b1|e|e|]; cbn [bind] in *; try discriminate. apply IH.
      rewrite F3. cbn [bind]. eexists. split; [reflexivity|exact P2].
Qed.
End Lib.

(** *** the whole generator *)
Section Whole.
Variables (lib : clib) (o : options) (fuel : nat) (mn mx : pt) (infill : option linear).
Definition the_renderers : list (Renderer unit) :=
  [ stateless (PreLayer o); stateless (Skirt lib o); stateless (BrimRenderer lib); stateless (Perimeter lib o);
    stateless (Infill lib fuel (Some (supportPattern o mn mx)) "support" ["TYPE:SUPPORT"]);
    stateless (Infill lib fuel (Some (interfacePattern o mn mx)) "supportInterface" ["TYPE:SUPPORT"]);
    stateless (Infill lib fuel (Some (topBottomPattern o mn mx)) "bottom" ["TYPE:FILL"; "BOTTOM-FILL"]);
    stateless (Infill lib fuel (Some (topBottomPattern o mn mx)) "top" ["TYPE:FILL"; "TOP-FILL"]);
    stateless (Infill lib fuel infill "infill" ["TYPE:FILL"; "INTERNAL-FILL"]);
    stateless (PostLayer o) ].
Lemma render_cons r rs nr m l z b b' : snd (render_layer (stateless r :: rs) tt nr m l z b) = Ok b' <->
  exists b1, r nr m l z b = Ok b1 /\ snd (render_layer rs tt nr m l z b1) = Ok b'.
Proof.
  cbn [render_layer stateless]. destruct (r nr m l z b) as [b1| | |].
  - split; [intros E; exists b1; auto|intros (b2 & [= ->] & E); exact E].
  - split; [discriminate|intros (? & ? & _); discriminate].
  - split; [discriminate|intros (? & ? & _); discriminate].
  - split; [discriminate|intros (? & ? & _); discriminate].
Qed.
(** a renderer does what its plan says *)
Definition realises (r : Z -> Z -> layer -> Z -> builder -> res builder) (plan : Z -> Z -> layer -> Z -> res (list call)) :=
  forall nr m l z b b', r nr m l z b = Ok b' <-> exists cs, plan nr m l z = Ok cs /\ run_calls lib cs b = Ok b'.
Lemma realises_eq r plan : (forall nr m l z b, r nr m l z b = bind (plan nr m l z) (fun cs => run_calls lib cs b)) -> realises r plan.
Proof.
  intros H nr m l z b b'. rewrite H. destruct (plan nr m l z) as [cs| | |]; cbn [bind].
  - split; [intros E; exists cs; auto|intros (cs' & [= ->] & E); exact E].
  - split; [discriminate|intros (? & ? & _); discriminate].
  - split; [discriminate|intros (? & ? & _); discriminate].
  - split; [discriminate|intros (? & ? & _); discriminate].
Qed.
Lemma render_cons_plan r plan (R : realises r plan) rs nr m l z b b' :
  snd (render_layer (stateless r :: rs) tt nr m l z b) = Ok b' <->
  exists cs b1, plan nr m l z = Ok cs /\ run_calls lib cs b = Ok b1 /\ snd (render_layer rs tt nr m l z b1) = Ok b'.
Proof.
  rewrite render_cons. split.
  - intros (b1 & E1 & E2). apply R in E1. destruct E1 as (cs & P & E1). eauto.
  - intros (cs & b1 & P & E1 & E2). exists b1. split; [apply R; eauto|exact E2].
Qed.
Lemma render_nil nr m l z b b' : snd (render_layer (@nil (Renderer unit)) tt nr m l z b) = Ok b' <-> b = b'.
Proof. cbn. split; [intros [= ->]; reflexivity|intros ->; reflexivity]. Qed.
Lemma run_app_Ok a c b b' : run_calls lib (a ++ c) b = Ok b' <-> exists b1, run_calls lib a b = Ok b1 /\ run_calls lib c b1 = Ok b'.
Proof.
  rewrite run_calls_app. split; [intros E; apply bind_Ok in E; exact E|].
  intros (b1 & E1 & E2). rewrite E1. exact E2.
Qed.
Lemma layer_plan_ok nr m l z b b' : snd (render_layer the_renderers tt nr m l z b) = Ok b' <->
  exists p, plan_layer lib o fuel mn mx infill nr l z = Ok p /\ run_calls lib (layer_calls o m nr p) b = Ok b'.
Proof.
  unfold the_renderers.
  assert (R1 : realises (PreLayer o) (fun nr m l z => Ok (pre_plan o nr))) by (apply realises_eq; intros; apply pre_calls).
  assert (R2 : realises (Skirt lib o) (fun nr m l z => skirt_plan lib o nr l z)) by (apply realises_eq; intros; apply skirt_calls).
  assert (R3 : realises (BrimRenderer lib) (fun nr m l z => brim_plan l z)) by (apply realises_eq; intros; apply brim_calls).
  assert (R4 : realises (Perimeter lib o) (fun nr m l z => perimeter_plan o l z)) by (apply realises_eq; intros; apply perimeter_calls).
  assert (R5 : forall pat name cs, realises (Infill lib fuel pat name cs) (fun nr m l z => infill_plan lib fuel pat name cs nr l z))
    by (intros pat name cs nr' m' l' z' c c'; apply infill_calls).
  assert (R6 : realises (PostLayer o) (fun nr m l z => Ok (if nr =? m then end_calls o else []))) by (apply realises_eq; intros; apply post_calls).
  rewrite (render_cons_plan _ _ R1). setoid_rewrite (render_cons_plan _ _ R2). setoid_rewrite (render_cons_plan _ _ R3).
  setoid_rewrite (render_cons_plan _ _ R4). setoid_rewrite (render_cons_plan _ _ (R5 _ _ _)). setoid_rewrite (render_cons_plan _ _ (R5 _ _ _)).
  setoid_rewrite (render_cons_plan _ _ (R5 _ _ _)). setoid_rewrite (render_cons_plan _ _ (R5 _ _ _)). setoid_rewrite (render_cons_plan _ _ (R5 _ _ _)).
  setoid_rewrite (render_cons_plan _ _ R6). setoid_rewrite render_nil.
  clear R1 R2 R3 R4 R5 R6. unfold plan_layer, fill_plan, layer_calls. split.
  - intros (c1 & b1 & P1 & E1 & c2 & b2 & P2 & E2 & c3 & b3 & P3 & E3 & c4 & b4 & P4 & E4 & c5 & b5 & P5 & E5 & c6 & b6 & P6 & E6
      & c7 & b7 & P7 & E7 & c8 & b8 & P8 & E8 & c9 & b9 & P9 & E9 & c10 & b10 & P10 & E10 & X).
    rewrite P2, P3, P4, P5, P6, P7, P8, P9. cbn [bind]. eexists. split; [reflexivity|]. cbn [p_skirt p_brim p_walls p_fill].
    injection P1 as ->. injection P10 as <-. subst b10. rewrite <- !app_assoc.
    repeat (rewrite run_calls_app; first [rewrite E1|rewrite E2|rewrite E3|rewrite E4|rewrite E5|rewrite E6|rewrite E7|rewrite E8|rewrite E9]; cbn [bind]).
    exact E10.
  - intros (p & P & E).
    apply bind_Ok in P. destruct P as (c2 & P2 & P). apply bind_Ok in P. destruct P as (c3 & P3 & P). apply bind_Ok in P. destruct P as (c4 & P4 & P).
    apply bind_Ok in P. destruct P as (f & F & P). injection P as <-.
    apply bind_Ok in F. destruct F as (c5 & P5 & F). apply bind_Ok in F. destruct F as (c6 & P6 & F). apply bind_Ok in F. destruct F as (c7 & P7 & F).
    apply bind_Ok in F. destruct F as (c8 & P8 & F). apply bind_Ok in F. destruct F as (c9 & P9 & F). injection F as <-.
    cbn [p_skirt p_brim p_walls p_fill] in E. rewrite <- !app_assoc in E.
    apply run_app_Ok in E. destruct E as (b1 & E1 & E). apply run_app_Ok in E. destruct E as (b2 & E2 & E). apply run_app_Ok in E. destruct E as (b3 & E3 & E).
    apply run_app_Ok in E. destruct E as (b4 & E4 & E). apply run_app_Ok in E. destruct E as (b5 & E5 & E). apply run_app_Ok in E. destruct E as (b6 & E6 & E).
    apply run_app_Ok in E. destruct E as (b7 & E7 & E). apply run_app_Ok in E. destruct E as (b8 & E8 & E). apply run_app_Ok in E. destruct E as (b9 & E9 & E).
    exists (pre_plan o nr), b1. split; [reflexivity|]. split; [exact E1|]. exists c2, b2. split; [exact P2|]. split; [exact E2|].
    exists c3, b3. split; [exact P3|]. split; [exact E3|]. exists c4, b4. split; [exact P4|]. split; [exact E4|].
    exists c5, b5. split; [exact P5|]. split; [exact E5|]. exists c6, b6. split; [exact P6|]. split; [exact E6|].
    exists c7, b7. split; [exact P7|]. split; [exact E7|]. exists c8, b8. split; [exact P8|]. split; [exact E8|].
    exists c9, b9. split; [exact P9|]. split; [exact E9|]. eexists. exists b'. split; [reflexivity|]. split; [exact E|reflexivity].
Qed.
Definition calls_from (n : nat) (m : Z) (ps : list layer_plan) : list (list call) :=
  map (fun '(nr, p) => layer_calls o m (Z.of_nat nr) p) (combine (seq n (List.length ps)) ps).
Lemma height_model n : add64 (InitialLayerThickness (Print o)) (mul64 (Z.of_nat n) (LayerThickness (Print o))) = height o n.
Proof. unfold add64, mul64, height. apply wrap_add_r. Qed.
Lemma layers_plan_ok m layers : forall n b b', snd (render_layers o the_renderers tt (Z.of_nat n) m layers b) = Ok b' <->
  exists ps, List.length ps = List.length layers /\
    (forall i l p, nth_error layers i = Some l -> nth_error ps i = Some p ->
       plan_layer lib o fuel mn mx infill (Z.of_nat (n + i)) l (height o (n + i)) = Ok p) /\
    run_calls lib (concat (calls_from n m ps)) b = Ok b'.
Proof.
  induction layers as [|l layers IH]; intros n b b'.
  - cbn [render_layers]. split.
    + intros [= ->]. exists []. split; [reflexivity|]. split; [intros [|i] ? ?; discriminate|reflexivity].
    + intros ([|p ps] & L & _ & E); [exact E|discriminate].
  - cbn [render_layers]. rewrite height_model.
    pose proof (layer_plan_ok (Z.of_nat n) m l (height o n) b) as LP.
    destruct (render_layer the_renderers tt (Z.of_nat n) m l (height o n) b) as [[] x]. cbn [snd] in LP.
    replace (Z.of_nat n + 1) with (Z.of_nat (S n)) by lia. split.
    + intros E. destruct x as [b1| | |]; try discriminate. destruct (proj1 (LP b1) eq_refl) as (p & P & R).
      apply IH in E. destruct E as (ps & L & P' & E). exists (p :: ps). split; [cbn; congruence|]. split.
      * intros [|i] l' p' Hl Hp; cbn in Hl, Hp.
        -- injection Hl as <-. injection Hp as <-. rewrite Nat.add_0_r. exact P.
        -- rewrite Nat.add_succ_r. apply (P' i l' p' Hl Hp).
      * cbn [List.length seq combine map concat]. apply run_app_Ok. exists b1. split; [exact R|exact E].
    + intros ([|p ps] & L & P & E); [discriminate|]. cbn [calls_from List.length seq combine map concat] in E.
      apply run_app_Ok in E. destruct E as (b1 & E1 & E2).
      assert (x = Ok b1) as ->.
      { apply LP. exists p. split; [|exact E1]. specialize (P 0%nat l p eq_refl eq_refl). rewrite Nat.add_0_r in P. exact P. }
      apply IH. exists ps. cbn in L. split; [congruence|]. split; [|exact E2].
      intros i l' p' Hl Hp. specialize (P (S i) l' p' Hl Hp). rewrite Nat.add_succ_r in P. exact P.
Qed.
Lemma generate_plan layers text : snd (Generate o the_renderers layers tt) = Ok text <->
  exists ps b, planned lib o fuel mn mx infill layers ps /\
    run_calls lib (concat (all_calls o ps)) (NewGCodeBuilder (FilamentDiameter (Filament o)) (ExtrusionMultiplier (Filament o))) = Ok b /\
    text = BuilderString b.
Proof.
  unfold Generate.
  pose proof (layers_plan_ok (Z.of_nat (List.length layers) - 1) layers 0%nat (NewGCodeBuilder (FilamentDiameter (Filament o)) (ExtrusionMultiplier (Filament o)))) as H.
  change (Z.of_nat 0) with 0 in H.
  destruct (render_layers o the_renderers tt 0 _ layers _) as [s x]. cbn [snd] in *. split.
  - intros E. apply bind_Ok in E. destruct E as (b & -> & E). destruct (proj1 (H b) eq_refl) as (ps & L & P & R).
    exists ps, b. split; [split; [exact L|exact P]|]. split; [|injection E as <-; reflexivity].
    unfold all_calls. rewrite L. unfold calls_from in R. rewrite L in R. exact R.
  - intros (ps & b & (L & P) & R & ->). rewrite (proj2 (H b)); [reflexivity|]. exists ps. split; [exact L|]. split; [exact P|].
    unfold all_calls in R. unfold calls_from. rewrite L in *. exact R.
Qed.
End Whole.
Lemma goslice_generate lib fuel o mn mx layers rs text : goslice_renderers lib fuel o mn mx = Ok rs ->
  (snd (Generate o rs layers tt) = Ok text <->
   exists infill ps b, infillPattern o mn mx = Ok infill /\ planned lib o fuel mn mx infill layers ps /\
    run_calls lib (concat (all_calls o ps)) (NewGCodeBuilder (FilamentDiameter (Filament o)) (ExtrusionMultiplier (Filament o))) = Ok b /\
    text = BuilderString b).
Proof.
  intros E. apply bind_Ok in E. destruct E as (infill & I & E). injection E as <-.
  change (snd (Generate o (the_renderers lib o fuel mn mx infill) layers tt) = Ok text <-> 
    exists infill' ps b, infillPattern o mn mx = Ok infill' /\ planned lib o fuel mn mx infill' layers ps /\
    run_calls lib (concat (all_calls o ps)) (NewGCodeBuilder (FilamentDiameter (Filament o)) (ExtrusionMultiplier (Filament o))) = Ok b /\
    text = BuilderString b). rewrite generate_plan. split.
  - intros (ps & b & H). exists infill, ps, b. split; [exact I|exact H].
  - intros (i & ps & b & J & H). rewrite I in J. injection J as <-. exists ps, b. exact H.
Qed.
