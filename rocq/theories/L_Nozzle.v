(** The nozzle never goes below what is already printed. *)
From Coq Require Import Sorted.
From Verif Require Import GoBase GoFloat GoStr M_Micrometer M_Geom2D M_Option M_Clip M_Builder M_Layer M_Render
  S_Text S_Printer S_Builder S_Calls S_Machine S_Render S_Nozzle L_Str L_Data L_Printer L_Builder L_Calls L_Render L_Events L_Settings L_Whole.
Local Open Scope list_scope.
Local Open Scope string_scope.
Local Open Scope Z_scope.

Section Above.
Variables (lib : clib) (low high : Z) (hop : f32).
Hypotheses (Low : 0 <= low) (Hop : 0 <= ToMicrometer hop) (High : high + ToMicrometer hop <= 32768000).
(** calls that keep the nozzle up: polygons between the heights, the hop stays as it is *)
Definition kept (c : call) : Prop :=
  match c with
  | CPolygon _ _ z _ => low <= z <= high
  | CMove _ _ | CMoveSpeed _ _ _ => False
  | CSetHop v => v = hop
  | _ => True
  end.
Definition op_up (x : op) : Prop := low <= vz (fst (fst x)) <= high + ToMicrometer hop.
Lemma lines_up st z l : low <= z <= high -> forall a, Forall op_up (lines_ops st z a l).
Proof.
  intros H. induction l as [|b l IH]; intros a; cbn [lines_ops]; constructor; [|apply IH].
  unfold op_up, line_op, at_z. cbn [fst vz]. lia.
Qed.
Lemma ops_up st c from p0 ps z open : s_hop st = hop -> low <= z <= high -> low <= vz from <= high -> Forall op_up (polygon_ops st c from p0 ps z open).
Proof.
  intros E Hz Hf. unfold polygon_ops. apply Forall_app. split; [|apply lines_up; exact Hz].
  unfold approach_ops. rewrite E. unfold lift.
  assert (W : wrap (z + ToMicrometer hop) = z + ToMicrometer hop) by (apply wrap_id; unfold int64; lia). rewrite W.
  destruct c; [destruct (SFltb (S754_zero false) hop)|]; cbn [app]; repeat constructor; unfold op_up, travel, at_z; cbn [fst vz]; lia.
Qed.
Lemma commanded_up os : Forall op_up os -> forall here E, Forall (fun m => low <= vz (fst (fst m)) <= high + ToMicrometer hop) (commanded here E os).
Proof.
  induction 1 as [|[[p e] s] os H _ IH]; intros here E; cbn [commanded]; [constructor|].
  destruct (match here with Some q => same_place q p && is_zero e | None => false end); [apply IH|]. constructor; [exact H|apply IH].
Qed.
Lemma executed_up ms rs : Forall2 executed ms rs -> Forall (fun m => low <= vz (fst (fst m)) <= high + ToMicrometer hop) ms -> Forall (not_below low) rs.
Proof.
  induction 1 as [|[[p s] E] r ms rs X _ IH]; intros F; [constructor|]. inversion F as [|? ? F1 F2]; subst. constructor; [|apply IH, F2].
  cbn [fst] in F1. destruct X as (_ & _ & Z & _). destruct (shown_close (vz p)) as (c & Ec & B); [lia|]. exists c. split; [congruence|lia].
Qed.
Definition up (g : builder) : Prop := low <= vz (currentPosition g) <= high /\ zHopOnRetract g = hop.
Lemma call_up c g g' r : agree g r -> up g -> harmless c -> kept c -> run_call lib c g = Ok g' ->
  exists t, buf g' = buf g ++ t /\ terminated t /\ agree g' (replay r t) /\ up g' /\ Forall (not_below low) (moves r t).
Proof.
  intros A U H K E.
  assert (SET : forall h, agree h r -> buf h = buf g -> up h ->
     exists t, buf h = buf g ++ t /\ terminated t /\ agree h (replay r t) /\ up h /\ Forall (not_below low) (moves r t)).
  { intros h Ah Bh Uh. exists "". rewrite sapp_nil_r. split; [exact Bh|]. split; [left; reflexivity|]. split; [exact Ah|]. split; [exact Uh|constructor]. }
  assert (TXT : forall t, ignored t -> exists t', buf (write t g) = buf g ++ t' /\ terminated t' /\ agree (write t g) (replay r t') /\
     up (write t g) /\ Forall (not_below low) (moves r t')).
  { intros t [T S]. exists t. split; [reflexivity|]. split; [exact T|]. rewrite (proj1 (S r)), (proj2 (S r)). split; [|split; [exact U|constructor]].
    eapply agree_same; [exact A|reflexivity..]. }
  destruct c; cbn [run_call] in *; try contradiction; try (injection E as <-); try (apply TXT; exact H);
    try (apply SET; [eapply agree_same; [exact A|reflexivity..]|reflexivity|exact U]).
  - cbn [kept] in K. subst v. apply SET; [eapply agree_same; [exact A|reflexivity..]|reflexivity|split; [exact (proj1 U)|reflexivity]].
  - cbn [kept] in K. destruct polygon as [|v polygon].
    + cbn in E. injection E as <-. apply SET; [exact A|reflexivity|exact U].
    + destruct (DP_nonempty (v :: polygon)) as (p0 & ps & D); [discriminate|].
      pose proof (call_same_polygon _ _ _ _ _ _ _ E) as SS.
      rewrite (polygon_spec lib layer (v :: polygon) z open g p0 ps ltac:(discriminate) D) in E.
      destruct (crossing lib layer g p0) as [c|]; [|discriminate]. injection E as <-.
      destruct (ops_run (polygon_ops (settings_of g) c (currentPosition g) p0 ps z open) g r A) as (t & B & T & A' & M).
      exists t. split; [exact B|]. split; [exact T|]. split; [exact A'|]. destruct U as [U1 U2]. split.
      * split; [|apply same_config in SS; destruct SS as [SS _]; unfold config_of in SS; congruence].
        destruct (polygon_last (settings_of g) c (currentPosition g) p0 ps z open) as (os & o & E1 & E2). rewrite E1, ops_pos, E2. exact K.
      * eapply executed_up; [exact M|]. apply commanded_up, ops_up; [exact U2|exact K|exact U1].
Qed.
Lemma calls_up cs : forall g g' r, agree g r -> up g -> Forall harmless cs -> Forall kept cs -> run_calls lib cs g = Ok g' ->
  exists t, buf g' = buf g ++ t /\ terminated t /\ agree g' (replay r t) /\ up g' /\ Forall (not_below low) (moves r t).
Proof.
  induction cs as [|c cs IH]; intros g g' r A U H K E; cbn [run_calls] in *.
  - injection E as <-. exists "". rewrite sapp_nil_r. split; [reflexivity|]. split; [left; reflexivity|]. split; [exact A|]. split; [exact U|constructor].
  - inversion H as [|? ? H1 H2]; subst. inversion K as [|? ? K1 K2]; subst. apply bind_Ok in E. destruct E as (g1 & E1 & E2).
    destruct (call_up c g g1 r A U H1 K1 E1) as (t & B & T & A1 & U1 & M1).
    destruct (IH g1 g' _ A1 U1 H2 K2 E2) as (t' & B' & T' & A' & U' & M').
    exists (t ++ t'). split; [rewrite B', B, sapp_assoc; reflexivity|]. split; [apply terminated_app; assumption|].
    rewrite (replay_term _ _ _ T), (moves_term _ _ _ T). split; [exact A'|]. split; [exact U'|]. apply Forall_app. split; assumption.
Qed.
End Above.

(** *** the calls of a print *)
Section Print.
Variable o : options.
Notation hop := (RetractionZHop (Filament o)).
(** no moves besides the polygons, and one hop *)
Definition steady (c : call) : Prop :=
  match c with CMove _ _ | CMoveSpeed _ _ _ => False | CSetHop v => v = hop | _ => True end.
Lemma printing_steady z c : printing z c -> steady c.
Proof. destruct c; cbn; tauto. Qed.
Lemma commands_steady l : Forall steady (map CCommand l).
Proof. induction l; constructor; cbn; auto. Qed.
Ltac steady_tac := repeat first [apply Forall_app; split | apply commands_steady | match goal with |- Forall _ (if ?b then _ else _) => destruct b end
  | match goal with |- Forall _ (match ?b with _ => _ end) => destruct b end
  | apply Forall_nil | apply Forall_cons; [cbn; auto|] ].
Lemma pre_steady nr : Forall steady (pre_plan o nr).
Proof. unfold pre_plan, start_calls. steady_tac. Qed.
Lemma end_steady : Forall steady (end_calls o).
Proof. unfold end_calls. steady_tac. Qed.
Lemma layer_steady mxl nr p : prints p -> Forall steady (layer_calls o mxl nr p).
Proof.
  intros (z & P). unfold layer_calls. apply Forall_app. split; [apply pre_steady|].
  rewrite !app_assoc. apply Forall_app. split; [|destruct (_ =? _); [apply end_steady|constructor]].
  rewrite <- !app_assoc. eapply Forall_impl; [|exact P]. intros c. apply printing_steady.
Qed.
Lemma print_steady ps : forall n m, Forall prints ps -> Forall steady (concat (calls_from o n m ps)).
Proof.
  induction ps as [|p ps IH]; intros n m P; [constructor|]. inversion P as [|? ? P1 P2]; subst.
  unfold calls_from. cbn [List.length seq combine map concat]. apply Forall_app. split; [apply layer_steady, P1|apply IH, P2].
Qed.
(** the heights of the polygons never go down *)
Definition heights (cs : list call) : list Z := flat_map (fun c => match c with CPolygon _ _ z _ => [z] | _ => [] end) cs.
Lemma heights_app a b : heights (a ++ b) = (heights a ++ heights b)%list.
Proof. apply flat_map_app. Qed.
Lemma no_poly_heights cs : forallb no_poly cs = true -> heights cs = [].
Proof. induction cs as [|c cs IH]; [reflexivity|]. cbn. intros H. apply andb_prop in H. destruct H as [H1 H2]. destruct c; try discriminate; apply IH, H2. Qed.
Lemma printing_heights z cs : Forall (printing z) cs -> Forall (eq z) (heights cs).
Proof.
  induction 1 as [|c cs H _ IH]; [constructor|]. unfold heights. cbn [flat_map]. apply Forall_app. split; [|exact IH].
  destruct c; try constructor; [|constructor]. symmetry. exact H.
Qed.
Definition at_height (p : layer_plan) (z : Z) : Prop := Forall (printing z) (p_skirt p ++ p_brim p ++ p_walls p ++ p_fill p).
Lemma layer_at mxl nr p z : at_height p z -> Forall (eq z) (heights (layer_calls o mxl nr p)).
Proof.
  intros P. unfold layer_calls. rewrite heights_app, (no_poly_heights _ (pre_no_poly o nr)). cbn [app].
  replace (p_skirt p ++ p_brim p ++ p_walls p ++ p_fill p ++ (if nr =? mxl then end_calls o else []))%list
    with ((p_skirt p ++ p_brim p ++ p_walls p ++ p_fill p) ++ (if nr =? mxl then end_calls o else []))%list by (rewrite <- !app_assoc; reflexivity).
  rewrite heights_app. apply Forall_app. split; [apply printing_heights, P|].
  destruct (nr =? mxl); [rewrite (no_poly_heights _ (end_no_poly o))|]; constructor.
Qed.
Lemma const_sorted z l : Forall (eq z) l -> forall l', StronglySorted Z.le l' -> Forall (Z.le z) l' -> StronglySorted Z.le (l ++ l').
Proof.
  induction 1 as [|x l H HL IH]; intros l' S F; [exact S|]. subst x. cbn [app]. constructor; [apply IH; assumption|].
  apply Forall_app. split; [|exact F]. eapply Forall_impl; [|exact HL]. intros; lia.
Qed.
Lemma print_sorted init thick : 0 <= thick -> forall ps n m, (forall i p, nth_error ps i = Some p -> at_height p (init + Z.of_nat (n + i) * thick)) ->
  StronglySorted Z.le (heights (concat (calls_from o n m ps))) /\
  Forall (fun z => init + Z.of_nat n * thick <= z <= init + (Z.of_nat n + Z.of_nat (List.length ps) - 1) * thick) (heights (concat (calls_from o n m ps))).
Proof.
  intros Ht. induction ps as [|p ps IH]; intros n m H; [split; constructor|].
  unfold calls_from. cbn [List.length seq combine map concat]. rewrite heights_app.
  pose proof (layer_at m (Z.of_nat n) p _ (H 0%nat p eq_refl)) as L. rewrite Nat.add_0_r in L.
  destruct (IH (S n) m) as [I1 I2].
  { intros i q E. replace (S n + i)%nat with (n + S i)%nat by lia. apply H. exact E. }
  unfold calls_from in I1, I2. assert (SN : Z.of_nat (S n) * thick = Z.of_nat n * thick + thick) by lia.
  assert (SL : (Z.of_nat n + Z.of_nat (S (List.length ps)) - 1) * thick = Z.of_nat n * thick + Z.of_nat (List.length ps) * thick) by lia.
  assert (SM : (Z.of_nat (S n) + Z.of_nat (List.length ps) - 1) * thick = Z.of_nat n * thick + Z.of_nat (List.length ps) * thick) by lia.
  assert (SP : 0 <= Z.of_nat (List.length ps) * thick) by (apply Z.mul_nonneg_nonneg; lia).
  split.
  - eapply const_sorted; [exact L|exact I1|]. eapply Forall_impl; [|exact I2]. intros z [Hz _]. lia.
  - apply Forall_app. split.
    + eapply Forall_impl; [|exact L]. intros z <-. lia.
    + eapply Forall_impl; [|exact I2]. intros z Hz. cbn beta in Hz. lia.
Qed.
Lemma sorted_cut a z b : StronglySorted Z.le (a ++ z :: b) -> Forall (Z.le z) b.
Proof. induction a as [|x a IH]; cbn [app]; intros H; inversion H; subst; [assumption|auto]. Qed.

Hypothesis plain_start : Forall (fun s => no_char "%" s = true) (StartGCode (Printer o)).
Lemma start_hop lib g g' : run_calls lib (start o) g = Ok g' -> zHopOnRetract g' = hop.
Proof.
  unfold start, start_calls. intros R.
  match type of R with run_calls _ (?a ++ ?b ++ ?c ++ ?d ++ ?e ++ ?f) _ = _ =>
    replace (a ++ b ++ c ++ d ++ e ++ f)%list with ((a ++ b ++ c ++ d ++ e) ++ f)%list in R by (rewrite <- !app_assoc; reflexivity) end.
  apply run_app_Ok in R. destruct R as (g1 & _ & R). cbn [run_calls run_call bind] in R. injection R as <-. reflexivity.
Qed.
Lemma hop_kept lib cs : forall g g', Forall steady cs -> run_calls lib cs g = Ok g' -> zHopOnRetract g = hop -> zHopOnRetract g' = hop.
Proof.
  induction cs as [|c cs IH]; intros g g' S R H; cbn [run_calls] in R; [congruence|]. inversion S as [|? ? S1 S2]; subst.
  apply bind_Ok in R. destruct R as (g1 & R1 & R2). apply (IH g1 g' S2 R2). destruct (call_config _ _ _ _ R1) as (C & _).
  unfold config_of in C. destruct c; cbn [configure steady] in *; try contradiction; congruence.
Qed.
Let fresh_builder := NewGCodeBuilder (FilamentDiameter (Filament o)) (ExtrusionMultiplier (Filament o)).
Lemma print_up lib ps init thick b r0 : ps <> [] -> Forall prints ps ->
  (forall i p, nth_error ps i = Some p -> at_height p (init + Z.of_nat i * thick)) ->
  0 <= init -> 0 <= thick -> 0 <= ToMicrometer hop -> init + (Z.of_nat (List.length ps) - 1) * thick + ToMicrometer hop <= 32768000 ->
  run_calls lib (concat (all_calls o ps)) fresh_builder = Ok b ->
  exists body gb tend, concat (all_calls o ps) = (body ++ end_calls o)%list /\ run_calls lib body fresh_builder = Ok gb /\ BuilderString b = BuilderString gb ++ tend /\
  forall cs1 layer polygon z open cs2, body = (cs1 ++ CPolygon layer polygon z open :: cs2)%list -> polygon <> [] ->
    exists g t, run_calls lib (cs1 ++ [CPolygon layer polygon z open]) fresh_builder = Ok g /\ BuilderString gb = BuilderString g ++ t /\
      Forall (not_below z) (moves (replay r0 (BuilderString g)) t).
Proof.
  intros N P AH Hi Ht Hh Hmax R. destruct (print_body o ps N P) as (b0 & B & H).
  assert (EA : all_calls o ps = calls_from o 0 (Z.of_nat (List.length ps) - 1) ps) by reflexivity.
  pose proof (print_steady ps 0 (Z.of_nat (List.length ps) - 1) P) as St. rewrite <- EA, B in St.
  destruct (print_sorted init thick Ht ps 0 (Z.of_nat (List.length ps) - 1)) as [So Bd]; [intros i p E; cbn [Nat.add]; apply AH, E|].
  rewrite <- EA, B in So, Bd.
  rewrite B, app_assoc in R. apply run_app_Ok in R. destruct R as (gb & Rb & Re). destruct (grows lib _ _ _ Re) as (tend & Bt).
  exists (start o ++ b0)%list, gb, tend. split; [rewrite B, app_assoc; reflexivity|]. split; [exact Rb|]. split; [exact Bt|].
  intros cs1 layer polygon z open cs2 E Hp.
  destruct (cut_middle (fun c => match c with CPolygon _ _ _ _ => True | _ => False end) (start o) b0 [] cs1 cs2 (CPolygon layer polygon z open)) as (b1 & b2 & -> & ->).
  { rewrite app_nil_r. exact E. } { exact I. } { apply no_poly_Forall, start_no_poly. } { constructor. }
  assert (cs2 = b2) as ->. { rewrite <- app_assoc in E. apply app_inv_head in E. apply app_inv_head in E. injection E as ->. reflexivity. }
  clear E. rewrite heights_app in Bd, So. apply Forall_app in Bd. destruct Bd as [_ Bd].
  assert (So1 : forall l l' : list Z, StronglySorted Z.le (l ++ l') -> StronglySorted Z.le l').
  { intros l l' S. induction l as [|x l IH]; [exact S|]. apply IH. inversion S. assumption. }
  apply So1 in So. rewrite <- app_assoc in So, Bd. rewrite heights_app in So, Bd. apply So1 in So. apply Forall_app in Bd. destruct Bd as [_ Bd].
  cbn [app] in So, Bd. change (heights (CPolygon layer polygon z open :: (b2 ++ end_calls o)%list)) with (z :: heights (b2 ++ end_calls o)%list) in So, Bd.
  rewrite heights_app in So, Bd. inversion So as [|? ? _ So2]; subst. apply Forall_app in So2. destruct So2 as [So' _].
  inversion Bd as [|? ? Bz B2]; subst. apply Forall_app in B2. destruct B2 as [B2 _]. clear Bd So So1.
  apply Forall_app in St. destruct St as [_ St]. apply Forall_app in St. destruct St as [St _]. apply Forall_app in St. destruct St as [St1 St2].
  inversion St2 as [|? ? _ St3]; subst. apply Forall_app in H. destruct H as [H1 H2]. inversion H2 as [|? ? _ H3]; subst.
  rewrite app_assoc in Rb. 
  replace ((start o ++ b1) ++ CPolygon layer polygon z open :: b2)%list with (((start o ++ b1) ++ [CPolygon layer polygon z open]) ++ b2)%list in Rb by (rewrite <- !app_assoc; reflexivity).
  apply run_app_Ok in Rb. destruct Rb as (g & R1 & R2). exists g.
  pose proof R1 as R1'. rewrite <- app_assoc in R1'. apply run_app_Ok in R1'. destruct R1' as (gs & S1 & S2).
  destruct (start_agrees o plain_start lib _ _ gs r0 S1) as (F & T & E0).
  destruct (calls_run lib (b1 ++ [CPolygon layer polygon z open]) gs g (replay r0 (buf gs)) None (fresh_agree _ _ F E0)) as (t1 & Bt1 & T1 & Ag & Pl); [intros p Q; discriminate| |exact S2|].
  { apply Forall_app. split; [exact H1|]. constructor; [exact I|constructor]. }
  rewrite <- (replay_term _ _ _ T), <- Bt1 in Ag.
  assert (LT : exists p, last_target (b1 ++ [CPolygon layer polygon z open]) None = Some p /\ vz p = z).
  { destruct (DP_nonempty polygon Hp) as (p0 & qs & D). 
    assert (G : forall l d, last_target (l ++ [CPolygon layer polygon z open]) d = Some (at_z (if open then last qs p0 else p0) z)).
    { induction l as [|c l IH]; intros d; cbn [app last_target target]; [rewrite D; reflexivity|apply IH]. }
    rewrite G. eexists. split; reflexivity. }
  destruct LT as (p & LT & Vz). destruct (Pl p LT) as [CP _].
  assert (Hopg : zHopOnRetract g = hop).
  { eapply hop_kept; [|exact S2|exact (start_hop lib _ _ S1)]. apply Forall_app. split; [exact St1|]. constructor; [exact I|constructor]. }
  assert (K : Forall (kept z (init + (Z.of_nat (List.length ps) - 1) * thick) hop) b2).
  { apply Forall_forall. intros c Hc. rewrite Forall_forall in St3. specialize (St3 c Hc). destruct c; cbn [kept steady] in *; auto.
    assert (J : In z0 (heights b2)) by (unfold heights; apply in_flat_map; eexists; split; [exact Hc|left; reflexivity]).
    rewrite Forall_forall in So', B2. specialize (So' _ J). specialize (B2 _ J). cbn beta in B2. lia. }
  destruct (calls_up lib z (init + (Z.of_nat (List.length ps) - 1) * thick) hop) with (cs := b2) (g := g) (g' := gb) (r := replay r0 (buf g)) as (t & Bt2 & _ & _ & _ & M);
    [lia|exact Hh|exact Hmax|exact Ag|split; [rewrite CP, Vz; lia|exact Hopg]|exact H3|exact K|exact R2|].
  exists t. split; [exact R1|]. split; [exact Bt2|exact M].
Qed.
End Print.
