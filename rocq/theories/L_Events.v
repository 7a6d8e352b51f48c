(** Proofs about the events in a generated text. *)
From Verif Require Import GoBase GoFloat GoStr M_Micrometer M_Geom2D M_Option M_Clip M_Builder M_Layer M_Render
  S_Text S_Printer S_Builder S_Calls S_Machine S_Render L_Str L_Data L_Printer L_Builder L_Calls L_Render.
Local Open Scope list_scope.
Local Open Scope string_scope.
Local Open Scope Z_scope.

Lemma events_app a b : events (a ++ newline ++ b) = (events a ++ events b)%list.
Proof. unfold events, text_lines. rewrite newline_app, split_app_gen, flat_map_app. reflexivity. Qed.
Lemma events_line a : events (a ++ newline) = events a.
Proof. rewrite <- (sapp_nil_r (a ++ newline)), sapp_assoc, events_app. change (events "") with (@nil event). apply app_nil_r. Qed.
Lemma events_term a b : terminated a -> events (a ++ b) = (events a ++ events b)%list.
Proof. intros [->|(x & ->)]; [reflexivity|]. rewrite sapp_assoc, events_app, events_line. reflexivity. Qed.
Lemma events_words c ws : clean c -> Forall clean ws -> is_move c = true -> events (c ++ tail_words ws) = [EMove].
Proof.
  intros Hc Hws M. destruct (line_words c ws Hc Hws) as [E L]. unfold events. rewrite (text_lines_one _ L). cbn [flat_map].
  unfold line_events, aux_line, moving. rewrite E, M.
  assert (Hn : String.eqb c "G0" = true \/ String.eqb c "G1" = true) by (unfold is_move in M; apply orb_prop in M; exact M).
  destruct Hn as [N|N]; apply String.eqb_eq in N; subst c; reflexivity.
Qed.
Local Opaque clean_char.
Lemma move_events p e s g : exists t k, buf (AddMoveSpeed p e s g) = buf g ++ t /\ terminated t /\ events t = repeat EMove k.
Proof.
  unfold AddMoveSpeed. cbv zeta. match goal with |- context [if ?c then g else _] => destruct c end.
  - exists "", O. rewrite sapp_nil_r. split; [reflexivity|]. split; [left; reflexivity|reflexivity].
  - cbn [buf]. match goal with |- context [(if ?b then "G1" else "G0") ++ (if ?sx then " X" ++ ?x else "") ++ (if ?sy then " Y" ++ ?y else "")
       ++ (if ?sz then " Z" ++ ?z else "") ++ (if ?sf then " F" ++ ?f else "") ++ (if ?se then " E" ++ ?ee else "") ++ newline] =>
      exists ((if b then "G1" else "G0") ++ (if sx then " X" ++ x else "") ++ (if sy then " Y" ++ y else "")
       ++ (if sz then " Z" ++ z else "") ++ (if sf then " F" ++ f else "") ++ (if se then " E" ++ ee else "") ++ newline), 1%nat;
      split; [reflexivity|];
      pose proof (tail_move sx sy sz sf se x y z f ee) as T;
      pose proof (move_words_clean sx sy sz sf se x y z f ee (fmt_clean _ _) (fmt_clean _ _) (fmt_clean _ _) (itoa_clean _) (fmt_clean _ _)) as C;
      revert T C; generalize (move_words sx sy sz sf se x y z f ee);
      generalize (if sx then " X" ++ x else "") as wx; generalize (if sy then " Y" ++ y else "") as wy;
      generalize (if sz then " Z" ++ z else "") as wz; generalize (if sf then " F" ++ f else "") as wf;
      generalize (if se then " E" ++ ee else "") as we; generalize b as bb end.
    intros bb we wf wz wy wx ws T C.
    replace ((if bb then "G1" else "G0") ++ wx ++ wy ++ wz ++ wf ++ we ++ newline)
      with (((if bb then "G1" else "G0") ++ tail_words ws) ++ newline) by (rewrite T, !sapp_assoc; reflexivity).
    split; [right; eauto|]. rewrite events_line. apply events_words; [destruct bb; split; (discriminate || reflexivity)|exact C|destruct bb; reflexivity].
Qed.
Lemma ops_events os : forall g, exists t k, buf (do_ops os g) = buf g ++ t /\ terminated t /\ events t = repeat EMove k.
Proof.
  induction os as [|[[p e] s] os IH]; intros g.
  - exists "", O. rewrite sapp_nil_r. split; [reflexivity|]. split; [left; reflexivity|reflexivity].
  - cbn [do_ops]. destruct (move_events p e s g) as (t & k & B & T & E). destruct (IH (do_op (p, e, s) g)) as (t' & k' & B' & T' & E').
    exists (t ++ t'), (k + k')%nat. rewrite B'. unfold do_op. rewrite B, sapp_assoc. split; [reflexivity|]. split; [apply terminated_app; assumption|].
    rewrite (events_term _ _ T), E, E', repeat_app. reflexivity.
Qed.
Lemma polygon_events lib l p z op_ g g' : AddPolygon lib l p z op_ g = Ok g' ->
  exists t k, buf g' = buf g ++ t /\ terminated t /\ events t = repeat EMove k.
Proof.
  intros E. destruct p as [|v p].
  - injection E as <-. exists "", O. rewrite sapp_nil_r. split; [reflexivity|]. split; [left; reflexivity|reflexivity].
  - destruct (DP_nonempty (v :: p)) as (p0 & ps & D); [discriminate|].
    rewrite (polygon_spec lib l (v :: p) z op_ g p0 ps ltac:(discriminate) D) in E.
    destruct (crossing lib l g p0) as [c|]; [|discriminate]. injection E as <-. apply ops_events.
Qed.

(** the text of a call that is not a move *)
Definition call_text (c : call) : option string :=
  match c with
  | CCommand s => Some (sprintf0 (s ++ newline))
  | CCommandInt s n => Some (sprintf_int (s ++ newline) n)
  | CComment s => Some (sprintf0 (";" ++ s ++ newline))
  | CCommentInt s n => Some (sprintf_int (";" ++ s ++ newline) n)
  | CMoveSpeed _ _ _ | CMove _ _ | CPolygon _ _ _ _ => None
  | _ => Some ""
  end.
(** [says cs es k]: the calls produce the events [es], if moves are counted *)
Inductive says : list call -> list event -> Prop :=
| Says_nil : says [] []
| Says_text c t cs es : call_text c = Some t -> terminated t -> says cs es -> says (c :: cs) (events t ++ es)
| Says_move c k cs es : call_text c = None -> says cs es -> says (c :: cs) (repeat EMove k ++ es).
Definition whole_lines (c : call) : Prop := match call_text c with Some t => terminated t | None => True end.
Lemma calls_say lib cs : forall g g', Forall whole_lines cs -> run_calls lib cs g = Ok g' ->
  exists t es, buf g' = buf g ++ t /\ terminated t /\ events t = es /\ says cs es.
Proof.
  induction cs as [|c cs IH]; intros g g' W E; cbn [run_calls] in E.
  - injection E as <-. exists "", []. rewrite sapp_nil_r. split; [reflexivity|]. split; [left; reflexivity|]. split; [reflexivity|constructor].
  - inversion W as [|? ? W1 W2]; subst. apply bind_Ok in E. destruct E as (g1 & E1 & E2).
    destruct (IH g1 g' W2 E2) as (t' & es & B' & T' & V' & S').
    assert (TX : forall t, call_text c = Some t -> buf g1 = buf g ++ t ->
      exists t es, buf g' = buf g ++ t /\ terminated t /\ events t = es /\ says (c :: cs) es).
    { intros t C B. unfold whole_lines in W1. rewrite C in W1. exists (t ++ t'), (events t ++ es)%list. rewrite B', B, sapp_assoc.
      split; [reflexivity|]. split; [apply terminated_app; assumption|]. split; [rewrite (events_term _ _ W1), V'; reflexivity|].
      apply Says_text; assumption. }
    assert (MV : call_text c = None -> (exists t k, buf g1 = buf g ++ t /\ terminated t /\ events t = repeat EMove k) ->
      exists t es, buf g' = buf g ++ t /\ terminated t /\ events t = es /\ says (c :: cs) es).
    { intros C (t & k & B & T & V). exists (t ++ t'), (repeat EMove k ++ es)%list. rewrite B', B, sapp_assoc.
      split; [reflexivity|]. split; [apply terminated_app; assumption|]. split; [rewrite (events_term _ _ T), V, V'; reflexivity|].
      apply Says_move; assumption. }
    destruct c; cbn [run_call] in E1; try (injection E1 as <-); try (eapply TX; [reflexivity|cbn; rewrite ?sapp_nil_r; reflexivity]);
      apply MV; try reflexivity.
    + apply move_events.
    + rewrite addMove_op. match goal with |- context [do_op ?o g] => exact (ops_events [o] g) end.
    + apply (polygon_events _ _ _ _ _ _ _ E1).
Qed.
Lemma says_app a b es : says (a ++ b) es -> exists e1 e2, es = (e1 ++ e2)%list /\ says a e1 /\ says b e2.
Proof.
  revert es. induction a as [|c a IH]; intros es H; cbn [app] in H.
  - exists [], es. repeat split; [constructor|exact H].
  - inversion H as [|? t ? es' C T S|? k ? es' C S]; subst; destruct (IH _ S) as (e1 & e2 & -> & S1 & S2); eexists; exists e2;
      (split; [rewrite app_assoc; reflexivity|]); (split; [|exact S2]); [eapply Says_text|eapply Says_move]; eassumption.
Qed.
(** calls that only produce moves *)
Definition mute (c : call) : Prop := match call_text c with Some t => events t = [] | None => True end.
Lemma mute_says cs : Forall mute cs -> forall es, says cs es -> exists k, es = repeat EMove k.
Proof.
  induction 1 as [|c cs H _ IH]; intros es S.
  - inversion S; subst. exists O. reflexivity.
  - inversion S as [|? t ? es' C T S'|? k ? es' C S']; subst; destruct (IH _ S') as (k' & ->).
    + unfold mute in H. rewrite C in H. rewrite H. exists k'. reflexivity.
    + exists (k + k')%nat. rewrite repeat_app. reflexivity.
Qed.
(** calls with text only *)
Lemma text_says c t cs es : call_text c = Some t -> says (c :: cs) es -> exists es', es = (events t ++ es')%list /\ says cs es'.
Proof. intros C S. inversion S as [|? t' ? es' C' T S'|? k ? es' C' S']; subst; rewrite C in C'; [injection C' as <-; eauto|discriminate]. Qed.

(** *** numbers in lines *)
Lemma clean_no_nl s : all_chars clean_char s = true -> no_char (chr 10) s = true.
Proof. intros H. apply line_no_nl, clean_line, H. Qed.
Lemma itoa_ne n : itoa n <> "".
Proof.
  intros E. pose proof (parse_num_itoa n) as P. rewrite E in P. discriminate.
Qed.
(** a line "C Sn" followed by a comment *)
Lemma uncomment_app a b : all_chars line_char a = true -> uncomment (a ++ String ";" b) = a.
Proof.
  induction a as [|c a IH]; [reflexivity|]. cbn [all_chars append uncomment]. intros H. apply andb_prop in H. destruct H as [H1 H2].
  unfold line_char in H1. rewrite Ascii.eqb_sym. destruct (Ascii.eqb ";" c); [discriminate|]. rewrite (IH H2). reflexivity.
Qed.
Lemma words_uncomment a b : uncomment a = uncomment b -> words a = words b.
Proof. unfold words. intros ->. reflexivity. Qed.
Lemma words_comment a b : all_chars line_char a = true -> words (a ++ String ";" b) = words a.
Proof. intros H. apply words_uncomment. rewrite (uncomment_app _ _ H), (uncomment_id _ H). reflexivity. Qed.
Lemma words_space a : all_chars line_char a = true -> words (a ++ " ") = words a.
Proof.
  intros H. unfold words. rewrite !uncomment_id; [|exact H|rewrite all_chars_app, H; reflexivity].
  change (a ++ " ") with (a ++ String " " ""). rewrite split_app_gen, filter_app. cbn. apply app_nil_r.
Qed.
(** a command with an S word, perhaps followed by a comment *)
Lemma s_events c n rest : clean c -> (rest = "" \/ (exists x, rest = String ";" x) \/ (exists x, rest = " " ++ String ";" x)) ->
  no_char (chr 10) rest = true -> is_move c = false -> (forall x, strip_prefix ";LAYER:" (c ++ x) = None) ->
  events (c ++ " S" ++ itoa n ++ rest ++ newline) =
  map EAux (if String.eqb c "M107" then [Fan 0] else if String.eqb c "M106" then [Fan (n * 10000)]
            else if String.eqb c "M104" then [HotEnd false (n * 10000)] else if String.eqb c "M109" then [HotEnd true (n * 10000)]
            else if String.eqb c "M140" then [Bed false (n * 10000)] else if String.eqb c "M190" then [Bed true (n * 10000)] else []).
Proof.
  intros Hc HR HN HM HL.
  assert (W : words (c ++ tail_words [String "S" (itoa n)]) = [c; String "S" (itoa n)] /\ all_chars line_char (c ++ tail_words [String "S" (itoa n)]) = true).
  { apply line_words; [exact Hc|]. constructor; [apply clean_word; [reflexivity|apply itoa_clean]|constructor]. }
  destruct W as [W L]. set (a := c ++ tail_words [String "S" (itoa n)]) in *.
  replace (c ++ " S" ++ itoa n ++ rest ++ newline) with ((a ++ rest) ++ newline).
  2: { unfold a. cbn [tail_words]. rewrite sapp_nil_r, !sapp_assoc. reflexivity. }
  rewrite events_line.
  assert (W' : words (a ++ rest) = [c; String "S" (itoa n)]).
  { destruct HR as [->|[(x & ->)|(x & ->)]].
    - rewrite sapp_nil_r. exact W.
    - rewrite words_comment by exact L. exact W.
    - replace (a ++ " " ++ String ";" x) with ((a ++ " ") ++ String ";" x) by (rewrite sapp_assoc; reflexivity).
      rewrite words_comment, words_space by (rewrite ?all_chars_app, ?L; reflexivity). exact W. }
  unfold events, text_lines. rewrite split_none by (rewrite no_char_app, HN, (line_no_nl _ L); reflexivity).
  cbn [flat_map]. rewrite app_nil_r. unfold line_events, aux_line, moving. rewrite W', HM.
  replace (a ++ rest) with (c ++ (tail_words [String "S" (itoa n)] ++ rest)) by (unfold a; rewrite sapp_assoc; reflexivity).
  rewrite HL. cbn [s_word]. change (Ascii.eqb "S" "S") with true. cbv iota. rewrite number_itoa, app_nil_r. cbn [app]. reflexivity.
Qed.
Lemma layer_mark n : events (sprintf_int (";" ++ "LAYER:%v" ++ newline) n) = [ELayer (itoa n)].
Proof.
  change (sprintf_int (";" ++ "LAYER:%v" ++ newline) n) with (";LAYER:" ++ itoa n ++ newline).
  replace (";LAYER:" ++ itoa n ++ newline) with ((";LAYER:" ++ itoa n) ++ newline) by (rewrite sapp_assoc; reflexivity).
  rewrite events_line. unfold events, text_lines. rewrite split_none by (rewrite no_char_app, (clean_no_nl _ (itoa_clean n)); reflexivity).
  cbn [flat_map]. unfold line_events. change (words (";LAYER:" ++ itoa n)) with (@nil string). reflexivity.
Qed.
Ltac s_ev := rewrite s_events;
  [reflexivity|split; [discriminate|reflexivity]| |reflexivity|reflexivity|intros; reflexivity].
Lemma ev_M190 n : events (sprintf_int ("M190 S%d ; heat and wait for bed" ++ newline) n) = [EAux (Bed true (n * 10000))].
Proof. change (sprintf_int _ n) with ("M190" ++ " S" ++ itoa n ++ " ; heat and wait for bed" ++ newline). s_ev. right; right; eexists; reflexivity. Qed.
Lemma ev_M109 n : events (sprintf_int ("M109 S%d ; wait for hot end temperature" ++ newline) n) = [EAux (HotEnd true (n * 10000))].
Proof. change (sprintf_int _ n) with ("M109" ++ " S" ++ itoa n ++ " ; wait for hot end temperature" ++ newline). s_ev. right; right; eexists; reflexivity. Qed.
Lemma ev_M140 n : events (sprintf_int ("M140 S%d" ++ newline) n) = [EAux (Bed false (n * 10000))].
Proof. change (sprintf_int _ n) with ("M140" ++ " S" ++ itoa n ++ "" ++ newline). s_ev. left; reflexivity. Qed.
Lemma ev_M104 n : events (sprintf_int ("M104 S%d" ++ newline) n) = [EAux (HotEnd false (n * 10000))].
Proof. change (sprintf_int _ n) with ("M104" ++ " S" ++ itoa n ++ "" ++ newline). s_ev. left; reflexivity. Qed.
Lemma ev_M106 n : events (sprintf_int ("M106 S%d; change fan speed" ++ newline) n) = [EAux (Fan (n * 10000))].
Proof. change (sprintf_int _ n) with ("M106" ++ " S" ++ itoa n ++ "; change fan speed" ++ newline). s_ev. right; left; eexists; reflexivity. Qed.
Lemma int_terminated s n : exists a, sprintf_int (s ++ newline) n = a ++ newline.
Proof.
  induction s as [|c s IH]; [exists ""; reflexivity|]. cbn [append sprintf_int].
  destruct (Ascii.eqb c "%").
  - destruct s as [|d u].
    + cbn. exists (String c ""). reflexivity.
    + destruct (Ascii.eqb d "d" || Ascii.eqb d "v") eqn:E.
      * cbn [append]. rewrite E. exists (itoa n ++ u). rewrite sapp_assoc. reflexivity.
      * destruct IH as (a & IH). cbn [append] in *. rewrite E. exists (String c a). cbn [append]. rewrite <- IH. reflexivity.
  - destruct IH as (a & ->). exists (String c a). reflexivity.
Qed.

(** *** what the renderers between PreLayer and PostLayer call *)
Definition print_comments : list string :=
  ["TYPE:WALL-INNER"; "TYPE:WALL-OUTER"; "TYPE:SKIRT"; "TYPE:SUPPORT"; "TYPE:FILL"; "BOTTOM-FILL"; "TOP-FILL"; "INTERNAL-FILL"].
Definition printing (z : Z) (c : call) : Prop :=
  match c with
  | CPolygon _ _ z' _ => z' = z
  | CSetExtrudeSpeed _ => True
  | CComment s => In s print_comments
  | _ => False
  end.
Lemma print_comment_ok s : In s print_comments -> no_char "%" s = true /\ no_char (chr 10) s = true /\ strip_prefix "LAYER:" s = None.
Proof. unfold print_comments. cbn [In]. intros H. repeat (destruct H as [<-|H]; [split; [reflexivity|split; reflexivity]|]). destruct H. Qed.
Lemma comment_events s : no_char "%" s = true -> no_char (chr 10) s = true -> strip_prefix "LAYER:" s = None ->
  events (sprintf0 (";" ++ s ++ newline)) = [].
Proof.
  intros P N L. rewrite sprintf_plain by (rewrite !no_char_app, P; reflexivity).
  change (";" ++ s ++ newline) with ((";" ++ s) ++ newline). rewrite events_line. unfold events, text_lines.
  rewrite split_none by (rewrite no_char_app, N; reflexivity). cbn [flat_map]. unfold line_events.
  replace (strip_prefix ";LAYER:" (";" ++ s)) with (strip_prefix "LAYER:" s) by reflexivity. rewrite L. reflexivity.
Qed.
Lemma printing_mute z c : printing z c -> mute c.
Proof.
  destruct c; cbn [printing]; intros H; try contradiction; cbn [mute call_text]; unfold mute; cbn [call_text]; try exact I; try reflexivity.
  destruct (print_comment_ok s H) as (P & N & L). apply comment_events; assumption.
Qed.
Lemma printing_whole z c : printing z c -> whole_lines c.
Proof.
  destruct c; cbn [printing]; intros H; try contradiction; unfold whole_lines; cbn [call_text]; try exact I; [left; reflexivity|].
  destruct (print_comment_ok s H) as (P & N & L). rewrite sprintf_plain by (rewrite !no_char_app, P; reflexivity).
  right. exists (";" ++ s). rewrite sapp_assoc. reflexivity.
Qed.
Lemma printing_harmless z c : printing z c -> harmless c.
Proof.
  destruct c; cbn [printing]; intros H; try contradiction; try exact I.
  destruct (print_comment_ok s H) as (P & N & L). apply comment_harmless; assumption.
Qed.
Section Printing.
Variables (lib : clib) (o : options).
Lemma Forall_map_intro {A B} (P : B -> Prop) (f : A -> B) l : (forall x, In x l -> P (f x)) -> Forall P (map f l).
Proof. intros H. apply Forall_forall. intros y Hy. apply in_map_iff in Hy. destruct Hy as (x & <- & Hx). apply H, Hx. Qed.
Lemma Forall_flat {A B} (P : B -> Prop) (f : A -> list B) l : (forall x, In x l -> Forall P (f x)) -> Forall P (flat_map f l).
Proof.
  intros H. apply Forall_forall. intros y Hy. apply in_flat_map in Hy. destruct Hy as (x & Hx & Hy).
  exact (proj1 (Forall_forall _ _) (H x Hx) y Hy).
Qed.
Lemma walls_printing l z p : Forall (printing z) (closed_walls l z p).
Proof. unfold closed_walls. apply Forall_app. split; [apply Forall_map_intro; reflexivity|repeat constructor]. Qed.
Lemma perimeter_printing l z cs : perimeter_plan o l z = Ok cs -> Forall (printing z) cs.
Proof.
  unfold perimeter_plan. intros E. apply bind_Ok in E. destruct E as (ps & _ & E). injection E as <-.
  apply Forall_flat. intros [|outer inner] _; cbn [part_plan]; [constructor|]. apply Forall_app.
  split; apply Forall_flat; intros p _; (apply Forall_cons; [|apply Forall_cons; [exact I|apply walls_printing]]); cbn; tauto.
Qed.
Lemma infill_printing fuel pat name comments nr l z cs : (forall c, In c comments -> In c print_comments) ->
  infill_plan lib fuel pat name comments nr l z = Ok cs -> Forall (printing z) cs.
Proof.
  intros H E. unfold infill_plan in E. destruct pat as [p|]; [|injection E as <-; constructor].
  apply bind_Ok in E. destruct E as (parts & _ & E). apply bind_Ok in E. destruct E as (filled & _ & E). injection E as <-.
  apply Forall_flat. intros ls _. apply Forall_app. split; apply Forall_map_intro; [exact H|reflexivity].
Qed.
Lemma skirt_printing nr l z cs : skirt_plan lib o nr l z = Ok cs -> Forall (printing z) cs.
Proof.
  unfold skirt_plan. cbv zeta. destruct (_ || _); [intros [= <-]; constructor|]. intros E.
  apply bind_Ok in E. destruct E as (ps & _ & E). apply bind_Ok in E. destruct E as (su & _ & E).
  assert (G : forall w x y z', bind (Inset lib w x y z') (fun lines => Ok (CComment "TYPE:SKIRT" :: map (fun p => CPolygon None (outline p) z false) (concat lines))) = Ok cs ->
    Forall (printing z) cs).
  { intros w x y z' G. apply bind_Ok in G. destruct G as (ls & _ & G). injection G as <-.
    apply Forall_cons; [cbn; tauto|]. apply Forall_map_intro. reflexivity. }
  destruct su, ps; [injection E as <-; constructor| | |]; eapply G, E.
Qed.
Lemma brim_printing l z cs : brim_plan l z = Ok cs -> Forall (printing z) cs.
Proof.
  unfold brim_plan. intros E. apply bind_Ok in E. destruct E as (br & _ & E). destruct br; injection E as <-; [constructor|].
  apply Forall_cons; [cbn; tauto|]. apply Forall_map_intro. reflexivity.
Qed.
Lemma layer_printing fuel mn mx inf nr l z p : plan_layer lib o fuel mn mx inf nr l z = Ok p ->
  Forall (printing z) (p_skirt p ++ p_brim p ++ p_walls p ++ p_fill p).
Proof.
  intros E. unfold plan_layer in E. apply bind_Ok in E. destruct E as (s & S & E). apply bind_Ok in E. destruct E as (b & B & E).
  apply bind_Ok in E. destruct E as (w & W & E). apply bind_Ok in E. destruct E as (f & F & E). injection E as <-. cbn [p_skirt p_brim p_walls p_fill].
  unfold fill_plan in F. apply bind_Ok in F. destruct F as (c1 & F1 & F). apply bind_Ok in F. destruct F as (c2 & F2 & F).
  apply bind_Ok in F. destruct F as (c3 & F3 & F). apply bind_Ok in F. destruct F as (c4 & F4 & F). apply bind_Ok in F. destruct F as (c5 & F5 & F).
  injection F as <-. rewrite !Forall_app.
  split; [eapply skirt_printing, S|]. split; [eapply brim_printing, B|]. split; [eapply perimeter_printing, W|].
  split; [eapply infill_printing, F1|split; [eapply infill_printing, F2|split; [eapply infill_printing, F3|split; [eapply infill_printing, F4|eapply infill_printing, F5]]]];
    cbn; tauto.
Qed.
End Printing.

(** *** templates keep characters *)
Lemma replaced_chars q old new s s' : replaced old new s s' -> all_chars q s = true -> all_chars q new = true -> all_chars q s' = true.
Proof.
  intros R. induction R as [s _|a s s' _ _ IH]; intros H N; [exact H|].
  rewrite !all_chars_app in H. apply andb_prop in H. destruct H as [Ha H]. apply andb_prop in H. destruct H as [_ Hs].
  rewrite !all_chars_app, Ha, N, (IH Hs N). reflexivity.
Qed.
Lemma strip_prefix_app p s : strip_prefix p (p ++ s) = Some s.
Proof. induction p as [|c p IH]; [reflexivity|]. cbn [append strip_prefix]. rewrite Ascii.eqb_refl. exact IH. Qed.
Lemma strip_prefix_inv p : forall s r, strip_prefix p s = Some r -> s = p ++ r.
Proof.
  induction p as [|c p IH]; intros s r E; cbn in E; [injection E as ->; reflexivity|]. destruct s as [|d s]; [discriminate|].
  destruct (Ascii.eqb_spec c d) as [->|]; [|discriminate]. cbn [append]. rewrite (IH s r E). reflexivity.
Qed.
Lemma replaced_cons c old new t t' : strip_prefix old (String c t) = None -> replaced old new t t' ->
  replaced old new (String c t) (String c t').
Proof.
  intros N R. destruct R as [t H|a s s' H R].
  - apply Rep_end. intros x y E. destruct x as [|d x].
    + cbn [append] in E. rewrite E, strip_prefix_app in N. discriminate.
    + injection E as -> E. exact (H x y E).
  - change (String c (a ++ old ++ s)) with (String c a ++ old ++ s). change (String c (a ++ new ++ s')) with (String c a ++ new ++ s').
    apply Rep_one; [|exact R]. intros x y E. destruct x as [|d x].
    + cbn [append] in E. exfalso. replace (String c (a ++ old ++ s)) with (old ++ (y ++ s)) in N.
      * rewrite strip_prefix_app in N. discriminate.
      * replace (String c (a ++ old ++ s)) with (String c (a ++ old) ++ s) by (cbn [append]; rewrite sapp_assoc; reflexivity).
        rewrite E, sapp_assoc. reflexivity.
    + injection E as -> E. exact (H x y E).
Qed.
Lemma replace_aux_replaced old new : old <> "" -> forall f s, (String.length s < f)%nat -> replaced old new s (replace_aux f old new s).
Proof.
  intros O. induction f as [|f IH]; intros s Hf; [lia|]. cbn [replace_aux]. destruct s as [|c t].
  - apply Rep_end. intros a b E. destruct a; [|discriminate]. destruct old; [contradiction|discriminate].
  - destruct (strip_prefix old (String c t)) as [r|] eqn:E.
    + apply strip_prefix_inv in E. rewrite E in *. change (old ++ r) with ("" ++ old ++ r). change (new ++ replace_aux f old new r) with ("" ++ new ++ replace_aux f old new r).
      apply Rep_one.
      * intros x y H. cbn [append] in H. apply (f_equal String.length) in H. rewrite !slength_app in H. destruct y; [reflexivity|cbn in H; lia].
      * apply IH. rewrite slength_app in Hf. destruct old; [contradiction|]. cbn in Hf. lia.
    + apply replaced_cons; [exact E|]. apply IH. cbn in Hf. lia.
Qed.
Lemma replaceAll_replaced old new s : old <> "" -> replaced old new s (replaceAll s old new).
Proof. intros O. apply replace_aux_replaced; [exact O|lia]. Qed.
Lemma fill_start_line o line : start_line o line (fill_template o line).
Proof.
  unfold start_line, fill_template. cbv zeta.
  exists (if contains line BedTempTemplate then replaceAll line BedTempTemplate (itoa (InitialBedTemperature (Filament o))) else line).
  assert (G : forall old new s, old <> "" -> replaced old new s (if contains s old then replaceAll s old new else s)).
  { intros old new s O. destruct (contains s old) eqn:C; [apply replaceAll_replaced, O|]. apply Rep_end. intros a b E.
    assert (contains s old = true) as C'; [|congruence]. apply contains_spec. eauto. }
  split; apply G; discriminate.
Qed.
Lemma fill_chars q o line : all_chars q line = true -> (forall n, all_chars q (itoa n) = true) -> all_chars q (fill_template o line) = true.
Proof.
  intros H N. destruct (fill_start_line o line) as (x & R1 & R2).
  eapply replaced_chars; [exact R2| |apply N]. eapply replaced_chars; [exact R1|exact H|apply N].
Qed.
Definition num_char (c : ascii) : bool := is_digit c || Ascii.eqb "-" c.
Lemma itoa_chars n : all_chars num_char (itoa n) = true.
Proof.
  assert (D : forall m, 0 <= m -> all_chars num_char (udec m) = true).
  { intros m H. eapply all_chars_mono; [|apply udec_digits, H]. intros c Hc. unfold num_char. rewrite Hc. reflexivity. }
  unfold itoa. destruct (Z.ltb_spec n 0); [rewrite all_chars_app|]; rewrite D by lia; reflexivity.
Qed.
Lemma itoa_no_percent n : no_char "%" (itoa n) = true.
Proof.
  eapply all_chars_mono; [|apply itoa_chars]. intros c Hc. unfold num_char in Hc. destruct (Ascii.eqb_spec "%" c) as [<-|]; [|reflexivity].
  vm_compute in Hc. discriminate.
Qed.
Lemma fill_plain o line : no_char "%" line = true -> no_char "%" (fill_template o line) = true.
Proof. intros H. apply fill_chars; [exact H|apply itoa_no_percent]. Qed.

(** *** no placeholder is left *)
Definition avoids (p n : string) : Prop := forall c, all_chars (fun d => negb (Ascii.eqb c d)) p = false -> all_chars (fun d => negb (Ascii.eqb c d)) n = true.
Lemma has_char c a b : all_chars (fun d => negb (Ascii.eqb c d)) (a ++ String c b) = false.
Proof. rewrite all_chars_app. cbn [all_chars]. rewrite Ascii.eqb_refl. apply andb_false_r. Qed.
Lemma clash p n c : avoids p n -> (exists a b, p = a ++ String c b) -> (exists a b, n = a ++ String c b) -> False.
Proof.
  intros A (a & b & ->) (a' & b' & ->). pose proof (A c (has_char c a b)) as H. rewrite has_char in H. discriminate.
Qed.
Lemma after_n p n b : p <> "" -> n <> "" -> avoids p n -> forall x y, n ++ b = x ++ p ++ y -> exists x' , b = x' ++ p ++ y.
Proof.
  intros Hp. revert b. induction n as [|c n IH]; intros b Hn A x y E; [contradiction|].
  destruct x as [|d x].
  - destruct p as [|e p]; [contradiction|]. injection E as -> _. exfalso. eapply (clash _ _ e A); [exists "", p|exists "", n]; reflexivity.
  - injection E as -> E. destruct n as [|c' n].
    + exists x. exact E.
    + apply (IH b ltac:(discriminate)) with (x := x).
      * intros c0 H. pose proof (A c0 H) as H'. cbn [all_chars] in H'. apply andb_prop in H'. apply H'.
      * exact E.
Qed.
Lemma occurrence_split p n b : p <> "" -> n <> "" -> avoids p n -> forall a x y, a ++ n ++ b = x ++ p ++ y ->
  (exists x y, a = x ++ p ++ y) \/ (exists x y, b = x ++ p ++ y).
Proof.
  intros Hp Hn A. induction a as [|c a IH]; intros x y E.
  - right. destruct (after_n p n b Hp Hn A x y E) as (x' & H). eauto.
  - destruct x as [|d x].
    + (* the occurrence starts at the beginning *)
      left. assert (G : forall a p', (exists q, p = q ++ p') -> a ++ n ++ b = p' ++ y -> exists z, a = p' ++ z).
      { clear - A Hn. induction a as [|c a IH]; intros p' (q & Q) E.
        - destruct p' as [|e p']; [exists ""; reflexivity|]. destruct n as [|c n]; [contradiction|]. injection E as -> _.
          exfalso. eapply (clash _ _ e A); [exists q, p'; exact Q|exists "", n; reflexivity].
        - destruct p' as [|e p']; [eexists; reflexivity|]. injection E as -> E. destruct (IH p') as (z & ->); [|exact E|eexists; reflexivity].
          exists (q ++ String e ""). rewrite sapp_assoc. exact Q. }
      destruct (G (String c a) p) as (z & Z); [exists ""; reflexivity|exact E|]. exists "", z. exact Z.
    + injection E as -> E. destruct (IH x y E) as [(x' & y' & ->)|H]; [left; exists (String d x'), y'; reflexivity|right; exact H].
Qed.
Lemma replaced_no old new p s s' : p <> "" -> new <> "" -> avoids p new -> replaced old new s s' ->
  p = old \/ (forall a b, s <> a ++ p ++ b) -> forall a b, s' <> a ++ p ++ b.
Proof.
  intros Hp Hn A R. induction R as [s H|a s s' H R IH]; intros O x y E.
  - destruct O as [->|O]; [exact (H x y E)|exact (O x y E)].
  - destruct (occurrence_split p new s' Hp Hn A a x y E) as [(x' & y' & ->)|(x' & y' & E')].
    + destruct O as [->|O].
      * specialize (H x' (y' ++ old)). rewrite !sapp_assoc in H. specialize (H eq_refl). destruct y'; [|discriminate]. cbn in H. contradiction.
      * apply (O x' (y' ++ old ++ s)). rewrite !sapp_assoc. reflexivity.
    + refine (IH _ x' y' E'). destruct O as [->|O]; [left; reflexivity|right]. intros u v ->. apply (O (a ++ old ++ u) v). rewrite !sapp_assoc. reflexivity.
Qed.
Lemma avoids_itoa p n : all_chars (fun c => negb (num_char c)) p = true -> avoids p (itoa n).
Proof.
  intros H c Hc. destruct (all_chars (fun d => negb (Ascii.eqb c d)) (itoa n)) eqn:E; [reflexivity|exfalso].
  assert (G : forall q s, all_chars q s = true -> all_chars (fun d => negb (Ascii.eqb c d)) s = false -> q c = true).
  { clear. intros q s. induction s as [|d s IH]; cbn [all_chars]; [discriminate|]. intros H1 H2. apply andb_prop in H1. destruct H1 as [H1 H3].
    destruct (Ascii.eqb_spec c d) as [->|]; [exact H1|]. cbn [negb andb] in H2. exact (IH H3 H2). }
  pose proof (G _ _ H Hc) as G1. pose proof (G _ _ (itoa_chars n) E) as G2. cbv beta in G1. rewrite G2 in G1. discriminate.
Qed.
Lemma fill_no_placeholder o line a b :
  fill_template o line <> a ++ "{print_bed_temperature}" ++ b /\ fill_template o line <> a ++ "{print_temperature}" ++ b.
Proof.
  destruct (fill_start_line o line) as (x & R1 & R2).
  assert (N1 : forall a b, x <> a ++ "{print_bed_temperature}" ++ b).
  { eapply replaced_no; [| | |exact R1|left; reflexivity]; [discriminate|apply itoa_ne|apply avoids_itoa; reflexivity]. }
  split; [revert a b; eapply replaced_no; [| | |exact R2|right; exact N1]|revert a b; eapply replaced_no; [| | |exact R2|left; reflexivity]];
    try discriminate; try apply itoa_ne; apply avoids_itoa; reflexivity.
Qed.
Lemma fill_unchanged o line : (forall a b, line <> a ++ "{print_bed_temperature}" ++ b) -> (forall a b, line <> a ++ "{print_temperature}" ++ b) ->
  fill_template o line = line.
Proof.
  intros H1 H2. unfold fill_template. cbv zeta.
  assert (C : forall p, (forall a b, line <> a ++ p ++ b) -> contains line p = false).
  { intros p H. destruct (contains line p) eqn:C; [|reflexivity]. apply contains_spec in C. destruct C as (a & b & C). destruct (H a b C). }
  unfold BedTempTemplate, HotendTempTemplate. rewrite (C _ H1). cbv iota. rewrite (C _ H2). reflexivity.
Qed.

(** *** events of a whole print *)
Definition ev (c : call) : list event := match call_text c with Some t => events t | None => [] end.
Lemma texts_say cs : Forall (fun c => call_text c <> None) cs -> forall es, says cs es -> es = flat_map ev cs.
Proof.
  induction 1 as [|c cs H _ IH]; intros es S; [inversion S; reflexivity|].
  destruct (call_text c) as [t|] eqn:C; [|contradiction]. destruct (text_says c t cs es C S) as (es' & -> & S').
  cbn [flat_map]. unfold ev at 1. rewrite C, (IH es' S'). reflexivity.
Qed.
Definition talks (c : call) : Prop := call_text c <> None /\ whole_lines c.
Lemma plain_talks s : no_char "%" s = true -> talks (CCommand s).
Proof.
  intros P. split; [discriminate|]. unfold whole_lines. cbn [call_text]. rewrite sprintf_plain by (rewrite no_char_app, P; reflexivity).
  right. exists s. reflexivity.
Qed.
Lemma comment_talks s : no_char "%" s = true -> talks (CComment s).
Proof.
  intros P. split; [discriminate|]. unfold whole_lines. cbn [call_text]. rewrite sprintf_plain by (rewrite !no_char_app, P; reflexivity).
  right. exists (";" ++ s). rewrite sapp_assoc. reflexivity.
Qed.
Lemma int_talks s n : talks (CCommandInt s n) /\ talks (CCommentInt s n).
Proof.
  split; (split; [discriminate|]); unfold whole_lines; cbn [call_text].
  - right. destruct (int_terminated s n) as (a & ->). eauto.
  - right. destruct (int_terminated (";" ++ s) n) as (a & E). cbn [append] in *. rewrite E. eauto.
Qed.
Definition setting (c : call) : Prop := call_text c = Some "".
Lemma setting_talks c : setting c -> talks c.
Proof. intros H. unfold setting in H. split; [congruence|]. unfold whole_lines. rewrite H. left. reflexivity. Qed.
Ltac talk := repeat (apply Forall_cons; [first [apply setting_talks; reflexivity|apply comment_talks; reflexivity|apply int_talks|apply plain_talks; reflexivity]|]); try apply Forall_nil.
Lemma if_talks (b : bool) cs : Forall talks cs -> Forall talks (if b then cs else []).
Proof. destruct b; [auto|constructor]. Qed.
Lemma custom_talks lines : Forall (fun s => no_char "%" s = true) lines -> Forall talks (map CCommand lines).
Proof. intros H. apply Forall_map_intro. intros s Hs. apply plain_talks. exact (proj1 (Forall_forall _ _) H s Hs). Qed.
Lemma custom_events lines : Forall (fun s => no_char "%" s = true) lines -> flat_map ev (map CCommand lines) = custom lines.
Proof.
  induction 1 as [|s lines H _ IH]; [reflexivity|]. cbn [map flat_map custom]. unfold custom in IH. rewrite IH. unfold ev at 1. cbn [call_text].
  rewrite sprintf_plain by (rewrite no_char_app, H; reflexivity). rewrite events_line. reflexivity.
Qed.
Section Layers.
Variable o : options.
Hypothesis plain_start : Forall (fun s => no_char "%" s = true) (StartGCode (Printer o)).
Hypothesis plain_end : Forall (fun s => no_char "%" s = true) (EndGCode (Printer o)).
Lemma plain_filled : Forall (fun s => no_char "%" s = true) (map (fill_template o) (StartGCode (Printer o))).
Proof. apply Forall_map_intro. intros s Hs. apply fill_plain. exact (proj1 (Forall_forall _ _) plain_start s Hs). Qed.
Lemma start_talks : Forall talks (start_calls o (map (fill_template o) (StartGCode (Printer o)))).
Proof.
  unfold start_calls. rewrite !Forall_app. split; [talk|]. split; [apply if_talks; talk|]. split; [apply if_talks; talk|].
  split; [talk|]. split; [apply custom_talks, plain_filled|]. talk.
Qed.
Lemma start_events : flat_map ev (start_calls o (map (fill_template o) (StartGCode (Printer o)))) =
  (safe_start o ++ custom (map (fill_template o) (StartGCode (Printer o))))%list.
Proof.
  unfold start_calls, safe_start. rewrite !flat_map_app, custom_events by apply plain_filled.
  match goal with |- (?a ++ ?b ++ ?c ++ ?d ++ ?e ++ ?f = _)%list => change a with (@nil event); change d with (@nil event); replace f with (@nil event) by reflexivity end.
  rewrite app_nil_r. cbn [app]. rewrite <- app_assoc. f_equal; [|f_equal].
  - destruct (_ && _); [|reflexivity]. cbn [flat_map]. unfold ev. cbn [call_text]. rewrite ev_M190. reflexivity.
  - destruct (_ && _); [|reflexivity]. cbn [flat_map]. unfold ev. cbn [call_text]. rewrite ev_M109. reflexivity.
Qed.
Lemma pre_talks nr : Forall talks (pre_plan o nr).
Proof.
  unfold pre_plan. rewrite !Forall_app. split; [destruct (nr =? 0); [apply start_talks|apply if_talks; talk]|]. split; [talk|].
  split; [apply if_talks; talk|]. split; [|apply if_talks; talk].
  destruct (lut_get _ nr) as [[|v|v]|]; talk.
Qed.
Lemma pre_events nr : flat_map ev (pre_plan o nr) =
  ((if nr =? 0 then safe_start o ++ custom (map (fill_template o) (StartGCode (Printer o))) else []) ++
   [ELayer (itoa nr)] ++ fan_event o nr ++ temperature_event o nr)%list.
Proof.
  unfold pre_plan. rewrite !flat_map_app. f_equal; [|f_equal].
  - destruct (nr =? 0); [apply start_events|]. destruct (nr =? 1); reflexivity.
  - cbn [flat_map]. unfold ev. cbn [call_text]. rewrite layer_mark. reflexivity.
  - replace (flat_map ev (if 0 <? nr then [CDisableOverride; CSetExtrudeSpeed (LayerSpeed (Print o))] else [])) with (@nil event)
      by (destruct (0 <? nr); reflexivity). cbn [app]. f_equal.
    + unfold fan_event. destruct (lut_get _ nr) as [[|v|v]|]; [reflexivity| | |reflexivity];
        cbn [flat_map]; unfold ev; cbn [call_text]; rewrite ev_M106; reflexivity.
    + unfold temperature_event. destruct (nr =? _); [|reflexivity]. cbn [flat_map]. unfold ev. cbn [call_text].
      rewrite ev_M140, ev_M104. reflexivity.
Qed.
Lemma end_talks : Forall talks (end_calls o).
Proof.
  unfold end_calls. rewrite !Forall_app. split; [talk|]. split; [apply if_talks; talk|]. split; [apply if_talks; talk|]. apply custom_talks, plain_end.
Qed.
Lemma end_events : flat_map ev (end_calls o) = (safe_stop o ++ custom (EndGCode (Printer o)))%list.
Proof.
  unfold end_calls, safe_stop. rewrite !flat_map_app, custom_events by apply plain_end. rewrite <- app_assoc.
  match goal with |- (?a ++ _ = _)%list => change a with (@nil event) end. cbn [app]. f_equal; [|f_equal]; destruct (_ && _); reflexivity.
Qed.
Lemma layer_says m nr p z es : Forall (printing z) (p_skirt p ++ p_brim p ++ p_walls p ++ p_fill p) ->
  says (layer_calls o m nr p) es -> exists k,
  es = ((if (nr =? 0)%Z then safe_start o ++ custom (map (fill_template o) (StartGCode (Printer o))) else []) ++ layer_events o nr k ++
        (if nr =? m then safe_stop o ++ custom (EndGCode (Printer o)) else []))%list.
Proof.
  intros P S. unfold layer_calls in S. apply says_app in S. destruct S as (e1 & e2 & -> & S1 & S2).
  replace (p_skirt p ++ p_brim p ++ p_walls p ++ p_fill p ++ (if nr =? m then end_calls o else []))%list
    with ((p_skirt p ++ p_brim p ++ p_walls p ++ p_fill p) ++ (if nr =? m then end_calls o else []))%list in S2 by (rewrite <- !app_assoc; reflexivity).
  apply says_app in S2. destruct S2 as (e3 & e4 & -> & S3 & S4).
  destruct (mute_says _ (Forall_impl _ (printing_mute z) P) _ S3) as (k & ->). exists k.
  rewrite (texts_say _ (Forall_impl _ (fun c (H : talks c) => proj1 H) (pre_talks nr)) _ S1), pre_events.
  replace e4 with (if nr =? m then safe_stop o ++ custom (EndGCode (Printer o)) else [])%list.
  - unfold layer_events. cbn [app]. rewrite <- !app_assoc. cbn [app]. rewrite <- !app_assoc. reflexivity.
  - destruct (nr =? m); [|inversion S4; reflexivity].
    rewrite (texts_say _ (Forall_impl _ (fun c (H : talks c) => proj1 H) end_talks) _ S4), end_events. reflexivity.
Qed.
Lemma layer_whole m nr p z : Forall (printing z) (p_skirt p ++ p_brim p ++ p_walls p ++ p_fill p) -> Forall whole_lines (layer_calls o m nr p).
Proof.
  intros P. unfold layer_calls. rewrite !Forall_app in *. destruct P as (P1 & P2 & P3 & P4).
  assert (W : forall cs, Forall talks cs -> Forall whole_lines cs) by (intros cs; apply Forall_impl; intros c H; apply H).
  assert (V : forall cs, Forall (printing z) cs -> Forall whole_lines cs) by (intros cs; apply Forall_impl; apply printing_whole).
  split; [apply W, pre_talks|]. repeat (split; [apply V; assumption|]). apply W, if_talks, end_talks.
Qed.
End Layers.
Section Print.
Variable o : options.
Hypothesis plain_start : Forall (fun s => no_char "%" s = true) (StartGCode (Printer o)).
Hypothesis plain_end : Forall (fun s => no_char "%" s = true) (EndGCode (Printer o)).
Let stop := (safe_stop o ++ custom (EndGCode (Printer o)))%list.
Definition prints (p : layer_plan) : Prop := exists z, Forall (printing z) (p_skirt p ++ p_brim p ++ p_walls p ++ p_fill p).
Lemma later_layers_say ps : forall n es, (0 < n)%nat -> Forall prints ps ->
  says (concat (calls_from o n (Z.of_nat n + Z.of_nat (List.length ps) - 1) ps)) es ->
  exists ks, List.length ks = List.length ps /\ es = (marked o n ks ++ match ps with [] => [] | _ => stop end)%list.
Proof.
  induction ps as [|p ps IH]; intros n es Hn P S.
  - inversion S; subst. exists []. split; reflexivity.
  - inversion P as [|? ? (z & P1) P2]; subst. unfold calls_from in S. cbn [List.length seq combine map concat] in S.
    apply says_app in S. destruct S as (e1 & e2 & -> & S1 & S2).
    destruct (layer_says o plain_start plain_end _ _ p z _ P1 S1) as (k & ->).
    replace (Z.of_nat n + Z.of_nat (S (List.length ps)) - 1) with (Z.of_nat (S n) + Z.of_nat (List.length ps) - 1) in S2 |- * by lia.
    destruct (IH (S n) e2 ltac:(lia) P2 S2) as (ks & L & ->). exists (k :: ks). split; [cbn; congruence|].
    destruct (Z.eqb_spec (Z.of_nat n) 0) as [|_]; [lia|]. cbn [app]. unfold marked. cbn [List.length seq combine flat_map]. rewrite <- !app_assoc. f_equal.
    destruct ps as [|p' ps].
    + destruct ks; [|discriminate]. destruct (Z.eqb_spec (Z.of_nat n) (Z.of_nat (S n) + Z.of_nat (@List.length layer_plan []) - 1)) as [_|C]; [|cbn [List.length] in C; lia].
      cbn. rewrite app_nil_r. reflexivity.
    + destruct (Z.eqb_spec (Z.of_nat n) (Z.of_nat (S n) + Z.of_nat (List.length (p' :: ps)) - 1)) as [C|_]; [cbn [List.length] in C; lia|]. reflexivity.
Qed.
Lemma print_says ps es : Forall prints ps -> ps <> [] -> says (concat (all_calls o ps)) es ->
  exists ks, List.length ks = List.length ps /\
    es = (safe_start o ++ custom (map (fill_template o) (StartGCode (Printer o))) ++ marked o 0 ks ++ stop)%list.
Proof.
  intros P N S. destruct ps as [|p ps]; [contradiction|]. inversion P as [|? ? (z & P1) P2]; subst.
  unfold all_calls in S. cbn [List.length seq combine map concat] in S. apply says_app in S. destruct S as (e1 & e2 & -> & S1 & S2).
  destruct (layer_says o plain_start plain_end _ _ p z _ P1 S1) as (k & ->).
  replace (Z.of_nat (S (List.length ps)) - 1) with (Z.of_nat 1 + Z.of_nat (List.length ps) - 1) in S2 |- * by lia.
  destruct (later_layers_say ps 1%nat e2 ltac:(lia) P2 S2) as (ks & L & ->). exists (k :: ks). split; [cbn; congruence|].
  change (Z.of_nat 0 =? 0) with true. cbv iota. unfold marked. cbn [List.length seq combine flat_map]. rewrite <- !app_assoc. f_equal. f_equal. f_equal.
  destruct ps as [|p' ps].
  + destruct ks; [|discriminate]. cbn. rewrite app_nil_r. reflexivity.
  + destruct (Z.eqb_spec (Z.of_nat 0) (Z.of_nat 1 + Z.of_nat (List.length (p' :: ps)) - 1)) as [C|_]; [cbn [List.length] in C; lia|]. reflexivity.
Qed.
Lemma print_whole ps n m : Forall prints ps -> Forall whole_lines (concat (calls_from o n m ps)).
Proof.
  revert n. induction ps as [|p ps IH]; intros n P; [constructor|]. inversion P as [|? ? (z & P1) P2]; subst.
  unfold calls_from. cbn [List.length seq combine map concat]. apply Forall_app. split; [|apply IH, P2].
  eapply layer_whole; eassumption.
Qed.
Lemma planned_prints lib fuel mn mx inf layers ps : planned lib o fuel mn mx inf layers ps -> Forall prints ps.
Proof.
  intros (L & P). apply Forall_forall. intros p Hp. apply In_nth_error in Hp. destruct Hp as (i & Hi).
  destruct (nth_error layers i) as [l|] eqn:El.
  - exists (height o i). eapply layer_printing. exact (P i l p El Hi).
  - apply nth_error_None in El. assert (nth_error ps i <> None) by congruence. apply nth_error_Some in H. lia.
Qed.
Lemma print_events lib fuel mn mx rs layers text : layers <> [] ->
  goslice_renderers lib fuel o mn mx = Ok rs -> snd (Generate o rs layers tt) = Ok text ->
  exists ks, List.length ks = List.length layers /\
    events text = (safe_start o ++ custom (map (fill_template o) (StartGCode (Printer o))) ++ marked o 0 ks ++ stop)%list.
Proof.
  intros N R G. apply (goslice_generate lib fuel o mn mx layers rs text R) in G. destruct G as (inf & ps & b & _ & P & E & ->).
  pose proof (planned_prints _ _ _ _ _ _ _ P) as Q. destruct P as (L & _).
  destruct (calls_say lib _ _ _ (print_whole ps 0 (Z.of_nat (List.length ps) - 1) Q) E) as (t & es & B & T & V & S).
  cbn [NewGCodeBuilder buf append] in B. unfold BuilderString. rewrite B, V.
  destruct (print_says ps es Q) as (ks & Lk & ->); [destruct ps; [destruct layers; [contradiction|discriminate]|discriminate]|exact S|].
  exists ks. split; [congruence|reflexivity].
Qed.
End Print.
