(** Heaters at the start and the end of a print. *)
From Verif Require Import GoBase GoFloat GoStr M_Micrometer M_Geom2D M_Option M_Clip M_Builder M_Layer M_Render
  S_Text S_Option S_Printer S_Builder S_Calls S_Machine S_Render L_Str L_Option L_Data L_Printer L_Builder L_Calls L_Render L_Events.
Local Open Scope list_scope.
Local Open Scope string_scope.
Local Open Scope Z_scope.

(** characters that do not start a white space rune *)
Definition solid_char (c : ascii) : bool := negb (existsb (fun sp => match sp with String b _ => Ascii.eqb c b | "" => false end) spaces).
Lemma solid_not_blank c s : solid_char c = true -> ~ blank (String c s).
Proof.
  intros S B. inversion B as [|w t Hw Bt E]. unfold solid_char in S. apply negb_true_iff in S.
  assert (existsb (fun sp => match sp with String b _ => Ascii.eqb c b | "" => false end) spaces = true); [|congruence].
  apply existsb_exists. exists w. split; [exact Hw|]. destruct w as [|b w].
  - exfalso. clear - Hw. vm_compute in Hw. repeat (destruct Hw as [Hw|Hw]; [discriminate|]). exact Hw.
  - injection E as E _. subst b. apply Ascii.eqb_refl.
Qed.
Lemma solid_not_space c : solid_char c = true -> c <> " "%char.
Proof. intros H ->. discriminate. Qed.
Fixpoint space_run (k : nat) (s : string) : string := match k with O => s | S k' => String " " (space_run k' s) end.
Lemma head_prefix t : exists r, t = hd "" (split " " (uncomment t)) ++ r.
Proof.
  induction t as [|d t (r & IH)]; [exists ""; reflexivity|]. cbn [uncomment].
  destruct (Ascii.eqb d ";"); [exists (String d t); reflexivity|]. cbn [split].
  destruct (Ascii.eqb " " d); [exists (String d t); reflexivity|].
  pose proof (split_nonempty " " (uncomment t)). destruct (split " " (uncomment t)) as [|h l]; [contradiction|].
  cbn [hd] in *. exists r. cbn [append]. rewrite <- IH. reflexivity.
Qed.
Lemma words_head line : forall c ws, words line = c :: ws -> exists k rest, line = space_run k (c ++ rest).
Proof.
  induction line as [|d t IH]; intros c ws E; [discriminate|]. unfold words in E. cbn [uncomment] in E.
  destruct (Ascii.eqb d ";"); [discriminate|]. cbn [split] in E. destruct (Ascii.eqb_spec " " d) as [<-|N].
  - cbn [filter] in E. change (negb ("" =? "")%string) with false in E. destruct (IH c ws E) as (k & rest & ->). exists (S k), rest. reflexivity.
  - pose proof (split_nonempty " " (uncomment t)) as NE. destruct (head_prefix t) as (r & Hr).
    destruct (split " " (uncomment t)) as [|h l]; [contradiction|]. cbn [filter hd] in *.
    change (negb (String d h =? "")%string) with true in E. injection E as <- _. exists O, r. cbn. rewrite <- Hr. reflexivity.
Qed.
Lemma app_prefix a : forall b c r, a ++ b = c ++ r -> (exists x, a = c ++ x) \/ (exists d x, c = a ++ String d x /\ b = String d x ++ r).
Proof.
  induction a as [|e a IH]; intros b c r E.
  - destruct c as [|d c]; [left; exists ""; reflexivity|right]. cbn in E. subst b. exists d, c. split; reflexivity.
  - destruct c as [|d c]; [left; exists (String e a); reflexivity|]. injection E as -> E.
    destruct (IH b c r E) as [(x & ->)|(d' & x & -> & ->)]; [left; exists x; reflexivity|right; exists d', x; split; reflexivity].
Qed.
Lemma blank_space_run pre : blank pre -> forall k core post c rest, pre ++ core ++ post = space_run k (c ++ rest) -> blank post ->
  (forall sp u, In sp spaces -> core <> sp ++ u) -> c <> "" -> all_chars solid_char c = true -> core ++ post = c ++ rest.
Proof.
  intros B. induction B as [|w pre Hw B IH]; intros k core post c rest E Bp N Hc S.
  - cbn [append] in E. destruct k as [|k]; [exact E|]. exfalso. cbn [space_run] in E. destruct core as [|d core].
    + cbn [append] in E. rewrite E in Bp. clear - Bp Hc S. revert Bp. change (String " " (space_run k (c ++ rest))) with (space_run (Datatypes.S k) (c ++ rest)).
      generalize (Datatypes.S k). clear k. induction n as [|n IHn]; intros Bp.
      * cbn [space_run] in Bp. destruct c as [|a c]; [contradiction|]. cbn [all_chars] in S. apply andb_prop in S. exact (solid_not_blank a _ (proj1 S) Bp).
      * cbn [space_run] in Bp. inversion Bp as [|w t Hw Bt E]. assert (w = " ") as ->.
        { clear - E Hw. vm_compute in Hw. repeat (destruct Hw as [<-|Hw]; [cbn in E; first [reflexivity|discriminate]|]). destruct Hw. }
        injection E as ->. exact (IHn Bt).
    + injection E as -> _. apply (N " " core); [vm_compute; do 5 right; left; reflexivity|reflexivity].
  - destruct k as [|k].
    + exfalso. cbn [space_run] in E. destruct c as [|a c]; [contradiction|]. cbn [all_chars] in S. apply andb_prop in S.
      refine (solid_not_blank a (c ++ rest) (proj1 S) _). destruct w as [|b w].
      * exfalso. clear - Hw. vm_compute in Hw. repeat (destruct Hw as [Hw|Hw]; [discriminate|]). exact Hw.
      * exfalso. injection E as -> E. refine (solid_not_blank a w (proj1 S) _). rewrite <- (sapp_nil_r (String a w)). apply blank_cons; [exact Hw|constructor].
    + cbn [space_run] in E. assert (w = " ") as ->.
      { clear - E Hw. vm_compute in Hw. repeat (destruct Hw as [<-|Hw]; [cbn in E; first [reflexivity|discriminate]|]). destruct Hw. }
      injection E as E. exact (IH k core post c rest E Bp N Hc S).
Qed.
(** a line whose first word (for the printer) is a code is a line that mentions it *)
Lemma code_mentioned line c ws : words line = c :: ws -> c <> "" -> all_chars solid_char c = true -> exists w r, first_word line w /\ w = c ++ r.
Proof.
  intros W Hc S. destruct (words_head line c ws W) as (k & rest & E).
  pose proof (first_token_spec line) as F. exists (first_token line). destruct F as (pre & core & post & El & B1 & B2 & N & Nw & C).
  assert (H : core ++ post = c ++ rest).
  { eapply (blank_space_run pre B1 k); [rewrite <- El; exact E|exact B2|intros sp u Hs; apply (proj1 (N sp u Hs))|exact Hc|exact S]. }
  destruct (app_prefix core post c rest H) as [(x & Hx)|(d & x & Hd & Hp)].
  - assert (P : exists r, first_token line = c ++ r).
    { destruct C as [C|(r & C)]; [exists x; congruence|]. rewrite C in Hx.
      destruct (app_prefix (first_token line) (" " ++ r) c x) as [P|(d & y & Hd & Hy)]; [exact Hx|exact P|].
      exfalso. injection Hy as Hy _. subst d. rewrite Hd, all_chars_app in S. apply andb_prop in S. destruct S as [_ S]. discriminate. }
    destruct P as (r & P). exists r. split; [|exact P]. exists pre, core, post. exact (conj El (conj B1 (conj B2 (conj N (conj Nw C))))).
  - exfalso. rewrite Hp in B2. rewrite Hd, all_chars_app in S. apply andb_prop in S. destruct S as [_ S]. cbn [all_chars] in S. apply andb_prop in S.
    exact (solid_not_blank d (x ++ rest) (proj1 S) B2).
Qed.
Lemma mentions_spec lines codes : DoesInstructionContainCodes lines codes = true <-> mentions lines codes.
Proof. apply contains_codes. Qed.
Lemma not_mentioned lines codes : ~ mentions lines codes -> DoesInstructionContainCodes lines codes = false.
Proof. intros H. destruct (DoesInstructionContainCodes lines codes) eqn:E; [|reflexivity]. destruct H. apply mentions_spec, E. Qed.

(** *** heater commands in custom lines *)
Definition is_hot (a : aux) : bool := match a with HotEnd _ _ => true | _ => false end.
Definition is_bed (a : aux) : bool := match a with Bed _ _ => true | _ => false end.
Lemma aux_line_code line a : In a (aux_line line) ->
  (is_hot a = true -> exists ws, words line = "M104" :: ws \/ words line = "M109" :: ws) /\
  (is_bed a = true -> exists ws, words line = "M140" :: ws \/ words line = "M190" :: ws).
Proof.
  unfold aux_line. destruct (words line) as [|w ws]; [contradiction|].
  destruct (String.eqb_spec w "M107") as [->|_]; [cbn; intros [<-|[]]; split; discriminate|].
  destruct (String.eqb_spec w "M106") as [->|_]; [destruct (s_word ws); cbn; [intros [<-|[]]; split; discriminate|contradiction]|].
  destruct (String.eqb_spec w "M104") as [->|_]; [destruct (s_word ws); cbn; [intros [<-|[]]; split; [exists ws; left; reflexivity|discriminate]|contradiction]|].
  destruct (String.eqb_spec w "M109") as [->|_]; [destruct (s_word ws); cbn; [intros [<-|[]]; split; [exists ws; right; reflexivity|discriminate]|contradiction]|].
  destruct (String.eqb_spec w "M140") as [->|_]; [destruct (s_word ws); cbn; [intros [<-|[]]; split; [discriminate|exists ws; left; reflexivity]|contradiction]|].
  destruct (String.eqb_spec w "M190") as [->|_]; [destruct (s_word ws); cbn; [intros [<-|[]]; split; [discriminate|exists ws; right; reflexivity]|contradiction]|].
  contradiction.
Qed.
Lemma aux_events_app a b : aux_events (a ++ b) = (aux_events a ++ aux_events b)%list.
Proof. induction a as [|[]a IH]; cbn [app aux_events]; rewrite ?IH; reflexivity. Qed.
Lemma aux_line_events line : aux_events (line_events line) = aux_line line.
Proof.
  unfold line_events. rewrite !aux_events_app. replace (aux_events (match strip_prefix ";LAYER:" line with Some nr => [ELayer nr] | None => [] end)) with (@nil aux)
    by (destruct (strip_prefix ";LAYER:" line); reflexivity).
  replace (aux_events (if moving line then [EMove] else [])) with (@nil aux) by (destruct (moving line); reflexivity).
  rewrite app_nil_r. cbn [app]. induction (aux_line line) as [|x l IH]; [reflexivity|]. cbn. rewrite IH. reflexivity.
Qed.
Lemma custom_aux lines a : Forall (fun s => no_char (chr 10) s = true) lines -> In a (aux_events (custom lines)) -> exists line, In line lines /\ In a (aux_line line).
Proof.
  induction 1 as [|s lines H _ IH]; [contradiction|]. unfold custom. cbn [flat_map]. rewrite aux_events_app. intros Ha.
  apply in_app_or in Ha. destruct Ha as [Ha|Ha].
  - unfold events, text_lines in Ha. rewrite split_none in Ha by exact H. cbn [flat_map] in Ha. rewrite app_nil_r, aux_line_events in Ha.
    exists s. split; [left; reflexivity|exact Ha].
  - destruct (IH Ha) as (l & Hl & Hx). exists l. split; [right; exact Hl|exact Hx].
Qed.
Lemma custom_no_hot lines : Forall (fun s => no_char (chr 10) s = true) lines -> ~ mentions lines ["M104"; "M109"] ->
  forall a, In a (aux_events (custom lines)) -> is_hot a = false.
Proof.
  intros L N a Ha. destruct (is_hot a) eqn:E; [exfalso|reflexivity]. destruct (custom_aux lines a L Ha) as (line & Hl & Hx).
  destruct (proj1 (aux_line_code line a Hx) E) as (ws & W). apply N.
  destruct W as [W|W]; destruct (code_mentioned line _ ws W ltac:(discriminate) eq_refl) as (w & r & F & ->);
    exists line; eexists; [exists "M104"|exists "M109"]; exists "", r; repeat split; try eassumption; [left|right; left]; reflexivity.
Qed.
Lemma custom_no_bed lines : Forall (fun s => no_char (chr 10) s = true) lines -> ~ mentions lines ["M140"; "M190"] ->
  forall a, In a (aux_events (custom lines)) -> is_bed a = false.
Proof.
  intros L N a Ha. destruct (is_bed a) eqn:E; [exfalso|reflexivity]. destruct (custom_aux lines a L Ha) as (line & Hl & Hx).
  destruct (proj2 (aux_line_code line a Hx) E) as (ws & W). apply N.
  destruct W as [W|W]; destruct (code_mentioned line _ ws W ltac:(discriminate) eq_refl) as (w & r & F & ->);
    exists line; eexists; [exists "M140"|exists "M190"]; exists "", r; repeat split; try eassumption; [left|right; left]; reflexivity.
Qed.
Lemma hot_end_app a b d : hot_end (a ++ b) d = hot_end b (hot_end a d).
Proof. revert d; induction a as [|[]a IH]; intros d; cbn [app hot_end]; auto. Qed.
Lemma bed_app a b d : bed (a ++ b) d = bed b (bed a d).
Proof. revert d; induction a as [|[]a IH]; intros d; cbn [app bed]; auto. Qed.
Lemma hot_end_none l : (forall a, In a l -> is_hot a = false) -> forall d, hot_end l d = d.
Proof.
  induction l as [|a l IH]; intros H d; [reflexivity|]. pose proof (H a (or_introl eq_refl)). 
  destruct a; cbn [hot_end]; try discriminate; apply IH; intros x Hx; apply H; right; exact Hx.
Qed.
Lemma bed_none l : (forall a, In a l -> is_bed a = false) -> forall d, bed l d = d.
Proof.
  induction l as [|a l IH]; intros H d; [reflexivity|]. pose proof (H a (or_introl eq_refl)). 
  destruct a; cbn [bed]; try discriminate; apply IH; intros x Hx; apply H; right; exact Hx.
Qed.
Lemma stop_hot o d : ForceSafeStartStopGCode (Printer o) = true -> Forall (fun s => no_char (chr 10) s = true) (EndGCode (Printer o)) ->
  ~ mentions (EndGCode (Printer o)) ["M104"; "M109"] -> hot_end (aux_events (safe_stop o ++ custom (EndGCode (Printer o)))) d = Some 0.
Proof.
  intros F L N. unfold safe_stop. rewrite F, (not_mentioned _ _ N). cbn [andb negb]. rewrite !aux_events_app, !hot_end_app.
  rewrite (hot_end_none _ (custom_no_hot _ L N)). destruct (_ && _); reflexivity.
Qed.
Lemma stop_bed o d : ForceSafeStartStopGCode (Printer o) = true -> HasHeatedBed (Printer o) = true -> Forall (fun s => no_char (chr 10) s = true) (EndGCode (Printer o)) ->
  ~ mentions (EndGCode (Printer o)) ["M140"; "M190"] -> bed (aux_events (safe_stop o ++ custom (EndGCode (Printer o)))) d = Some 0.
Proof.
  intros F B L N. unfold safe_stop. rewrite F, B, (not_mentioned _ _ N). cbn [andb negb]. rewrite !aux_events_app, !bed_app.
  rewrite (bed_none _ (custom_no_bed _ L N)). reflexivity.
Qed.
