(** Properties C78-C80: option texts in millimeters, the flags of the command line and the exit code. *)
From Coq Require Import Reals.
From Verif Require Import GoBase GoFloat GoStr M_Micrometer M_Geom2D M_Option M_Model M_Clip M_Layer M_Render M_Process M_Flags S_Text S_Flags L_Str L_Float L_Flags L_Decimal L_Exponent P_Process.
From Flocq Require Import Core BinarySingleNaN.
Local Open Scope list_scope.
Local Open Scope string_scope.
Local Open Scope Z_scope.

(** *** C78 *)
(** the text has a digit *)
Definition has_digit (s : string) : Prop := exists a c b, s = a ++ String c b /\ is_digit c = true.
Lemma has_digit_any s : has_digit s -> any_digit s = true.
Proof.
  intros (a & c & b & -> & H). unfold any_digit. apply negb_true_iff. induction a as [|d a IH]; cbn [append all_chars].
  - rewrite H. reflexivity.
  - rewrite IH. apply andb_false_r.
Qed.
(** A number of micrometers written in millimeters, in any way, is exactly that number of micrometers (up to 8.19 m). *)
Theorem millimeter_option_exact : forall s a k n, parse_num s = Some (a, k) -> has_digit s -> a * 1000 = n * 10 ^ Z.of_nat k -> Z.abs n <= 8191999 ->
  exists x, MillimeterSet s = (x, None) /\ ToMicrometer x = n.
Proof.
  intros s a k n H D E B. destruct (millimeter_text s a k n H (has_digit_any s D) E B) as (x & Hx & _ & Hn). eauto.
Qed.
Print Assumptions millimeter_option_exact.
Example millimeter_option_exact_ex : (exists x, MillimeterSet "1.75" = (x, None) /\ ToMicrometer x = 1750) /\ (exists x, MillimeterSet "-0.40000" = (x, None) /\ ToMicrometer x = -400).
Proof.
  split.
  - apply (millimeter_option_exact "1.75" 175 2 1750); [reflexivity|exists "", "1"%char, ".75"; auto|reflexivity|vm_compute; discriminate].
  - apply (millimeter_option_exact "-0.40000" (-40000) 5 (-400)); [reflexivity|exists "-", "0"%char, ".40000"; auto|reflexivity|vm_compute; discriminate].
Qed.
(** Every decimal number is read as the nearest float32, ties to even. *)
Theorem millimeter_option_nearest : forall s a k, parse_num s = Some (a, k) -> has_digit s ->
  let nearest := round radix2 (FLT_exp (-149) 24) ZnearestE (IZR a / IZR (10 ^ Z.of_nat k))%R in
  (Rabs nearest < bpow radix2 128)%R -> exists x, MillimeterSet s = (x, None) /\ is_finite_SF x = true /\ SF2R radix2 x = nearest.
Proof.
  intros s a k H D nearest B. destruct (millimeter_nearest s a k H (has_digit_any s D)) as (x & Hx & _ & F & E).
  - exact B.
  - exists x. split; [exact Hx|]. split; [exact F|exact E].
Qed.
Print Assumptions millimeter_option_nearest.
(** The same for numbers with an exponent. *)
Theorem millimeter_option_exponent : forall s a k c sg t n, parse_num s = Some (a, k) -> has_digit s -> In c ["e"; "E"]%char -> In sg [""; "+"; "-"] ->
  t <> "" -> dec_val 0 t = Some n -> n < 10000 ->
  let e := if String.eqb sg "-" then - n else n in
  let nearest := round radix2 (FLT_exp (-149) 24) ZnearestE (IZR a / IZR (10 ^ Z.of_nat k) * powerRZ 10 e)%R in
  (Rabs nearest < bpow radix2 128)%R -> exists x, MillimeterSet (s ++ String c (sg ++ t)) = (x, None) /\ is_finite_SF x = true /\ SF2R radix2 x = nearest.
Proof.
  intros s a k c sg t n H D Ic Is Nt Dt Hn e nearest B. destruct (millimeter_exponent s a k c sg t n H (has_digit_any s D) Ic Is Nt Dt Hn) as (x & Hx & _ & F & E).
  - exact B.
  - exists x. split; [exact Hx|]. split; [exact F|exact E].
Qed.
Print Assumptions millimeter_option_exponent.
Example millimeter_option_exponent_ex : MillimeterSet "15e-1" = MillimeterSet "1.5" /\ MillimeterSet "1.5E+2" = MillimeterSet "150" /\ parse_num "15" = Some (15, 0%nat) /\ dec_val 0 "1" = Some 1.
Proof. vm_compute. auto. Qed.
(** The text shown for such a value gives the value back. *)
Theorem millimeter_option_round_trip : forall s a k n x, parse_num s = Some (a, k) -> has_digit s -> a * 1000 = n * 10 ^ Z.of_nat k -> Z.abs n <= 8191999 ->
  MillimeterSet s = (x, None) -> exists y, MillimeterSet (MillimeterString x) = (y, None) /\ SF2R radix2 y = SF2R radix2 x.
Proof. intros s a k n x H D. exact (millimeter_round_trip s a k n x H (has_digit_any s D)). Qed.
Print Assumptions millimeter_option_round_trip.
(** finer values do not *)
Theorem millimeter_option_round_trip_fine_refuted : exists s x y, MillimeterSet s = (x, None) /\ MillimeterSet (MillimeterString x) = (y, None) /\ feq x y = false.
Proof. exists "0.0004". eexists. eexists. split; [vm_compute; reflexivity|]. split; vm_compute; reflexivity. Qed.
Print Assumptions millimeter_option_round_trip_fine_refuted.
(** Not every accepted text is a length. *)
Theorem millimeter_option_finite_refuted : MillimeterSet "NaN" = (S754_nan, None) /\ MillimeterSet "inf" = (S754_infinity false, None).
Proof. split; vm_compute; reflexivity. Qed.
Print Assumptions millimeter_option_finite_refuted.
(** Numbers that are too large are rejected. *)
Theorem millimeter_option_range : forall s a k, parse_num s = Some (a, k) -> has_digit s ->
  (bpow radix2 128 <= Rabs (round radix2 (FLT_exp (-149) 24) ZnearestE (IZR a / IZR (10 ^ Z.of_nat k))))%R -> exists x, MillimeterSet s = (x, Some RangeErr).
Proof. intros s a k H D B. exact (millimeter_overflow s a k H (has_digit_any s D) B). Qed.
Print Assumptions millimeter_option_range.
(** Nothing but digits, signs, a dot, underscores and the letters of exponents, hexadecimal numbers, inf and nan is accepted. *)
Definition number_char (c : ascii) : bool := existsb (Ascii.eqb c) (list_ascii_of_string "0123456789+-._abcdefABCDEFxXpPinftyINFTY").
Lemma digit_number c : is_digit c = true -> number_char c = true.
Proof. destruct c as [[] [] [] [] [] [] [] []]; intros H; try discriminate H; reflexivity. Qed.
Lemma hex_number c : hex_digit c = true -> number_char c = true.
Proof. destruct c as [[] [] [] [] [] [] [] []]; intros H; try discriminate H; reflexivity. Qed.
Lemma read_digits_chars hex s : forall m f d1 d2 u m' f' d' u' r, read_digits hex s m f d1 d2 u = (m', f', d', u', r) -> all_chars number_char r = true -> all_chars number_char s = true.
Proof.
  induction s as [|c s IH]; intros m f d1 d2 u m' f' d' u' r; cbn [read_digits]; cbv zeta.
  - intros [= _ _ _ _ <-]. auto.
  - destruct (Ascii.eqb_spec c "_") as [->|].
    { intros H R. cbn [all_chars]. rewrite (IH _ _ _ _ _ _ _ _ _ _ H R). reflexivity. }
    destruct (Ascii.eqb_spec c ".") as [->|].
    { destruct d1; [intros [= _ _ _ _ <-]; auto|]. intros H R. cbn [all_chars]. rewrite (IH _ _ _ _ _ _ _ _ _ _ H R). reflexivity. }
    destruct (is_digit c || (hex && hex_digit c)) eqn:D; [|intros [= _ _ _ _ <-]; auto].
    intros H R. cbn [all_chars]. rewrite (IH _ _ _ _ _ _ _ _ _ _ H R), andb_true_r. apply orb_prop in D. destruct D as [D|D]; [apply digit_number, D|].
    apply andb_prop in D. apply hex_number, D.
Qed.
Lemma read_exp_chars s : forall e u e' u' r, read_exp s e u = (e', u', r) -> all_chars number_char r = true -> all_chars number_char s = true.
Proof.
  induction s as [|c s IH]; intros e u e' u' r; cbn [read_exp].
  - intros [= _ _ <-]. auto.
  - destruct (Ascii.eqb_spec c "_") as [->|].
    { intros H R. cbn [all_chars]. rewrite (IH _ _ _ _ _ H R). reflexivity. }
    destruct (is_digit c) eqn:D; [|intros [= _ _ <-]; auto].
    intros H R. cbn [all_chars]. rewrite (IH _ _ _ _ _ H R), (digit_number c D). reflexivity.
Qed.
Lemma split_sign_chars s neg t : split_sign s = (neg, t) -> all_chars number_char t = true -> all_chars number_char s = true.
Proof.
  destruct s as [|c u]; cbn [split_sign]; [intros [= _ <-]; auto|].
  destruct (Ascii.eqb_spec c "+") as [->|]; [intros [= _ <-] H; cbn [all_chars]; rewrite H; reflexivity|].
  destruct (Ascii.eqb_spec c "-") as [->|]; [intros [= _ <-] H; cbn [all_chars]; rewrite H; reflexivity|]. intros [= _ <-]. auto.
Qed.
Lemma lower_chars s : all_chars number_char (lower s) = true -> all_chars number_char s = true.
Proof.
  induction s as [|c s IH]; [reflexivity|]. cbn [lower all_chars]. intros H. apply andb_prop in H. destruct H as [H1 H2]. rewrite (IH H2), andb_true_r.
  clear - H1. destruct c as [[] [] [] [] [] [] [] []]; try reflexivity; vm_compute in H1; discriminate H1.
Qed.
Theorem millimeter_option_rejects : forall s x, MillimeterSet s = (x, None) -> all_chars number_char s = true.
Proof.
  intros s x. unfold MillimeterSet, parse_float32. destruct (special s) as [y|] eqn:Sp.
  - intros _. unfold special in Sp. apply lower_chars.
    destruct (String.eqb_spec (lower s) "nan") as [->|]; [reflexivity|].
    destruct (String.eqb_spec (lower s) "inf") as [->|]; [reflexivity|].
    destruct (String.eqb_spec (lower s) "infinity") as [->|]; [reflexivity|].
    destruct (String.eqb_spec (lower s) "+inf") as [->|]; [reflexivity|].
    destruct (String.eqb_spec (lower s) "+infinity") as [->|]; [reflexivity|].
    destruct (String.eqb_spec (lower s) "-inf") as [->|]; [reflexivity|].
    destruct (String.eqb_spec (lower s) "-infinity") as [->|]; [reflexivity|]. discriminate Sp.
  - destruct (split_sign s) as [neg body] eqn:Ss. destruct (split_base body) as [hex digits] eqn:Sb.
    destruct (read_digits hex digits 0 0 false false false) as [[[[m frac] sd] und] rest] eqn:Rd. destruct sd; cbn [negb]; [|discriminate].
    intros H. apply (split_sign_chars _ _ _ Ss).
    assert (Hd : all_chars number_char digits = true).
    { apply (read_digits_chars _ _ _ _ _ _ _ _ _ _ _ _ Rd). destruct rest as [|c t]; [reflexivity|].
      destruct (lowerc c =? (if hex then 112 else 101)) eqn:L.
      - assert (Hc : number_char c = true).
        { clear - L. destruct hex; destruct c as [[] [] [] [] [] [] [] []]; try discriminate L; reflexivity. }
        cbn [all_chars]. rewrite Hc. cbn [andb]. unfold read_exponent in H. destruct (split_sign t) as [neg' u] eqn:St.
        destruct u as [|c' u]; [discriminate|]. destruct (is_digit c'); [|discriminate].
        destruct (read_exp (String c' u) 0 und) as [[e und'] r] eqn:Re.
        destruct (String.eqb_spec r "") as [->|]; [|discriminate]. apply (split_sign_chars _ _ _ St). apply (read_exp_chars _ _ _ _ _ _ Re). reflexivity.
      - destruct hex; [discriminate|]. cbn [String.eqb negb orb] in H. discriminate. }
    unfold split_base in Sb. destruct body as [|z [|x0 [|c t]]]; try (injection Sb as _ <-; exact Hd).
    destruct (Ascii.eqb_spec z "0") as [->|]; [|injection Sb as _ <-; exact Hd].
    cbn [andb] in Sb. destruct (lowerc x0 =? 120) eqn:L; injection Sb as _ <-; [|exact Hd].
    change (all_chars number_char (String "0" (String x0 (String c t)))) with (true && (number_char x0 && all_chars number_char (String c t)))%bool. rewrite Hd, andb_true_r.
    clear - L. destruct x0 as [[] [] [] [] [] [] [] []]; try discriminate L; reflexivity.
Qed.
Print Assumptions millimeter_option_rejects.
Example millimeter_option_rejects_ex : number_char "," = false /\ number_char " " = false /\ number_char "m" = false.
Proof. repeat split; reflexivity. Qed.

(** The texts read as an infinite length are exactly the words inf and infinity in capital or small letters, with or without a sign. *)
Fixpoint same_word (s w : string) : Prop :=
  match s, w with
  | EmptyString, EmptyString => True
  | String a s', String b w' => (a = b \/ (In a (list_ascii_of_string "ABCDEFGHIJKLMNOPQRSTUVWXYZ") /\ code a + 32 = code b)) /\ same_word s' w'
  | _, _ => False
  end.
Definition no_capital (c : ascii) : bool := negb (existsb (Ascii.eqb c) (list_ascii_of_string "ABCDEFGHIJKLMNOPQRSTUVWXYZ")).
Lemma lower_same a b : no_capital b = true -> ((if (65 <=? code a) && (code a <=? 90) then chr (code a + 32) else a) = b <-> a = b \/ (In a (list_ascii_of_string "ABCDEFGHIJKLMNOPQRSTUVWXYZ") /\ code a + 32 = code b)).
Proof.
  intros N. assert (D : In a (list_ascii_of_string "ABCDEFGHIJKLMNOPQRSTUVWXYZ") <-> (65 <=? code a) && (code a <=? 90) = true).
  { split; [intros I; cbn in I; repeat (destruct I as [<-|I]; [reflexivity|]); destruct I|]. destruct a as [[] [] [] [] [] [] [] []]; intros H; try discriminate H; cbn; tauto. }
  destruct ((65 <=? code a) && (code a <=? 90)) eqn:E.
  - assert (C : code (chr (code a + 32)) = code a + 32) by (clear - E; destruct a as [[] [] [] [] [] [] [] []]; try discriminate E; reflexivity). split.
    + intros <-. right. split; [apply D; reflexivity|]. congruence.
    + intros [->|[_ H]].
      * exfalso. apply proj2 in D. specialize (D eq_refl). unfold no_capital in N. apply negb_true_iff in N. assert (X : existsb (Ascii.eqb b) (list_ascii_of_string "ABCDEFGHIJKLMNOPQRSTUVWXYZ") = true) by (apply existsb_exists; exists b; split; [exact D|apply Ascii.eqb_refl]). congruence.
      * assert (K : code (chr (code a + 32)) = code b) by congruence. clear - K. revert K. generalize (chr (code a + 32)). intros c K. unfold code in K. rewrite <- (ascii_N_embedding c), <- (ascii_N_embedding b). f_equal. lia.
  - split; [auto|]. intros [->|[I _]]; [reflexivity|]. apply D in I. discriminate.
Qed.
Lemma lower_word : forall s w, all_chars no_capital w = true -> (lower s = w <-> same_word s w).
Proof.
  induction s as [|a s IH]; intros [|b w] H; cbn [lower same_word]; try (split; [discriminate|intros []]); [tauto|].
  cbn [all_chars] in H. apply andb_prop in H. destruct H as [H1 H2]. rewrite <- (lower_same a b H1), <- (IH w H2). split; [intros [= E1 E2]; auto|intros [-> ->]; reflexivity].
Qed.
Theorem millimeter_option_infinite : forall s neg, MillimeterSet s = (S754_infinity neg, None) <->
  exists w, same_word s w /\ In w (if neg then ["-inf"; "-infinity"] else ["inf"; "infinity"; "+inf"; "+infinity"])%list.
Proof.
  intros s neg. assert (Q : special s = Some (S754_infinity neg) <-> exists w, same_word s w /\ In w (if neg then ["-inf"; "-infinity"] else ["inf"; "infinity"; "+inf"; "+infinity"])%list).
  { assert (L : (exists w, same_word s w /\ In w (if neg then ["-inf"; "-infinity"] else ["inf"; "infinity"; "+inf"; "+infinity"])%list) <-> In (lower s) (if neg then ["-inf"; "-infinity"] else ["inf"; "infinity"; "+inf"; "+infinity"])%list).
    { split.
      - intros (w & Sw & I). assert (lower s = w) as ->; [|exact I]. apply lower_word; [|exact Sw]. destruct neg; cbn [In] in I; repeat (destruct I as [<-|I]; [reflexivity|]); destruct I.
      - intros I. exists (lower s). split; [|exact I]. apply lower_word; [|reflexivity]. destruct neg; cbn [In] in I; repeat (destruct I as [<-|I]; [reflexivity|]); destruct I. }
    rewrite L. clear L. unfold special. generalize (lower s). intros l. destruct (String.eqb_spec l "nan") as [->|N0]; [split; [discriminate|destruct neg; cbn; intuition discriminate]|].
    destruct (String.eqb_spec l "inf") as [->|]; [destruct neg; cbn; intuition (discriminate||congruence)|]. destruct (String.eqb_spec l "infinity") as [->|]; [destruct neg; cbn; intuition (discriminate||congruence)|].
    destruct (String.eqb_spec l "+inf") as [->|]; [destruct neg; cbn; intuition (discriminate||congruence)|]. destruct (String.eqb_spec l "+infinity") as [->|]; [destruct neg; cbn; intuition (discriminate||congruence)|].
    destruct (String.eqb_spec l "-inf") as [->|]; [destruct neg; cbn; intuition (discriminate||congruence)|]. destruct (String.eqb_spec l "-infinity") as [->|]; [destruct neg; cbn; intuition (discriminate||congruence)|].
    cbn [orb]. split; [discriminate|]. destruct neg; cbn; intuition congruence. }
  rewrite <- Q. unfold MillimeterSet, parse_float32. destruct (special s) as [y|]; [split; intros H; injection H as ->; reflexivity|]. split; [|discriminate].
  destruct (split_sign s) as [ng body]. destruct (split_base body) as [hex digits]. destruct (read_digits hex digits 0 0 false false false) as [[[[m frac] sd] und] rest].
  destruct (negb sd); [discriminate|]. destruct (match rest with String c t => _ | EmptyString => _ end) as [[[e u'] r']|]; [|discriminate]. destruct (negb (String.eqb r' "") || _); [discriminate|].
  generalize (if hex then hexadecimal32 ng m (e - 4 * frac) else decimal32 ng m (e - frac)). intros x. destruct x; cbn [finish32]; congruence.
Qed.
Print Assumptions millimeter_option_infinite.
Example millimeter_option_infinite_ex : MillimeterSet "+Inf" = (S754_infinity false, None) /\ same_word "-INFINITY" "-infinity" /\ MillimeterSet "-INFINITY" = (S754_infinity true, None).
Proof. repeat split; try reflexivity; cbn; tauto. Qed.

(** *** C79 *)
(** If a command line is accepted, its words are flags and operands, every option has its default value or the value of the last
    text given for it, and the first operand is the input file. *)
Theorem command_line_options : forall args o version, ParseFlags args = Some (o, version) ->
  exists items, spells args items /\ InputFilePath (GoSlice o) = hd "" (operands items) /\
    forall name get, In (name, get) documented -> final name (get defaults) items = Some (get (o, version)).
Proof. exact ParseFlags_spec. Qed.
Print Assumptions command_line_options.
(** A command line whose flags all have acceptable values is accepted. *)
Theorem command_line_accepted : forall args items, spells args items -> (forall name get, In (name, get) documented -> final name (get defaults) items <> None) ->
  exists r, ParseFlags args = Some r.
Proof. exact ParseFlags_total. Qed.
Print Assumptions command_line_accepted.
(** The words can be understood in one way only. *)
Theorem command_line_unambiguous : forall args i1 i2, spells args i1 -> spells args i2 -> i1 = i2.
Proof. exact spells_unique. Qed.
Print Assumptions command_line_unambiguous.
(** a flag that is not given keeps its default; the last one wins *)
Theorem flag_not_given : forall name items v, (forall s, ~ In (Given name s) items) -> final name v items = Some v.
Proof.
  intros name. induction items as [|[n s|s] items IH]; intros v H; cbn [final]; [reflexivity| |apply IH; intros s' I; apply (H s'); right; exact I].
  destruct (String.eqb_spec n name) as [->|]; [destruct (H s); left; reflexivity|]. apply IH. intros s' I. apply (H s'). right. exact I.
Qed.
Print Assumptions flag_not_given.
Theorem last_flag_wins : forall name items s rest v n, (forall t, ~ In (Given name t) rest) -> final name (VInt v) (items ++ Given name s :: rest)%list = Some (VInt n) ->
  MicrometerSet s = (n, None).
Proof.
  intros name items s rest v n H. revert v. induction items as [|[m t|t] items IH]; intros v; cbn [app final].
  - rewrite String.eqb_refl. cbn [reading]. destruct (MicrometerSet s) as [x [e|]]; cbn [accepted option_map]; [discriminate|].
    rewrite (flag_not_given name rest _ H). intros [= ->]. reflexivity.
  - destruct (String.eqb m name); [|apply IH]. cbn [reading]. destruct (MicrometerSet t) as [x [e|]]; cbn [accepted option_map]; [discriminate|]. apply IH.
  - apply IH.
Qed.
Print Assumptions last_flag_wins.
(** The default of every flag as a text, data/option.go:390-470; those of the G-code at the start and the end have several lines. *)
Definition lines_of (l : list string) : string := String.concat (String (Ascii.ascii_of_nat 10) "") l.
Definition default_texts : list (string * string) :=
 [ ("version", "false"); ("output", ""); ("meld-distance", "30"); ("join-polygon-snap-distance", "160");
   ("finish-polygon-snap-distance", "1000"); ("initial-layer-speed", "30"); ("layer-speed", "60"); ("outer-perimeter-speed", "40");
   ("move-speed", "150"); ("initial-layer-thickness", "200"); ("layer-thickness", "200"); ("inset-count", "2");
   ("infill-overlap-percent", "50"); ("additional-internal-infill-overlap-percent", "400"); ("infill-percent", "20"); ("infill-rotation-degree", "45");
   ("infill-zig-zag", "false"); ("number-bottom-layers", "3"); ("number-top-layers", "4"); ("support-enabled", "false");
   ("support-threshold-angle", "60"); ("support-top-gap-layers", "3"); ("support-interface-layers", "2"); ("support-pattern-spacing", "2.5");
   ("support-gap", "0.6"); ("skirt-count", "2"); ("skirt-distance", "5"); ("brim-count", "0");
   ("filament-diameter", "1750"); ("initial-bed-temperature", "60"); ("initial-hot-end-temperature", "205"); ("bed-temperature", "55");
   ("hot-end-temperature", "200"); ("initial-temperature-layer-count", "3"); ("retraction-speed", "30"); ("retraction-length", "2");
   ("retraction-z-hop", "0"); ("fan-speed", "2=255"); ("extrusion-multiplier", "100"); ("extrusion-width", "400");
   ("force-safe-gcode", "true"); ("has-heated-bed", "true");
   ("start-gcode", lines_of [";SET BED TEMP"; "M190 S{print_bed_temperature} ; heat and wait for bed"; ";SET HOTEND TEMP"; "M109 S{print_temperature} ; wait for hot end temperature"; "M107 ; disable fan"; "G1 Z5 F5000 ; lift nozzle"]);
   ("end-gcode", lines_of ["M107 ; disable fan"; "G28 X0  ; home X axis to get head out of the way"; "M84 ;steppers off"]); ("center", "100000_100000_0") ].
Fixpoint text_for (name : string) (l : list (string * string)) : option string := match l with [] => None | (n, t) :: l' => if String.eqb n name then Some t else text_for name l' end.
Lemma text_of_default name : forall l : list (string * string), NoDup (map fst l) -> forall text, In (name, text) l -> text_for name l = Some text.
Proof.
  induction l as [|[n t] l IH]; intros N text; [intros []|]. inversion_clear N as [|? ? N1 N2]. cbn [text_for]. intros [[= -> ->]|I].
  - rewrite String.eqb_refl. reflexivity.
  - destruct (String.eqb_spec n name) as [->|]; [|exact (IH N2 text I)]. destruct N1. apply (in_map fst) in I. exact I.
Qed.
Lemma default_texts_once : NoDup (map fst default_texts).
Proof. repeat (constructor; [let H := fresh in intros H; cbn in H; repeat (destruct H as [H|H]; [discriminate|]); exact H|]). constructor. Qed.
(** Giving flags their documented default is the same as leaving them out. *)
Theorem defaults_given : forall args items, spells args items -> (forall name text, In (Given name text) items -> In (name, text) default_texts) ->
  exists r, ParseFlags args = Some r /\ forall name get, In (name, get) documented -> get r = get defaults.
Proof.
  intros args items S D.
  assert (T : forall name get text, In (name, get) documented -> In (name, text) default_texts -> reading (get defaults) text = Some (get defaults)).
  { intros name get text I J. apply (text_of_default _ _ default_texts_once) in J. unfold documented in I.
    repeat (destruct I as [[= <- <-]|I]; [vm_compute in J; injection J as <-; vm_compute; reflexivity|]). destruct I. }
  assert (K : forall name get, In (name, get) documented -> final name (get defaults) items = Some (get defaults)).
  { intros name get I. clear S. induction items as [|[n t|t] items IH]; cbn [final]; [reflexivity| |apply IH; intros n' t' I'; apply D; right; exact I'].
    assert (H : final name (get defaults) items = Some (get defaults)) by (apply IH; intros n' t' I'; apply D; right; exact I').
    destruct (String.eqb_spec n name) as [->|]; [|exact H]. rewrite (T name get t I (D _ _ (or_introl eq_refl))). exact H. }
  destruct (ParseFlags_total _ _ S) as ([o v] & E); [intros name get I; rewrite (K name get I); discriminate|]. exists (o, v). split; [exact E|]. intros name get I.
  destruct (ParseFlags_spec _ _ _ E) as (items' & S' & _ & F). rewrite (spells_unique _ _ _ S' S) in F. specialize (F name get I). rewrite (K name get I) in F. congruence.
Qed.
Print Assumptions defaults_given.
(** every flag has such a text *)
Example defaults_given_ex : map fst default_texts = map fst documented /\ exists o, ParseFlags ["--layer-thickness"; "200"; "--center=100000_100000_0"; "part.stl"; "--support-gap=0.6"] = Some (o, false).
Proof. split; [reflexivity|]. eexists. vm_compute. reflexivity. Qed.
Example command_line_ex : exists o, ParseFlags ["--layer-thickness"; "150"; "part.stl"; "--layer-thickness=100"; "-oout.gcode"; "--support-gap"; "0.4"; "--center=1_2_0"; "other.stl"] = Some (o, false) /\
  InputFilePath (GoSlice o) = "part.stl" /\ OutputFilePath (GoSlice o) = "out.gcode" /\ LayerThickness (Print o) = 100 /\ ToMicrometer (s_Gap (Support (Print o))) = 400 /\
  Center (Printer o) = V3 1 2 0 /\ InsetCount (Print o) = InsetCount (Print DefaultOptions).
Proof. eexists. split; [vm_compute; reflexivity|]. vm_compute. repeat split; reflexivity. Qed.
Lemma doc name get : In (name, get) documented -> flag_name name.
Proof. intros H. exists get. exact H. Qed.
Example spells_ex : spells ["--layer-thickness"; "150"; "part.stl"; "-oout.gcode"; "--version"] [Given "layer-thickness" "150"; Operand "part.stl"; Given "output" "out.gcode"; Given "version" "true"].
Proof.
  assert (N : forall n f, find_long n = Some f -> no_opt f = None -> flag_name n /\ ~ switch n).
  { intros n f F O. split; [apply flag_name_find; eauto|]. apply (not_switch n f F). exact O. }
  apply (sp_next "layer-thickness" "150"); [eapply N; reflexivity|eapply N; reflexivity|].
  apply sp_operand; [right; intros u; discriminate|].
  apply (sp_bundle "oout.gcode" _ [Given "output" "out.gcode"] ["--version"]); [discriminate|intros u; discriminate| |].
  - apply bu_attached; [right; left; reflexivity|eapply N; reflexivity|intros (a & b & E); discriminate E|discriminate].
  - apply (sp_switch "version"); [apply switch_find; eexists; split; reflexivity|constructor].
Qed.
(** A value behind a switch is not its value: it is taken for the file to slice. *)
Theorem switch_value_refuted : exists o, ParseFlags ["--infill-zig-zag"; "false"; "part.stl"] = Some (o, false) /\ InfillZigZag (Print o) = true /\ InputFilePath (GoSlice o) = "false".
Proof. eexists. split; [vm_compute; reflexivity|]. vm_compute. split; reflexivity. Qed.
Print Assumptions switch_value_refuted.

(** *** C80 *)
Section Exit.
Variables (lib : clib) (tangent : f64 -> f64) (fuel : nat) (env : files) (sys : os) (d : disk).
Notation program := (program lib tangent fuel env sys d).
Definition readable_items (items : list item) : Prop := forall name get, In (name, get) documented -> final name (get defaults) items <> None.
(** An unknown flag, a missing or an unacceptable value: exit code 2. *)
Theorem exit_bad_flags : forall args, (forall items, spells args items -> ~ readable_items items) -> program args = Some 2.
Proof.
  intros args H. unfold M_Flags.program. destruct (ParseFlags args) as [[o v]|] eqn:E; [|reflexivity]. exfalso.
  destruct (ParseFlags_spec _ _ _ E) as (items & S & _ & F). apply (H items S). intros name get D. rewrite (F name get D). discriminate.
Qed.
(** Asking for the version: exit code 0. *)
Theorem exit_version : forall args items, spells args items -> readable_items items -> final "version" (VBool false) items = Some (VBool true) -> program args = Some 0.
Proof.
  intros args items S R V. destruct (ParseFlags_total _ _ S R) as ((o & v) & E). unfold M_Flags.program. rewrite E.
  destruct (ParseFlags_spec _ _ _ E) as (items' & S' & _ & F). rewrite (spells_unique _ _ _ S' S) in F.
  specialize (F "version" (fun r => VBool (snd r)) (or_introl eq_refl)). cbn [snd defaults] in F. rewrite V in F. injection F as <-. reflexivity.
Qed.
(** No file to slice: exit code 1. *)
Theorem exit_no_input : forall args items, spells args items -> readable_items items -> final "version" (VBool false) items = Some (VBool false) -> hd "" (operands items) = "" -> program args = Some 1.
Proof.
  intros args items S R V I. destruct (ParseFlags_total _ _ S R) as ((o & v) & E). unfold M_Flags.program. rewrite E.
  destruct (ParseFlags_spec _ _ _ E) as (items' & S' & Hi & F). rewrite (spells_unique _ _ _ S' S) in *.
  specialize (F "version" (fun r => VBool (snd r)) (or_introl eq_refl)). cbn [snd defaults] in F. rewrite V in F. injection F as <-. rewrite Hi, I. reflexivity.
Qed.
(** Otherwise the exit code is 0 exactly if the process succeeds with these options, and 2 if it fails. *)
Theorem exit_process : forall args items, spells args items -> readable_items items -> final "version" (VBool false) items = Some (VBool false) -> hd "" (operands items) <> "" ->
  exists o, ParseFlags args = Some (o, false) /\ InputFilePath (GoSlice o) = hd "" (operands items) /\
    let r := snd (Process (NewGoSlice lib tangent fuel env sys d o) (InputFilePath (GoSlice o)) (OutputFilePath (GoSlice o))) in
    (program args = Some 0 <-> r = Ok tt) /\ (program args = None <-> r = Diverge) /\ (program args = Some 2 <-> (exists e, r = Err e) \/ exists w, r = Panic w).
Proof.
  intros args items S R V I. destruct (ParseFlags_total _ _ S R) as ((o & v) & E). unfold M_Flags.program. rewrite E.
  destruct (ParseFlags_spec _ _ _ E) as (items' & S' & Hi & F). rewrite (spells_unique _ _ _ S' S) in *.
  specialize (F "version" (fun r => VBool (snd r)) (or_introl eq_refl)). cbn [snd defaults] in F. rewrite V in F. injection F as <-.
  exists o. split; [reflexivity|]. split; [exact Hi|]. cbv zeta. set (r := snd _). clearbody r. unfold main. rewrite (proj2 (String.eqb_neq _ _)) by (rewrite Hi; exact I).
  destruct r as [[]|e|w|]; repeat split; try discriminate; try (intros; reflexivity); intros H; try (destruct H as [(? & H)|(? & H)]; discriminate H); eauto.
Qed.
End Exit.
Print Assumptions exit_bad_flags.
Print Assumptions exit_version.
Print Assumptions exit_no_input.
Print Assumptions exit_process.
Example exit_bad_flags_ex : forall lib tangent fuel env sys d, program lib tangent fuel env sys d ["part.stl"; "--layer-thikness=100"] = Some 2 /\ program lib tangent fuel env sys d ["part.stl"; "--inset-count=2.5"] = Some 2.
Proof. intros. split; vm_compute; reflexivity. Qed.
