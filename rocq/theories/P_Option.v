(** Properties C10-C15: textual option values. *)
From Verif Require Import GoBase GoStr M_Micrometer M_Option S_Text S_Option L_Str L_Option.
From Coq Require Import Permutation.
Local Open Scope string_scope.
Local Open Scope Z_scope.

(** *** C10: [MicrometerSet s] is (new value of the option, error) *)
Theorem micrometer_option_round_trip : forall m, int64 m -> MicrometerSet (MicrometerString m) = (m, None).
Proof. exact micrometer_text. Qed.
Print Assumptions micrometer_option_round_trip.
Example micrometer_option_round_trip_ex : MicrometerString (-9223372036854775808) = "-9223372036854775808"
  /\ MicrometerSet "0x1_F" = (31, None) /\ MicrometerSet "+0_7" = (7, None) /\ MicrometerSet "1__0" = (0, Some SyntaxErr).
Proof. vm_compute. repeat split. Qed.
Theorem micrometer_option_range : forall s, int64 (fst (MicrometerSet s)).
Proof. exact micrometer_int64. Qed.
Print Assumptions micrometer_option_range.
(** plain decimal texts: accepted with their value exactly if it fits in 64 bits *)
Theorem micrometer_option_plain : forall c t n, is_digit c = true -> c <> "0"%char -> dec_val 0 (String c t) = Some n ->
  MicrometerSet (String c t) = (if n <? 2 ^ 63 then (n, None) else (maxInt64, Some RangeErr)) /\
  MicrometerSet (String "-" (String c t)) = (if n <=? 2 ^ 63 then (- n, None) else (minInt64, Some RangeErr)).
Proof. exact micrometer_plain. Qed.
Print Assumptions micrometer_option_plain.
Example micrometer_option_plain_ex : dec_val 0 "9223372036854775808" = Some (2 ^ 63).
Proof. reflexivity. Qed.
(** a rejected text overwrites the option *)
Theorem micrometer_option_rejected : forall s v e, MicrometerSet s = (v, Some e) ->
  (e = SyntaxErr /\ v = 0) \/ (e = RangeErr /\ (v = maxInt64 \/ v = minInt64)).
Proof. exact micrometer_rejected. Qed.
Print Assumptions micrometer_option_rejected.
Theorem micrometer_option_atomic_refuted : exists s, snd (MicrometerSet s) <> None /\ fst (MicrometerSet s) <> 200.
Proof. exact micrometer_clobbers. Qed.
Print Assumptions micrometer_option_atomic_refuted.

(** *** C11: [MicroVec3Set old s] is (new value, error) *)
Theorem microvec3_option_round_trip : forall old v, wf_vec3 v -> MicroVec3Set old (MicroVec3String v) = (v, None).
Proof. exact vec3_text. Qed.
Print Assumptions microvec3_option_round_trip.
Theorem microvec3_option_atomic : forall old s v e, MicroVec3Set old s = (v, Some e) -> v = old.
Proof. exact vec3_atomic. Qed.
Print Assumptions microvec3_option_atomic.
Theorem microvec3_option_accepts : forall old s v, MicroVec3Set old s = (v, None) <->
  exists a b c, s = a ++ "_" ++ b ++ "_" ++ c /\
    no_char "_" a = true /\ no_char "_" b = true /\ no_char "_" c = true /\
    MicrometerSet a = (vx v, None) /\ MicrometerSet b = (vy v, None) /\ MicrometerSet c = (vz v, None).
Proof. exact vec3_accepted. Qed.
Print Assumptions microvec3_option_accepts.
Example microvec3_option_ex : MicroVec3Set (V3 1 2 3) "100_-200_300" = (V3 100 (-200) 300, None)
  /\ MicroVec3Set (V3 1 2 3) "100_x_300" = (V3 1 2 3, Some errVec).
Proof. vm_compute. split; reflexivity. Qed.

(** *** C12: [FanSpeedSet old s] is (new table, error) *)
Theorem fan_option_accepts : forall old s t, FanSpeedSet old s = (t, None) ->
  exists pieces entries, s = join "," pieces /\ pieces <> [] /\
    Forall2 (fun piece e => fan_entry piece (fst e) (snd e)) pieces entries /\
    forall layer, lut_get t layer = last_value entries layer.
Proof. exact fan_accepts. Qed.
Print Assumptions fan_option_accepts.
Theorem fan_option_complete : forall old pieces entries, pieces <> [] ->
  Forall2 (fun piece e => fan_entry piece (fst e) (snd e)) pieces entries ->
  exists t, FanSpeedSet old (join "," pieces) = (t, None) /\ forall layer, lut_get t layer = last_value entries layer.
Proof. exact fan_complete. Qed.
Print Assumptions fan_option_complete.
Theorem fan_option_atomic : forall old s t e, FanSpeedSet old s = (t, Some e) -> t = old.
Proof. exact fan_atomic. Qed.
Print Assumptions fan_option_atomic.
Example fan_option_ex : FanSpeedSet [] "1=20,5=+100,1=07" = ([(1, 7); (5, 100)], None)
  /\ snd (FanSpeedSet [] "1=256") <> None /\ snd (FanSpeedSet [] "-1=5") <> None.
Proof. vm_compute. repeat split; discriminate. Qed.

(** *** C13 *)
Theorem fan_option_round_trip : forall old t order, t <> [] -> NoDup (map fst t) ->
  (forall k v, In (k, v) t -> 0 <= k < 2 ^ 63 /\ 0 <= v <= 255) -> Permutation t order ->
  exists t', FanSpeedSet old (FanSpeedString order) = (t', None) /\ forall k, lut_get t' k = lut_get t k.
Proof. exact fan_round_trip. Qed.
Print Assumptions fan_option_round_trip.
Example fan_option_round_trip_ex : FanSpeedSet [] (FanSpeedString [(5, 100); (2, 255)]) = ([(5, 100); (2, 255)], None).
Proof. reflexivity. Qed.
(** the empty table is not accepted back *)
Theorem fan_option_empty_refuted : forall old, snd (FanSpeedSet old (FanSpeedString [])) <> None.
Proof. exact fan_empty. Qed.
Print Assumptions fan_option_empty_refuted.

(** *** C14: [HunkSet old s] is (new lines, error) *)
Theorem hunk_option_accepts : forall old s, (exists a b, s = a ++ newline ++ b) ->
  exists rows, s = join newline rows /\ Forall no_newline rows /\
    (let '(lines, err) := HunkSet old s in
     err = None /\ exists keep, lines = filter keep rows /\ forall r, keep r = true <-> ~ blank r).
Proof. exact hunk_accepts. Qed.
Print Assumptions hunk_option_accepts.
Theorem hunk_option_rejects : forall old s, ~ (exists a b, s = a ++ newline ++ b) -> HunkSet old s = (old, Some errHunk).
Proof. exact hunk_rejects. Qed.
Print Assumptions hunk_option_rejects.
Theorem hunk_option_round_trip : forall old lines, (2 <= List.length lines)%nat ->
  Forall no_newline lines -> Forall (fun l => ~ blank l) lines -> HunkSet old (HunkString lines) = (lines, None).
Proof. exact hunk_round_trip. Qed.
Print Assumptions hunk_option_round_trip.
(** a hunk of fewer than two lines is not accepted back *)
Theorem hunk_option_short_refuted : forall old lines, (List.length lines <= 1)%nat -> Forall no_newline lines ->
  HunkSet old (HunkString lines) = (old, Some errHunk).
Proof. exact hunk_short. Qed.
Print Assumptions hunk_option_short_refuted.
Example hunk_option_ex : HunkSet [] ("G28" ++ newline ++ "  " ++ newline ++ " M104 S0" ++ newline) = (["G28"; " M104 S0"], None).
Proof. reflexivity. Qed.

(** *** C15 *)
Theorem hunk_contains_codes : forall lines targets, DoesInstructionContainCodes lines targets = true <->
  exists line w t a b, In line lines /\ first_word line w /\ In t targets /\ w = a ++ t ++ b.
Proof. exact contains_codes. Qed.
Print Assumptions hunk_contains_codes.
(** a commented out code is taken for the code *)
Theorem hunk_contains_only_commands_refuted : DoesInstructionContainCodes [";M190 S60"; "G28"] ["M190"] = true.
Proof. exact comment_counts. Qed.
Print Assumptions hunk_contains_only_commands_refuted.
Theorem hunk_instruction_codes : forall lines, Forall (fun l => ~ blank l) lines ->
  exists cs, GetInstructionCode lines = Ok cs /\
    forall c, In c cs <-> exists line, In line lines /\ first_word line c /\ exists r, c = "G" ++ r \/ c = "M" ++ r.
Proof. exact instruction_codes. Qed.
Print Assumptions hunk_instruction_codes.
Theorem hunk_instruction_codes_blank : forall lines, (exists l, In l lines /\ blank l) -> exists m, GetInstructionCode lines = Panic m.
Proof. exact instruction_codes_blank. Qed.
Print Assumptions hunk_instruction_codes_blank.
Example hunk_codes_ex : DoesInstructionContainCodes ["G28 X0 ;home"; " M104 S200"] ["M104"; "M109"] = true
  /\ DoesInstructionContainCodes ["G28 M104"] ["M104"] = false
  /\ GetInstructionCode ["G28 X0"; "; c"; "M104 S2"] = Ok ["G28"; "M104"].
Proof. vm_compute. repeat split. Qed.
