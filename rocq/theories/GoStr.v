(** Go strings are byte strings: Coq's [string] (a list of 8-bit characters).
    Models of the parts of strconv, strings and fmt that GoSlice uses. *)
From Coq Require Export Ascii.
From Verif Require Import GoBase GoFloat.
Local Open Scope string_scope.
Local Open Scope Z_scope.

Definition code (c : ascii) : Z := Z.of_N (N_of_ascii c).
Definition chr (z : Z) : ascii := ascii_of_N (Z.to_N z).
Definition digit_char (d : Z) : ascii := chr (48 + d).
Definition is_digit (c : ascii) : bool := (48 <=? code c) && (code c <=? 57).

(** *** Formatting *)
(** decimal digits of n >= 0, no leading zero *)
Fixpoint udec_aux (fuel : nat) (n : Z) (acc : string) : string :=
  match fuel with
  | O => acc
  | S f => let acc' := String (digit_char (n mod 10)) acc in
           if n <? 10 then acc' else udec_aux f (n / 10) acc'
  end.
Definition udec (n : Z) : string := udec_aux (S (Z.to_nat (Z.log2 n))) n "".
(** strconv.FormatInt(z, 10), fmt's %d and %v of an int *)
Definition itoa (z : Z) : string := if z <? 0 then "-" ++ udec (- z) else udec z.

(** exactly k decimal digits of n mod 10^k *)
Fixpoint fixed_digits (k : nat) (n : Z) : string :=
  match k with
  | O => ""
  | S k' => fixed_digits k' (n / 10) ++ String (digit_char (n mod 10)) ""
  end.
(** fmt's %0.kf (k >= 1) of a float: strconv's correctly rounded decimal; fmt prints "+Inf" for +Inf *)
Definition fmt_fixed (k : nat) (x : spec_float) : string :=
  match dec_scaled (Z.of_nat k) x with
  | Some (s, a) =>
      (if s then "-" else "") ++ udec (a / 10 ^ Z.of_nat k) ++ "." ++ fixed_digits k a
  | None => match x with S754_infinity s => if s then "-Inf" else "+Inf" | _ => "NaN" end
  end.

(** *** strings *)
Fixpoint split (c : ascii) (s : string) : list string :=      (* strings.Split(s, string(c)) *)
  match s with
  | EmptyString => [""]
  | String d t =>
      if Ascii.eqb c d then "" :: split c t
      else match split c t with
           | h :: r => String d h :: r
           | [] => [String d ""]
           end
  end.
Fixpoint join (sep : string) (l : list string) : string :=    (* strings.Join(l, sep) *)
  match l with
  | [] => ""
  | x :: l' => match l' with [] => x | _ => x ++ sep ++ join sep l' end
  end.
Fixpoint strip_prefix (p s : string) : option string :=
  match p with
  | EmptyString => Some s
  | String a p' => match s with
                   | String b s' => if Ascii.eqb a b then strip_prefix p' s' else None
                   | EmptyString => None
                   end
  end.
Fixpoint contains (s p : string) : bool :=                    (* strings.Contains(s, p) *)
  match strip_prefix p s with
  | Some _ => true
  | None => match s with String _ t => contains t p | EmptyString => false end
  end.
(** strings.ReplaceAll(s, old, new) for a non-empty old *)
Fixpoint replace_aux (fuel : nat) (old new s : string) : string :=
  match fuel with
  | O => s
  | S f => match s with
           | EmptyString => ""
           | String c t => match strip_prefix old s with
                           | Some r => new ++ replace_aux f old new r
                           | None => String c (replace_aux f old new t)
                           end
           end
  end.
Definition replaceAll (s old new : string) : string := replace_aux (S (String.length s)) old new s.

Fixpoint rev_app (s acc : string) : string :=
  match s with EmptyString => acc | String c t => rev_app t (String c acc) end.
Definition srev (s : string) : string := rev_app s "".

Definition bytes (l : list Z) : string := fold_right (fun z s => String (chr z) s) "" l.
(** UTF-8 encodings of the runes for which unicode.IsSpace holds *)
Definition spaces : list string := map bytes
  (([[9]; [10]; [11]; [12]; [13]; [32]; [194; 133]; [194; 160]; [225; 154; 128]]
   ++ map (fun b => [226; 128; b]) [128; 129; 130; 131; 132; 133; 134; 135; 136; 137; 138; 168; 169; 175]
   ++ [[226; 129; 159]; [227; 128; 128]])%list).
Fixpoint strip_any (ps : list string) (s : string) : option string :=
  match ps with
  | [] => None
  | p :: ps' => match strip_prefix p s with Some r => Some r | None => strip_any ps' s end
  end.
Fixpoint trim_left_aux (fuel : nat) (ps : list string) (s : string) : string :=
  match fuel with
  | O => s
  | S f => match strip_any ps s with Some r => trim_left_aux f ps r | None => s end
  end.
Definition trimLeft (ps : list string) (s : string) : string := trim_left_aux (S (String.length s)) ps s.
(** strings.TrimSpace *)
Definition trimSpace (s : string) : string :=
  srev (trimLeft (map srev spaces) (srev (trimLeft spaces s))).

(** *** strconv.ParseInt *)
(** lower(c) = c | 0x20 *)
Definition lowerc (c : ascii) : Z := Z.lor (code c) 32.
Inductive perr := SyntaxErr | RangeErr.
Definition maxUint64 : Z := 18446744073709551615.

(** value of a digit in any base up to 36 *)
Definition digit_val (c : ascii) : option Z :=
  if is_digit c then Some (code c - 48)
  else if (97 <=? lowerc c) && (lowerc c <=? 122) then Some (lowerc c - 97 + 10)
  else None.
(** loop of strconv.ParseUint(…, bitSize 64) *)
Fixpoint parse_digits (base : Z) (base0 : bool) (s : string) (n : Z) (und : bool) : (Z * bool) + (Z * perr) :=
  match s with
  | EmptyString => inl (n, und)
  | String c t =>
      if Ascii.eqb c "_" && base0 then parse_digits base base0 t n true
      else match digit_val c with
           | None => inr (0, SyntaxErr)
           | Some d =>
               if base <=? d then inr (0, SyntaxErr)
               else if maxUint64 <? n * base + d then inr (maxUint64, RangeErr)
               else parse_digits base base0 t (n * base + d) und
           end
  end.
Definition hex_digit (c : ascii) : bool := (97 <=? lowerc c) && (lowerc c <=? 102).
(** strconv.underscoreOK after the optional sign; saw: 0 = '^', 1 = '0', 2 = '_', 3 = '!' *)
Fixpoint underscore_loop (hex : bool) (s : string) (saw : Z) : bool :=
  match s with
  | EmptyString => negb (saw =? 2)
  | String c t =>
      if is_digit c || (hex && hex_digit c) then underscore_loop hex t 1
      else if Ascii.eqb c "_" then (if saw =? 1 then underscore_loop hex t 2 else false)
      else if saw =? 2 then false
      else underscore_loop hex t 3
  end.
Definition is_prefix_char (c : ascii) : bool := (lowerc c =? 98) || (lowerc c =? 111) || (lowerc c =? 120).
Definition underscoreOK (s : string) : bool :=
  match s with
  | String "0" (String c t) => if is_prefix_char c then underscore_loop (lowerc c =? 120) t 1 else underscore_loop false s 0
  | _ => underscore_loop false s 0
  end.
(** strconv.ParseUint(s, base, 64) with base 0 ([base0] = true) or 10 *)
Definition parse_uint (base0 : bool) (s : string) : Z * option perr :=
  let finish r s0 := match r with
    | inl (n, und) => if und && negb (underscoreOK s0) then (0, Some SyntaxErr) else (n, None)
    | inr (n, e) => (n, Some e)
    end in
  match s with
  | EmptyString => (0, Some SyntaxErr)
  | String c t =>
      if base0 && Ascii.eqb c "0" then
        match t with
        | String p (String _ _ as r) =>
            if lowerc p =? 98 then finish (parse_digits 2 true r 0 false) s
            else if lowerc p =? 111 then finish (parse_digits 8 true r 0 false) s
            else if lowerc p =? 120 then finish (parse_digits 16 true r 0 false) s
            else finish (parse_digits 8 true t 0 false) s
        | _ => finish (parse_digits 8 true t 0 false) s
        end
      else finish (parse_digits 10 base0 s 0 false) s
  end.
(** strconv.ParseInt(s, 0 or 10, 64): value and error (the value is meaningful on range errors) *)
Definition parse_int (base0 : bool) (s : string) : Z * option perr :=
  match s with
  | EmptyString => (0, Some SyntaxErr)
  | String c t =>
      let neg := Ascii.eqb c "-" in
      let body := if neg || Ascii.eqb c "+" then t else s in
      match parse_uint base0 body with
      | (_, Some SyntaxErr) => (0, Some SyntaxErr)
      | (un, _) =>
          if negb neg && (2 ^ 63 <=? un) then (maxInt64, Some RangeErr)
          else if neg && (2 ^ 63 <? un) then (minInt64, Some RangeErr)
          else ((if neg then - un else un), None)
      end
  end.
(** strconv.Atoi *)
Definition atoi (s : string) : Z * option perr := parse_int false s.
