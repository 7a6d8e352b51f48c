(** Model of the option value types of data/option.go. *)
From Verif Require Import GoBase GoFloat GoStr M_Micrometer.
Local Open Scope string_scope.
Local Open Scope Z_scope.

(** data/option.go:18-20 *)
Definition MicrometerString (m : Z) : string := itoa m.
(** data/option.go:22-26: new value of the option, and the error *)
Definition MicrometerSet (s : string) : Z * option perr := parse_int true s.

(** data/option.go:46-48 *)
Definition MicroVec3String (v : vec3) : string :=
  MicrometerString (vx v) ++ "_" ++ MicrometerString (vy v) ++ "_" ++ MicrometerString (vz v).
(** data/option.go:50-76: [old] is the previous value; (new value, error) *)
Definition errVec : string := "the string should contain three integers separated by _".
Definition MicroVec3Set (old : vec3) (s : string) : vec3 * option string :=
  match split "_" s with
  | [a; b; c] =>
      match MicrometerSet a with
      | (_, Some _) => (old, Some errVec)
      | (x, None) =>
          match MicrometerSet b with
          | (_, Some _) => (old, Some errVec)
          | (y, None) =>
              match MicrometerSet c with
              | (_, Some _) => (old, Some errVec)
              | (z, None) => (V3 x y z, None)
              end
          end
      end
  | _ => (old, Some errVec)
  end.

(** A Go map[int]int: association list without duplicate keys; the order is that of the last rehash (irrelevant). *)
Definition lut := list (Z * Z).
Fixpoint lut_get (t : lut) (k : Z) : option Z :=
  match t with
  | [] => None
  | (k', v) :: t' => if k' =? k then Some v else lut_get t' k
  end.
Fixpoint lut_set (t : lut) (k v : Z) : lut :=
  match t with
  | [] => [(k, v)]
  | (k', v') :: t' => if k' =? k then (k, v) :: t' else (k', v') :: lut_set t' k v
  end.

(** data/option.go:84-89 *)
Definition DefaultFanSpeed : lut := [(2, 255)].
(** data/option.go:95-101; [t] lists the entries in Go's iteration order *)
Definition FanSpeedString (t : lut) : string := join "," (map (fun kv => itoa (fst kv) ++ "=" ++ itoa (snd kv)) t).
(** data/option.go:106-126 *)
Definition errFan : string := "fan control needs to be in format layernum=fanspeed<0-255>,layernum=fanspeed<0-255>".
Fixpoint fan_loop (sp : list string) (t : lut) : option lut :=
  match sp with
  | [] => Some t
  | kvp :: sp' =>
      match split "=" kvp with
      | [a; b] =>
          let '(layer, layerErr) := atoi a in
          let '(speed, speedErr) := atoi b in
          match layerErr, speedErr with
          | None, None =>
              if (layer <? 0) || (speed <? 0) || (255 <? speed) then None
              else fan_loop sp' (lut_set t layer speed)
          | _, _ => None
          end
      | _ => None
      end
  end.
Definition FanSpeedSet (old : lut) (s : string) : lut * option string :=
  match fan_loop (split "," s) [] with
  | Some t => (t, None)
  | None => (old, Some errFan)
  end.

(** data/option.go:129-131: a hunk is its list of lines *)
Definition newline : string := String (chr 10) "".
(** strings.Split(strings.TrimSpace(instruction), " ")[0], data/option.go:143,156 *)
Definition first_token (line : string) : string := hd "" (split " " (trimSpace line)).
(** data/option.go:140-149; code[0] panics if the first token is empty *)
Fixpoint GetInstructionCode (lines : list string) : res (list string) :=
  match lines with
  | [] => Ok []
  | l :: ls =>
      match first_token l with
      | EmptyString => Panic "index out of range"
      | String c r =>
          let* rest := GetInstructionCode ls in
          Ok (if Ascii.eqb c "G" || Ascii.eqb c "M" then String c r :: rest else rest)
      end
  end.
(** data/option.go:153-168 *)
Definition DoesInstructionContainCodes (lines targets : list string) : bool :=
  existsb (fun l => existsb (fun t => contains (first_token l) t) targets) lines.
(** data/option.go:176-178 *)
Definition HunkString (lines : list string) : string := join newline lines.
(** data/option.go:181-196 *)
Definition errHunk : string := "the instructions should be separated by \n".
Definition HunkSet (old : list string) (s : string) : list string * option string :=
  if contains s newline then
    (filter (fun row => negb (String.eqb (trimSpace row) "")) (split (chr 10) s), None)
  else (old, Some errHunk).
