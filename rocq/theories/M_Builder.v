(** Model of gcode/builder.go: the G-code text builder. *)
From Verif Require Import GoBase GoFloat GoStr M_Micrometer M_Geom2D M_Option M_Clip.
Local Open Scope string_scope.
Local Open Scope Z_scope.

(** *** fmt.Sprintf(format) without arguments (fmt/print.go doPrintf).
    Everything up to a '%' is copied.  A directive is flags, [index], width, .precision, [index], verb; without
    arguments each directive yields an error text, except for the verb '%'.
    Simplification: the verb is one byte (Go reads one UTF-8 rune). *)
Definition is_flag (c : ascii) : bool :=
  Ascii.eqb c "#" || Ascii.eqb c "0" || Ascii.eqb c "+" || Ascii.eqb c "-" || Ascii.eqb c " ".
Fixpoint skip_flags (s : string) : string :=
  match s with String c t => if is_flag c then skip_flags t else s | EmptyString => "" end.
(** parsenum: digits; a number above 1e6 gives up and jumps to the end of the format *)
Fixpoint skip_num (s : string) (n : Z) : string :=
  match s with
  | String c t => if is_digit c then
                    (if 1000000 <? n then "" else skip_num t (n * 10 + (code c - 48)))
                  else s
  | EmptyString => ""
  end.
(** the digits of an argument index: all of them, never too large *)
Fixpoint good_num (s : string) (n : Z) : bool :=
  match s with
  | String c t => is_digit c && negb (1000000 <? n) && good_num t (n * 10 + (code c - 48))
  | EmptyString => true
  end.
(** text before and behind the first ']' of s, if any *)
Fixpoint at_bracket (s : string) : option (string * string) :=
  match s with
  | EmptyString => None
  | String c t => if Ascii.eqb c "]" then Some ("", t)
                  else match at_bracket t with Some (a, b) => Some (String c a, b) | None => None end
  end.
(** argNumber with no arguments: (rest, not a good index, well formed index found) *)
Definition skip_index (s : string) : string * bool * bool :=
  match s with
  | String "[" t =>
      match t with
      | String _ (String _ _) =>
          match at_bracket t with
          | Some (n, r) => (r, true, negb (String.eqb n "") && good_num n 0)
          | None => (t, true, false)
          end
      | _ => (t, true, false)
      end
  | _ => (s, false, false)
  end.
(** width or precision: '*' without argument is an error text; (rest, error text, was '*') *)
Definition skip_size (bad : string) (s : string) : string * string * bool :=
  match s with
  | String "*" t => (t, bad, true)
  | _ => (skip_num s 0, "", false)
  end.
(** one directive behind its '%': (error text or "%", rest); [None]: the format ends here *)
Definition directive (s : string) : string * option string :=
  let s0 := skip_flags s in
  let '(s1, bad1, after1) := skip_index s0 in
  let '(s2, e1, star1) := skip_size "%!(BADWIDTH)" s1 in
  let '(s3, bad2, e2, after) :=
    match s2 with
    | String "." t => let '(t1, bad, after2) := skip_index t in
                      let '(t2, e, star2) := skip_size "%!(BADPREC)" t1 in (t2, bad, e, after2 && negb star2)
    | _ => (s2, false, "", after1 && negb star1)
    end in
  let '(s4, bad3) := if after then (s3, false) else let '(r, bad, _) := skip_index s3 in (r, bad) in
  match s4 with
  | EmptyString => (e1 ++ e2 ++ "%!(NOVERB)", None)
  | String v t =>
      ((if Ascii.eqb v "%" then e1 ++ e2 ++ "%"
        else e1 ++ e2 ++ "%!" ++ String v (if bad1 || bad2 || bad3 then "(BADINDEX)" else "(MISSING)")), Some t)
  end.
Fixpoint sprintf_aux (fuel : nat) (s : string) : string :=
  match fuel with
  | O => ""
  | S f => match s with
           | EmptyString => ""
           | String c t =>
               if Ascii.eqb c "%" then
                 match directive t with
                 | (o, Some r) => o ++ sprintf_aux f r
                 | (o, None) => o
                 end
               else String c (sprintf_aux f t)
           end
  end.
(** every step consumes at least one character, so the fuel never runs out *)
Definition sprintf0 (s : string) : string := sprintf_aux (S (String.length s)) s.
(** fmt.Sprintf(format, n) for the formats GoSlice uses: one %d or %v for an int *)
Fixpoint sprintf_int (s : string) (n : Z) : string :=
  match s with
  | EmptyString => ""
  | String c t =>
      if Ascii.eqb c "%" then
        match t with
        | String d u => if Ascii.eqb d "d" || Ascii.eqb d "v" then itoa n ++ u else String c (sprintf_int t n)
        | EmptyString => String c ""
        end
      else String c (sprintf_int t n)
  end.

(** *** gcode/builder.go:15-32.  [buf] is the text written so far. *)
Record builder := Builder {
  buf : string;
  extrusionAmount : f32; extrusionPerMM : f32;
  currentPosition : vec3;
  notFirstMoveX : bool; notFirstMoveY : bool; notFirstMoveZ : bool;
  moveSpeed : Z; extrudeSpeed : Z; currentSpeed : Z; extrudeSpeedOverride : Z;
  retractionSpeed : Z; retractionAmount : f32; zHopOnRetract : f32;
  filamentDiameter : Z; extrusionMultiplier : Z }.

Definition fzero : f32 := S754_zero false.

(** gcode/builder.go:34-42 *)
Definition NewGCodeBuilder (filamentDiameter extrusionMultiplier : Z) : builder :=
  Builder "" fzero fzero (V3 0 0 0) false false false 0 0 0 0 0 fzero fzero filamentDiameter extrusionMultiplier.
(** gcode/builder.go:44-46 *)
Definition BuilderString (g : builder) : string := buf g.

(** g.buf.WriteString *)
Definition write (s : string) (g : builder) : builder :=
  Builder (buf g ++ s) (extrusionAmount g) (extrusionPerMM g) (currentPosition g) (notFirstMoveX g) (notFirstMoveY g) (notFirstMoveZ g)
    (moveSpeed g) (extrudeSpeed g) (currentSpeed g) (extrudeSpeedOverride g) (retractionSpeed g) (retractionAmount g) (zHopOnRetract g)
    (filamentDiameter g) (extrusionMultiplier g).
(** int(x) for a float32 *)
Definition int_of_f32 (x : f32) : Z := int64_of_f64 (f64_of_f32 x).

(** float32(math.Pi) *)
Definition pi32 : f32 := S754_finite false 13176795 (-22).
(** gcode/builder.go:48-51: the new value of extrusionPerMM (all in float32) *)
Definition extrusion_per_mm (filamentDiameter extrusionMultiplier layerThickness lineWidth : Z) : f32 :=
  let r := div32 (ToMillimeter filamentDiameter) (f32_of_Z 2) in
  let filamentArea := mul32 (mul32 pi32 r) r in
  mul32 (div32 (mul32 (ToMillimeter layerThickness) (ToMillimeter lineWidth)) filamentArea)
        (div32 (f32_of_Z extrusionMultiplier) (f32_of_Z 100)).
Definition SetExtrusion (layerThickness lineWidth : Z) (g : builder) : builder :=
  Builder (buf g) (extrusionAmount g) (extrusion_per_mm (filamentDiameter g) (extrusionMultiplier g) layerThickness lineWidth)
    (currentPosition g) (notFirstMoveX g) (notFirstMoveY g) (notFirstMoveZ g)
    (moveSpeed g) (extrudeSpeed g) (currentSpeed g) (extrudeSpeedOverride g) (retractionSpeed g) (retractionAmount g) (zHopOnRetract g)
    (filamentDiameter g) (extrusionMultiplier g).
(** gcode/builder.go:53-55 *)
Definition SetMoveSpeed (v : f32) (g : builder) : builder :=
  Builder (buf g) (extrusionAmount g) (extrusionPerMM g) (currentPosition g) (notFirstMoveX g) (notFirstMoveY g) (notFirstMoveZ g)
    (int_of_f32 v) (extrudeSpeed g) (currentSpeed g) (extrudeSpeedOverride g) (retractionSpeed g) (retractionAmount g) (zHopOnRetract g)
    (filamentDiameter g) (extrusionMultiplier g).
(** gcode/builder.go:57-59 *)
Definition SetExtrudeSpeed (v : f32) (g : builder) : builder :=
  Builder (buf g) (extrusionAmount g) (extrusionPerMM g) (currentPosition g) (notFirstMoveX g) (notFirstMoveY g) (notFirstMoveZ g)
    (moveSpeed g) (int_of_f32 v) (currentSpeed g) (extrudeSpeedOverride g) (retractionSpeed g) (retractionAmount g) (zHopOnRetract g)
    (filamentDiameter g) (extrusionMultiplier g).
Definition set_override (n : Z) (g : builder) : builder :=
  Builder (buf g) (extrusionAmount g) (extrusionPerMM g) (currentPosition g) (notFirstMoveX g) (notFirstMoveY g) (notFirstMoveZ g)
    (moveSpeed g) (extrudeSpeed g) (currentSpeed g) n (retractionSpeed g) (retractionAmount g) (zHopOnRetract g)
    (filamentDiameter g) (extrusionMultiplier g).
(** gcode/builder.go:61-63 *)
Definition SetExtrudeSpeedOverride (v : f32) (g : builder) : builder := set_override (int_of_f32 v) g.
(** gcode/builder.go:65-67 *)
Definition DisableExtrudeSpeedOverride (g : builder) : builder := set_override 0 g.
(** gcode/builder.go:69-71 *)
Definition SetRetractionSpeed (v : f32) (g : builder) : builder :=
  Builder (buf g) (extrusionAmount g) (extrusionPerMM g) (currentPosition g) (notFirstMoveX g) (notFirstMoveY g) (notFirstMoveZ g)
    (moveSpeed g) (extrudeSpeed g) (currentSpeed g) (extrudeSpeedOverride g) (int_of_f32 v) (retractionAmount g) (zHopOnRetract g)
    (filamentDiameter g) (extrusionMultiplier g).
(** gcode/builder.go:73-75 *)
Definition SetRetractionAmount (v : f32) (g : builder) : builder :=
  Builder (buf g) (extrusionAmount g) (extrusionPerMM g) (currentPosition g) (notFirstMoveX g) (notFirstMoveY g) (notFirstMoveZ g)
    (moveSpeed g) (extrudeSpeed g) (currentSpeed g) (extrudeSpeedOverride g) (retractionSpeed g) v (zHopOnRetract g)
    (filamentDiameter g) (extrusionMultiplier g).
(** gcode/builder.go:77-79 *)
Definition SetRetractionZHop (v : f32) (g : builder) : builder :=
  Builder (buf g) (extrusionAmount g) (extrusionPerMM g) (currentPosition g) (notFirstMoveX g) (notFirstMoveY g) (notFirstMoveZ g)
    (moveSpeed g) (extrudeSpeed g) (currentSpeed g) (extrudeSpeedOverride g) (retractionSpeed g) (retractionAmount g) v
    (filamentDiameter g) (extrusionMultiplier g).

(** gcode/builder.go:81-85 without arguments, and with one int argument *)
Definition AddCommand (command : string) (g : builder) : builder := write (sprintf0 (command ++ newline)) g.
Definition AddCommandInt (command : string) (n : Z) (g : builder) : builder := write (sprintf_int (command ++ newline) n) g.
(** gcode/builder.go:87-91 *)
Definition AddComment (comment : string) (g : builder) : builder := write (sprintf0 (";" ++ comment ++ newline)) g.
Definition AddCommentInt (comment : string) (n : Z) (g : builder) : builder := write (sprintf_int (";" ++ comment ++ newline) n) g.

(** gcode/builder.go:93-131 *)
Definition nonzero (x : f32) : bool := negb (feq x fzero).      (* extrusion != 0 *)
Definition AddMoveSpeed (p : vec3) (extrusion : f32) (speed : Z) (g : builder) : builder :=
  let cur := currentPosition g in
  let notFirstMove := notFirstMoveX g || notFirstMoveY g || notFirstMoveZ g in
  if notFirstMove && (vx cur =? vx p) && (vy cur =? vy p) && (vz cur =? vz p) && negb (nonzero extrusion) then g
  else
    let sx := negb (vx p =? vx cur) || negb (notFirstMoveX g) in
    let sy := negb (vy p =? vy cur) || negb (notFirstMoveY g) in
    let sz := negb (vz p =? vz cur) || negb (notFirstMoveZ g) in
    let amount := add32 (extrusionAmount g) extrusion in
    let text :=
      (if nonzero extrusion then "G1" else "G0")
      ++ (if sx then " X" ++ fmt_fixed 2 (ToMillimeter (vx p)) else "")
      ++ (if sy then " Y" ++ fmt_fixed 2 (ToMillimeter (vy p)) else "")
      ++ (if sz then " Z" ++ fmt_fixed 2 (ToMillimeter (vz p)) else "")
      ++ (if negb (currentSpeed g =? speed) then " F" ++ itoa (mul64 speed 60) else "")
      ++ (if nonzero extrusion then " E" ++ fmt_fixed 4 amount else "")
      ++ newline in
    Builder (buf g ++ text) amount (extrusionPerMM g) p (notFirstMoveX g || sx) (notFirstMoveY g || sy) (notFirstMoveZ g || sz)
      (moveSpeed g) (extrudeSpeed g) speed (extrudeSpeedOverride g) (retractionSpeed g) (retractionAmount g) (zHopOnRetract g)
      (filamentDiameter g) (extrusionMultiplier g).

(** gcode/builder.go:133-147 *)
Definition AddMove (p : vec3) (extrusion : f32) (g : builder) : builder :=
  let speed := if nonzero extrusion
               then (if extrudeSpeedOverride g <=? 0 then extrudeSpeed g else extrudeSpeedOverride g)
               else moveSpeed g in
  AddMoveSpeed p extrusion speed g.

(** gcode/builder.go:213-220 for the points behind the first one; [prev] is polygon[i-1] *)
Fixpoint print_points (prev : pt) (ps : path) (z : Z) (g : builder) : builder :=
  match ps with
  | [] => g
  | p :: ps' => print_points p ps' z
      (AddMove (V3 (px p) (py p) z) (mul32 (ptSizeMM (ptSub p prev)) (extrusionPerMM g)) g)
  end.
Definition errCrossing : string := "could not calculate the difference between the current layer and the non-extrusion-move".
Definition errUnreachable : string := "index out of range".

Section lib.
Variable lib : clib.
(** gcode/builder.go:158-211: travel to the first point p0; [layer] is None for a nil layer *)
Definition travel_to (layer : option (list part)) (p0 : pt) (z : Z) (g : builder) : res builder :=
  let move := [PointXY (currentPosition g); p0] in
  let* isCrossing :=
    match layer with
    | Some parts =>
        if negb (retractionSpeed g =? 0) && nonzero (retractionAmount g) then
          match IsCrossingPerimeter lib parts move with
          | Some c => Ok c
          | None => Err errCrossing
          end
        else Ok false
    | None => Ok false
    end in
  let hop := flt fzero (zHopOnRetract g) in
  let zMove := if isCrossing && hop then add64 z (ToMicrometer (zHopOnRetract g)) else z in
  let g1 := if isCrossing then AddMoveSpeed (currentPosition g) (SFopp (retractionAmount g)) (retractionSpeed g) g else g in
  let g2 := if isCrossing && hop
            then AddMove (V3 (vx (currentPosition g1)) (vy (currentPosition g1)) zMove) fzero g1 else g1 in
  let g3 := AddMove (V3 (px p0) (py p0) zMove) fzero g2 in
  let g4 := if isCrossing && hop then AddMove (V3 (px p0) (py p0) z) fzero g3 else g3 in
  Ok (if isCrossing then AddMoveSpeed (currentPosition g4) (retractionAmount g4) (retractionSpeed g4) g4 else g4).

(** gcode/builder.go:149-239 *)
Definition AddPolygon (layer : option (list part)) (polygon : path) (z : Z) (open : bool) (g : builder) : res builder :=
  match polygon with
  | [] => Ok g
  | _ :: _ =>
      match DouglasPeucker polygon (-1) with
      | [] => if open then Ok g else Panic errUnreachable        (* polygon[0]; cannot happen *)
      | p0 :: ps =>
          let* g1 := travel_to layer p0 z g in
          let g2 := print_points p0 ps z g1 in
          if open then Ok g2
          else Ok (AddMove (V3 (px p0) (py p0) z) (mul32 (ptSizeMM (ptSub p0 (last ps p0))) (extrusionPerMM g2)) g2)
      end
  end.
End lib.
