(** Specification of the G-code builder: commanded moves and what the printer must do for them. *)
From Verif Require Import GoBase GoFloat GoStr M_Micrometer M_Geom2D S_Text S_Printer.
Local Open Scope Z_scope.

(** a commanded move: target, filament to extrude (mm), speed (mm/s) *)
Definition op := (vec3 * f32 * Z)%type.

(** the decimal with k digits printed for a float, in units of 1/10000 *)
Definition shown (k : Z) (x : spec_float) : option Z :=
  match dec_scaled k x with
  | Some (s, a) => Some ((if s then - a else a) * 10 ^ (4 - k))
  | None => None
  end.
Definition is_zero (x : spec_float) : bool := match x with S754_zero _ => true | _ => false end.
Definition same_place (p q : vec3) : bool := (vx p =? vx q) && (vy p =? vy q) && (vz p =? vz q).

(** what the printer has to do for a list of commanded moves: the target, speed and E value of each move;
    [here] is the place it is known to be at, [E] the filament extruded so far.
    A move to the same place that extrudes nothing is no move. *)
Fixpoint commanded (here : option vec3) (E : f32) (ops : list op) : list (vec3 * Z * f32) :=
  match ops with
  | [] => []
  | (p, e, s) :: ops' =>
      let stay := match here with Some q => same_place q p && is_zero e | None => false end in
      if stay then commanded here E ops'
      else (p, s, add32 E e) :: commanded (Some p) (add32 E e) ops'
  end.
(** the printer executed such a move: it stands at the printed target with the printed E value and uses the
    speed (in mm/min; a speed of 0 mm/s may leave the old feedrate in place) *)
Definition executed (m : vec3 * Z * f32) (r : regs) : Prop :=
  let '(p, s, E) := m in
  rX r = shown 2 (ToMillimeter (vx p)) /\ rY r = shown 2 (ToMillimeter (vy p)) /\ rZ r = shown 2 (ToMillimeter (vz p)) /\
  rE r = shown 4 E /\ (s <> 0 -> rF r = Some (wrap (s * 60) * 10000)).

(** settings of the builder that matter for a polygon *)
Record settings := Settings { s_move : Z; s_print : Z; s_permm : f32; s_rspeed : Z; s_ramount : f32; s_hop : f32 }.

Definition line_amount (permm : f32) (a b : pt) : f32 := mul32 (ptSizeMM (ptSub b a)) permm.
Definition at_z (p : pt) (z : Z) : vec3 := V3 (px p) (py p) z.
(** printing the line from a to b; a line without length is a travel move *)
Definition line_op (st : settings) (z : Z) (a b : pt) : op :=
  (at_z b z, line_amount (s_permm st) a b, if is_zero (line_amount (s_permm st) a b) then s_move st else s_print st).
Fixpoint lines_ops (st : settings) (z : Z) (a : pt) (l : list pt) : list op :=
  match l with
  | [] => []
  | b :: l' => line_op st z a b :: lines_ops st z b l'
  end.
Definition travel (st : settings) (p : vec3) : op := (p, S754_zero false, s_move st).
Definition lift (z hop : Z) : Z := wrap (z + hop).
(** getting to the first point; [from] is the current position *)
Definition approach_ops (st : settings) (crossing : bool) (from : vec3) (p0 : pt) (z : Z) : list op :=
  if crossing then
    let up := ToMicrometer (s_hop st) in
    [(from, SFopp (s_ramount st), s_rspeed st)]
    ++ (if SFltb (S754_zero false) (s_hop st)
        then [travel st (V3 (vx from) (vy from) (lift z up)); travel st (at_z p0 (lift z up)); travel st (at_z p0 z)]
        else [travel st (at_z p0 z)])
    ++ [(at_z p0 z, s_ramount st, s_rspeed st)]
  else [travel st (at_z p0 z)].
(** a whole polygon: approach, all vertices in order, back to the first one if closed *)
Definition polygon_ops (st : settings) (crossing : bool) (from : vec3) (p0 : pt) (ps : list pt) (z : Z) (open : bool) : list op :=
  approach_ops st crossing from p0 z ++ lines_ops st z p0 (ps ++ if open then [] else [p0]).
