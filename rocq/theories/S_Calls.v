(** Client programs of the builder: sequences of API calls. *)
From Verif Require Import GoBase GoFloat GoStr M_Micrometer M_Geom2D M_Option M_Clip S_Text S_Printer S_Builder M_Builder.
Local Open Scope string_scope.
Local Open Scope Z_scope.

Inductive call :=
| CSetExtrusion (layerThickness lineWidth : Z)
| CSetMoveSpeed (v : f32) | CSetExtrudeSpeed (v : f32) | CSetOverride (v : f32) | CDisableOverride
| CSetRetractionSpeed (v : f32) | CSetRetractionAmount (v : f32) | CSetHop (v : f32)
| CCommand (s : string) | CCommandInt (s : string) (n : Z) | CComment (s : string) | CCommentInt (s : string) (n : Z)
| CMoveSpeed (p : vec3) (extrusion : f32) (speed : Z) | CMove (p : vec3) (extrusion : f32)
| CPolygon (layer : option (list part)) (polygon : path) (z : Z) (open : bool).

Definition run_call (lib : clib) (c : call) (g : builder) : res builder :=
  match c with
  | CSetExtrusion t w => Ok (SetExtrusion t w g)
  | CSetMoveSpeed v => Ok (SetMoveSpeed v g) | CSetExtrudeSpeed v => Ok (SetExtrudeSpeed v g)
  | CSetOverride v => Ok (SetExtrudeSpeedOverride v g) | CDisableOverride => Ok (DisableExtrudeSpeedOverride g)
  | CSetRetractionSpeed v => Ok (SetRetractionSpeed v g) | CSetRetractionAmount v => Ok (SetRetractionAmount v g)
  | CSetHop v => Ok (SetRetractionZHop v g)
  | CCommand s => Ok (AddCommand s g) | CCommandInt s n => Ok (AddCommandInt s n g)
  | CComment s => Ok (AddComment s g) | CCommentInt s n => Ok (AddCommentInt s n g)
  | CMoveSpeed p e s => Ok (AddMoveSpeed p e s g) | CMove p e => Ok (AddMove p e g)
  | CPolygon l p z o => AddPolygon lib l p z o g
  end.
Fixpoint run_calls (lib : clib) (cs : list call) (g : builder) : res builder :=
  match cs with
  | [] => Ok g
  | c :: cs' => let* g' := run_call lib c g in run_calls lib cs' g'
  end.

(** complete lines that do not concern the position, speed or extrusion of the printer *)
Definition ignored (t : string) : Prop := (t = "" \/ exists a, t = a ++ newline) /\ silent t.
(** the call writes no custom text that the printer acts upon *)
Definition harmless (c : call) : Prop :=
  match c with
  | CCommand s => ignored (sprintf0 (s ++ newline))
  | CCommandInt s n => ignored (sprintf_int (s ++ newline) n)
  | CComment s => ignored (sprintf0 (";" ++ s ++ newline))
  | CCommentInt s n => ignored (sprintf_int (";" ++ s ++ newline) n)
  | _ => True
  end.
(** where the caller wants the nozzle after the call *)
Definition target (c : call) : option vec3 :=
  match c with
  | CMoveSpeed p _ _ | CMove p _ => Some p
  | CPolygon _ polygon z open =>
      match DouglasPeucker polygon (-1) with
      | [] => None
      | p0 :: ps => Some (at_z (if open then last ps p0 else p0) z)
      end
  | _ => None
  end.
Fixpoint last_target (cs : list call) (d : option vec3) : option vec3 :=
  match cs with
  | [] => d
  | c :: cs' => last_target cs' (match target c with Some p => Some p | None => d end)
  end.

(** *** the state of a builder in terms of the specification *)
(** where the printer is known to be: nowhere before the first move *)
Definition known (g : builder) : option vec3 := if notFirstMoveX g then Some (currentPosition g) else None.
Definition settings_of (g : builder) : settings :=
  Settings (moveSpeed g) (if 0 <? extrudeSpeedOverride g then extrudeSpeedOverride g else extrudeSpeed g) (extrusionPerMM g)
    (retractionSpeed g) (retractionAmount g) (zHopOnRetract g).
(** does the travel to p0 cross a perimeter of the layer? None: the clipping library failed.
    Only asked for if there is a layer and retraction is configured. *)
Definition crossing (lib : clib) (layer : option (list part)) (g : builder) (p0 : pt) : option bool :=
  match layer with
  | Some parts =>
      if negb (retractionSpeed g =? 0) && negb (is_zero (retractionAmount g))
      then IsCrossingPerimeter lib parts [PointXY (currentPosition g); p0] else Some false
  | None => Some false
  end.


(** the settings a sequence of calls establishes: the last call of each kind counts *)
Record config := Config { c_move : Z; c_extrude : Z; c_override : Z; c_permm : f32; c_rspeed : Z; c_ramount : f32; c_hop : f32 }.
Definition configure (diameter multiplier : Z) (k : config) (c : call) : config :=
  let '(Config m e o p rs ra h) := k in
  match c with
  | CSetExtrusion t w => Config m e o (extrusion_per_mm diameter multiplier t w) rs ra h
  | CSetMoveSpeed v => Config (int_of_f32 v) e o p rs ra h
  | CSetExtrudeSpeed v => Config m (int_of_f32 v) o p rs ra h
  | CSetOverride v => Config m e (int_of_f32 v) p rs ra h
  | CDisableOverride => Config m e 0 p rs ra h
  | CSetRetractionSpeed v => Config m e o p (int_of_f32 v) ra h
  | CSetRetractionAmount v => Config m e o p rs v h
  | CSetHop v => Config m e o p rs ra v
  | _ => k
  end.
Definition unconfigured : config := Config 0 0 0 (S754_zero false) 0 (S754_zero false) (S754_zero false).
Definition settings_for (k : config) : settings :=
  Settings (c_move k) (if 0 <? c_override k then c_override k else c_extrude k) (c_permm k) (c_rspeed k) (c_ramount k) (c_hop k).

(** the E values never go down, starting from e *)
Fixpoint rising (e : Z) (l : list regs) : Prop :=
  match l with
  | [] => True
  | r :: l' => exists e', rE r = Some e' /\ e <= e' /\ rising e' l'
  end.
(** amounts are Go floats, and lines have no negative width or thickness *)
Definition proper (c : call) : Prop :=
  match c with
  | CSetExtrusion t w => 0 <= t /\ 0 <= w
  | CSetRetractionAmount v => valid32 v = true
  | CMoveSpeed _ e _ | CMove _ e => valid32 e = true
  | _ => True
  end.
(** every '%' doubled *)
Fixpoint escape (s : string) : string :=
  match s with
  | EmptyString => ""
  | String c t => if Ascii.eqb c "%" then String c (String c (escape t)) else String c (escape t)
  end.
