(** What G-code text means for the heaters and the fan of a printer. *)
From Verif Require Import GoBase GoStr S_Text S_Printer.
Local Open Scope string_scope.
Local Open Scope Z_scope.

(** commands concerning the heaters and the fan; numbers count 1/10000 as in S_Printer *)
Inductive aux :=
| Fan (speed : Z)
| HotEnd (wait : bool) (t : Z)
| Bed (wait : bool) (t : Z).
(** the number behind the first S word *)
Fixpoint s_word (ws : list string) : option Z :=
  match ws with
  | [] => None
  | String c t :: ws' => if Ascii.eqb c "S" then number t else s_word ws'
  | "" :: ws' => s_word ws'
  end.
(** one line *)
Definition aux_line (line : string) : list aux :=
  match words line with
  | [] => []
  | w :: ws =>
      let with_s (f : Z -> aux) := match s_word ws with Some n => [f n] | None => [] end in
      if String.eqb w "M107" then [Fan 0]
      else if String.eqb w "M106" then with_s Fan
      else if String.eqb w "M104" then with_s (HotEnd false)
      else if String.eqb w "M109" then with_s (HotEnd true)
      else if String.eqb w "M140" then with_s (Bed false)
      else if String.eqb w "M190" then with_s (Bed true)
      else []
  end.
(** the commands in a text *)
Definition auxs (s : string) : list aux := flat_map aux_line (text_lines s).

(** the target temperatures and the fan speed after a sequence of commands *)
Fixpoint hot_end (l : list aux) (d : option Z) : option Z :=
  match l with [] => d | HotEnd _ t :: l' => hot_end l' (Some t) | _ :: l' => hot_end l' d end.
Fixpoint bed (l : list aux) (d : option Z) : option Z :=
  match l with [] => d | Bed _ t :: l' => bed l' (Some t) | _ :: l' => bed l' d end.
Fixpoint fan (l : list aux) (d : option Z) : option Z :=
  match l with [] => d | Fan t :: l' => fan l' (Some t) | _ :: l' => fan l' d end.

(** *** what happens in a print, in order *)
Inductive event :=
| ELayer (nr : string)     (* the comment that starts a layer *)
| EAux (a : aux)           (* heaters and fan *)
| EMove.                   (* a G0 or G1 move *)
Definition line_events (line : string) : list event :=
  (match strip_prefix ";LAYER:" line with Some nr => [ELayer nr] | None => [] end
   ++ map EAux (aux_line line) ++ (if moving line then [EMove] else []))%list.
Definition events (s : string) : list event := flat_map line_events (text_lines s).
Fixpoint aux_events (l : list event) : list aux :=
  match l with [] => [] | EAux a :: l' => a :: aux_events l' | _ :: l' => aux_events l' end.
