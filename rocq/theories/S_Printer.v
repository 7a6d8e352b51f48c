(** A printer reading G-code text: the specification of what emitted text means.
    All numbers are kept in units of 1/10000 (0.1 um for lengths). *)
From Verif Require Import GoBase GoStr S_Text.
Local Open Scope string_scope.
Local Open Scope Z_scope.

(** registers of the printer; None = not known, or set to something that is not a number *)
Record regs := Regs { rX : option Z; rY : option Z; rZ : option Z; rF : option Z; rE : option Z }.

(** a decimal number with at most four decimals *)
Definition number (s : string) : option Z :=
  match parse_num s with
  | Some (m, k) => if (k <=? 4)%nat then Some (m * 10 ^ (4 - Z.of_nat k)) else None
  | None => None
  end.
(** one word such as X12.50 *)
Definition word (r : regs) (w : string) : regs :=
  match w with
  | String c t =>
      if Ascii.eqb c "X" then Regs (number t) (rY r) (rZ r) (rF r) (rE r)
      else if Ascii.eqb c "Y" then Regs (rX r) (number t) (rZ r) (rF r) (rE r)
      else if Ascii.eqb c "Z" then Regs (rX r) (rY r) (number t) (rF r) (rE r)
      else if Ascii.eqb c "F" then Regs (rX r) (rY r) (rZ r) (number t) (rE r)
      else if Ascii.eqb c "E" then Regs (rX r) (rY r) (rZ r) (rF r) (number t)
      else r
  | EmptyString => r
  end.
(** the part of a line before a comment *)
Fixpoint uncomment (s : string) : string :=
  match s with
  | EmptyString => ""
  | String c t => if Ascii.eqb c ";" then "" else String c (uncomment t)
  end.
Definition words (line : string) : list string :=
  filter (fun w => negb (String.eqb w "")) (split " " (uncomment line)).
Definition is_move (w : string) : bool := String.eqb w "G0" || String.eqb w "G1".
(** one line: G0/G1 move, G92 sets the registers; everything else does not concern these registers *)
Definition exec (r : regs) (line : string) : regs :=
  match words line with
  | w :: ws => if is_move w || String.eqb w "G92" then fold_left word ws r else r
  | [] => r
  end.
(** the lines of a text *)
Definition text_lines (s : string) : list string := split (chr 10) s.
(** the registers after a text *)
Definition replay (r : regs) (s : string) : regs := fold_left exec (text_lines s) r.

(** the registers after each move of a text *)
Definition moving (line : string) : bool := match words line with w :: _ => is_move w | [] => false end.
Fixpoint moves_of (r : regs) (ls : list string) : list regs :=
  match ls with
  | [] => []
  | l :: ls' => let r' := exec r l in if moving l then r' :: moves_of r' ls' else moves_of r' ls'
  end.
Definition moves (r : regs) (s : string) : list regs := moves_of r (text_lines s).

(** a text the printer ignores *)
Definition silent (s : string) : Prop := forall r, replay r s = r /\ moves r s = [].
