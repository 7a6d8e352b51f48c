(** Specification of the height of the nozzle. *)
From Verif Require Import GoBase GoFloat GoStr S_Printer.
Local Open Scope Z_scope.

(** the printer stands at the height z (micrometers) or above it, up to the rounding of the printed number (two decimals of
    a millimeter, 5 micrometers); the registers count 0.1 micrometers *)
Definition not_below (z : Z) (r : regs) : Prop := exists n, rZ r = Some n /\ 10 * z - 50 <= n.
