(** Specification vocabulary: layers that look the same to the support. *)
From Verif Require Import GoBase GoFloat GoStr M_Micrometer M_Geom2D M_Option M_Clip M_Layer.
Local Open Scope string_scope.
Local Open Scope list_scope.
Local Open Scope Z_scope.

(** The layers have the same parts, the same support so far and the same brim.  Their walls and infill may differ. *)
Definition looks_same (l l' : layer) : Prop :=
  lparts l = lparts l' /\ forall name, In name ["support"; "supportInterface"; "fullSupport"; "outerBrim"] -> attribute l name = attribute l' name.
