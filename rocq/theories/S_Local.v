(** Specification vocabulary: stacks of layers that agree around a layer. *)
From Verif Require Import GoBase M_Layer.
Local Open Scope Z_scope.

(** layer number k, if there is one *)
Definition at_layer (layers : list layer) (k : Z) : option layer := if k <? 0 then None else nth_error layers (Z.to_nat k).
(** The stacks agree in the layers n and n', in [below] layers below and in [above] layers above them; where one of the stacks
    has no such layer, the other one has none either. *)
Definition same_around (below above : Z) (layers layers' : list layer) (n n' : nat) : Prop :=
  forall j, - below <= j <= above -> at_layer layers (Z.of_nat n + j) = at_layer layers' (Z.of_nat n' + j).
