(** Vocabulary of the properties about support. *)
From Verif Require Import GoBase GoFloat GoStr M_Micrometer M_Geom2D M_Option M_Clip M_Layer S_Clip S_Area S_Modifier.
Local Open Scope string_scope.
Local Open Scope Z_scope.

(** The attribute [name] of layer [i] holds the parts [ps] (none if it is missing). *)
Definition has (layers : list layer) (i : nat) (name : string) (ps : list part) : Prop :=
  exists l, nth_error layers i = Some l /\ PartsAttribute l name = Ok ps.
(** The attributes the support modifiers read have their type. *)
Definition support_typed (layers : list layer) : Prop := forall l, In l layers ->
  (exists ps, PartsAttribute l "support" = Ok ps) /\ exists b, BrimOuterDimension l = Ok b.
(** an odd number of elements of the list has the property *)
Fixpoint oddly {A} (f : A -> bool) (l : list A) : bool := match l with [] => false | a :: l' => xorb (f a) (oddly f l') end.

Section Area.
Context {P : Type} (inside : path -> P -> bool).
Variable lib : clib.
(** the point is in the part enlarged by [d] micrometer *)
Definition near (d : Z) (p : part) (x : P) : bool := parity inside (flat_map contours (offset lib (f64_of_Z d) (outline p :: holes p))) x.
(** the parts do not overlap each other after enlarging them *)
Definition near_apart (d : Z) (ps : list part) : Prop := forall x, at_most_one (fun p => near d p x = true) ps.
(** Support comes down to layer [i] at this point: there is support on the layer above it. On the second highest layer
    this is what was detected, below it is what was generated. *)
Definition from_above (layers layers' : list layer) (i : nat) (x : P) : Prop :=
  (i + 3 = List.length layers)%nat /\ (exists d, has layers (i + 1) "support" d /\ parity inside (contours_of d) x = true) \/
  (i + 3 < List.length layers)%nat /\ (exists s, has layers' (i + 1) "fullSupport" s /\ covered inside s x).
(** [count] layers above layer [i], or on the topmost layer, there is support at this point. *)
Definition deep (layers' : list layer) (count : Z) (i : nat) (x : P) : Prop :=
  0 < count /\ exists s, has layers' (Z.to_nat (Z.min (Z.of_nat i + count) (Z.of_nat (List.length layers') - 1))) "fullSupport" s /\ covered inside s x.
End Area.
