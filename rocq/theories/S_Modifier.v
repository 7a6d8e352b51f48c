(** Vocabulary of the properties about the layer modifiers. *)
From Verif Require Import GoBase GoFloat GoStr M_Micrometer M_Geom2D M_Option M_Clip M_Layer S_Clip S_Area.
Local Open Scope string_scope.
Local Open Scope Z_scope.

(** The layers keep their number and their parts; only the named attributes may differ. *)
Definition keeps (names : list string) (layers layers' : list layer) : Prop :=
  Forall2 (fun l l' => lparts l' = lparts l /\ forall name, ~ In name names -> attribute l' name = attribute l name) layers layers'.

(** None of the layers has one of the named attributes yet. *)
Definition fresh (names : list string) (layers : list layer) : Prop := Forall (fun l => forall name, In name names -> attribute l name = None) layers.
(** Layer [n] and all layers below it have parts. *)
Definition filled (layers : list layer) (n : nat) : Prop := forall i, (i <= n)%nat -> exists l, nth_error layers i = Some l /\ LayerParts l <> [].

(** How far an overlap in percent of the extrusion width moves the two sides of a border together, in micrometer. *)
Definition amount (width percent : Z) : Z := Z.quot (width * (100 - percent)) 100.
(** what the single precision arithmetic can do without rounding *)
Definition amount_ok (width percent : Z) : Prop := Z.abs width <= 2 ^ 23 /\ Z.abs percent <= 2 ^ 23 /\ Z.abs (width * (100 - percent)) <= 2 ^ 23.

Section Area.
Context {P : Type} (inside : path -> P -> bool).
(** what a part covers after its border has been moved *)
Definition moved (lib : clib) (a : Z) (p : part) (x : P) : bool :=
  if a =? 0 then parity inside (outline p :: holes p) x
  else parity inside (flat_map contours (offset lib (f64_of_Z (- Z.quot a 2)) (outline p :: holes p))) x.
(** parts which do not overlap after moving their borders *)
Definition apart (lib : clib) (a : Z) (ps : list part) : Prop := forall x, at_most_one (fun p => moved lib a p x = true) ps.
(** the parts come out of a clipping operation *)
Definition clip_result (lib : clib) (ps : list part) : Prop := exists t subject clip tree n,
  execute lib false t (closed_as PtSubject subject ++ closed_as PtClip clip) = Some (tree, n) /\ polyTreeToLayerParts tree = Ok ps.

(** One of the [count] layers below layer [n] does not exist or does not cover the point. *)
Definition exposed_below (layers : list layer) (n : nat) (count : Z) (x : P) : Prop := exists i, Z.of_nat i < count /\
  (i = n \/ exists l, (i < n)%nat /\ nth_error layers (n - 1 - i) = Some l /\ ~ covered inside (LayerParts l) x).
(** One of the [count] layers above layer [n] does not exist or does not cover the point. *)
Definition exposed_above (layers : list layer) (n : nat) (count : Z) (x : P) : Prop := exists i, Z.of_nat i < count /\
  (n + i + 1 = List.length layers \/ exists l, nth_error layers (n + 1 + i) = Some l /\ ~ covered inside (LayerParts l) x)%nat.
End Area.
