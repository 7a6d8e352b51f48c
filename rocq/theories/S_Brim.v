(** What a clipping library does with contours that lie inside of each other, and what a hull is. *)
From Verif Require Import GoBase GoFloat M_Micrometer M_Geom2D M_Clip S_Clip S_Area.
Local Open Scope Z_scope.
Section Brim.
Context {P : Type} (inside : path -> P -> bool).
(** [strictly a b]: a lies inside of b without touching its border.  If every other contour lies apart from c or strictly
    inside of it, then the union has an outermost contour around each point of c. *)
Definition outermost (strictly : path -> path -> Prop) (lib : clib) : Prop :=
  forall before c after tree n, execute lib false CtUnion (closed_as PtSubject (before ++ c :: after)) = Some (tree, n) ->
    (forall d, In d (before ++ after) -> (forall x, inside d x = true -> inside c x = false) \/ strictly d c) ->
    forall x, inside c x = true -> exists t, In t tree /\ inside (contour t) x = true.
(** the hull of all points of some contours surrounds what one of them surrounds, and what is surrounded by an outermost
    contour of the union of some of them *)
Record hulls (lib : clib) : Prop := Hulls {
  hull_around : forall cs c x, In c cs -> inside c x = true -> inside (hull lib (concat cs)) x = true;
  hull_union : forall cs some tree n t x, incl some cs -> execute lib false CtUnion (closed_as PtSubject some) = Some (tree, n) -> In t tree ->
    inside (contour t) x = true -> inside (hull lib (concat cs)) x = true }.
(** growing a bigger contour by more covers more *)
Definition grows_evenly (lib : clib) : Prop := forall a b d d' x, (forall y, inside a y = true -> inside b y = true) -> 0 <= d <= d' -> d' <= 2 ^ 53 ->
  parity inside (flat_map contours (offset lib (f64_of_Z d) [a])) x = true -> parity inside (flat_map contours (offset lib (f64_of_Z d') [b])) x = true.
End Brim.
