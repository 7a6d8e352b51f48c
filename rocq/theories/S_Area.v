(** Areas: what contours, parts and trees of contours cover, and what an exact clipping library is. *)
From Verif Require Import GoBase GoFloat M_Micrometer M_Geom2D M_Clip S_Clip.
Local Open Scope Z_scope.

(** [P] are the points that lie on no contour, [inside] tells which of them a closed contour surrounds. *)
Section Area.
Context {P : Type} (inside : path -> P -> bool).

(** even-odd filling of several contours *)
Fixpoint parity (cs : list path) (x : P) : bool :=
  match cs with [] => false | c :: cs' => xorb (inside c x) (parity cs' x) end.
(** a part covers what is inside its outline and in none of its holes *)
Definition in_part (p : part) (x : P) : Prop := inside (outline p) x = true /\ forall h, In h (holes p) -> inside h x = false.
Definition covered (ps : list part) (x : P) : Prop := exists p, In p ps /\ in_part p x.
(** all contours of parts *)
Definition contours_of (ps : list part) : list path := flat_map (fun p => outline p :: holes p) ps.

(** at most one element of a list has the property, counted with positions *)
Fixpoint at_most_one {A} (f : A -> Prop) (l : list A) : Prop :=
  match l with [] => True | a :: l' => (f a -> forall b, In b l' -> ~ f b) /\ at_most_one f l' end.
(** the holes of a part lie inside of it and apart from each other; the parts lie apart from each other *)
Definition proper_part (p : part) : Prop :=
  forall x, (forall h, In h (holes p) -> inside h x = true -> inside (outline p) x = true) /\ at_most_one (fun h => inside h x = true) (holes p).
Definition proper (ps : list part) : Prop := (forall p, In p ps -> proper_part p) /\ forall x, at_most_one (fun p => in_part p x) ps.

(** a tree of contours: children lie inside their parent, siblings apart from each other *)
Inductive nested : node -> Prop :=
| Nested c l : (forall n, In n l -> nested n) ->
    (forall n x, In n l -> inside (contour n) x = true -> inside c x = true) ->
    (forall x, at_most_one (fun n => inside (contour n) x = true) l) -> nested (Node c l).
Definition nested_tree (t : list node) : Prop :=
  (forall n, In n t -> nested n) /\ forall x, at_most_one (fun n => inside (contour n) x = true) t.

(** the boolean operations *)
Definition op (t : clip_type) (a b : bool) : bool :=
  match t with CtUnion => a || b | CtDifference => a && negb b | CtIntersection => a && b end.
(** An exact library: clipping closed contours never fails, and gives a well nested tree that covers exactly the
    demanded points; offsetting gives a well nested tree, growing loses no point and shrinking gains none. *)
Record exact (lib : clib) : Prop := Exact {
  exact_clip : forall t subject clip, exists tree n,
    execute lib false t (closed_as PtSubject subject ++ closed_as PtClip clip) = Some (tree, n) /\ nested_tree tree /\
    forall x, parity (flat_map contours tree) x = op t (parity subject x) (parity clip x);
  exact_offset : forall d cs, nested_tree (offset lib d cs);
  exact_grow : forall d cs x, 0 <= d -> parity cs x = true -> parity (flat_map contours (offset lib (f64_of_Z d) cs)) x = true;
  exact_shrink : forall d cs x, d <= 0 -> parity (flat_map contours (offset lib (f64_of_Z d) cs)) x = true -> parity cs x = true
}.
End Area.
