(** Lines: the points of a line, and what an exact library makes of lines. *)
From Verif Require Import GoBase GoFloat M_Micrometer M_Geom2D M_Clip S_Slicer S_Area S_Fill.
Local Open Scope Z_scope.

Section Lines.
Context {P : Type} (inside : path -> P -> bool).
(** [on l x]: the point x lies on the line l *)
Variable on : path -> P -> Prop.

(** A line has the same points in both directions, and a piece of an upright line has no others than the line. *)
Record straight : Prop := Straight {
  on_turned : forall a b x, on [a; b] x -> on [b; a] x;
  on_piece : forall x y1 y2 z1 z2 p, between y1 y2 z1 -> between y1 y2 z2 -> on [Pt x z1; Pt x z2] p -> on [Pt x y1; Pt x y2] p }.

(** Taking an area away from a line leaves something exactly if some of its points are outside; intersecting upright lines
    with an area leaves exactly their points inside. *)
Record cuts_exactly (lib : clib) : Prop := CutsExactly {
  cut_away : forall clip line, exists tree n,
    execute lib true CtDifference (closed_as PtClip clip ++ [(PtSubject, false, line)]) = Some (tree, n) /\
    (0 < n <-> exists x, on line x /\ parity inside clip x = false);
  cut_out : forall clip lines tree n, Forall upright lines ->
    execute lib false CtIntersection (closed_as PtClip clip ++ map (fun l => (PtSubject, false, l)) lines) = Some (tree, n) ->
    forall x, (exists c, In c tree /\ on (contour c) x) <-> (exists l, In l lines /\ on l x) /\ parity inside clip x = true }.
End Lines.
(** an upright line from the top to the bottom without w/2 at both ends, if it is longer than w/2 *)
Definition shorter (w : Z) (l : path) : path :=
  match l with
  | [a; b] => if py b <? py a - w / 2 then [Pt (px a) (py a - w / 2); Pt (px b) (py b + w / 2)] else l
  | _ => l
  end.
