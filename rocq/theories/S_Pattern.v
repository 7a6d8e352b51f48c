(** Which areas of a layer are filled with which lines. *)
From Verif Require Import GoBase GoFloat GoStr M_Micrometer M_Geom2D M_Clip M_Builder M_Layer S_Geom S_Slicer S_Area S_Fill S_Lines.
Local Open Scope string_scope.
Local Open Scope list_scope.
Local Open Scope Z_scope.

(** lines to fill a part with: their distance, their angle in degrees, the corners of the box, zig-zag *)
Record lines := Lines { distance : Z; angle : Z; low : pt; high : pt; zigzag : bool }.

Section Filled.
Context {P : Type} (inside : path -> P -> bool) (on : path -> P -> Prop) (lib : clib).
(** [filled width k q ls]: ls are the lines k of the given width for part q.  The part and the box are turned by the angle.
    The turned box is cut by upright lines with the given distance, starting at its left side.  What of them lies within
    the turned part is printed, in zig-zag without half a width at both ends.  In zig-zag there may be further
    short lines inside the turned part that connect the others.  All of them are turned back. *)
Definition filled (width : Z) (k : lines) (q : part) (ls : paths) : Prop :=
  let turn := rotate_path lib (f64_of_Z (angle k)) in let turn_back := rotate_path lib (SFopp (f64_of_Z (angle k))) in
  let '(mn, mx) := PathBounds (turn [low k; Pt (px (high k)) (py (low k)); high k; Pt (px (low k)) (py (high k))]) in
  let in_turned_part x := parity inside (turn (outline q) :: map turn (holes q)) x = true in
  let on_grid x := exists i, 0 <= i /\ px mn + i * distance k <= px mx /\ on [Pt (px mn + i * distance k) (py mx); Pt (px mn + i * distance k) (py mn)] x in
  exists pieces printed turned, ls = map turn_back turned /\
    (forall x, (exists c, In c pieces /\ on c x) <-> in_turned_part x /\ on_grid x) /\
    (forall c, In c pieces -> exists x t b, c = [Pt x t; Pt x b]) /\
    printed = (if zigzag k then map (shorter width) pieces else pieces) /\
    (forall l, In l printed -> In l turned \/ In (rev l) turned) /\
    (forall l, In l turned -> In l printed \/ In (rev l) printed \/
       zigzag k = true /\ exists a b, l = [a; b] /\ dist2 a b <= (width + 2 * distance k) ^ 2 /\ forall x, on l x -> in_turned_part x).
End Filled.

(** the kinds of filled areas in the order they are printed: attribute, comments, lines; nr is the number of the layer *)
Definition fillings (o : options) (mn mx : pt) (nr : Z) : list (string * list string * lines) :=
  let width := ExtrusionWidth (Printer o) in
  let spacing := ToMicrometer (s_PatternSpacing (Support (Print o))) in
  let low := Pt (px mn - spacing) (py mn - spacing) in
  let high := Pt (px mx + spacing) (py mx + spacing) in
  (* alternating by 90 degrees from layer to layer *)
  let rotated := InfillRotationDegree (Print o) + (if Z.even nr then 90 else 0) in
  [("support", ["TYPE:SUPPORT"], Lines spacing 90 low high true);
   ("supportInterface", ["TYPE:SUPPORT"], Lines width 0 low high true);
   ("bottom", ["TYPE:FILL"; "BOTTOM-FILL"], Lines width rotated mn mx false);
   ("top", ["TYPE:FILL"; "TOP-FILL"], Lines width rotated mn mx false)] ++
  (if InfillPercent (Print o) =? 0 then []
   else [("infill", ["TYPE:FILL"; "INTERNAL-FILL"], Lines (1000000 / (10000 / width * InfillPercent (Print o))) rotated mn mx (InfillZigZag (Print o)))]).
