(** What Path.Simplify may and must remove, in exact integers. *)
From Verif Require Import GoBase M_Micrometer S_Geom.
Local Open Scope Z_scope.

(** shoelace sum along an open chain of points *)
Fixpoint edge_sum (l : list pt) : Z :=
  match l with
  | a :: (b :: _) as t => (px a * py b - py a * px b) + edge_sum t
  | _ => 0
  end.
(** twice the signed area of the region cut off when everything between [prev] and [n] is removed:
    the closed polygon prev, removed..., c, n *)
Definition cut_area2 (prev : pt) (removed : list pt) (c n : pt) : Z :=
  edge_sum (prev :: removed ++ [c; n; prev]).

(** squared height of a triangle with that area over the shortcut prev-n is at most [lim] (rounded down);
    claimed only while the area is below 3037 mm^2 (no int64 overflow of its square) *)
Definition small_height (lim : Z) (prev : pt) (removed : list pt) (c n : pt) : Prop :=
  Z.abs (cut_area2 prev removed c n) <= 3037000499 ->
  cut_area2 prev removed c n ^ 2 < (lim + 1) * dist2 prev n.

(** vertex [c] may be removed: [prev] is the last kept vertex, [removed] what was removed since, [n] the next vertex *)
Definition may_remove (sls aed : Z) (prev : pt) (removed : list pt) (c n : pt) : Prop :=
  prev = n \/
  (near_line 5 c prev n /\ small_height 25 prev removed c n) \/
  (dist2 prev c < sls /\ dist2 c n < sls /\ small_height aed prev removed c n).
(** vertex [c] must be removed: the path goes back and forth, or nothing is cut off and all is on one line
    (a vertex equal to the last kept one is not guaranteed to be removed) *)
Definition must_remove (prev : pt) (removed : list pt) (c n : pt) : Prop :=
  prev = n \/ (prev <> c /\ cut_area2 prev removed c n = 0 /\ cross c prev n = 0).

(** the next vertex of the closed polygon: for the last one the first kept vertex (if two are kept already)
    or the first vertex of the input *)
Definition next_of (p0 : pt) (rest kept : list pt) : pt :=
  match rest with
  | n :: _ => n
  | [] => match kept with q :: _ :: _ => q | _ => p0 end
  end.

(** A run over the vertices [rest]: each is kept or removed, obeying [may] and [must]. *)
Inductive run (may must : pt -> list pt -> pt -> pt -> Prop) (p0 : pt) :
  pt -> list pt -> list pt -> list pt -> list pt -> Prop :=
| run_done prev removed kept : run may must p0 prev removed [] kept kept
| run_keep prev removed c rest kept out :
    ~ must prev removed c (next_of p0 rest kept) ->
    run may must p0 c [] rest (kept ++ [c]) out ->
    run may must p0 prev removed (c :: rest) kept out
| run_drop prev removed c rest kept out :
    may prev removed c (next_of p0 rest kept) ->
    run may must p0 prev (removed ++ [c]) rest kept out ->
    run may must p0 prev removed (c :: rest) kept out.
