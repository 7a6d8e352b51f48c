(** What filling a part needs from the libraries. *)
From Coq Require Import Reals.
From Verif Require Import GoBase GoFloat M_Micrometer M_Geom2D M_Clip L_Float.
Local Open Scope Z_scope.

(** two points, one above the other *)
Definition upright (l : path) : Prop := exists x t b, l = [Pt x t; Pt x b] /\ b <= t.
(** Clipping never fails; cutting upright lines gives pieces of them, in either direction; sine and cosine of finite
    angles are finite and at most 1. *)
Record capable (lib : clib) : Prop := Capable {
  never_fails : forall reverse t l, execute lib reverse t l <> None;
  cuts_lines : forall clip lines tree n, Forall upright lines ->
    execute lib false CtIntersection (closed_as PtClip clip ++ map (fun l => (PtSubject, false, l)) lines) = Some (tree, n) ->
    forall c, In c tree -> exists x t b y1 y2, In [Pt x t; Pt x b] lines /\ contour c = [Pt x y1; Pt x y2] /\ b <= y1 <= t /\ b <= y2 <= t;
  turns : forall a r, fin64 a r -> exists s c, fin64 (sine lib a) s /\ fin64 (cosine lib a) c /\ (Rabs s <= 1)%R /\ (Rabs c <= 1)%R }.
