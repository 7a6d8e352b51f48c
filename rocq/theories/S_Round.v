(** What a clipping library may be expected to do that computes with whole micrometers and so has to round. *)
From Coq Require Import Reals.
From Verif Require Import GoBase M_Micrometer M_Geom2D M_Clip S_Clip S_Area S_Solid.
Local Open Scope R_scope.

(** the sides of a closed contour *)
Fixpoint between (l : path) : list (pt * pt) := match l with a :: (b :: _) as r => (a, b) :: between r | _ => [] end.
Definition sides (c : path) : list (pt * pt) := between (c ++ firstn 1 c).
(** the distance of p to every side of every contour is at least e *)
Definition clear_of (e : R) (cs : list path) (p : rpt) : Prop := forall c a b t, In c cs -> In (a, b) (sides c) -> 0 <= t <= 1 ->
  e ^ 2 <= (fst (exactly a) + t * (fst (exactly b) - fst (exactly a)) - fst p) ^ 2 + (snd (exactly a) + t * (snd (exactly b) - snd (exactly a)) - snd p) ^ 2.
(** The library is right, except for points closer than e to one of the contours it was given: clipping closed contours never
    fails, and the tree it returns is well nested and covers what is demanded at all other points. *)
Definition clips_within (e : R) (lib : clib) : Prop := forall t subject clip, exists tree n,
  execute lib false t (closed_as PtSubject subject ++ closed_as PtClip clip) = Some (tree, n) /\
  nested_tree (fun c (x : {p : rpt | clear_of e (subject ++ clip) p}) => surrounded c (proj1_sig x)) tree /\
  forall p, clear_of e (subject ++ clip) p ->
    parity surrounded (flat_map contours tree) p = op t (parity surrounded subject p) (parity surrounded clip p).
