(** Vocabulary of the properties about package clip. *)
From Coq Require Import Permutation.
From Verif Require Import GoBase GoFloat M_Micrometer M_Geom2D M_Clip S_Geom S_Slicer.
Local Open Scope Z_scope.

(** a contour with the contours directly inside it *)
Definition part_of (n : node) : part := Part (contour n) (map contour (childs n)).
(** the nodes of even depth below (and with) a node *)
Fixpoint evens (n : node) : list node :=
  match n with Node c l => Node c l :: flat_map (fun h => match h with Node _ l' => flat_map evens l' end) l end.
(** all contours of a tree *)
Fixpoint contours (n : node) : list path := match n with Node c l => c :: flat_map contours l end.
(** the nodes at depth 2 * k, from left to right *)
Fixpoint level (k : nat) (t : list node) : list node :=
  match k with O => t | S k' => level k' (flat_map (fun n => flat_map childs (childs n)) t) end.

(** the parts of an offset result with their indices, in order *)
Definition indexed (o : offset_result) : list (part * Z * Z * Z) :=
  flat_map (fun x => flat_map (fun y => map (fun z => (snd z, fst x, fst y, fst z)) (number 0 (snd y))) (number 0 (snd x))) (number 0 o).
(** call [cb] on the elements of a list until it returns true *)
Fixpoint run_until {S A} (cb : S -> A -> S * bool) (s : S) (l : list A) : S :=
  match l with
  | [] => s
  | a :: l' => let '(s', stop) := cb s a in if stop then s' else run_until cb s' l'
  end.

(** the two ends of a line *)
Definition end1 (l : path) : pt := hd (Pt 0 0) l.
Definition end2 (l : path) : pt := last l (Pt 0 0).
(** [woven connect b prev e ls out]: after line [prev], with the printer at [e], [out] prints the lines [ls] in this
    order, the first one turned around if [b], then alternating.  Where [connect] says so, a connection line
    from the end of the last line to the start of the next one is printed.  Every line is, among the remaining
    ones, nearest to the previous one (measured at the same end, lengths rounded down). *)
Inductive woven (connect : pt -> pt -> bool) : bool -> path -> pt -> paths -> paths -> Prop :=
| woven_nil (b : bool) (prev : path) (e : pt) : woven connect b prev e [] []
| woven_cons (b : bool) (prev : path) (e : pt) (l : path) (ls out : paths) :
    (forall m, In m ls -> let side := if b then end1 else end2 in
       Z.sqrt (dist2 (side prev) (side l)) <= Z.sqrt (dist2 (side prev) (side m))) ->
    woven connect (negb b) l (end2 (if b then rev l else l)) ls out ->
    woven connect b prev e (l :: ls)
      ((if connect e (end1 (if b then rev l else l)) then [[e; end1 (if b then rev l else l)]] else []) ++ (if b then rev l else l) :: out).
