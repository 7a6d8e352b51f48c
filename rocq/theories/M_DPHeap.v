(** Model of data/2d.go:33-51 with Go's slice semantics: slices share backing arrays and
    [append] writes in place while there is capacity. *)
From Verif Require Import GoBase GoFloat M_Micrometer M_Geom2D.
Local Open Scope nat_scope.

(** A heap is a list of backing arrays.  The elements are pointers to points that are never modified, so they
    are modelled by the point values. *)
Definition heap := list (list pt).
Record slice := Sl { s_arr : nat; s_off : nat; s_len : nat; s_cap : nat }.

Definition arr (h : heap) (a : nat) : list pt := nth a h [].
(** the elements of a slice *)
Definition read (h : heap) (s : slice) : list pt := firstn (s_len s) (skipn (s_off s) (arr h (s_arr s))).
Definition write_at (a : list pt) (pos : nat) (vals : list pt) : list pt :=
  firstn pos a ++ vals ++ skipn (pos + length vals) a.

Section Heap.
(** capacity chosen by the runtime when append has to allocate: (old capacity, needed length) -> new capacity *)
Variable grow : nat -> nat -> nat.

(** Go's append(s, vals...): in place if the capacity suffices, otherwise a new array.
    [vals] are the elements read before anything is written (copy semantics). *)
Definition append_slice (h : heap) (s : slice) (vals : list pt) : heap * slice :=
  let needed := s_len s + length vals in
  if needed <=? s_cap s then
    (set_nth (s_arr s) (write_at (arr h (s_arr s)) (s_off s + s_len s) vals) h,
     Sl (s_arr s) (s_off s) needed (s_cap s))
  else
    let newcap := Nat.max (grow (s_cap s) needed) needed in
    (h ++ [read h s ++ vals ++ repeat (Pt 0 0) (newcap - needed)], Sl (length h) 0 needed newcap).

(** data/2d.go:33-51; [fuel] = 200 - depth *)
Fixpoint dpH (fuel : nat) (h : heap) (s : slice) (ep : Z) : heap * slice :=
  match fuel with
  | O => (h, s)
  | S fuel' =>
      if s_len s <=? 2 then (h, s)
      else
        let points := read h s in
        let p0 := hd (Pt 0 0) points in
        let pl := last points p0 in
        let '(i, maxDist) := seekMostDistantPoint p0 pl points in
        if (ep <=? maxDist)%Z then
          (* points[:idx+1] and points[idx:] keep the rest of the capacity *)
          let '(h1, lpart) := dpH fuel' h (Sl (s_arr s) (s_off s) (S i) (s_cap s)) ep in
          let '(h2, rpart) := dpH fuel' h1 (Sl (s_arr s) (s_off s + i) (s_len s - i) (s_cap s - i)) ep in
          append_slice h2 (Sl (s_arr lpart) (s_off lpart) (s_len lpart - 1) (s_cap lpart)) (read h2 rpart)
        else (h ++ [[p0; pl]], Sl (length h) 0 2 2)
  end.
End Heap.

(** data/2d.go:70-76 *)
Definition DouglasPeuckerH (grow : nat -> nat -> nat) (h : heap) (s : slice) (epsilon : Z) : heap * slice :=
  dpH grow 200 h s (if (epsilon =? -1)%Z then 70%Z else epsilon).

(** A slice is valid if its capacity lies inside its backing array. *)
Definition valid (h : heap) (s : slice) : Prop :=
  s_arr s < length h /\ s_off s + s_cap s <= length (arr h (s_arr s)) /\ s_len s <= s_cap s.

(** one memory cell *)
Definition cell (h : heap) (a j : nat) : option pt := nth_error (arr h a) j.
