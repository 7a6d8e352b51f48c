(** Model of clip/linear.go:38-86 with the slices of the part in a heap: Path.Rotate writes in place. *)
From Verif Require Import GoBase GoFloat M_Micrometer M_Geom2D M_DPHeap M_Clip.
Local Open Scope Z_scope.

Section Lib.
Variable lib : clib.

(** clip/linear.go:49-50, 53-54: make(Path, len(s)); copy *)
Definition copyH (h : heap) (s : slice) : heap * slice :=
  (h ++ [read h s], Sl (List.length h) 0 (s_len s) (s_len s)).
(** clip/linear.go:47-52 *)
Fixpoint copy_all (h : heap) (ss : list slice) : heap * list slice :=
  match ss with
  | [] => (h, [])
  | s :: ss' => let '(h1, c) := copyH h s in let '(h2, cs) := copy_all h1 ss' in (h2, c :: cs)
  end.
(** data/layer.go:174-182: p[i] = point.Rotate(degree) *)
Definition rotateH (deg : f64) (h : heap) (s : slice) : heap :=
  set_nth (s_arr s) (write_at (arr h (s_arr s)) (s_off s) (rotate_path lib deg (read h s))) h.

(** clip/linear.go:38-86; what follows the rotation works on converted copies (clipperPath) *)
Definition FillH (fuel : nat) (p : linear) (layerNr : Z) (h : heap) (outl : slice) (hls : list slice) : heap * res paths :=
  let rot := rotation p layerNr in
  let '(h1, hc) := copy_all h hls in
  let '(h2, oc) := copyH h1 outl in
  let h3 := rotateH rot h2 oc in
  let h4 := fold_left (rotateH rot) hc h3 in
  (h4,
   let '(mn, mx) := PathBounds (rotate_path lib rot
     [lmin p; Pt (px (lmax p)) (py (lmin p)); lmax p; Pt (px (lmin p)) (py (lmax p))]) in
   let smaller := if zigZag p then lineWidth p else 0 in
   let* infill := getInfill lib fuel (lineDistance p) mn mx (read h4 oc) (map (read h4) hc) smaller in
   let* result := sortInfill lib p infill (zigZag p) (Part (read h4 oc) (map (read h4) hc)) in
   Ok (map (rotate_path lib (SFopp rot)) result)).
End Lib.
