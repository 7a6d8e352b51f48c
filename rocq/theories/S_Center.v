(** Moving what is sliced on the build plate. *)
From Verif Require Import GoBase M_Micrometer M_Geom2D M_Clip M_Layer.
Local Open Scope Z_scope.

(** The point moved by [d]; coordinates are int64, so beyond 2^63 um they wrap around. *)
Definition shift (d p : pt) : pt := Pt (wrap (px p + px d)) (wrap (py p + py d)).
Definition shift_path (d : pt) : path -> path := map (shift d).
Definition shift_part (d : pt) (p : part) : part := Part (shift_path d (outline p)) (map (shift_path d) (holes p)).
Fixpoint shift_node (d : pt) (n : node) : node := match n with Node c l => Node (shift_path d c) (map (shift_node d) l) end.
(** A clipping library whose result does not depend on where the polygons lie. *)
Definition clips_anywhere (lib : clib) (d : pt) : Prop := forall reverse t (l : list added),
  execute lib reverse t (map (fun a : added => (fst a, shift_path d (snd a))) l) =
  match execute lib reverse t l with Some (tree, n) => Some (map (shift_node d) tree, n) | None => None end.
Definition shift_attr (d : pt) (a : attr) : attr :=
  match a with
  | AOffset r => AOffset (map (map (map (shift_part d))) r)
  | ANested l => ANested (map (map (shift_part d)) l)
  | AParts l => AParts (map (shift_part d) l)
  | AOther => AOther
  end.
(** the layer with its parts and all areas stored with it (walls, infill, brim, support) moved *)
Definition shift_layer (d : pt) (l : layer) : layer :=
  Layer (option_map (map (shift_part d)) (lparts l)) (option_map (map (fun na => (fst na, shift_attr d (snd na)))) (lattrs l)).
Definition offsets_anywhere (lib : clib) (d : pt) : Prop := forall delta ps,
  offset lib delta (map (shift_path d) ps) = map (shift_node d) (offset lib delta ps).
Definition hulls_anywhere (lib : clib) (d : pt) : Prop := forall p, hull lib (shift_path d p) = shift_path d (hull lib p).
