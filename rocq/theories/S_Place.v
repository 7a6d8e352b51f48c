(** Specification vocabulary: faces that add nothing to a model, and models that differ in their position only. *)
From Verif Require Import GoBase M_Micrometer M_Model S_Geom S_Model.
Local Open Scope Z_scope.

(** The face [g] adds nothing to the faces [before] it: its points are points of these faces, and either two of its
    points are the same or one of these faces has the same three points, in any order. *)
Definition adds_nothing (before : list face) (g : face) : Prop :=
  (forall v, In v (facePoints g) -> In v (vertices before)) /\
  (let '(a, b, c) := g in a = b \/ a = c \/ b = c \/
   exists f, In f before /\ forall v, In v (facePoints f) <-> In v (facePoints g)).

(** [short] is [full] without some faces that add nothing to the faces before them *)
Inductive without_repeats : list face -> list face -> Prop :=
| wr_same : forall fs, without_repeats fs fs
| wr_drop : forall before g after short, adds_nothing before g ->
    without_repeats (before ++ after) short -> without_repeats (before ++ g :: after) short.

(** the face, and the model, moved by [d] *)
Definition move (d : vec3) (f : face) : face := let '(a, b, c) := f in (shift3 a d, shift3 b d, shift3 c d).
Definition moved (d : vec3) (fs : list face) : list face := map (move d) fs.

(** different vertices are further apart than the meld distance *)
Definition apart (meld : Z) (fs : list face) : Prop :=
  forall v w, In v (vertices fs) -> In w (vertices fs) -> v <> w -> meld ^ 2 < dist3 v w.
