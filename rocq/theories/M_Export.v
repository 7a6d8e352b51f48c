(** Model of optimizer/model.go:93-135: the export of an optimized model as STL file. *)
From Verif Require Import GoBase GoFloat M_Micrometer M_Model.
Local Open Scope Z_scope.
(** optimizer/model.go:102-116, one vertex *)
Definition vecToStl (v : vec3) : stlVertex := (ToMillimeter (vx v), ToMillimeter (vy v), ToMillimeter (vz v)).
(** optimizer/model.go:96-119, the loop over the faces; the normals and attributes, which are always 0, are dropped *)
Fixpoint exportTriangles (om : omodel) (fs : list oface) : res (list (stlVertex * stlVertex * stlVertex)) :=
  match fs with
  | [] => Ok []
  | f :: fs' =>
      let* ps := oPoints om f in
      let '(a, b, c) := ps in
      let* ts := exportTriangles om fs' in
      Ok ((vecToStl a, vecToStl b, vecToStl c) :: ts)
  end.
(** optimizer/model.go:93-135; [write] is solid.WriteFile for the file name, it gives the error if there is one *)
Definition SaveDebugSTL (write : list (stlVertex * stlVertex * stlVertex) -> option string) (om : omodel) : res unit :=
  let* ts := exportTriangles om (om_faces om) in
  match write ts with Some e => Err e | None => Ok tt end.
