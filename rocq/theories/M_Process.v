(** Model of reading, writing and of the whole process (goslice.go, reader/reader.go, writer/writer.go, slicer.go:110-124,
    cmd/goslice/main.go). *)
From Verif Require Import GoBase GoFloat GoStr M_Micrometer M_Geom2D M_Model M_Slicer M_Clip M_Builder M_Option M_Layer M_Render M_Modifier.
Local Open Scope string_scope.
Local Open Scope list_scope.
Local Open Scope Z_scope.

(** *** reader/reader.go *)
Definition triangle := (stlVertex * stlVertex * stlVertex)%type.
(** What os.Stat says about a path; every other error than "does not exist" is [StatError]. *)
Inductive stat := StatOk | StatNotExist | StatError.
(** The file system and the stl package: stl.CopyFile calls AppendTriangle for the triangles it finds until the end of
    the file or until the first error. *)
Record files := Files { stat_of : string -> stat; copy_file : string -> list triangle * option string }.
Definition errNotExist : string := "file does not exist".
(** reader/reader.go:113-120: only ErrNotExist is reported, the error of CopyFile is dropped *)
Definition Read (env : files) (filename : string) : res (list face) :=
  match stat_of env filename with
  | StatNotExist => Err errNotExist
  | _ => Ok (map stlTriangleToFace (fst (copy_file env filename)))
  end.

(** *** writer/writer.go *)
(** contents of the regular files by path; None: there is no such file *)
Definition disk := string -> option string.
Definition store (d : disk) (file content : string) : disk := fun f => if String.eqb f file then Some content else d f.
(** Answers of the operating system: whether creating the file fails, and for the n-th write call how many bytes it takes
    and whether it reports an error. *)
Record os := OS { create_error : option string; write_answer : nat -> nat * option string }.
(** the states a file goes through while the bytes [s] are appended to [done] *)
Fixpoint growing (d : disk) (file done s : string) : list disk :=
  match s with
  | "" => []
  | String c s' => let done' := done ++ String c "" in store d file done' :: growing d file done' s'
  end%string.
(** the first n bytes of a string, and the others *)
Fixpoint take (n : nat) (s : string) : string :=
  match n, s with S n', String c s' => String c (take n' s') | _, _ => "" end.
Fixpoint drop (n : nat) (s : string) : string :=
  match n, s with S n', String _ s' => drop n' s' | O, _ => s | _, "" => "" end.
Definition errShort : string := "unexpected EOF".
(** os.File.WriteString: write calls until everything is taken, an error is reported, or nothing was taken.  EINTR and
    EAGAIN, after which the call is repeated, are left out.  Result: the states of the disk after every byte. *)
Fixpoint write_loop (sys : os) (fuel k : nat) (d : disk) (file done rest : string) : list disk * res unit :=
  match fuel with
  | O => ([], Diverge)
  | S fuel' =>
      let '(n, e) := write_answer sys k in
      let chunk := take n rest in
      let rest' := drop n rest in
      let states := growing d file done chunk in
      let done' := (done ++ chunk)%string in
      if String.eqb rest' "" then (states, match e with Some m => Err m | None => Ok tt end)
      else match e, n with
           | Some m, _ => (states, Err m)
           | None, O => (states, Err errShort)
           | None, _ => let '(more, r) := write_loop sys fuel' (S k) d file done' rest' in (states ++ more, r)
           end
  end.
(** writer/writer.go:15-25: all states of the disk in order, the first one is the state before, and the result.
    Creating a file empties an existing one.  The deferred Close changes nothing (its error is dropped). *)
Definition Write (sys : os) (d : disk) (gcode filename : string) : list disk * res unit :=
  match create_error sys with
  | Some m => ([d], Err m)
  | None => let '(states, r) := write_loop sys (S (String.length gcode)) 0 d filename "" gcode in
            (d :: store d filename "" :: states, r)
  end.

(** *** slicer/slicer.go:110-124 (the layers before and the segments are in M_Slicer.v) *)
Fixpoint partition_all (lib : clib) (touch : Z -> res (Z * Z * Z)) (meld join finish : Z) (i : Z) (layers : list (option slayer)) : res (list layer) :=
  match layers with
  | [] => Ok []
  | None :: _ => Panic "nil pointer dereference"
  | Some l :: ls =>
      let* p := makePolygons touch meld join finish l in
      let* lp := GenerateLayerParts lib p in
      match lp with
      | None => Err ("partitioning failed at layer " ++ itoa i)%string
      | Some parts =>
          let* r := partition_all lib touch meld join finish (i + 1) ls in
          Ok (Layer (Some parts) None :: r)
      end
  end.
(** slicer/slicer.go:33-125 (GenerateLayerParts gives nil or a partitionedLayer without attributes) *)
Definition Slice (lib : clib) (o : options) (om : omodel) : res (list layer) :=
  let init := InitialLayerThickness (Print o) in
  let thick := LayerThickness (Print o) in
  if thick =? 0 then Panic "integer divide by zero"
  else
    let n := add64 (quot64 (sub64 (vz (om_size om)) init) thick) 1 in
    if n <? 0 then Panic "makeslice: len out of range"
    else
      let* fs := omFaces om (om_faces om) in
      let* layers := slice_faces init thick 0 fs (repeat None (Z.to_nat n)) in
      partition_all lib (fun i => let* f := idx (om_faces om) i in Ok (otouch f)) (MeldDistance (Slicing o))
        (JoinPolygonSnapDistance (Slicing o)) (FinishPolygonSnapDistance (Slicing o)) 0 layers.

(** *** goslice.go:125-186 *)
Section Process.
(** models, optimized models, layers, generators after Init *)
Context {M OM L G : Type}.
(** A call of a handler together with its answer. *)
Inductive step :=
| SRead (path : string) (answer : res M)
| SOptimize (m : M) (answer : res OM)
| SSlice (om : OM) (answer : res (list L))
| SInit (k : nat) (om : OM) (answer : res unit)
| SModify (k : nat) (layers : list L) (answer : res (list L))
| SGenInit (om : OM) (answer : res G)
| SGenerate (g : G) (layers : list L) (answer : res string)
| SWrite (gcode path : string) (answer : res unit).
(** The handlers of a GoSlice.  Their answers may depend on everything that happened before.  Modify works on the slice
    of layers in place: its answer holds the layers afterwards. *)
Record modifier_of := ModifierOf { m_init : list step -> OM -> res unit; m_modify : list step -> list L -> res (list L) }.
Record handlers := Handlers {
  h_read : list step -> string -> res M;
  h_min : M -> res vec3;
  h_max : M -> res vec3;
  h_optimize : list step -> M -> res OM;
  h_slice : list step -> OM -> res (list L);
  h_modifiers : list modifier_of;
  h_ginit : list step -> OM -> res G;
  h_generate : list step -> G -> list L -> res string;
  h_write : list step -> string -> string -> res unit }.

(** calling a handler *)
Definition call {A} (name : res A -> step) (f : list step -> res A) (h : list step) : list step * res A :=
  let a := f h in (h ++ [name a], a).
(** continuing after a call unless it failed *)
Definition andThen {A B} (x : list step * res A) (f : A -> list step -> list step * res B) : list step * res B :=
  match x with
  | (h, Ok a) => f a h
  | (h, Err e) => (h, Err e)
  | (h, Panic w) => (h, Panic w)
  | (h, Diverge) => (h, Diverge)
  end.
(** goslice.go:156-164 *)
Fixpoint modify_all (k : nat) (ms : list modifier_of) (om : OM) (layers : list L) (h : list step) : list step * res (list L) :=
  match ms with
  | [] => (h, Ok layers)
  | m :: ms' =>
      andThen (call (SInit k om) (fun h => m_init m h om) h) (fun _ h =>
      andThen (call (SModify k layers) (fun h => m_modify m h layers) h) (fun layers' h =>
      modify_all (S k) ms' om layers' h))
  end.
(** goslice.go:125-186 without the log output, apart from Min and Max, which are called for it *)
Definition Process (hs : handlers) (inputFilePath outputFilePath : string) : list step * res unit :=
  andThen (call (SRead inputFilePath) (fun h => h_read hs h inputFilePath) []) (fun m h =>
  andThen (h, h_min hs m) (fun _ h =>
  andThen (h, h_max hs m) (fun _ h =>
  andThen (call (SOptimize m) (fun h => h_optimize hs h m) h) (fun om h =>
  andThen (call (SSlice om) (fun h => h_slice hs h om) h) (fun layers h =>
  andThen (modify_all 0 (h_modifiers hs) om layers h) (fun layers h =>
  andThen (call (SGenInit om) (fun h => h_ginit hs h om) h) (fun g h =>
  andThen (call (SGenerate g layers) (fun h => h_generate hs h g layers) h) (fun gcode h =>
  let outputPath := if String.eqb outputFilePath "" then (inputFilePath ++ ".gcode")%string else outputFilePath in
  call (SWrite gcode outputPath) (fun h => h_write hs h gcode outputPath) h)))))))).
End Process.
Arguments step : clear implicits.
Arguments handlers : clear implicits.
Arguments modifier_of : clear implicits.

(** *** goslice.go:30-123: the built in handlers *)
(** The Init of every built in modifier is empty. *)
Definition builtin (f : list layer -> res (list layer)) : modifier_of (list face) omodel layer (list (Renderer unit)) :=
  ModifierOf (fun _ _ => Ok tt) (fun _ layers => f layers).
Definition NewGoSlice (lib : clib) (tangent : f64 -> f64) (fuel : nat) (env : files) (sys : os) (d : disk) (o : options) :
    handlers (list face) omodel layer (list (Renderer unit)) :=
  Handlers
    (fun _ path => Read env path)
    ModelMin
    ModelMax
    (fun _ fs => let* (om, _) := Optimize (MeldDistance (Slicing o)) (Center (Printer o)) fs in Ok om)
    (fun _ om => Slice lib o om)
    [ builtin (PerimeterModify lib o);
      builtin (InfillModify lib o);
      builtin (InternalInfillModify lib o);
      builtin (BrimModify lib o);
      builtin (SupportDetectorModify lib o tangent);
      builtin (SupportGeneratorModify lib o) ]
    (fun _ om => let* mn := omMin om in let* mx := omMax om in goslice_renderers lib fuel o (PointXY mn) (PointXY mx))
    (fun _ rs layers => snd (Generate o rs layers tt))
    (fun _ gcode path => snd (Write sys d gcode path)).

(** *** cmd/goslice/main.go:16-38: the exit code (the flags are in M_Flags.v; a panic makes Go exit with 2) *)
Definition main (printVersion : bool) (inputFilePath : string) (process : res unit) : option Z :=
  if printVersion then Some 0
  else if String.eqb inputFilePath "" then Some 1
  else match process with
       | Ok _ => Some 0
       | Err _ => Some 2
       | Panic _ => Some 2
       | Diverge => None
       end.
