(** Specification of the whole process: which calls of handlers are made, in terms of the recorded calls and answers. *)
From Verif Require Import GoBase GoFloat GoStr M_Micrometer M_Geom2D M_Model M_Clip M_Layer M_Render M_Process.
Local Open Scope string_scope.
Local Open Scope list_scope.

Section Steps.
Context {M OM L G : Type}.
Notation step := (step M OM L G).
Notation handlers := (handlers M OM L G).

(** the answer of a call without its value: None is success *)
Inductive failure := Error (e : string) | Crash (w : string) | Hang.
Definition failed {A} (a : res A) : option failure :=
  match a with Ok _ => None | Err e => Some (Error e) | Panic w => Some (Crash w) | Diverge => Some Hang end.
Definition outcome (s : step) : option failure :=
  match s with
  | SRead _ a => failed a | SOptimize _ a => failed a | SSlice _ a => failed a | SInit _ _ a => failed a
  | SModify _ _ a => failed a | SGenInit _ a => failed a | SGenerate _ _ a => failed a | SWrite _ _ a => failed a
  end.
(** which handler was called *)
Inductive stage := AtRead | AtOptimize | AtSlice | AtInit (k : nat) | AtModify (k : nat) | AtGeneratorInit | AtGenerate | AtWrite.
Definition stage_of (s : step) : stage :=
  match s with
  | SRead _ _ => AtRead | SOptimize _ _ => AtOptimize | SSlice _ _ => AtSlice | SInit k _ _ => AtInit k
  | SModify k _ _ => AtModify k | SGenInit _ _ => AtGeneratorInit | SGenerate _ _ _ => AtGenerate | SWrite _ _ _ => AtWrite
  end.
(** the order of the stages with [n] modifiers *)
Definition stages (n : nat) : list stage :=
  [AtRead; AtOptimize; AtSlice] ++ flat_map (fun k => [AtInit k; AtModify k]) (seq 0 n) ++ [AtGeneratorInit; AtGenerate; AtWrite].

(** the recorded answer is the one the handler gives after [before] *)
Definition honest (hs : handlers) (before : list step) (s : step) : Prop :=
  match s with
  | SRead p a => h_read hs before p = a
  | SOptimize m a => h_optimize hs before m = a
  | SSlice om a => h_slice hs before om = a
  | SInit k om a => exists m, nth_error (h_modifiers hs) k = Some m /\ m_init m before om = a
  | SModify k ls a => exists m, nth_error (h_modifiers hs) k = Some m /\ m_modify m before ls = a
  | SGenInit om a => h_ginit hs before om = a
  | SGenerate g ls a => h_generate hs before g ls = a
  | SWrite t p a => h_write hs before t p = a
  end.
(** the layers as the last slicer or modifier call left them *)
Fixpoint latest (before : list step) (ls : option (list L)) : option (list L) :=
  match before with
  | [] => ls
  | SSlice _ (Ok x) :: r => latest r (Some x)
  | SModify _ _ (Ok x) :: r => latest r (Some x)
  | _ :: r => latest r ls
  end.
(** every handler gets what the earlier ones produced *)
Definition fed (input output : string) (before : list step) (s : step) : Prop :=
  match s with
  | SRead p _ => p = input
  | SOptimize m _ => exists p, In (SRead p (Ok m)) before
  | SSlice om _ => exists m, In (SOptimize m (Ok om)) before
  | SInit _ om _ => exists m, In (SOptimize m (Ok om)) before
  | SModify _ ls _ => latest before None = Some ls
  | SGenInit om _ => exists m, In (SOptimize m (Ok om)) before
  | SGenerate g ls _ => latest before None = Some ls /\ exists om, In (SGenInit om (Ok g)) before
  | SWrite t p _ => (exists g ls, In (SGenerate g ls (Ok t)) before) /\
      (output = "" -> p = (input ++ ".gcode")%string) /\ (output <> "" -> p = output)
  end.
End Steps.
