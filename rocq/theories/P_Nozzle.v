(** Property C107: the nozzle never goes below what is already printed. *)
From Verif Require Import GoBase GoFloat GoStr M_Micrometer M_Geom2D M_Option M_Clip M_Builder M_Layer M_Render
  S_Text S_Printer S_Builder S_Calls S_Machine S_Render S_Nozzle L_Str L_Data L_Printer L_Builder L_Calls L_Render L_Events L_Settings L_Whole L_Nozzle
  P_Clip P_Builder P_Render.
Local Open Scope string_scope.
Local Open Scope list_scope.
Local Open Scope Z_scope.

(** *** C107 *)
(** Between the moment a polygon is printed at the height z and the end code, the printer makes no move that ends below z
    (up to the rounding of the printed number), be it a printing move, a travel, a hop or a retraction, and whatever the
    printer did before the print. *)
Theorem nozzle_stays_up : forall o lib fuel mn mx rs layers text r0, plain (StartGCode (Printer o)) ->
  layers <> [] -> goslice_renderers lib fuel o mn mx = Ok rs -> snd (Generate o rs layers tt) = Ok text ->
  0 <= InitialLayerThickness (Print o) -> 0 <= LayerThickness (Print o) -> 0 <= ToMicrometer (RetractionZHop (Filament o)) ->
  InitialLayerThickness (Print o) + (Z.of_nat (List.length layers) - 1) * LayerThickness (Print o) + ToMicrometer (RetractionZHop (Filament o)) <= 32768000 ->
  let fresh_builder := NewGCodeBuilder (FilamentDiameter (Filament o)) (ExtrusionMultiplier (Filament o)) in
  exists infill ps body gb tend, infillPattern o mn mx = Ok infill /\ planned lib o fuel mn mx infill layers ps /\
    concat (all_calls o ps) = body ++ end_calls o /\ run_calls lib body fresh_builder = Ok gb /\ text = (BuilderString gb ++ tend)%string /\
    forall cs1 layer polygon z open cs2, body = cs1 ++ CPolygon layer polygon z open :: cs2 -> polygon <> [] ->
    exists g t, run_calls lib (cs1 ++ [CPolygon layer polygon z open]) fresh_builder = Ok g /\ BuilderString gb = (BuilderString g ++ t)%string /\
      Forall (not_below z) (moves (replay r0 (BuilderString g)) t).
Proof.
  intros o lib fuel mn mx rs layers text r0 P N R G Hi Ht Hh Hmax fb. apply (goslice_generate lib fuel o mn mx layers rs text R) in G.
  destruct G as (inf & ps & b & Ei & Pl & E & ->). pose proof (proj1 Pl) as Len.
  assert (Nps : ps <> []) by (destruct ps; [destruct layers; [contradiction|discriminate]|discriminate]).
  destruct (print_up o P lib ps (InitialLayerThickness (Print o)) (LayerThickness (Print o)) b r0 Nps (planned_prints o lib fuel mn mx inf layers ps Pl)) as (body & gb & tend & B1 & B2 & B3 & B4).
  - intros i p Ep. assert (Li : (i < List.length ps)%nat) by (apply nth_error_Some; congruence).
    destruct (nth_error layers i) as [l|] eqn:El; [|apply nth_error_None in El; lia].
    pose proof (layer_printing lib o fuel mn mx inf (Z.of_nat i) l _ p (proj2 Pl i l p El Ep)) as F. unfold at_height.
    unfold height in F. rewrite wrap_id in F; [exact F|].
    assert (Z.of_nat i * LayerThickness (Print o) <= (Z.of_nat (List.length layers) - 1) * LayerThickness (Print o)) by (apply Z.mul_le_mono_nonneg_r; lia).
    assert (0 <= Z.of_nat i * LayerThickness (Print o)) by (apply Z.mul_nonneg_nonneg; lia). unfold int64. lia.
  - exact Hi.
  - exact Ht.
  - exact Hh.
  - rewrite Len. exact Hmax.
  - exact E.
  - exists inf, ps, body, gb, tend. split; [exact Ei|]. split; [exact Pl|]. split; [exact B1|]. split; [exact B2|]. split; [exact B3|exact B4].
Qed.
Print Assumptions nozzle_stays_up.

(** a print that hops 1 mm on every travel, with a library that says that each of them crosses a wall *)
Definition hop_options : options :=
  Options (Slicing ex_options) (Printer ex_options)
    (FilamentOptions 1750 60 205 55 200 1 (f 30) (f 2) (f 1) [(1, 128)] 100) (Print ex_options) (GoSlice ex_options).
Definition wary : clib := CLib
  (fun reverse t l => match execute toy reverse t l with Some (ns, n) => Some (ns, if reverse then 1 else n) | None => None end)
  (offset toy) (hull toy) (sine toy) (cosine toy).
(** the heights of a sequence of moves, repetitions left out *)
Fixpoint runs (l : list (option Z)) : list (option Z) :=
  match l with a :: ((b :: _) as l') => match a, b with Some x, Some y => if x =? y then runs l' else a :: runs l' | _, _ => a :: runs l' end | _ => l end.
(** the hypotheses hold, and the nozzle goes to 5 mm in the start code, then alternates between the layer and 1 mm above it *)
Example nozzle_stays_up_ex : plain (StartGCode (Printer hop_options)) /\ ToMicrometer (RetractionZHop (Filament hop_options)) = 1000 /\
  exists rs text, goslice_renderers wary 50 hop_options ex_min ex_max = Ok rs /\ snd (Generate hop_options rs ex_layers tt) = Ok text /\
  runs (map rZ (moves (Regs None None None None None) text)) =
    map Some (50000 :: concat (repeat [3000; 13000] 12) ++ 3000 :: concat (repeat [17000; 7000] 12)).
Proof.
  split; [repeat constructor|]. split; [vm_compute; reflexivity|]. eexists. eexists. split; [reflexivity|]. split; vm_compute; reflexivity.
Qed.
