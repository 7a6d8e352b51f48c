(** Properties C61-C63, C71: the whole process, reading, writing and the exit code. *)
From Verif Require Import GoBase GoFloat GoStr M_Micrometer M_Geom2D M_Model M_Slicer M_Clip M_Builder M_Option M_Layer M_Render M_Modifier M_Process S_Process L_Process.
Local Open Scope string_scope.
Local Open Scope list_scope.

(** *** C61 *)
(** Whatever the handlers answer: they are called in the fixed order up to some point; each one gets what the earlier ones
    produced; after a failure nothing else is called. *)
Theorem process_calls : forall (M OM L G : Type) (hs : handlers M OM L G) input output steps r, Process hs input output = (steps, r) ->
  (exists rest, map stage_of steps ++ rest = stages (List.length (h_modifiers hs))) /\
  forall before s after, steps = before ++ s :: after -> honest hs before s /\ fed input output before s /\ (after <> [] -> outcome s = None).
Proof. intros M OM L G hs input output steps r E. pose proof (process_ends hs input output) as P. rewrite E in P. exact (proj1 P). Qed.
(** The result is the result of the last call, unless the bounds of the model cannot be determined.  Success means that
    the last call was a successful write. *)
Theorem process_result : forall (M OM L G : Type) (hs : handlers M OM L G) input output steps r, Process hs input output = (steps, r) ->
  (exists before s, steps = before ++ [s] /\ outcome s = failed r) \/
  (exists m, steps = [SRead input (Ok m)] /\ failed r <> None /\ (failed (h_min hs m) = failed r \/ failed (h_max hs m) = failed r)).
Proof.
  intros M OM L G hs input output steps r E. pose proof (process_ends hs input output) as P. rewrite E in P. destruct P as (_ & (b & s & Es) & [H|(m & Hm & [H|H])]).
  - left. exists b, s. split; [exact Es|]. exact (proj1 (H b s Es)).
  - right. exists m. tauto.
  - right. exists m. tauto.
Qed.
Theorem process_success : forall (M OM L G : Type) (hs : handlers M OM L G) input output steps r, Process hs input output = (steps, r) ->
  r = Ok tt <-> exists before t p, steps = before ++ [SWrite t p (Ok tt)].
Proof.
  intros M OM L G hs input output steps r E. pose proof (process_ends hs input output) as P. rewrite E in P. destruct P as (Gd & (b & s & Es) & H). split.
  - intros ->. destruct H as [H|(m & _ & H)]; [|exfalso; cbn [failed] in H; intuition congruence]. destruct (H b s Es) as [O W]. specialize (W eq_refl).
    destruct s; try discriminate. destruct answer as [[]| | |]; try discriminate. eauto.
  - intros (b' & t & p & E'). destruct H as [H|(m & Hm & _)]; [|rewrite Hm in E'; destruct b' as [|? []]; discriminate]. destruct (H b' _ E') as [O _]. destruct r as [[]| | |]; try discriminate. reflexivity.
Qed.
(** There is at most one write; it is the last call, everything before it succeeded, the text is the generator's. *)
Theorem process_writes_once : forall (M OM L G : Type) (hs : handlers M OM L G) input output steps r before t p a after, Process hs input output = (steps, r) ->
  steps = before ++ SWrite t p a :: after -> after = [] /\ (forall s, In s before -> outcome s = None /\ stage_of s <> AtWrite) /\
  (exists g ls, In (SGenerate g ls (Ok t)) before) /\ p = (if String.eqb output "" then (input ++ ".gcode")%string else output).
Proof.
  intros M OM L G hs input output steps r before t p a after E Es. destruct (process_calls _ _ _ _ _ _ _ _ _ E) as ((rest & R) & Q).
  assert (N : exists pre, map stage_of steps ++ rest = pre ++ [AtWrite] /\ ~ In AtWrite pre).
  { rewrite R. exists ([AtRead; AtOptimize; AtSlice] ++ flat_map (fun k => [AtInit k; AtModify k]) (seq 0 (List.length (h_modifiers hs))) ++ [AtGeneratorInit; AtGenerate]).
    split; [unfold stages; rewrite <- !app_assoc; reflexivity|]. intros I. rewrite !in_app_iff in I. destruct I as [I|[I|I]]; [cbn in I; intuition discriminate| |cbn in I; intuition discriminate].
    apply in_flat_map in I. destruct I as (k & _ & I). cbn in I. intuition discriminate. }
  destruct N as (pre & Np & Nw). rewrite Es, map_app in Np. cbn [map stage_of] in Np.
  assert (A : map (stage_of (M:=M) (OM:=OM) (L:=L) (G:=G)) after ++ rest = [] /\ map stage_of before = pre).
  { rewrite <- app_assoc in Np. cbn [app] in Np. symmetry in Np. apply snoc_inv in Np. destruct Np as [(r' & _ & ->)|(-> & -> & _)]; [|split; reflexivity]. exfalso. apply Nw. apply in_or_app. right. left. reflexivity. }
  destruct A as [A1 A2]. apply app_eq_nil in A1. destruct A1 as [A1 _]. apply map_eq_nil in A1. split; [exact A1|]. split.
  - intros s I. split.
    + apply in_split in I. destruct I as (l1 & l2 & ->). destruct (Q l1 s (l2 ++ SWrite t p a :: after)) as (_ & _ & O); [rewrite Es, <- app_assoc; reflexivity|]. apply O. destruct l2; discriminate.
    + intros W. apply Nw. rewrite <- A2. rewrite <- W. apply in_map. exact I.
  - destruct (Q before _ after Es) as (_ & (F1 & F2 & F3) & _). split; [exact F1|]. destruct (String.eqb_spec output ""); auto.
Qed.
Print Assumptions process_calls.
Print Assumptions process_result.
Print Assumptions process_success.
Print Assumptions process_writes_once.
(** handlers that count their calls; the second modifier or the writer may fail *)
Definition counting (fail_modifier fail_writer : bool) : handlers nat nat nat nat :=
  Handlers (fun h _ => Ok (List.length h)) (fun _ => Ok (V3 0 0 0)) (fun _ => Ok (V3 0 0 0)) (fun h m => Ok (m + 10)%nat) (fun h om => Ok [om; List.length h])
    [ModifierOf (fun _ _ => Ok tt) (fun h ls => Ok (List.length h :: ls)); ModifierOf (fun _ _ => Ok tt) (fun h ls => if fail_modifier then Err "too many layers" else Ok (List.length h :: ls))]
    (fun h om => Ok (om + 1)%nat) (fun h g ls => Ok (itoa (Z.of_nat (g + list_sum ls)))) (fun h t p => if fail_writer then Err "disk full" else Ok tt).
Example process_ok_ex : Process (counting false false) "part.stl" "" = (
  [SRead "part.stl" (Ok 0%nat); SOptimize 0%nat (Ok 10%nat); SSlice 10%nat (Ok [10; 2]%nat); SInit 0 10%nat (Ok tt); SModify 0 [10; 2]%nat (Ok [4; 10; 2]%nat);
   SInit 1 10%nat (Ok tt); SModify 1 [4; 10; 2]%nat (Ok [6; 4; 10; 2]%nat); SGenInit 10%nat (Ok 11%nat); SGenerate 11%nat [6; 4; 10; 2]%nat (Ok "33"); SWrite "33" "part.stl.gcode" (Ok tt)], Ok tt).
Proof. vm_compute. reflexivity. Qed.
Example process_fails_ex : exists steps, Process (counting true false) "part.stl" "out" = (steps, Err "too many layers") /\ List.length steps = 7%nat /\
  snd (Process (counting false true) "part.stl" "out") = Err "disk full".
Proof. eexists. vm_compute. auto. Qed.

(** *** C62 *)
Section Builtin.
Variables (lib : clib) (tangent : f64 -> f64) (fuel : nat) (sys : os) (d : disk) (o : options) (input output : string).
Notation run env := (Process (NewGoSlice lib tangent fuel env sys d o) input output).
(** A missing file is reported and nothing is written. *)
Theorem missing_file : forall env, stat_of env input = StatNotExist -> run env = ([SRead input (Err errNotExist)], Err errNotExist).
Proof. intros env E. unfold Process, andThen, call. cbn [h_read NewGoSlice]. unfold Read. rewrite E. reflexivity. Qed.
(** A file without any readable triangle is not reported: the process panics; nothing is written. *)
Theorem no_triangles_panic : forall env, stat_of env input <> StatNotExist -> fst (copy_file env input) = [] -> exists m, run env = ([SRead input (Ok [])], Panic m).
Proof.
  intros env E T. unfold Process, andThen, call. cbn [h_read NewGoSlice]. unfold Read. rewrite T. destruct (stat_of env input); try contradiction; eexists; reflexivity.
Qed.
(** Errors while reading are dropped: what is done with a broken file is what is done with a file of only the triangles
    before the error. *)
Theorem broken_file_not_reported : forall env env', stat_of env input <> StatNotExist -> stat_of env' input <> StatNotExist ->
  fst (copy_file env input) = fst (copy_file env' input) -> run env = run env'.
Proof.
  intros env env' E E' T. assert (R : Read env input = Read env' input). { unfold Read. rewrite T. destruct (stat_of env input), (stat_of env' input); try contradiction; reflexivity. }
  unfold Process, call. cbn [h_read NewGoSlice]. rewrite R. reflexivity.
Qed.
End Builtin.
Print Assumptions missing_file.
Print Assumptions no_triangles_panic.
Print Assumptions broken_file_not_reported.

(** *** C63 *)
(** [s] is a prefix of [t] *)
Definition prefix_of (s t : string) : Prop := exists u, t = (s ++ u)%string.
Lemma take_drop : forall n s, s = (take n s ++ drop n s)%string.
Proof. induction n as [|n IH]; intros [|c s]; try reflexivity. cbn [take drop String.append]. f_equal. apply IH. Qed.
Lemma drop_length : forall n s, n <> O -> s <> "" -> (String.length (drop n s) < String.length s)%nat.
Proof.
  assert (G : forall n s, (String.length (drop n s) <= String.length s)%nat). { induction n as [|n IH]; intros [|c s]; cbn; try lia. specialize (IH s). lia. }
  intros [|n] [|c s] H1 H2; try contradiction. cbn. specialize (G n s). lia.
Qed.
Lemma str_assoc : forall a b c, ((a ++ b) ++ c = a ++ b ++ c)%string.
Proof. induction a as [|x a IH]; intros; [reflexivity|]. cbn. f_equal. apply IH. Qed.
Lemma str_nil_r : forall a, (a ++ "" = a)%string.
Proof. induction a as [|x a IH]; [reflexivity|]. cbn. f_equal. exact IH. Qed.
Lemma growing_states d file : forall s done st, In st (growing d file done s) -> exists p u, st = store d file (done ++ p) /\ s = (p ++ u)%string.
Proof.
  induction s as [|c s IH]; intros done st I; [destruct I|]. cbn [growing] in I. destruct I as [<-|I].
  - exists (String c ""), s. split; reflexivity.
  - destruct (IH _ _ I) as (p & u & -> & ->). exists (String c p), u. rewrite str_assoc. split; reflexivity.
Qed.
Lemma growing_last d file x : forall s done, last (growing d file done s) x = if String.eqb s "" then x else store d file (done ++ s).
Proof.
  induction s as [|c s IH]; intros done; [reflexivity|]. cbn [growing]. cbn [String.eqb].
  destruct s as [|c' s]; [reflexivity|]. specialize (IH (done ++ String c "")%string). rewrite str_assoc in IH. cbn [String.eqb String.append] in IH. rewrite <- IH. reflexivity.
Qed.
Lemma last_cons {A} : forall (l : list A) y x, last (y :: l) x = last l y.
Proof. induction l as [|a l IH]; intros y x; [reflexivity|]. change (last (a :: l) x = last (a :: l) y). rewrite !IH. reflexivity. Qed.
Lemma last_app_ne {A} (a b : list A) : forall x, last (a ++ b) x = last b (last a x).
Proof. induction a as [|y a IH]; intros x; [reflexivity|]. cbn [app]. rewrite !last_cons. apply IH. Qed.
Lemma write_loop_spec sys d file : forall fuel k done rest, (String.length rest < fuel)%nat ->
  let '(states, r) := write_loop sys fuel k d file done rest in
  (forall st, In st states -> exists p u, st = store d file (done ++ p) /\ rest = (p ++ u)%string) /\
  (exists p u, last states (store d file done) = store d file (done ++ p) /\ rest = (p ++ u)%string /\ (r = Ok tt -> u = "")) /\
  (r = Ok tt \/ exists e, r = Err e).
Proof.
  induction fuel as [|fuel IH]; intros k done rest F; [lia|]. cbn [write_loop]. destruct (write_answer sys k) as [n e] eqn:A. pose proof (take_drop n rest) as TD.
  assert (St : forall st, In st (growing d file done (take n rest)) -> exists p u, st = store d file (done ++ p) /\ rest = (p ++ u)%string).
  { intros st I. destruct (growing_states _ _ _ _ _ I) as (p & u & -> & Et). exists p, (u ++ drop n rest)%string. split; [reflexivity|]. rewrite TD at 1. rewrite Et. apply str_assoc. }
  assert (La : last (growing d file done (take n rest)) (store d file done) = store d file (done ++ take n rest)).
  { rewrite growing_last. destruct (String.eqb_spec (take n rest) "") as [->|]; [rewrite str_nil_r|]; reflexivity. }
  destruct (String.eqb_spec (drop n rest) "") as [D|D].
  - split; [exact St|]. split; [|destruct e; eauto]. exists (take n rest), "". rewrite La. rewrite D in TD. auto.
  - assert (B : forall m, (forall st, In st (growing d file done (take n rest)) -> exists p u, st = store d file (done ++ p) /\ rest = (p ++ u)%string) /\
      (exists p u, last (growing d file done (take n rest)) (store d file done) = store d file (done ++ p) /\ rest = (p ++ u)%string /\ (Err m = Ok tt -> u = "")) /\ (Err m = Ok tt \/ exists e0, Err (A:=unit) m = Err e0)).
    { intros m. split; [exact St|]. split; [|eauto]. exists (take n rest), (drop n rest). rewrite La. split; [reflexivity|]. split; [exact TD|discriminate]. }
    destruct e as [m|]; [apply B|]. destruct n as [|n]; [apply B|].
    assert (Lt : (String.length (drop (S n) rest) < fuel)%nat). { assert (String.length (drop (S n) rest) < String.length rest)%nat by (apply drop_length; [discriminate|intros ->; apply D; reflexivity]). lia. }
    specialize (IH (S k) (done ++ take (S n) rest)%string (drop (S n) rest) Lt). destruct (write_loop sys fuel (S k) d file (done ++ take (S n) rest) (drop (S n) rest)) as [more r].
    destruct IH as (H1 & (p & u & H2 & H3 & H4) & H5). split; [|split; [|exact H5]].
    + intros st I. apply in_app_or in I. destruct I as [I|I]; [auto|]. destruct (H1 st I) as (p' & u' & -> & Ed). exists (take (S n) rest ++ p')%string, u'. rewrite !str_assoc. split; [reflexivity|]. rewrite <- Ed. exact TD.
    + exists (take (S n) rest ++ p)%string, u. rewrite last_app_ne, La, H2, !str_assoc. split; [reflexivity|]. split; [|exact H4]. rewrite <- H3. exact TD.
Qed.

(** At every point in time the file has its old content or a prefix of the new one, and no other file is touched. *)
Theorem write_crash_points : forall sys d gcode file states r st, Write sys d gcode file = (states, r) -> In st states ->
  (forall f, f <> file -> st f = d f) /\ (st file = d file \/ exists p, st file = Some p /\ prefix_of p gcode).
Proof.
  intros sys d gcode file states r st E I. unfold Write in E. destruct (create_error sys) as [m|] eqn:C.
  - injection E as <- _. destruct I as [<-|[]]. auto.
  - pose proof (write_loop_spec sys d file (S (String.length gcode)) 0 "" gcode ltac:(lia)) as W. destruct (write_loop _ _ _ _ _ _ _) as [more r'].
    injection E as <- _. assert (S : forall p u, gcode = (p ++ u)%string -> (forall f, f <> file -> store d file p f = d f) /\ (store d file p file = d file \/ exists q, store d file p file = Some q /\ prefix_of q gcode)).
    { intros p u Eg. split; [intros f N; unfold store; apply String.eqb_neq in N; rewrite N; reflexivity|]. right. exists p. unfold store. rewrite String.eqb_refl. split; [reflexivity|]. exists u. exact Eg. }
    destruct I as [<-|[<-|I]]; [auto|apply (S "" gcode); reflexivity|]. destruct W as (W & _). destruct (W st I) as (p & u & -> & Eg). exact (S p u Eg).
Qed.
(** If Write reports success the file holds exactly the G-code; otherwise an error is reported. *)
Theorem write_success : forall sys d gcode file states r, Write sys d gcode file = (states, r) ->
  (r = Ok tt -> last states d file = Some gcode) /\ (r = Ok tt \/ exists e, r = Err e).
Proof.
  intros sys d gcode file states r E. unfold Write in E. destruct (create_error sys) as [m|] eqn:C.
  - injection E as <- <-. split; [discriminate|eauto].
  - pose proof (write_loop_spec sys d file (S (String.length gcode)) 0 "" gcode ltac:(lia)) as W. destruct (write_loop _ _ _ _ _ _ _) as [more r'].
    injection E as <- <-. destruct W as (_ & (p & u & La & Eg & Eu) & R). split; [|exact R]. intros ->. rewrite (Eu eq_refl), str_nil_r in Eg. subst p.
    rewrite !last_cons, La. unfold store. rewrite String.eqb_refl. reflexivity.
Qed.
(** A file that cannot be created stays as it is. *)
Theorem write_create_fails : forall sys d gcode file m, create_error sys = Some m -> Write sys d gcode file = ([d], Err m).
Proof. intros sys d gcode file m E. unfold Write. rewrite E. reflexivity. Qed.
(** It succeeds exactly if the file can be created and the calls of the operating system take all the text, none of
    them reporting an error and none but the last one taking nothing. *)
Fixpoint taken (sys : os) (k n : nat) : nat := match n with O => O | S n' => fst (write_answer sys k) + taken sys (S k) n' end.
Lemma drop_len : forall s n, String.length (drop n s) = (String.length s - n)%nat.
Proof. induction s as [|c s IH]; intros [|n]; cbn [drop String.length]; try lia. rewrite IH. lia. Qed.
Lemma write_loop_ok sys d file : forall fuel k done rest, (String.length rest < fuel)%nat ->
  (snd (write_loop sys fuel k d file done rest) = Ok tt <-> exists n, (forall i, (i <= n)%nat -> snd (write_answer sys (k + i)) = None) /\
     (forall i, (i < n)%nat -> fst (write_answer sys (k + i)) <> O) /\ (String.length rest <= taken sys k (S n))%nat).
Proof.
  induction fuel as [|fuel IH]; intros k done rest F; [lia|]. cbn [write_loop]. pose proof (drop_len rest (fst (write_answer sys k))) as DL.
  destruct (write_answer sys k) as [n e] eqn:A. cbn [fst] in DL. destruct (String.eqb_spec (drop n rest) "") as [D|D].
  - rewrite D in DL. cbn in DL. cbn [snd]. split.
    + intros E. exists O. split; [intros i Hi; assert (i = O) as -> by lia; rewrite Nat.add_0_r, A; destruct e; [discriminate|reflexivity]|]. split; [intros i Hi; lia|].
      cbn [taken]. rewrite A. cbn [fst]. lia.
    + intros (m & H & _). specialize (H O ltac:(lia)). rewrite Nat.add_0_r, A in H. cbn [snd] in H. rewrite H. reflexivity.
  - assert (L0 : String.length (drop n rest) <> O) by (destruct (drop n rest); [congruence|discriminate]).
    destruct e as [m|].
    { cbn [snd]. split; [discriminate|]. intros (j & H & _). specialize (H O ltac:(lia)). rewrite Nat.add_0_r, A in H. discriminate H. }
    destruct n as [|n].
    { cbn [snd]. split; [discriminate|]. intros (j & H & N & T). destruct j as [|j].
      - cbn [taken] in T. rewrite A in T. cbn [fst] in T. lia.
      - exfalso. apply (N O ltac:(lia)). rewrite Nat.add_0_r, A. reflexivity. }
    specialize (IH (S k) (done ++ take (S n) rest)%string (drop (S n) rest) ltac:(lia)). destruct (write_loop sys fuel (S k) d file (done ++ take (S n) rest) (drop (S n) rest)) as [more r]. cbn [snd] in *.
    rewrite IH. split.
    + intros (j & H & N & T). exists (S j). split; [intros [|i] Hi; [rewrite Nat.add_0_r, A; reflexivity|rewrite Nat.add_succ_r; apply (H i); lia]|].
      split; [intros [|i] Hi; [rewrite Nat.add_0_r, A; discriminate|rewrite Nat.add_succ_r; apply (N i); lia]|]. rewrite DL in T. change (taken sys k (S (S j))) with (fst (write_answer sys k) + taken sys (S k) (S j))%nat. rewrite A. cbn [fst]. lia.
    + intros (j & H & N & T). destruct j as [|j].
      { cbn [taken] in T. rewrite A in T. cbn [fst] in T. lia. }
      exists j. split; [intros i Hi; specialize (H (S i) ltac:(lia)); rewrite Nat.add_succ_r in H; exact H|]. split; [intros i Hi; specialize (N (S i) ltac:(lia)); rewrite Nat.add_succ_r in N; exact N|].
      change (taken sys k (S (S j))) with (fst (write_answer sys k) + taken sys (S k) (S j))%nat in T. rewrite A in T. cbn [fst] in T. lia.
Qed.
Theorem write_succeeds_iff : forall sys d gcode file, snd (Write sys d gcode file) = Ok tt <->
  create_error sys = None /\ exists n, (forall i, (i <= n)%nat -> snd (write_answer sys i) = None) /\
    (forall i, (i < n)%nat -> fst (write_answer sys i) <> O) /\ (String.length gcode <= taken sys 0 (S n))%nat.
Proof.
  intros sys d gcode file. unfold Write. destruct (create_error sys) as [m|]; [split; [discriminate|intros ([=] & _)]|].
  pose proof (write_loop_ok sys d file (S (String.length gcode)) 0 "" gcode ltac:(lia)) as W. destruct (write_loop _ _ _ _ _ _ _) as [states r]. cbn [snd] in *. rewrite W. cbn [Nat.add]. tauto.
Qed.
Print Assumptions write_succeeds_iff.
(** With an operating system without errors Write succeeds. *)
Theorem write_works : forall sys d gcode file, create_error sys = None -> (forall k, snd (write_answer sys k) = None /\ fst (write_answer sys k) <> O) -> snd (Write sys d gcode file) = Ok tt.
Proof.
  intros sys d gcode file C H. unfold Write. rewrite C.
  assert (G : forall fuel k done rest, (String.length rest < fuel)%nat -> snd (write_loop sys fuel k d file done rest) = Ok tt).
  { induction fuel as [|fuel IH]; intros k done rest F; [lia|]. cbn [write_loop]. destruct (H k) as [H1 H2]. destruct (write_answer sys k) as [n e]. cbn [fst snd] in *. subst e.
    destruct (String.eqb_spec (drop n rest) ""); [reflexivity|]. destruct n as [|n]; [contradiction|].
    specialize (IH (S k) (done ++ take (S n) rest)%string (drop (S n) rest)). destruct (write_loop _ _ _ _ _ _ _) as [more r]. apply IH.
    assert (String.length (drop (S n) rest) < String.length rest)%nat by (apply drop_length; [discriminate|intros ->; auto]). lia. }
  specialize (G (S (String.length gcode)) O "" gcode ltac:(lia)). destruct (write_loop _ _ _ _ _ _ _). exact G.
Qed.
Print Assumptions write_crash_points.
Print Assumptions write_success.
Print Assumptions write_create_fails.
Print Assumptions write_works.
(** three bytes per call until the disk is full after six bytes *)
Definition full_disk : os := OS None (fun k => if (k <? 2)%nat then (3%nat, None) else (O, Some "no space left on device")).
Definition old_disk : disk := fun f => if String.eqb f "a.gcode" then Some "old" else None.
Example write_ex : map (fun s : disk => s "a.gcode") (fst (Write (OS None (fun _ => (3%nat, None))) old_disk "G0 X1" "a.gcode")) =
  [Some "old"; Some ""; Some "G"; Some "G0"; Some "G0 "; Some "G0 X"; Some "G0 X1"].
Proof. vm_compute. reflexivity. Qed.
(** A failing Write destroys the old file: it is not kept until the new one is complete. *)
Theorem write_keeps_old_refuted : exists sys d gcode file states e, Write sys d gcode file = (states, Err e) /\ d file = Some "old" /\
  last states d file = Some "G0 X1 " /\ gcode = "G0 X1 Y1".
Proof. exists full_disk, old_disk, "G0 X1 Y1", "a.gcode". eexists _, _. split; [vm_compute; reflexivity|]. vm_compute. auto. Qed.
Print Assumptions write_keeps_old_refuted.

(** *** C71: the exit code of the program *)
(** Exit code 0 without asking for the version means that the file was written, completely. *)
Theorem exit_zero : forall lib tangent fuel env sys d o input output steps r, Process (NewGoSlice lib tangent fuel env sys d o) input output = (steps, r) ->
  main false input r = Some 0%Z -> exists g layers text path, In (SGenerate g layers (Ok text)) steps /\ last (fst (Write sys d text path)) d path = Some text /\
  path = (if String.eqb output "" then (input ++ ".gcode")%string else output).
Proof.
  intros lib tangent fuel env sys d o input output steps r E H. unfold main in H. destruct (String.eqb input ""); [discriminate|]. destruct r as [[]| | |]; try discriminate.
  destruct (proj1 (process_success _ _ _ _ _ _ _ _ _ E) eq_refl) as (before & t & p & Es). destruct (process_writes_once _ _ _ _ _ _ _ _ _ before t p (Ok tt) [] E Es) as (_ & _ & (g & ls & Ig) & Ep).
  exists g, ls, t, p. split; [rewrite Es; apply in_or_app; left; exact Ig|]. split; [|exact Ep].
  destruct (process_calls _ _ _ _ _ _ _ _ _ E) as (_ & Q). destruct (Q before _ [] Es) as (Ho & _). cbn [honest h_write NewGoSlice] in Ho.
  destruct (Write sys d t p) as [states r] eqn:Ew. cbn [snd fst] in *. subst r. exact (proj1 (write_success _ _ _ _ _ _ Ew) eq_refl).
Qed.
(** Every failure gives another exit code. *)
Theorem exit_codes : (forall r, main false "" r = Some 1%Z) /\ (forall input r, r <> Diverge -> r <> Ok tt -> main false input r = Some 1%Z \/ main false input r = Some 2%Z) /\ (forall input r, main true input r = Some 0%Z).
Proof.
  split; [reflexivity|]. split; [|reflexivity]. intros input r N1 N2. unfold main. destruct (String.eqb input ""); [auto|]. destruct r as [[]| | |]; auto; contradiction.
Qed.
Print Assumptions exit_zero.
Print Assumptions exit_codes.
