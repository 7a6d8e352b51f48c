(** The runs of the whole process. *)
From Verif Require Import GoBase GoFloat GoStr M_Micrometer M_Geom2D M_Model M_Slicer M_Clip M_Builder M_Option M_Layer M_Render M_Modifier M_Process S_Process.
Local Open Scope string_scope.
Local Open Scope list_scope.

Section Any.
Context {M OM L G : Type}.
Notation step := (step M OM L G).
Notation handlers := (handlers M OM L G).
Variable hs : handlers.
Variables input output : string.

(** a run that is correct so far: [todo] are the stages that would follow *)
Definition good (h : list step) : Prop :=
  (exists rest, map stage_of h ++ rest = stages (List.length (h_modifiers hs))) /\
  forall before s after, h = before ++ s :: after -> honest hs before s /\ fed input output before s /\ (after <> [] -> outcome s = None).
Definition all_ok (h : list step) : Prop := forall s, In s h -> outcome s = None.
(** how a run may end *)
Definition ends (h : list step) (r : res unit) : Prop :=
  good h /\ (exists before s, h = before ++ [s]) /\
  ((forall before s, h = before ++ [s] -> outcome s = failed r /\ (failed r = None -> stage_of s = AtWrite)) \/
   exists m, h = [SRead input (Ok m)] /\ ((failed r <> None /\ failed (h_min hs m) = failed r) \/ (failed (h_min hs m) = None /\ failed r <> None /\ failed (h_max hs m) = failed r))).

Lemma snoc_inv {A} (l1 l2 : list A) x a r : l1 ++ [x] = l2 ++ a :: r -> (exists r', r = r' ++ [x] /\ l1 = l2 ++ a :: r') \/ (r = [] /\ l1 = l2 /\ x = a).
Proof.
  revert l1. induction r as [|y r IH] using rev_ind; intros l1 E.
  - right. apply app_inj_tail in E. tauto.
  - left. replace (l2 ++ a :: r ++ [y]) with ((l2 ++ a :: r) ++ [y]) in E by (rewrite <- app_assoc; reflexivity). apply app_inj_tail in E. destruct E as [E1 E2]. subst. eauto.
Qed.
Lemma good_snoc h s : good h -> all_ok h -> (exists rest, map stage_of h ++ stage_of s :: rest = stages (List.length (h_modifiers hs))) -> honest hs h s -> fed input output h s -> good (h ++ [s]).
Proof.
  intros [_ Q] K (rest & R) Ho Fe. split.
  - exists rest. rewrite map_app, <- app_assoc. exact R.
  - intros before s' after E. symmetry in E. symmetry in E. destruct (snoc_inv _ _ _ _ _ E) as [(r' & -> & ->)|(-> & -> & ->)].
    + destruct (Q before s' r' eq_refl) as (A & B & _). split; [exact A|]. split; [exact B|]. intros _. apply K. apply in_or_app. right. left. reflexivity.
    + split; [exact Ho|]. split; [exact Fe|]. intros []. reflexivity.
Qed.
Lemma all_ok_snoc h s : all_ok h -> outcome s = None -> all_ok (h ++ [s]).
Proof. intros K O x I. apply in_app_or in I. destruct I as [I|[<-|[]]]; auto. Qed.
Lemma latest_snoc (h : list step) s (ls : option (list L)) : latest (h ++ [s]) ls = latest [s] (latest h ls).
Proof. revert ls. induction h as [|x h IH]; intros ls; [reflexivity|]. cbn [app]. destruct x as [| |? [| | |]| |? ? [| | |]| | |]; cbn [latest]; apply IH. Qed.

(** one call: it either goes on with a correct run that is one longer, or ends *)
Lemma call_step {A} h (name : res A -> step) (f : list step -> res A) (k : A -> list step -> list step * res unit) :
  good h -> all_ok h -> (forall a, outcome (name a) = failed a) -> (forall a, stage_of (name a) = stage_of (name Diverge)) -> stage_of (name Diverge) <> AtWrite ->
  (exists rest, map stage_of h ++ stage_of (name Diverge) :: rest = stages (List.length (h_modifiers hs))) ->
  honest hs h (name (f h)) -> fed input output h (name (f h)) ->
  (forall a, f h = Ok a -> good (h ++ [name (Ok a)]) -> all_ok (h ++ [name (Ok a)]) -> let '(h', r) := k a (h ++ [name (Ok a)]) in ends h' r) ->
  let '(h', r) := andThen (call name f h) k in ends h' r.
Proof.
  intros Gd K O St NW R Ho Fe Next. assert (Gd' : good (h ++ [name (f h)])) by (apply good_snoc; try assumption; rewrite St; exact R).
  assert (E : forall r : res unit, failed r = failed (f h) -> (failed r = None -> stage_of (name (f h)) = AtWrite) -> ends (h ++ [name (f h)]) r).
  { intros r Hr Hw. split; [exact Gd'|]. split; [eauto|]. left. intros before s Es. apply app_inj_tail in Es. destruct Es as [<- <-]. rewrite O, Hr. split; [reflexivity|]. intros N. apply Hw. rewrite Hr. exact N. }
  unfold call, andThen. destruct (f h) as [a|e|w|] eqn:Ef; try (apply E; [reflexivity|discriminate]).
  apply Next; [reflexivity|exact Gd'|]. apply all_ok_snoc; [exact K|]. rewrite O. reflexivity.
Qed.
Definition stages_before (k : nat) : list stage := [AtRead; AtOptimize; AtSlice] ++ flat_map (fun k => [AtInit k; AtModify k]) (seq 0 k).
Lemma stages_split k n : (k <= n)%nat -> exists rest, stages n = stages_before k ++ rest /\ ((k < n)%nat -> exists rest', rest = AtInit k :: AtModify k :: rest').
Proof.
  intros H. unfold stages, stages_before. replace (seq 0 n) with (seq 0 k ++ seq k (n - k)) by (rewrite <- seq_app; f_equal; lia).
  rewrite flat_map_app. rewrite <- !app_assoc. eexists. split; [reflexivity|]. intros Hk. destruct (n - k)%nat as [|j] eqn:E; [lia|]. cbn [seq flat_map app]. eauto.
Qed.
Lemma stages_before_S k : stages_before (S k) = stages_before k ++ [AtInit k; AtModify k].
Proof. unfold stages_before. rewrite seq_S, flat_map_app, app_assoc. reflexivity. Qed.

Lemma modify_all_ends om (K : list L -> list step -> list step * res unit) :
  (forall layers h, good h -> all_ok h -> latest h None = Some layers -> (exists m, In (SOptimize m (Ok om)) h) -> map stage_of h = stages_before (List.length (h_modifiers hs)) ->
     let '(h', r) := K layers h in ends h' r) ->
  forall ms k layers h, (exists pre, h_modifiers hs = pre ++ ms /\ List.length pre = k) -> good h -> all_ok h -> latest h None = Some layers ->
  (exists m, In (SOptimize m (Ok om)) h) -> map stage_of h = stages_before k ->
  let '(h', r) := andThen (modify_all k ms om layers h) K in ends h' r.
Proof.
  intros Next. induction ms as [|m ms IH]; intros k layers h (pre & Em & Lk) Gd Ok_ La Op St.
  - cbn [modify_all andThen]. apply Next; try assumption. rewrite Em, app_nil_r. congruence.
  - assert (Hk : (k < List.length (h_modifiers hs))%nat) by (rewrite Em, app_length; cbn; lia).
    assert (Nm : nth_error (h_modifiers hs) k = Some m) by (rewrite Em, nth_error_app2 by lia; replace (k - List.length pre)%nat with O by lia; reflexivity).
    destruct (stages_split k (List.length (h_modifiers hs)) ltac:(lia)) as (rest & Es & Hr). destruct (Hr Hk) as (rest' & ->).
    cbn [modify_all].
    assert (A : forall {A B C} (x : list step * res A) (f : A -> list step -> list step * res B) (g : B -> list step -> list step * res C), andThen (andThen x f) g = andThen x (fun a h => andThen (f a h) g)).
    { intros A B C [h0 [| | |]] f g; reflexivity. }
    rewrite A. apply call_step; try assumption; try (intros []; reflexivity); try discriminate.
    + exists (AtModify k :: rest'). rewrite St. cbn [stage_of]. symmetry. exact Es.
    + exists m. split; [exact Nm|reflexivity].
    + intros u Eu Gd1 Ok1. rewrite A. apply call_step; try assumption; try (intros []; reflexivity); try discriminate.
      * exists rest'. rewrite map_app, St, <- app_assoc. cbn [stage_of map app]. symmetry. exact Es.
      * exists m. split; [exact Nm|reflexivity].
      * cbn [fed]. rewrite latest_snoc, La. reflexivity.
      * intros layers' El Gd2 Ok2. apply IH.
        -- exists (pre ++ [m]). split; [rewrite <- app_assoc; exact Em|rewrite app_length; cbn; lia].
        -- exact Gd2.
        -- exact Ok2.
        -- rewrite latest_snoc. reflexivity.
        -- destruct Op as (m0 & I). exists m0. apply in_or_app. left. apply in_or_app. left. exact I.
        -- rewrite !map_app, St, stages_before_S, <- app_assoc. reflexivity.
Qed.

Lemma process_ends : let '(h, r) := Process hs input output in ends h r.
Proof.
  unfold Process.
  assert (G0 : good []). { split; [exists (stages (List.length (h_modifiers hs))); reflexivity|]. intros [|] ? ? E; discriminate. }
  assert (O0 : all_ok []) by (intros s []).
  apply call_step; try assumption; try (intros []; reflexivity); try discriminate; try reflexivity.
  { eexists. reflexivity. }
  intros m Em G1 O1.
  assert (Bad : forall r : res unit, failed r <> None -> failed (h_min hs m) = failed r \/ (failed (h_min hs m) = None /\ failed (h_max hs m) = failed r) -> ends ([] ++ [SRead input (Ok m)]) r).
  { intros r N H. split; [exact G1|]. split; [exists [], (SRead input (Ok m)); reflexivity|]. right. exists m. split; [reflexivity|]. tauto. }
  unfold andThen at 1. destruct (h_min hs m) as [mn|e|w|] eqn:E1; try (apply Bad; [discriminate|left; reflexivity]).
  unfold andThen at 1. destruct (h_max hs m) as [mx|e|w|] eqn:E2; try (apply Bad; [discriminate|right; split; reflexivity]).
  clear Bad. apply call_step; try assumption; try (intros []; reflexivity); try discriminate; try reflexivity.
  { eexists. reflexivity. }
  { exists input. left. reflexivity. }
  intros om Eo G2 O2. apply call_step; try assumption; try (intros []; reflexivity); try discriminate; try reflexivity.
  { eexists. reflexivity. }
  { exists m. right. left. reflexivity. }
  intros layers El G3 O3. apply modify_all_ends; try assumption; try reflexivity.
  2: { exists []. split; reflexivity. }
  2: { exists m. right. left. reflexivity. }
  clear layers El G3 O3 G2 O2 G1 O1. intros layers h Gd Ok_ La (m' & Op) St.
  assert (Es : stages (List.length (h_modifiers hs)) = map stage_of h ++ [AtGeneratorInit; AtGenerate; AtWrite]) by (rewrite St; unfold stages, stages_before; rewrite <- app_assoc; reflexivity).
  apply call_step; try assumption; try (intros []; reflexivity); try discriminate; try reflexivity.
  { exists [AtGenerate; AtWrite]. rewrite Es. reflexivity. }
  { exists m'. exact Op. }
  intros g Eg G4 O4. apply call_step; try assumption; try (intros []; reflexivity); try discriminate; try reflexivity.
  { exists [AtWrite]. rewrite Es, map_app, <- app_assoc. reflexivity. }
  { split; [rewrite latest_snoc, La; reflexivity|]. exists om. apply in_or_app. right. left. reflexivity. }
  intros t Et G5 O5. cbn zeta. unfold call. match goal with |- ends (?h ++ [SWrite t ?p ?a]) ?a => set (hh := h) in *; set (pp := p); set (aa := a) end.
  split.
  - apply good_snoc; try assumption.
    + exists []. unfold hh. rewrite Es, !map_app, <- !app_assoc. reflexivity.
    + reflexivity.
    + split; [exists g, layers; apply in_or_app; right; left; reflexivity|]. unfold pp. destruct (String.eqb_spec output ""); split; intros; congruence.
  - split; [eauto|]. left. intros before s Eq. apply app_inj_tail in Eq. destruct Eq as [_ <-]. split; [reflexivity|]. intros _. reflexivity.
Qed.
End Any.
