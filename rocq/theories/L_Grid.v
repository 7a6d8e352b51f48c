(** A clipping library for the plane: the points are the centres of the squares of 1 um, areas are made of such squares,
    offsetting moves the border by the given number of squares in all directions, upright lines are cut into pieces of 1 um. *)
From Coq Require Import Reals Lra.
From Verif Require Import GoBase GoFloat M_Micrometer M_Geom2D M_Clip S_Slicer S_Clip S_Area S_Fill S_Lines S_Brim S_Solid S_Rotate L_Float L_Area L_Ray L_Strip L_LineLib L_TreeLib.
Local Open Scope Z_scope.

Notation cell := (Z * Z)%type (only parsing).
Definition center (x : cell) : rpt := (IZR (fst x) + / 2, IZR (snd x) + / 2)%R.
Definition in_cells (c : path) (x : cell) : bool := surrounded c (center x).
Definition box_path (x0 y0 x1 y1 : Z) : path := [Pt x0 y0; Pt x1 y0; Pt x1 y1; Pt x0 y1].
Definition square (x : cell) : path := box_path (fst x) (snd x) (fst x + 1) (snd x + 1).
(** all squares up to k squares away from x *)
Definition near (k : Z) (x : cell) : list cell := list_prod (range (fst x - k) (fst x + k)) (range (snd x - k) (snd x + k)).
Definition extent (cs : list path) : Z := fold_right (fun p m => Z.max (Z.max (Z.abs (px p)) (Z.abs (py p))) m) 0 (concat cs).
(** a square for each point of g, with a hole if it is not a point of f *)
Definition tile (f : cell -> bool) (x : cell) : node := Node (square x) (if f x then [] else [Node (square x) []]).
Definition area (f g : cell -> bool) (b : Z) : list node := map (tile f) (filter g (near b (0, 0))).
Definition grid_offset (d : f64) (cs : list path) : list node :=
  let k := whole d in let f := parity in_cells cs in
  let h := fun x => if k <? 0 then forallb f (near (- k) x) else existsb f (near k x) in area h h (extent cs + Z.abs k).
(** the squares a line passes through; those at the right of an upright line and those above a level one *)
Definition on_cells (l : path) (x : cell) : bool :=
  match l with
  | [a; b] =>
      let '(i, j) := x in
      let cross := fun u v => (px b - px a) * (v - py a) - (py b - py a) * (u - px a) in
      let corners := [cross i j; cross (i + 1) j; cross i (j + 1); cross (i + 1) (j + 1)] in
      if px a =? px b then (i =? px a) && (Z.min (py a) (py b) <=? j) && (j <? Z.max (py a) (py b))
      else if py a =? py b then (j =? py a) && (Z.min (px a) (px b) <=? i) && (i <? Z.max (px a) (px b))
      else (Z.min (px a) (px b) <=? i) && (i <? Z.max (px a) (px b)) && (Z.min (py a) (py b) <=? j) && (j <? Z.max (py a) (py b)) &&
        existsb (fun c => 0 <? c) corners && existsb (fun c => c <? 0) corners
  | _ => false
  end.
Definition pieces (t : clip_type) (clip : list path) (l : path) : list node :=
  match t, l with
  | CtDifference, _ => if existsb (fun x => on_cells l x && negb (parity in_cells clip x)) (near (extent [l]) (0, 0)) then [Node l []] else []
  | _, [a; b] => map (fun j => Node [Pt (px a) (j + 1); Pt (px a) j] [])
      (filter (fun j => on_cells l (px a, j) && parity in_cells clip (px a, j)) (range (py a) (py b)))
  | _, _ => []
  end.
Definition grid_execute (reverse : bool) (t : clip_type) (l : list added) : option (list node * Z) :=
  let s := paths_of PtSubject l in let c := paths_of PtClip l in
  let r := match open_paths l with
    | [] => let f := fun x => op t (parity in_cells s x) (parity in_cells c x) in
        area f (match t with CtUnion => fun x => existsb (fun p => in_cells p x) (s ++ c) | _ => f end) (extent (s ++ c))
    | ls => flat_map (pieces t c) ls end in
  Some (r, Z.of_nat (List.length r)).
(** the smallest upright box around all points *)
Definition grid_hull (p : path) : path :=
  match p with
  | [] => []
  | a :: p' => box_path (fold_right (fun q m => Z.min (px q) m) (px a) p') (fold_right (fun q m => Z.min (py q) m) (py a) p')
      (fold_right (fun q m => Z.max (px q) m) (px a) p') (fold_right (fun q m => Z.max (py q) m) (py a) p')
  end.

(** *** which centres a box surrounds *)
Lemma lower_center i j u y : lower (snd (center (i, j))) (u, IZR y) = (y <=? j).
Proof.
  unfold lower, center. cbn [fst snd]. destruct (Rlt_dec (IZR y) (IZR j + / 2)) as [L|L], (Z.leb_spec y j) as [H|H]; try reflexivity; exfalso.
  - assert (IZR (j + 1) <= IZR y)%R by (apply IZR_le; lia). rewrite plus_IZR in *. lra.
  - apply L. assert (IZR y <= IZR j)%R by (apply IZR_le; lia). lra.
Qed.
Lemma crossed_upright i j x a b : crossed (center (i, j)) (IZR x, IZR a) (IZR x, IZR b) = xorb (a <=? j) (b <=? j) && (i <? x).
Proof.
  unfold crossed. rewrite !lower_center. f_equal. unfold center. cbn [fst snd]. replace (IZR x - IZR x)%R with 0%R by lra. rewrite Rmult_0_r, Rplus_0_r.
  destruct (Rlt_dec (IZR i + / 2) (IZR x)) as [L|L], (Z.ltb_spec i x) as [H|H]; try reflexivity; exfalso.
  - assert (IZR x <= IZR i)%R by (apply IZR_le; lia). lra.
  - apply L. assert (IZR (i + 1) <= IZR x)%R by (apply IZR_le; lia). rewrite plus_IZR in *. lra.
Qed.
Lemma crossed_level i j x x' a : crossed (center (i, j)) (IZR x, IZR a) (IZR x', IZR a) = false.
Proof. unfold crossed. rewrite !lower_center, xorb_nilpotent. reflexivity. Qed.
Lemma box_inside x0 y0 x1 y1 i j : x0 <= x1 -> y0 <= y1 -> (in_cells (box_path x0 y0 x1 y1) (i, j) = true <-> (x0 <= i < x1 /\ y0 <= j < y1)).
Proof.
  intros H1 H2. unfold in_cells, surrounded, box_path. cbn [app firstn map crossings]. unfold exactly. cbn [px py]. rewrite !crossed_upright, !crossed_level.
  destruct (Z.leb_spec y0 j), (Z.leb_spec y1 j), (Z.ltb_spec i x0), (Z.ltb_spec i x1); cbn; split; intros; try discriminate; try reflexivity; lia.
Qed.
Lemma square_inside x y : in_cells (square x) y = true <-> x = y.
Proof.
  destruct x as [i j], y as [i' j']. unfold square. cbn [fst snd]. rewrite box_inside by lia. split; [intros H; f_equal; lia|intros [= <- <-]; lia].
Qed.

(** *** contours surround no centre beyond their points *)
Lemma crossings_side al be p l : (forall v, In v l -> side al be p v) ->
  crossings p l = match l with [] => false | a :: _ => if Rlt_dec 0 al then xorb (lower (snd p) a) (lower (snd p) (last l a)) else false end.
Proof.
  induction l as [|a l IH]; intros H; [reflexivity|]. destruct l as [|b l]; [cbn; rewrite xorb_nilpotent; destruct (Rlt_dec 0 al); reflexivity|].
  change (crossings p (a :: b :: l)) with (xorb (crossed p a b) (crossings p (b :: l))). rewrite IH by (intros v Iv; apply H; right; exact Iv). destruct (crossed_side al be p a b) as (N & Y); [apply H; cbn; tauto..|].
  assert (E : last (a :: b :: l) a = last (b :: l) b). { cbn [last]. destruct l as [|c l]; [reflexivity|]. clear. revert c. induction l as [|d l IH]; intros c; [reflexivity|exact (IH d)]. }
  rewrite E. destruct (Rlt_dec 0 al) as [A|A]; [rewrite (Y A)|rewrite N by lra; reflexivity].
  destruct (lower (snd p) a), (lower (snd p) b), (lower (snd p) (last (b :: l) b)); reflexivity.
Qed.
Lemma surrounded_side al be p c : (forall v, In v c -> side al be p (exactly v)) -> surrounded c p = false.
Proof.
  intros H. unfold surrounded. rewrite (crossings_side al be). 2: { intros v Iv. apply in_map_iff in Iv. destruct Iv as (q & <- & Iq). apply in_app_iff in Iq. apply H. destruct Iq as [Iq|Iq]; [exact Iq|]. destruct c; [destruct Iq|destruct Iq as [<-|[]]; left; reflexivity]. }
  destruct c as [|a c]; [reflexivity|]. cbn [app map firstn]. rewrite map_app. cbn [map]. set (l := exactly a :: _).
  assert (E : last l (exactly a) = exactly a). { unfold l. rewrite app_comm_cons. apply last_last. }
  rewrite E, xorb_nilpotent. destruct (Rlt_dec 0 al); reflexivity.
Qed.
Lemma extent_spec cs c q : In c cs -> In q c -> Z.abs (px q) <= extent cs /\ Z.abs (py q) <= extent cs.
Proof.
  intros Ic Iq. assert (I : In q (concat cs)) by (apply in_concat; eauto). unfold extent. clear Ic Iq. induction (concat cs) as [|a l IH]; [destruct I|]. cbn [fold_right].
  destruct I as [->|I]; [lia|]. specialize (IH I). lia.
Qed.
Lemma extent_pos cs : 0 <= extent cs.
Proof. unfold extent. induction (concat cs) as [|a l IH]; cbn [fold_right]; lia. Qed.
Lemma inside_extent c x b : (forall q, In q c -> Z.abs (px q) <= b /\ Z.abs (py q) <= b) -> in_cells c x = true -> - b <= fst x < b /\ - b <= snd x < b.
Proof.
  intros H Hx. destruct x as [i j]. cbn [fst snd]. unfold in_cells in Hx.
  assert (D : forall z, i < z -> (IZR i + 1 <= IZR z)%R) by (intros z L; rewrite <- plus_IZR; apply IZR_le; lia).
  assert (D' : forall z, j < z -> (IZR j + 1 <= IZR z)%R) by (intros z L; rewrite <- plus_IZR; apply IZR_le; lia).
  destruct (Z_lt_ge_dec i (- b)) as [L|L1]; [exfalso|destruct (Z_lt_ge_dec i b) as [L2|L]; [|exfalso]].
  - rewrite (surrounded_side 1 0) in Hx; [discriminate|]. intros v Iv. destruct (H v Iv). unfold side, center, exactly. cbn [fst snd]. specialize (D (px v) ltac:(lia)). lra.
  - destruct (Z_lt_ge_dec j (- b)) as [L|L3]; [exfalso|destruct (Z_lt_ge_dec j b) as [L4|L]; [lia|exfalso]].
    + rewrite (surrounded_side 0 1) in Hx; [discriminate|]. intros v Iv. destruct (H v Iv). unfold side, center, exactly. cbn [fst snd]. specialize (D' (py v) ltac:(lia)). lra.
    + rewrite (surrounded_side 0 (-1)) in Hx; [discriminate|]. intros v Iv. destruct (H v Iv). unfold side, center, exactly. cbn [fst snd]. assert (IZR (py v) <= IZR j)%R by (apply IZR_le; lia). lra.
  - rewrite (surrounded_side (-1) 0) in Hx; [discriminate|]. intros v Iv. destruct (H v Iv). unfold side, center, exactly. cbn [fst snd]. assert (IZR (px v) <= IZR i)%R by (apply IZR_le; lia). lra.
Qed.
Lemma parity_some cs x : parity in_cells cs x = true -> exists c, In c cs /\ in_cells c x = true.
Proof.
  intros H. induction cs as [|c cs IH]; [discriminate|]. cbn [parity] in H. destruct (in_cells c x) eqn:E; [exists c; split; [left; reflexivity|exact E]|]. rewrite xorb_false_l in H. destruct (IH H) as (d & Id & Hd). exists d. split; [right; exact Id|exact Hd].
Qed.
Lemma parity_extent cs x : parity in_cells cs x = true -> - extent cs <= fst x < extent cs /\ - extent cs <= snd x < extent cs.
Proof.
  intros H. pose proof (parity_some cs x H) as S.
  destruct S as (c & Ic & Hc). apply (inside_extent c x (extent cs)); [|exact Hc]. intros q Iq. exact (extent_spec cs c q Ic Iq).
Qed.
Lemma near_spec k x y : 0 <= k -> (In y (near k x) <-> Z.abs (fst y - fst x) <= k /\ Z.abs (snd y - snd x) <= k).
Proof.
  intros K. destruct y as [i j]. unfold near. rewrite in_prod_iff, !range_spec. unfold between. cbn [fst snd]. lia.
Qed.

(** *** areas *)
Lemma range_nodup a b : NoDup (range a b).
Proof. unfold range. apply FinFun.Injective_map_NoDup; [intros x y H; lia|apply seq_NoDup]. Qed.
Lemma prod_nodup {A B} (l : list A) (m : list B) : NoDup l -> NoDup m -> NoDup (list_prod l m).
Proof.
  intros Nl Nm. induction Nl as [|a l Ia Nl IH]; [constructor|]. cbn [list_prod]. assert (Na : NoDup (map (fun y => (a, y)) m)) by (apply FinFun.Injective_map_NoDup; [intros x y [= E]; exact E|exact Nm]).
  assert (D : forall q, In q (map (fun y => (a, y)) m) -> ~ In q (list_prod l m)). { intros q Iq Iq'. apply in_map_iff in Iq. destruct Iq as (y & <- & _). apply in_prod_iff in Iq'. tauto. }
  revert Na D. generalize (map (fun y : B => (a, y)) m). intros k Nk D. induction Nk as [|q k Iq Nk IHk]; [exact IH|]. cbn [app]. constructor.
  - rewrite in_app_iff. intros [I|I]; [exact (Iq I)|exact (D q (or_introl eq_refl) I)].
  - apply IHk. intros r Ir. apply D. right. exact Ir.
Qed.
Lemma area_in f g b n : 0 <= b -> (In n (area f g b) <-> exists x, n = tile f x /\ g x = true /\ Z.abs (fst x) <= b /\ Z.abs (snd x) <= b).
Proof.
  intros B. unfold area. rewrite in_map_iff. split.
  - intros (x & <- & I). apply filter_In in I. destruct I as (I & F). apply near_spec in I; [|exact B]. cbn [fst snd] in I. rewrite !Z.sub_0_r in I. exists x. tauto.
  - intros (x & -> & F & H). exists x. split; [reflexivity|]. apply filter_In. split; [|exact F]. apply near_spec; [exact B|]. cbn [fst snd]. rewrite !Z.sub_0_r. exact H.
Qed.
Lemma leaf_nested c : nested in_cells (Node c []).
Proof. constructor; [intros ? []|intros ? ? []|intros ?; exact I]. Qed.
Lemma area_nested f g b : nested_tree in_cells (area f g b).
Proof.
  split.
  - intros n I. unfold area in I. apply in_map_iff in I. destruct I as (x & <- & _). unfold tile. destruct (f x); [apply leaf_nested|]. constructor.
    + intros n [<-|[]]. apply leaf_nested.
    + intros n y [<-|[]] H. exact H.
    + intros y. split; [intros _ ? []|exact Logic.I].
  - intros y. unfold area. assert (N : NoDup (filter g (near b (0, 0)))) by (apply NoDup_filter; unfold near; apply prod_nodup; apply range_nodup).
    induction N as [|x l Ix N IH]; [exact I|]. cbn [map at_most_one]. split; [|exact IH]. cbn [contour tile]. intros H n In_ Hn. apply in_map_iff in In_. destruct In_ as (x' & <- & Ix'). cbn [contour tile] in Hn.
    apply square_inside in H, Hn. subst. contradiction.
Qed.
Lemma area_parity f g b y : (forall x, f x = true -> g x = true) -> (forall x, g x = true -> Z.abs (fst x) <= b /\ Z.abs (snd x) <= b) -> 0 <= b -> parity in_cells (flat_map contours (area f g b)) y = f y.
Proof.
  intros FG H B. unfold area. assert (N : NoDup (filter g (near b (0, 0)))) by (apply NoDup_filter; unfold near; apply prod_nodup; apply range_nodup).
  assert (M : forall x, In x (filter g (near b (0, 0))) <-> g x = true).
  { intros x. rewrite filter_In, near_spec by exact B. cbn [fst snd]. rewrite !Z.sub_0_r. specialize (H x). tauto. }
  assert (G : forall l, NoDup l -> parity in_cells (flat_map contours (map (tile f) l)) y = true <-> In y l /\ f y = true).
  { clear. induction 1 as [|x l Ix N IH]; [cbn; split; [discriminate|intros ([] & _)]|].
    assert (T : parity in_cells (contours (tile f x)) y = true <-> x = y /\ f y = true).
    { pose proof (square_inside x y) as Q. unfold tile. destruct (f x) eqn:F; cbn [contours flat_map app parity]; destruct (in_cells (square x) y); cbn; split; intros K; try discriminate; try reflexivity.
      - assert (x = y) by (apply Q; reflexivity). subst y. auto.
      - exact (proj2 Q (proj1 K)).
      - destruct K as (<- & K). congruence.
      - exact (proj2 Q (proj1 K)). }
    cbn [map flat_map In]. rewrite parity_app. destruct (parity in_cells (contours (tile f x)) y), (parity in_cells (flat_map contours (map (tile f) l)) y); cbn [xorb].
    - exfalso. destruct (proj1 T eq_refl) as (-> & _). exact (Ix (proj1 (proj1 IH eq_refl))).
    - split; [intros _|reflexivity]. destruct (proj1 T eq_refl) as (-> & F). auto.
    - split; [intros _|reflexivity]. destruct (proj1 IH eq_refl) as (I & F). auto.
    - split; [discriminate|]. intros ([->|I] & F); [exact (proj2 T (conj eq_refl F))|exact (proj2 IH (conj I F))]. }
  specialize (G _ N). rewrite M in G. specialize (FG y). destruct (parity _ _ y), (f y); try reflexivity; [destruct (proj1 G eq_refl); congruence|apply G; auto].
Qed.

(** *** the library *)
Definition grid_lib (sine cosine : f64 -> f64) : clib := CLib grid_execute grid_offset grid_hull sine cosine.
Lemma op_none t : op t false false = false.
Proof. destruct t; reflexivity. Qed.
Lemma grid_closed t s c : open_paths (closed_as PtSubject s ++ closed_as PtClip c) = [] /\ paths_of PtSubject (closed_as PtSubject s ++ closed_as PtClip c) = s /\ paths_of PtClip (closed_as PtSubject s ++ closed_as PtClip c) = c /\
  forall y, let f := fun x => op t (parity in_cells s x) (parity in_cells c x) in
    parity in_cells (flat_map contours (area f (match t with CtUnion => fun x => existsb (fun p => in_cells p x) (s ++ c) | _ => f end) (extent (s ++ c)))) y = f y.
Proof.
  split; [unfold open_paths; rewrite flat_map_app; fold (open_paths (closed_as PtSubject s)) (open_paths (closed_as PtClip c)); rewrite !open_closed; reflexivity|].
  split; [apply paths_subject|]. split; [apply paths_clip|]. intros y f.
  assert (E : extent s <= extent (s ++ c) /\ extent c <= extent (s ++ c)).
  { unfold extent. rewrite concat_app, fold_right_app. set (m := fold_right _ 0 (concat c)). assert (M : 0 <= m) by apply (extent_pos c). clearbody m. clear f. induction (concat s) as [|a l IH]; cbn [fold_right]; lia. }
  assert (B : forall x, f x = true -> Z.abs (fst x) <= extent (s ++ c) /\ Z.abs (snd x) <= extent (s ++ c)).
  { intros x H. unfold f in H. destruct (parity in_cells s x) eqn:Es; [apply parity_extent in Es; lia|]. destruct (parity in_cells c x) eqn:Ec; [apply parity_extent in Ec; lia|]. rewrite op_none in H. discriminate. }
  apply area_parity; [| |apply extent_pos].
  - intros x H. destruct t; [|exact H..]. unfold f in H. cbn [op] in H. apply existsb_exists. apply orb_true_iff in H.
    destruct H as [H|H]; apply parity_some in H; destruct H as (p & Ip & Hp); exists p; (split; [apply in_app_iff; auto|exact Hp]).
  - intros x H. destruct t; [|apply B, H..]. apply existsb_exists in H. destruct H as (p & Ip & Hp). pose proof (inside_extent p x (extent (s ++ c)) (fun q Iq => extent_spec _ p q Ip Iq) Hp). lia.
Qed.
Lemma offset_cells d cs y : parity in_cells (flat_map contours (grid_offset d cs)) y = true <->
  (0 <= whole d /\ exists x, In x (near (whole d) y) /\ parity in_cells cs x = true) \/ (whole d < 0 /\ forall x, In x (near (- whole d) y) -> parity in_cells cs x = true).
Proof.
  unfold grid_offset. set (k := whole d). rewrite area_parity; [|auto| |].
  - destruct (Z.ltb_spec k 0) as [K|K].
    + rewrite forallb_forall. split; [intros H; right; auto|intros [(C & _)|(_ & H)]; [lia|exact H]].
    + rewrite existsb_exists. split; [intros H; left; auto|intros [(_ & H)|(C & _)]; [exact H|lia]].
  - intros x H. destruct (Z.ltb_spec k 0) as [K|K].
    + rewrite forallb_forall in H. assert (Hx : parity in_cells cs x = true) by (apply H, near_spec; lia). apply parity_extent in Hx. lia.
    + apply existsb_exists in H. destruct H as (z & Iz & Hz). apply near_spec in Iz; [|lia]. apply parity_extent in Hz. lia.
  - pose proof (extent_pos cs). lia.
Qed.
Theorem grid_exact : forall si co, exact in_cells (grid_lib si co).
Proof.
  intros si co. split; cbn [execute offset grid_lib].
  - intros t s c. destruct (grid_closed t s c) as (E1 & E2 & E3 & Q). unfold grid_execute. rewrite E1, E2, E3. do 2 eexists. split; [reflexivity|]. split; [apply area_nested|exact Q].
  - intros d cs. apply area_nested.
  - intros d cs x Hd H. apply offset_cells. left. split; [apply whole_pos, Hd|]. exists x. split; [|exact H]. apply near_spec; [apply whole_pos, Hd|]. pose proof (whole_pos d Hd). lia.
  - intros d cs x Hd H. pose proof (whole_neg d Hd) as W. apply offset_cells in H. destruct H as [(W' & z & Iz & Hz)|(W' & H)].
    + apply near_spec in Iz; [|exact W']. destruct x as [i j], z as [i' j']. cbn [fst snd] in Iz. replace i with i' by lia. replace j with j' by lia. exact Hz.
    + apply H, near_spec; lia.
Qed.
Lemma upright_on x t b i j : b <= t -> (on_cells [Pt x t; Pt x b] (i, j) = true <-> i = x /\ b <= j < t).
Proof.
  intros L. cbn [on_cells px py]. rewrite Z.eqb_refl, !andb_true_iff, Z.eqb_eq, Z.leb_le, Z.ltb_lt. lia.
Qed.
Lemma cut_pieces clip lines tree n : Forall upright lines ->
  grid_execute false CtIntersection (closed_as PtClip clip ++ map (fun l => (PtSubject, false, l)) lines) = Some (tree, n) ->
  forall c, In c tree <-> exists x t b j, In [Pt x t; Pt x b] lines /\ b <= j < t /\ parity in_cells clip (x, j) = true /\ c = Node [Pt x (j + 1); Pt x j] [].
Proof.
  intros U E c. rewrite Forall_forall in U. unfold grid_execute in E. rewrite open_lines, clip_paths in E. destruct lines as [|l0 lines].
  - cbn [map] in E. rewrite app_nil_r in E. assert (tree = []) as ->.
    { injection E as <- _. change (closed_as PtClip clip) with (closed_as PtSubject [] ++ closed_as PtClip clip). rewrite paths_subject. cbn [parity op andb]. unfold area.
      replace (filter _ _) with (@nil (Z * Z)); [reflexivity|]. induction (near _ _) as [|x l IH]; [reflexivity|exact IH]. }
    split; [intros []|intros (? & ? & ? & ? & [] & _)].
  - remember (l0 :: lines) as ls eqn:Els. assert (Et : tree = flat_map (pieces CtIntersection clip) ls) by (subst ls; injection E as <- _; reflexivity). clear E Els l0 lines. subst tree. rewrite in_flat_map. split.
    + intros (l & Il & Ic). destruct (U l Il) as (x & t & b & -> & L). cbn [pieces px py] in Ic. apply in_map_iff in Ic. destruct Ic as (j & <- & Ij). apply filter_In in Ij. destruct Ij as (_ & H). apply andb_true_iff in H. destruct H as (H & Q).
      apply upright_on in H; [|exact L]. exists x, t, b, j. tauto.
    + intros (x & t & b & j & Il & Hj & Q & ->). exists [Pt x t; Pt x b]. split; [exact Il|]. cbn [pieces px py]. apply in_map_iff. exists j. split; [reflexivity|]. apply filter_In.
      split; [apply range_spec; unfold between; lia|]. apply andb_true_iff. split; [apply upright_on; lia|exact Q].
Qed.
Theorem grid_capable : forall si co, (forall a r, fin64 a r -> exists s c, fin64 (si a) s /\ fin64 (co a) c /\ (Rabs s <= 1)%R /\ (Rabs c <= 1)%R) -> capable (grid_lib si co).
Proof.
  intros si co T. split.
  - intros r t l. discriminate.
  - intros clip lines tree n U E c Ic. apply (cut_pieces _ _ _ _ U E) in Ic. destruct Ic as (x & t & b & j & Il & Hj & _ & ->). exists x, t, b, (j + 1), j. cbn [contour]. repeat split; [exact Il|lia..].
  - exact T.
Qed.
Definition on_line (l : path) (x : cell) : Prop := on_cells l x = true.
Theorem grid_straight : straight on_line.
Proof.
  split.
  - intros [ax ay] [bx by_] [i j]. unfold on_line. cbn [on_cells px py existsb].
    rewrite (Z.eqb_sym bx ax), (Z.eqb_sym by_ ay), (Z.min_comm bx ax), (Z.min_comm by_ ay), (Z.max_comm bx ax), (Z.max_comm by_ ay). destruct (Z.eqb_spec ax bx) as [->|Nx]; [tauto|]. destruct (Z.eqb_spec ay by_) as [->|Ny]; [tauto|].
    rewrite !andb_true_iff, !orb_true_iff, !Z.leb_le, !Z.ltb_lt. intros (H & K). split; [split; [exact (proj1 H)|]|].
    + destruct K as [K|[K|[K|[K|K]]]]; [left|right; left|right; right; left|right; right; right; left|discriminate]; nia.
    + destruct (proj2 H) as [K'|[K'|[K'|[K'|K']]]]; [left|right; left|right; right; left|right; right; right; left|discriminate]; nia.
  - intros x y1 y2 z1 z2 [i j]. unfold on_line, between. cbn [on_cells px py]. rewrite Z.eqb_refl, !andb_true_iff, Z.eqb_eq, !Z.leb_le, !Z.ltb_lt. lia.
Qed.
Lemma on_extent l x : on_cells l x = true -> Z.abs (fst x) <= extent [l] /\ Z.abs (snd x) <= extent [l].
Proof.
  destruct l as [|a [|b [|? ?]]]; try discriminate. destruct x as [i j]. pose proof (extent_spec [[a; b]] [a; b] a (or_introl eq_refl) (or_introl eq_refl)). pose proof (extent_spec [[a; b]] [a; b] b (or_introl eq_refl) (or_intror (or_introl eq_refl))).
  set (e := extent _) in *. clearbody e. cbn [on_cells fst snd]. destruct (Z.eqb_spec (px a) (px b)) as [Ex|Nx]; [rewrite !andb_true_iff, Z.eqb_eq, !Z.leb_le, !Z.ltb_lt; lia|].
  destruct (Z.eqb_spec (py a) (py b)) as [Ey|Ny]; rewrite !andb_true_iff, ?Z.eqb_eq, !Z.leb_le, !Z.ltb_lt; lia.
Qed.
Theorem grid_cuts : forall si co, cuts_exactly in_cells on_line (grid_lib si co).
Proof.
  intros si co. split; cbn [execute grid_lib].
  - intros clip line. unfold grid_execute. change [(PtSubject, false, line)] with (map (fun l : path => (PtSubject, false, l)) [line]). rewrite open_lines, clip_paths. cbn [flat_map]. rewrite app_nil_r. do 2 eexists. split; [reflexivity|].
    cbn [pieces]. destruct (existsb _ _) eqn:X; cbn [List.length].
    + split; [|lia]. intros _. apply existsb_exists in X. destruct X as (x & _ & Hx). apply andb_true_iff in Hx. destruct Hx as (O & Q). exists x. split; [exact O|apply negb_true_iff, Q].
    + split; [cbn; lia|]. intros (x & O & Q). rewrite <- not_true_iff_false in X. destruct X. apply existsb_exists. exists x. split; [|unfold on_line in O; rewrite O, Q; reflexivity].
      apply near_spec; [apply extent_pos|]. cbn [fst snd]. rewrite !Z.sub_0_r. apply on_extent, O.
  - intros clip lines tree n U E [i j]. pose proof (cut_pieces _ _ _ _ U E) as C. rewrite Forall_forall in U. split.
    + intros (c & Ic & O). apply C in Ic. destruct Ic as (x & t & b & j' & Il & Hj & Q & ->). cbn [contour] in O. unfold on_line in O. apply upright_on in O; [|lia]. destruct O as (-> & O). replace j' with j in * by lia.
      split; [|exact Q]. exists [Pt x t; Pt x b]. split; [exact Il|]. apply upright_on; lia.
    + intros ((l & Il & O) & Q). destruct (U l Il) as (x & t & b & -> & L). apply upright_on in O; [|exact L]. destruct O as (-> & O). exists (Node [Pt x (j + 1); Pt x j] []).
      split; [apply C; exists x, t, b, j; tauto|]. cbn [contour]. apply upright_on; lia.
Qed.
Lemma hull_box p q : In q p -> exists x0 y0 x1 y1, grid_hull p = box_path x0 y0 x1 y1 /\ (forall q, In q p -> x0 <= px q <= x1 /\ y0 <= py q <= y1).
Proof.
  destruct p as [|a p]; [intros []|]. intros _. clear q. cbn [grid_hull]. do 4 eexists. split; [reflexivity|]. intros q Iq.
  assert (G : forall f : pt -> Z, fold_right (fun q m => Z.min (f q) m) (f a) p <= f q <= fold_right (fun q m => Z.max (f q) m) (f a) p).
  { intros f. destruct Iq as [->|Iq].
    - induction p as [|b p IH]; cbn [fold_right]; lia.
    - induction p as [|b p IH]; [destruct Iq|]. cbn [fold_right]. destruct Iq as [->|Iq]; [lia|]. specialize (IH Iq). lia. }
  split; [apply (G px)|apply (G py)].
Qed.
(** a contour surrounds only centres in the box of its points *)
Lemma inside_box c x x0 y0 x1 y1 : (forall q, In q c -> x0 <= px q <= x1 /\ y0 <= py q <= y1) -> in_cells c x = true -> x0 <= fst x < x1 /\ y0 <= snd x < y1.
Proof.
  intros H Hx. destruct x as [i j]. cbn [fst snd]. unfold in_cells in Hx.
  assert (D : forall z k, k < z -> (IZR k + 1 <= IZR z)%R) by (intros z k L; rewrite <- plus_IZR; apply IZR_le; lia).
  assert (D' : forall z k, z <= k -> (IZR z <= IZR k)%R) by (intros z k L; apply IZR_le; lia).
  destruct (Z_lt_ge_dec i x0) as [L|L1]; [exfalso|destruct (Z_lt_ge_dec i x1) as [L2|L]; [|exfalso]].
  - rewrite (surrounded_side 1 0) in Hx; [discriminate|]. intros v Iv. destruct (H v Iv). unfold side, center, exactly. cbn [fst snd]. specialize (D (px v) i ltac:(lia)). lra.
  - destruct (Z_lt_ge_dec j y0) as [L|L3]; [exfalso|destruct (Z_lt_ge_dec j y1) as [L4|L]; [lia|exfalso]].
    + rewrite (surrounded_side 0 1) in Hx; [discriminate|]. intros v Iv. destruct (H v Iv). unfold side, center, exactly. cbn [fst snd]. specialize (D (py v) j ltac:(lia)). lra.
    + rewrite (surrounded_side 0 (-1)) in Hx; [discriminate|]. intros v Iv. destruct (H v Iv). unfold side, center, exactly. cbn [fst snd]. specialize (D' (py v) j ltac:(lia)). lra.
  - rewrite (surrounded_side (-1) 0) in Hx; [discriminate|]. intros v Iv. destruct (H v Iv). unfold side, center, exactly. cbn [fst snd]. specialize (D' (px v) i ltac:(lia)). lra.
Qed.
Lemma inside_point c x : in_cells c x = true -> exists q, In q c.
Proof. destruct c as [|a c]; [discriminate|]. intros _. exists a. left. reflexivity. Qed.
Lemma hull_cells cs c x : In c cs -> in_cells c x = true -> in_cells (grid_hull (concat cs)) x = true.
Proof.
  intros Ic H. destruct (inside_point c x H) as (q & Iq). destruct (hull_box (concat cs) q) as (x0 & y0 & x1 & y1 & -> & B); [apply in_concat; eauto|].
  pose proof (inside_box c x x0 y0 x1 y1 (fun r Ir => B r ltac:(apply in_concat; eauto)) H) as Q. destruct x as [i j]. cbn [fst snd] in Q. apply box_inside; lia.
Qed.
Theorem grid_hulls : forall si co, hulls in_cells (grid_lib si co).
Proof.
  intros si co. split; cbn [execute hull grid_lib].
  - exact hull_cells.
  - intros cs some tree n t x Inc E It H. destruct (grid_closed CtUnion some []) as (E1 & E2 & E3 & _). cbn [closed_as map] in E1, E2, E3. rewrite app_nil_r in E1, E2, E3. unfold grid_execute in E. fold (closed_as PtSubject some) in E1, E2, E3. rewrite E1, E2, E3 in E. injection E as <- _.
    apply area_in in It; [|apply extent_pos]. destruct It as (y & -> & F & _). cbn [contour tile] in H. apply square_inside in H. subst y. rewrite app_nil_r in F. apply existsb_exists in F.
    destruct F as (c & Ic & Hc). exact (hull_cells cs c x (Inc c Ic) Hc).
Qed.
Theorem grid_grows : forall si co, grows_evenly in_cells (grid_lib si co).
Proof.
  intros si co a b d d' x Sub Hd Hd' H. cbn [offset grid_lib] in *. apply offset_cells in H. apply offset_cells. rewrite whole_id in H by lia. rewrite whole_id by lia. left. split; [lia|].
  destruct H as [(_ & y & Iy & Hy)|(C & _)]; [|lia]. exists y. split; [apply near_spec; [lia|]; apply near_spec in Iy; lia|]. cbn [parity] in *. rewrite xorb_false_r in *. exact (Sub y Hy).
Qed.
Theorem grid_outermost : forall si co strictly, outermost in_cells strictly (grid_lib si co).
Proof.
  intros si co strictly before c after tree n E _ x H. cbn [execute grid_lib] in E. set (some := before ++ c :: after) in *. destruct (grid_closed CtUnion some []) as (E1 & E2 & E3 & _). cbn [closed_as map] in E1, E2, E3. rewrite app_nil_r in E1, E2, E3.
  unfold grid_execute in E. fold (closed_as PtSubject some) in E1, E2, E3. rewrite E1, E2, E3 in E. injection E as <- _. rewrite app_nil_r.
  assert (Ic : In c some) by (apply in_app_iff; right; left; reflexivity). pose proof (inside_extent c x (extent some) (fun q Iq => extent_spec _ c q Ic Iq) H).
  exists (tile (fun x => op CtUnion (parity in_cells some x) (parity in_cells [] x)) x). split; [|apply square_inside; reflexivity]. apply area_in; [apply extent_pos|]. exists x. split; [reflexivity|]. split; [apply existsb_exists; exists c; auto|lia].
Qed.
