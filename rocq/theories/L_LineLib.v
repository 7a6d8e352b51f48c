(** The exact clipping library of the examples, which also cuts lines: an upright line is kept if it is inside of
    the clip area; taking an area away from a line leaves the line unless it is inside everywhere. *)
From Coq Require Import Reals Lra.
From Verif Require Import GoBase GoFloat M_Micrometer M_Geom2D M_Clip S_Slicer S_Clip S_Area S_Fill S_Lines L_Float L_Area L_Strip.
Local Open Scope Z_scope.

Definition open_paths (l : list added) : list path := flat_map (fun a => match a with (_, false, p) => [p] | _ => [] end) l.
Definition range (a b : Z) : list Z := map (fun k => Z.min a b + Z.of_nat k) (seq 0 (Z.to_nat (Z.abs (b - a) + 1))).
Definition kept (t : clip_type) (clip : list path) (p : path) : list node :=
  match p with
  | [a; b] => if match t with CtDifference => existsb (fun x => negb (parity in_strips clip x)) (range (px a) (px b)) | _ => parity in_strips clip (px a) end then [Node p []] else []
  | _ => []
  end.
Definition line_execute (reverse : bool) (t : clip_type) (l : list added) : option (list node * Z) :=
  match open_paths l with
  | [] => strip_execute reverse t l
  | ls => let r := flat_map (kept t (paths_of PtClip l)) ls in Some (r, Z.of_nat (List.length r))
  end.
Definition line_lib : clib := CLib line_execute strip_offset (fun p => p) (fun _ => f64_of_Z 0) (fun _ => f64_of_Z 1).

Lemma open_closed t ps : open_paths (closed_as t ps) = [].
Proof. unfold open_paths, closed_as. induction ps as [|p ps IH]; [reflexivity|exact IH]. Qed.
Theorem line_exact : exact in_strips line_lib.
Proof.
  destruct strip_exact as [A B C D]. split; [|exact B|exact C|exact D]. intros t s c. cbn [execute line_lib]. unfold line_execute.
  replace (open_paths (closed_as PtSubject s ++ closed_as PtClip c)) with (@nil path); [exact (A t s c)|]. unfold open_paths. rewrite flat_map_app.
  fold (open_paths (closed_as PtSubject s)) (open_paths (closed_as PtClip c)). rewrite !open_closed. reflexivity.
Qed.
Theorem line_capable : capable line_lib.
Proof.
  split.
  - intros r t l. cbn [execute line_lib]. unfold line_execute. destruct (open_paths l); [unfold strip_execute|]; discriminate.
  - intros clip lines tree n U E c Ic. cbn [execute line_lib] in E. unfold line_execute in E.
    replace (open_paths (closed_as PtClip clip ++ map (fun l => (PtSubject, false, l)) lines)) with lines in E.
    2: { unfold open_paths. rewrite flat_map_app. fold (open_paths (closed_as PtClip clip)). rewrite open_closed. clear. cbn [app]. induction lines as [|l lines IH]; [reflexivity|]. cbn [map flat_map app]. f_equal. exact IH. }
    destruct lines as [|l0 lines].
    + exfalso. unfold strip_execute in E. cbn [map] in E. rewrite app_nil_r in E. change (closed_as PtClip clip) with (closed_as PtSubject [] ++ closed_as PtClip clip) in E. rewrite paths_subject in E.
      injection E as <- _. revert Ic. unfold strips, toggles. cbn [parity op andb].
      assert (F : forall l, filter (fun _ : Z => xorb false false) l = []) by (clear; induction l as [|z l IH]; [reflexivity|exact IH]). cbn [fold_right] in *. rewrite F. cbn. tauto.
    + injection E as <- _. set (k := kept _ _) in Ic. change (In c (flat_map k (l0 :: lines))) in Ic. apply in_flat_map in Ic. subst k. destruct Ic as (p & Ip & Ic). rewrite Forall_forall in U. destruct (U p Ip) as (x & t & b & -> & L). unfold kept in Ic.
      destruct (parity _ _ _); [|destruct Ic]. destruct Ic as [<-|[]]. exists x, t, b, t, b. cbn [contour]. repeat split; try lia. exact Ip.
  - intros a r _. cbn [sine cosine line_lib]. exists 0%R, 1%R. split; [exact (fin64_of_Z 0 ltac:(vm_compute; discriminate))|]. split; [exact (fin64_of_Z 1 ltac:(vm_compute; discriminate))|].
    rewrite Rabs_R0, Rabs_R1. lra.
Qed.

(** the points of a line: all strips between its ends *)
Definition on_strips (l : path) (x : Z) : Prop := match l with [a; b] => between (px a) (px b) x | _ => False end.
Lemma range_spec a b x : In x (range a b) <-> between a b x.
Proof.
  unfold range, between. rewrite in_map_iff. split.
  - intros (k & <- & I). apply in_seq in I. lia.
  - intros H. exists (Z.to_nat (x - Z.min a b)). split; [lia|]. apply in_seq. lia.
Qed.
Theorem strips_straight : straight on_strips.
Proof. split; cbn; unfold between; intros; lia. Qed.
Lemma clip_paths clip ls : paths_of PtClip (closed_as PtClip clip ++ map (fun l => (PtSubject, false, l)) ls) = clip.
Proof.
  unfold paths_of, closed_as. rewrite flat_map_app. induction clip as [|c clip IH]; cbn [map flat_map app].
  - induction ls as [|l ls IH]; [reflexivity|exact IH].
  - f_equal. exact IH.
Qed.
Lemma open_lines clip ls : open_paths (closed_as PtClip clip ++ map (fun l => (PtSubject, false, l)) ls) = ls.
Proof.
  unfold open_paths. rewrite flat_map_app. fold (open_paths (closed_as PtClip clip)). rewrite open_closed. cbn [app]. induction ls as [|l ls IH]; [reflexivity|]. cbn [map flat_map app]. f_equal. exact IH.
Qed.
Theorem line_cuts : cuts_exactly in_strips on_strips line_lib.
Proof.
  split.
  - intros clip line. cbn [execute line_lib]. unfold line_execute. change [(PtSubject, false, line)] with (map (fun l : path => (PtSubject, false, l)) [line]).
    rewrite open_lines, clip_paths. cbn [flat_map]. rewrite app_nil_r. eexists _, _. split; [reflexivity|]. destruct line as [|a [|b [|? ?]]]; cbn [kept on_strips]; try (cbn; split; [lia|intros (? & [] & _)]).
    destruct (existsb _ _) eqn:X; cbn [List.length].
    + split; [|lia]. intros _. apply existsb_exists in X. destruct X as (x & Ix & Hx). exists x. split; [apply range_spec, Ix|apply negb_true_iff, Hx].
    + split; [cbn; lia|]. intros (x & Ox & Hx). assert (T : existsb (fun x => negb (parity in_strips clip x)) (range (px a) (px b)) = true); [|congruence].
      apply existsb_exists. exists x. split; [apply range_spec, Ox|rewrite Hx; reflexivity].
  - intros clip lines tree n U E x. cbn [execute line_lib] in E. unfold line_execute in E. rewrite open_lines, clip_paths in E. rewrite Forall_forall in U.
    destruct lines as [|l0 lines].
    + assert (tree = []) as ->.
      { unfold strip_execute in E. cbn [map] in E. rewrite app_nil_r in E. change (closed_as PtClip clip) with (closed_as PtSubject [] ++ closed_as PtClip clip) in E. rewrite paths_subject in E.
        injection E as <- _. unfold strips, toggles. cbn [parity op andb].
        assert (F : forall l, filter (fun _ : Z => xorb false false) l = []) by (clear; induction l as [|z l IH]; [reflexivity|exact IH]). rewrite F. reflexivity. }
      split; [intros (? & [] & _)|intros ((? & [] & _) & _)].
    + remember (l0 :: lines) as ls eqn:Els. assert (Et : tree = flat_map (kept CtIntersection clip) ls) by (subst ls; injection E as <- _; reflexivity). clear E Els l0 lines. subst tree. split.
      * intros (c & Ic & Oc). apply in_flat_map in Ic. destruct Ic as (l & Il & Ic). destruct (U l Il) as (x0 & t & b & -> & L). cbn [kept px] in Ic. destruct (parity in_strips clip x0) eqn:Q; [|destruct Ic].
        destruct Ic as [<-|[]]. cbn [contour on_strips px] in Oc. unfold between in Oc. assert (x = x0) by lia. subst x0. split; [|exact Q]. eexists. split; [exact Il|]. cbn [on_strips px]. unfold between. lia.
      * intros ((l & Il & Ol) & Q). destruct (U l Il) as (x0 & t & b & -> & L). cbn [on_strips px] in Ol. unfold between in Ol. assert (x = x0) by lia. subst x0.
        exists (Node [Pt x t; Pt x b] []). split; [apply in_flat_map; exists [Pt x t; Pt x b]; split; [exact Il|cbn [kept px]; rewrite Q; left; reflexivity]|]. cbn [contour on_strips px]. unfold between. lia.
Qed.
