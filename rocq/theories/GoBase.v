(** Machine integers, outcomes and small list helpers shared by all models. *)
From Coq Require Export String ZArith List Bool Lia.
From Coq Require Import ZifyBool.
Export ListNotations.
Local Open Scope Z_scope.

(** ** int64 (Go [int] and [data.Micrometer], 64 bit platform)
    Go wraps silently on overflow: every [+ - *] of the models goes through [wrap]. *)
Definition wrap (z : Z) : Z := (z + 2 ^ 63) mod 2 ^ 64 - 2 ^ 63.
Definition minInt64 : Z := - 2 ^ 63.
Definition maxInt64 : Z := 2 ^ 63 - 1.
(** [z] is a value an int64 variable can hold. *)
Definition int64 (z : Z) : Prop := - 2 ^ 63 <= z < 2 ^ 63.

Definition add64 (a b : Z) : Z := wrap (a + b).
Definition sub64 (a b : Z) : Z := wrap (a - b).
Definition mul64 (a b : Z) : Z := wrap (a * b).
Definition neg64 (a : Z) : Z := wrap (- a).
(** Go's integer division truncates toward zero; the only overflow is MinInt64 / -1, which wraps.
    Division by zero panics: callers test the divisor before using [quot64]. *)
Definition quot64 (a b : Z) : Z := wrap (Z.quot a b).
Definition rem64 (a b : Z) : Z := Z.rem a b.

Lemma wrap_id z : int64 z -> wrap z = z.
Proof. unfold int64, wrap; intros H. rewrite Z.mod_small; lia. Qed.

Lemma wrap_int64 z : int64 (wrap z).
Proof. unfold int64, wrap. pose proof (Z.mod_pos_bound (z + 2 ^ 63) (2 ^ 64) ltac:(lia)). lia. Qed.

Lemma wrap_eqm z : exists k, wrap z = z + k * 2 ^ 64.
Proof.
  unfold wrap. pose proof (Z.div_mod (z + 2 ^ 63) (2 ^ 64) ltac:(lia)).
  exists (- ((z + 2 ^ 63) / 2 ^ 64)). lia.
Qed.

Lemma wrap_add_l a b : wrap (wrap a + b) = wrap (a + b).
Proof.
  destruct (wrap_eqm a) as [k ->]. unfold wrap.
  replace (a + k * 2 ^ 64 + b + 2 ^ 63) with (a + b + 2 ^ 63 + k * 2 ^ 64) by ring.
  rewrite Z.mod_add by lia. reflexivity.
Qed.
Lemma wrap_add_r a b : wrap (a + wrap b) = wrap (a + b).
Proof. rewrite Z.add_comm, wrap_add_l, Z.add_comm. reflexivity. Qed.
Lemma wrap_opp a : wrap (- wrap a) = wrap (- a).
Proof.
  destruct (wrap_eqm a) as [k ->]. unfold wrap.
  replace (- (a + k * 2 ^ 64) + 2 ^ 63) with (- a + 2 ^ 63 + (- k) * 2 ^ 64) by ring.
  rewrite Z.mod_add by lia. reflexivity.
Qed.
Lemma wrap_sub_l a b : wrap (wrap a - b) = wrap (a - b).
Proof. apply (wrap_add_l a (- b)). Qed.
Lemma wrap_sub_r a b : wrap (a - wrap b) = wrap (a - b).
Proof.
  unfold Z.sub. rewrite <- (wrap_add_r a (- wrap b)), wrap_opp, wrap_add_r. reflexivity.
Qed.
Lemma wrap_mul_l a b : wrap (wrap a * b) = wrap (a * b).
Proof.
  destruct (wrap_eqm a) as [k ->]. unfold wrap.
  replace ((a + k * 2 ^ 64) * b + 2 ^ 63) with (a * b + 2 ^ 63 + (k * b) * 2 ^ 64) by ring.
  rewrite Z.mod_add by lia. reflexivity.
Qed.
Lemma wrap_mul_r a b : wrap (a * wrap b) = wrap (a * b).
Proof. rewrite Z.mul_comm, wrap_mul_l, Z.mul_comm. reflexivity. Qed.
Lemma wrap_wrap a : wrap (wrap a) = wrap a.
Proof. apply wrap_id, wrap_int64. Qed.

Lemma add64_id a b : int64 (a + b) -> add64 a b = a + b.
Proof. apply wrap_id. Qed.
Lemma sub64_id a b : int64 (a - b) -> sub64 a b = a - b.
Proof. apply wrap_id. Qed.
Lemma mul64_id a b : int64 (a * b) -> mul64 a b = a * b.
Proof. apply wrap_id. Qed.

Lemma add64_int64 a b : int64 (add64 a b). Proof. apply wrap_int64. Qed.
Lemma sub64_int64 a b : int64 (sub64 a b). Proof. apply wrap_int64. Qed.
Lemma mul64_int64 a b : int64 (mul64 a b). Proof. apply wrap_int64. Qed.

(** ** Outcomes
    [Ok] a normal return, [Err] a Go [error] value, [Panic] a run-time panic,
    [Diverge] a loop that did not end within the fuel of the model (theorems say when this cannot
    happen for any fuel, or happens for every fuel). *)
Inductive res (A : Type) : Type :=
| Ok (a : A)
| Err (e : string)
| Panic (why : string)
| Diverge.
Arguments Ok {A} a.
Arguments Err {A} e.
Arguments Panic {A} why.
Arguments Diverge {A}.

Definition bind {A B} (x : res A) (f : A -> res B) : res B :=
  match x with
  | Ok a => f a
  | Err e => Err e
  | Panic w => Panic w
  | Diverge => Diverge
  end.
Definition isOk {A} (x : res A) : bool := match x with Ok _ => true | _ => false end.

Declare Scope res_scope.
Delimit Scope res_scope with res.
Notation "'let*' x ':=' e1 'in' e2" := (bind e1 (fun x => e2))
  (at level 200, x pattern, e1 at level 100, e2 at level 200, right associativity) : res_scope.
Open Scope res_scope.

(** Go slice indexing: panics out of range (also for a negative index). *)
Definition idx {A} (l : list A) (i : Z) : res A :=
  if i <? 0 then Panic "index out of range"
  else match nth_error l (Z.to_nat i) with
       | Some a => Ok a
       | None => Panic "index out of range"
       end.

(** Replace element [n] of a list (no change if out of range). *)
Fixpoint set_nth {A} (n : nat) (x : A) (l : list A) : list A :=
  match l, n with
  | [], _ => []
  | _ :: t, O => x :: t
  | h :: t, S n' => h :: set_nth n' x t
  end.

Lemma set_nth_length {A} n (x : A) l : List.length (set_nth n x l) = List.length l.
Proof. revert n; induction l as [|h t IH]; intros [|n]; cbn; auto. Qed.
Lemma nth_error_set_nth_eq {A} n (x : A) l :
  (n < List.length l)%nat -> nth_error (set_nth n x l) n = Some x.
Proof. revert n; induction l as [|h t IH]; intros [|n] H; cbn in *; try lia; auto. apply IH; lia. Qed.
Lemma nth_error_set_nth_neq {A} n m (x : A) l :
  n <> m -> nth_error (set_nth n x l) m = nth_error l m.
Proof.
  revert n m; induction l as [|h t IH]; intros [|n] [|m] H; cbn; auto; try congruence.
Qed.

Lemma bind_Ok {A B} (x : res A) (f : A -> res B) b :
  bind x f = Ok b -> exists a, x = Ok a /\ f a = Ok b.
Proof. destruct x; cbn; intros H; try discriminate. eauto. Qed.

Lemma idx_Ok {A} (l : list A) i a :
  idx l i = Ok a -> 0 <= i < Z.of_nat (List.length l) /\ nth_error l (Z.to_nat i) = Some a.
Proof.
  unfold idx. destruct (Z.ltb_spec i 0); [discriminate|].
  destruct (nth_error l (Z.to_nat i)) eqn:E; [|discriminate]. intros [= ->].
  split; auto. assert (nth_error l (Z.to_nat i) <> None) by congruence.
  apply nth_error_Some in H0. lia.
Qed.
Lemma idx_in_range {A} (l : list A) i :
  0 <= i < Z.of_nat (List.length l) -> exists a, idx l i = Ok a /\ nth_error l (Z.to_nat i) = Some a.
Proof.
  intros H. unfold idx. destruct (Z.ltb_spec i 0); [lia|].
  destruct (nth_error l (Z.to_nat i)) eqn:E; eauto.
  apply nth_error_None in E. lia.
Qed.
