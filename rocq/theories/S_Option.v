(** What option texts mean, independent of the parsing code. *)
From Verif Require Import GoBase GoStr S_Text.
Local Open Scope string_scope.
Local Open Scope Z_scope.

(** decimal integer text: optional sign and at least one digit *)
Inductive int_text : string -> Z -> Prop :=
| it_plain s n : s <> "" -> dec_val 0 s = Some n -> int_text s n
| it_plus s n : s <> "" -> dec_val 0 s = Some n -> int_text ("+" ++ s) n
| it_minus s n : s <> "" -> dec_val 0 s = Some n -> int_text ("-" ++ s) (- n).

(** one entry of a fan table text, [layer=speed] *)
Definition fan_entry (s : string) (k v : Z) : Prop :=
  exists a b, s = a ++ "=" ++ b /\ int_text a k /\ int_text b v /\ 0 <= k < 2 ^ 63 /\ 0 <= v <= 255.

(** the value of the last entry with key [k] *)
Fixpoint last_value (l : list (Z * Z)) (k : Z) : option Z :=
  match l with
  | [] => None
  | (k', v) :: l' => match last_value l' k with
                     | Some w => Some w
                     | None => if k' =? k then Some v else None
                     end
  end.

(** [w] is the first blank separated word of a line: what is left of it after removing leading and trailing
    white space, up to the first blank *)
Definition first_word (line w : string) : Prop :=
  exists pre core post,
    line = pre ++ core ++ post /\ blank pre /\ blank post /\
    (forall sp u, In sp spaces -> core <> sp ++ u /\ core <> u ++ sp) /\
    (forall a b, w <> a ++ " " ++ b) /\ (core = w \/ exists r, core = w ++ " " ++ r).
