(** Reading numbers from text, independent of how they were written. *)
From Verif Require Import GoBase GoStr.
Local Open Scope string_scope.
Local Open Scope Z_scope.

(** value of a string of decimal digits appended to [acc] *)
Fixpoint dec_val (acc : Z) (s : string) : option Z :=
  match s with
  | EmptyString => Some acc
  | String c t => if is_digit c then dec_val (10 * acc + (code c - 48)) t else None
  end.

(** decimal number [sign] digits [. digits]: (mantissa, number of decimals) *)
Fixpoint num_scan (s : string) (acc : Z) (dot : bool) (k : nat) : option (Z * nat) :=
  match s with
  | EmptyString => Some (acc, k)
  | String c t =>
      if is_digit c then num_scan t (10 * acc + (code c - 48)) dot (if dot then S k else k)
      else if Ascii.eqb c "." && negb dot then num_scan t acc true k
      else None
  end.
Definition parse_num (s : string) : option (Z * nat) :=
  match s with
  | EmptyString => None
  | String c t =>
      if Ascii.eqb c "-" then match num_scan t 0 false 0 with Some (a, k) => Some (- a, k) | None => None end
      else num_scan s 0 false 0
  end.

(** all characters of a string satisfy p *)
Fixpoint all_chars (p : ascii -> bool) (s : string) : bool :=
  match s with EmptyString => true | String c t => p c && all_chars p t end.

(** white space text: a sequence of space runes *)
Inductive blank : string -> Prop :=
| blank_nil : blank ""
| blank_cons w s : In w spaces -> blank s -> blank (w ++ s).
