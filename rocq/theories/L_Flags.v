(** Lemmas about the command line. *)
From Verif Require Import GoBase GoFloat GoStr M_Micrometer M_Option M_Layer M_Flags S_Text S_Flags L_Str.
Local Open Scope list_scope.
Local Open Scope string_scope.
Local Open Scope Z_scope.

(** *** the words of a command line *)
(** parsing without setting anything *)
Definition read_long (s : string) (args : list string) : option (item * list string) :=
  match s with
  | EmptyString => None
  | String c _ =>
      if Ascii.eqb c "-" || Ascii.eqb c "=" then None
      else
        let '(name, value) := split_equal s in
        match find_long name with
        | None => None
        | Some f =>
            match value with
            | Some x => Some (Given name x, args)
            | None => match no_opt f with
                      | Some x => Some (Given name x, args)
                      | None => match args with x :: args' => Some (Given name x, args') | [] => None end
                      end
            end
        end
  end.
Fixpoint read_short (s : string) (args : list string) : option (list item * list string) :=
  match s with
  | EmptyString => Some ([], args)
  | String c t =>
      match strip_prefix "test." s with
      | Some _ => Some ([], args)
      | None =>
          match find_short c with
          | None => None
          | Some f =>
              match after_equal t with
              | Some x => Some ([Given (long f) x], args)
              | None =>
                  match no_opt f with
                  | Some x => match read_short t args with Some (l, rest) => Some (Given (long f) x :: l, rest) | None => None end
                  | None =>
                      match t with
                      | String _ _ => Some ([Given (long f) t], args)
                      | EmptyString => match args with x :: args' => Some ([Given (long f) x], args') | [] => None end
                      end
                  end
              end
          end
      end
  end.
Fixpoint read_args (fuel : nat) (args : list string) : option (list item) :=
  match args with
  | [] => Some []
  | s :: args' =>
      match fuel with
      | O => None
      | S fuel' =>
          let positional := option_map (cons (Operand s)) (read_args fuel' args') in
          match s with
          | String d (String c t) =>
              if Ascii.eqb d "-" then
                if Ascii.eqb c "-" then
                  if String.eqb t "" then Some (map Operand args')
                  else match read_long t args' with Some (i, rest) => option_map (cons i) (read_args fuel' rest) | None => None end
                else match read_short (String c t) args' with Some (l, rest) => option_map (app l) (read_args fuel' rest) | None => None end
              else positional
          | _ => positional
          end
      end
  end.
(** setting the flags *)
Definition apply (v : option variables) (i : item) : option variables :=
  match v, i with
  | Some v, Given n s => match find_long n with Some f => set f v s | None => None end
  | v, _ => v
  end.

Lemma apply_none l : fold_left apply l None = None.
Proof. induction l as [|[] l IH]; cbn; auto. Qed.
Lemma apply_operands l v : fold_left apply (map Operand l) v = v.
Proof. induction l; cbn; auto. destruct v; auto. Qed.
Lemma operands_app a b : operands (a ++ b)%list = (operands a ++ operands b)%list.
Proof. unfold operands. apply flat_map_app. Qed.
Lemma operands_map l : operands (map Operand l) = l.
Proof. induction l; cbn; f_equal; auto. Qed.

Lemma find_long_long name f : find_long name = Some f -> long f = name.
Proof. unfold find_long. intros H. apply find_some in H. destruct H as [_ H]. apply String.eqb_eq in H. exact H. Qed.
(** every flag is found by its name *)
Lemma find_long_in f : In f flags -> find_long (long f) = Some f.
Proof. unfold flags. intros H. repeat (destruct H as [<-|H]; [reflexivity|]). destruct H. Qed.
Lemma find_short_in c f : find_short c = Some f -> In f flags.
Proof. unfold find_short. intros H. apply find_some in H. tauto. Qed.

Lemma parse_long_read s args v : parse_long s args v =
  match read_long s args with
  | Some (i, rest) => match apply (Some v) i with Some v' => Some (v', rest) | None => None end
  | None => None
  end.
Proof.
  unfold parse_long, read_long. destruct s as [|c s]; [reflexivity|]. destruct (_ || _); [reflexivity|].
  destruct (split_equal (String c s)) as [name value]. destruct (find_long name) as [f|] eqn:F; [|reflexivity].
  destruct value as [x|]; [cbn [apply]; rewrite F; reflexivity|].
  destruct (no_opt f) as [x|]; [cbn [apply]; rewrite F; reflexivity|].
  destruct args as [|x args]; [reflexivity|]. cbn [apply]. rewrite F. reflexivity.
Qed.
Lemma parse_short_read s : forall args v, parse_short s args v =
  match read_short s args with
  | Some (l, rest) => match fold_left apply l (Some v) with Some v' => Some (v', rest) | None => None end
  | None => None
  end.
Proof.
  induction s as [|c t IH]; intros args v; [reflexivity|].
  cbn [parse_short read_short].
  destruct (strip_prefix "test." (String c t)); [reflexivity|].
  destruct (find_short c) as [f|] eqn:F; [|reflexivity].
  pose proof (find_long_in f (find_short_in _ _ F)) as L.
  destruct (after_equal t) as [x|]; [cbn [fold_left apply]; rewrite L; reflexivity|].
  destruct (no_opt f) as [x|].
  - destruct (read_short t args) as [[l rest]|] eqn:R.
    + cbn [fold_left apply]. rewrite L. destruct (set f v x) as [v'|]; [|rewrite apply_none; reflexivity].
      rewrite IH. try rewrite R. reflexivity.
    + destruct (set f v x) as [v'|]; [|reflexivity]. rewrite IH. try rewrite R. reflexivity.
  - destruct t as [|a b]; [|cbn [fold_left apply]; rewrite L; reflexivity].
    destruct args as [|x args]; [reflexivity|]. cbn [fold_left apply]. rewrite L. reflexivity.
Qed.
Lemma read_short_operands s : forall args l rest, read_short s args = Some (l, rest) -> operands l = [].
Proof.
  induction s as [|c t IH]; intros args l rest; cbn [read_short]; [intros [= <- _]; reflexivity|].
  destruct (strip_prefix "test." (String c t)); [intros [= <- _]; reflexivity|].
  destruct (find_short c) as [f|]; [|discriminate].
  destruct (after_equal t) as [x|]; [intros [= <- _]; reflexivity|].
  destruct (no_opt f) as [x|].
  - destruct (read_short t args) as [[l' rest']|] eqn:R; [|discriminate]. intros [= <- _]. cbn. eapply IH; eassumption.
  - destruct t as [|a b]; [|intros [= <- _]; reflexivity]. destruct args as [|x args]; [discriminate|]. intros [= <- _]. reflexivity.
Qed.
Lemma read_long_given s args i rest : read_long s args = Some (i, rest) -> exists n x, i = Given n x.
Proof.
  unfold read_long. destruct s as [|c s]; [discriminate|]. destruct (_ || _); [discriminate|].
  destruct (split_equal (String c s)) as [name value]. destruct (find_long name) as [f|]; [|discriminate].
  destruct value as [x|]; [intros [= <- _]; eauto|].
  destruct (no_opt f) as [x|]; [intros [= <- _]; eauto|].
  destruct args as [|x args]; [discriminate|intros [= <- _]; eauto].
Qed.

Lemma parse_args_read fuel : forall args v, parse_args fuel args v =
  match read_args fuel args with
  | Some items => match fold_left apply items (Some v) with Some v' => Some (v', operands items) | None => None end
  | None => None
  end.
Proof.
  induction fuel as [|fuel IH]; intros [|s args] v; try reflexivity.
  cbn [parse_args read_args]. cbv zeta.
  assert (P : match parse_args fuel args v with Some (v', pos) => Some (v', s :: pos) | None => None end =
    match option_map (cons (Operand s)) (read_args fuel args) with
    | Some items => match fold_left apply items (Some v) with Some v' => Some (v', operands items) | None => None end
    | None => None end).
  { rewrite IH. destruct (read_args fuel args) as [items|]; [|reflexivity]. cbn [option_map fold_left apply].
    destruct (fold_left apply items (Some v)); reflexivity. }
  destruct s as [|d [|c t]]; [exact P|exact P|].
  destruct (Ascii.eqb d "-"); [|exact P].
  destruct (Ascii.eqb c "-").
  - destruct (String.eqb t "").
    + rewrite apply_operands, operands_map. reflexivity.
    + rewrite parse_long_read. destruct (read_long t args) as [[i rest]|] eqn:R; [|reflexivity].
      destruct (read_long_given _ _ _ _ R) as (n & x & ->).
      destruct (apply (Some v) (Given n x)) as [v'|] eqn:A.
      * rewrite IH. destruct (read_args fuel rest) as [items|]; [|reflexivity].
        cbn [option_map fold_left]. rewrite A. reflexivity.
      * destruct (read_args fuel rest); [|reflexivity]. cbn [option_map fold_left]. rewrite A, apply_none. reflexivity.
  - rewrite parse_short_read. destruct (read_short (String c t) args) as [[l rest]|] eqn:R; [|reflexivity].
    destruct (fold_left apply l (Some v)) as [v'|] eqn:A.
    + rewrite IH. destruct (read_args fuel rest) as [items|]; [|reflexivity].
      cbn [option_map]. rewrite fold_left_app, A, operands_app, (read_short_operands _ _ _ _ R). reflexivity.
    + destruct (read_args fuel rest); [|reflexivity]. cbn [option_map]. rewrite fold_left_app, A, apply_none. reflexivity.
Qed.

(** the remaining words are fewer *)
Lemma read_long_len s args i rest : read_long s args = Some (i, rest) -> (List.length rest <= List.length args)%nat.
Proof.
  unfold read_long. destruct s as [|c s]; [discriminate|]. destruct (_ || _); [discriminate|].
  destruct (split_equal (String c s)) as [name value]. destruct (find_long name) as [f|]; [|discriminate].
  destruct value as [x|]; [intros [= _ <-]; auto|].
  destruct (no_opt f) as [x|]; [intros [= _ <-]; auto|].
  destruct args as [|x args]; [discriminate|intros [= _ <-]; cbn; lia].
Qed.
Lemma read_short_len s : forall args l rest, read_short s args = Some (l, rest) -> (List.length rest <= List.length args)%nat.
Proof.
  induction s as [|c t IH]; intros args l rest; cbn [read_short]; [intros [= _ <-]; auto|].
  destruct (strip_prefix "test." (String c t)); [intros [= _ <-]; auto|].
  destruct (find_short c) as [f|]; [|discriminate].
  destruct (after_equal t) as [x|]; [intros [= _ <-]; auto|].
  destruct (no_opt f) as [x|].
  - destruct (read_short t args) as [[l' rest']|] eqn:R; [|discriminate]. intros [= _ <-]. eapply IH; eassumption.
  - destruct t as [|a b]; [|intros [= _ <-]; auto]. destruct args as [|x args]; [discriminate|]. intros [= _ <-]. cbn. lia.
Qed.

(** *** reading against the specification *)
Lemma flag_name_find n : flag_name n <-> exists f, find_long n = Some f.
Proof.
  split.
  - intros (get & H). unfold documented in H. repeat (destruct H as [[= <- _]|H]; [eexists; reflexivity|]). destruct H.
  - intros (f & H). pose proof (find_long_long _ _ H) as <-. unfold find_long in H. apply find_some in H. destruct H as [H _].
    assert (A : forallb (fun f => existsb (String.eqb (long f)) (map fst documented)) flags = true) by reflexivity.
    rewrite forallb_forall in A. specialize (A f H). apply existsb_exists in A. destruct A as (n & A & E). apply String.eqb_eq in E.
    rewrite E. apply in_map_iff in A. destruct A as ([n' get] & <- & A). exists get. exact A.
Qed.
Lemma switch_find n : switch n <-> exists f, find_long n = Some f /\ no_opt f = Some "true".
Proof.
  split.
  - intros (get & b & H & D). unfold documented in H.
    repeat (destruct H as [[= <- <-]|H]; [first [discriminate D | eexists; split; reflexivity]|]). destruct H.
  - intros (f & H & D). pose proof (find_long_long _ _ H) as <-. unfold find_long in H. apply find_some in H. destruct H as [H _].
    unfold flags in H. unfold switch.
    repeat (destruct H as [<-|H]; [first [discriminate D|eexists; eexists; split; [unfold documented; cbn [In]; repeat (try (left; reflexivity); right)|reflexivity]]|]). destruct H.
Qed.
Lemma no_opt_true f x : In f flags -> no_opt f = Some x -> x = "true".
Proof. unfold flags. intros H. repeat (destruct H as [<-|H]; [first [discriminate|intros [= <-]; reflexivity]|]). destruct H. Qed.
Lemma find_long_In n f : find_long n = Some f -> In f flags.
Proof. unfold find_long. intros H. apply find_some in H. tauto. Qed.
Lemma not_switch n f : find_long n = Some f -> no_opt f = None <-> ~ switch n.
Proof.
  intros F. rewrite switch_find. split.
  - intros N (g & G & E). congruence.
  - intros N. destruct (no_opt f) as [x|] eqn:E; [|reflexivity]. exfalso. apply N. exists f. split; [exact F|].
    rewrite E. f_equal. eapply no_opt_true; [eapply find_long_In; eassumption|exact E].
Qed.
(** names are not empty, do not begin with a dash and have no equals sign *)
Definition proper (n : string) : bool :=
  match n with String c _ => negb (Ascii.eqb c "-" || Ascii.eqb c "=") | _ => false end && no_char "=" n.
Lemma name_proper n : flag_name n -> proper n = true.
Proof. intros (get & H). unfold documented in H. repeat (destruct H as [[= <- _]|H]; [reflexivity|]). destruct H. Qed.

Lemma split_equal_app n s : no_char "=" n = true -> split_equal (n ++ "=" ++ s) = (n, Some s).
Proof.
  induction n as [|c n IH]; intros H; [reflexivity|]. unfold no_char in H. cbn [all_chars] in H. fold (no_char "=" n) in H. apply andb_prop in H. destruct H as [H1 H2].
  cbn [append split_equal]. rewrite Ascii.eqb_sym. apply negb_true_iff in H1. rewrite H1.
  change (String "=" s) with ("=" ++ s). rewrite IH by exact H2. reflexivity.
Qed.
Lemma split_equal_none n : no_char "=" n = true -> split_equal n = (n, None).
Proof.
  induction n as [|c n IH]; intros H; [reflexivity|]. unfold no_char in H. cbn [all_chars] in H. fold (no_char "=" n) in H. apply andb_prop in H. destruct H as [H1 H2].
  cbn [split_equal]. rewrite Ascii.eqb_sym. apply negb_true_iff in H1. rewrite H1, IH by exact H2. reflexivity.
Qed.
Lemma split_equal_inv s : forall n v, split_equal s = (n, v) -> s = match v with Some x => n ++ "=" ++ x | None => n end.
Proof.
  induction s as [|c s IH]; intros n v; cbn; [intros [= <- <-]; reflexivity|].
  destruct (Ascii.eqb_spec c "=") as [->|]; [intros [= <- <-]; reflexivity|].
  destruct (split_equal s) as [a b]. intros [= <- <-]. specialize (IH a b eq_refl). destruct b; cbn; f_equal; exact IH.
Qed.

(** what a long word gives *)
Inductive long_word : string -> list string -> item -> list string -> Prop :=
| lw_equal n s args : flag_name n -> long_word (n ++ "=" ++ s) args (Given n s) args
| lw_switch n args : switch n -> long_word n args (Given n "true") args
| lw_next n s args : flag_name n -> ~ switch n -> long_word n (s :: args) (Given n s) args.
Lemma read_long_iff s args i rest : read_long s args = Some (i, rest) <-> long_word s args i rest.
Proof.
  split.
  - unfold read_long. destruct s as [|c s]; [discriminate|]. destruct (_ || _) eqn:Hd; [discriminate|].
    destruct (split_equal (String c s)) as [n v] eqn:Es. apply split_equal_inv in Es.
    destruct (find_long n) as [f|] eqn:F; [|discriminate].
    assert (N : flag_name n) by (apply flag_name_find; eauto).
    destruct v as [x|].
    + rewrite Es. intros [= <- <-]. constructor; exact N.
    + rewrite Es. destruct (no_opt f) as [x|] eqn:O.
      * intros [= <- <-]. rewrite (no_opt_true f x (find_long_In _ _ F) O). constructor. apply switch_find. exists f. split; [exact F|].
        rewrite O. f_equal. eapply no_opt_true; [eapply find_long_In; eassumption|exact O].
      * destruct args as [|x args]; [discriminate|]. intros [= <- <-]. constructor; [exact N|]. apply (not_switch n f F), O.
  - intros H.
    assert (HN : forall n, flag_name n -> exists c t, n = String c t /\ (Ascii.eqb c "-" || Ascii.eqb c "=") = false /\ no_char "=" n = true).
    { intros n N. apply name_proper in N. unfold proper in N. apply andb_prop in N. destruct N as [N1 N2]. destruct n as [|c t]; [discriminate|].
      exists c, t. split; [reflexivity|]. split; [apply negb_true_iff, N1|exact N2]. }
    destruct H as [n s args N|n args N|n s args N W].
    + destruct (HN n N) as (c & t & -> & Hd & Hc). unfold read_long. rewrite (split_equal_app _ _ Hc).
      apply flag_name_find in N. destruct N as (f & ->). cbn [append]. rewrite Hd. reflexivity.
    + pose proof N as N'. apply switch_find in N'. destruct N' as (f & F & O).
      destruct (HN n) as (c & t & -> & Hd & Hc); [apply flag_name_find; eauto|].
      unfold read_long. rewrite (split_equal_none _ Hc), F, Hd, O. reflexivity.
    + destruct (HN n N) as (c & t & -> & Hd & Hc). unfold read_long. rewrite (split_equal_none _ Hc).
      apply flag_name_find in N. destruct N as (f & F). rewrite F, Hd. rewrite (proj2 (not_switch _ f F) W). reflexivity.
Qed.

Lemma letters_find c n : In (c, n) letters <-> exists f, find_short c = Some f /\ long f = n.
Proof.
  split.
  - intros [[= <- <-]|[[= <- <-]|[]]]; eexists; split; reflexivity.
  - intros (f & F & <-). unfold find_short in F. apply find_some in F. destruct F as [I E].
    unfold flags in I. repeat (destruct I as [<-|I]; [first [discriminate E|cbn [short VersionFlag OutputFlag] in E; apply Ascii.eqb_eq in E; subst c; cbn [long letters In VersionFlag OutputFlag]; tauto]|]). destruct I.
Qed.
Lemma after_equal_iff t : after_equal t = None <-> ~ equals_form t.
Proof.
  unfold after_equal, equals_form. destruct t as [|e [|a b]].
  - split; [|reflexivity]. intros _ (a & b & H). discriminate.
  - split; [|reflexivity]. intros _ (a & b & H). discriminate.
  - destruct (Ascii.eqb_spec e "=") as [->|C].
    + split; [discriminate|]. intros H. destruct H. exists a, b. reflexivity.
    + split; [|reflexivity]. intros _ (a' & b' & H). injection H as -> _ _. congruence.
Qed.
Lemma after_equal_some t x : after_equal t = Some x -> exists a b, x = String a b /\ t = "=" ++ String a b.
Proof.
  unfold after_equal. destruct t as [|e [|a b]]; try discriminate. destruct (Ascii.eqb_spec e "=") as [->|C]; [|discriminate].
  intros [= <-]. exists a, b. split; reflexivity.
Qed.
Lemma strip_prefix_app p s : strip_prefix p (p ++ s) = Some s.
Proof. induction p as [|a p IH]; cbn; [reflexivity|]. rewrite Ascii.eqb_refl. exact IH. Qed.
Lemma strip_prefix_inv p : forall s r, strip_prefix p s = Some r -> s = p ++ r.
Proof.
  induction p as [|a p IH]; cbn; intros s r; [intros [= ->]; reflexivity|]. destruct s as [|b s]; [discriminate|].
  destruct (Ascii.eqb_spec a b) as [->|]; [|discriminate]. intros H. rewrite (IH s r H) at 1. reflexivity.
Qed.
(** no letter flag is called t *)
Lemma letter_not_t c n t : In (c, n) letters -> strip_prefix "test." (String c t) = None.
Proof. intros [[= <- <-]|[[= <- <-]|[]]]; reflexivity. Qed.

Lemma read_short_iff s : forall args l rest, read_short s args = Some (l, rest) <-> bundle s args l rest.
Proof.
  split.
  - revert args l rest. induction s as [|c t IH]; intros args l rest; cbn [read_short]; [intros [= <- <-]; constructor|].
    destruct (strip_prefix "test." (String c t)) as [r|] eqn:T.
    { apply strip_prefix_inv in T. rewrite T. intros [= <- <-]. apply bu_test. }
    destruct (find_short c) as [f|] eqn:F; [|discriminate].
    assert (L : In (c, long f) letters) by (apply letters_find; eauto).
    pose proof (find_long_in f (find_short_in _ _ F)) as FL.
    destruct (after_equal t) as [x|] eqn:A.
    { apply after_equal_some in A. destruct A as (a & b & -> & ->). intros [= <- <-]. apply bu_equal, L. }
    apply after_equal_iff in A.
    destruct (no_opt f) as [x|] eqn:O.
    + pose proof (no_opt_true f x (find_short_in _ _ F) O) as Hx. subst x.
      destruct (read_short t args) as [[l' rest']|] eqn:R; [|discriminate]. intros [= <- <-]. apply bu_switch; auto.
      apply switch_find. exists f. split; [exact FL|]. exact O.
    + assert (W : ~ switch (long f)) by (apply (not_switch _ f FL), O).
      destruct t as [|a b].
      * destruct args as [|x args]; [discriminate|]. intros [= <- <-]. apply bu_next; assumption.
      * intros [= <- <-]. apply bu_attached; auto. discriminate.
  - intros H. induction H as [args|s args|c n a b args L|c n t args items rest L W E _ IH|c n t args L W E N|c n t args L W].
    + reflexivity.
    + cbn [append read_short]. change (String "t" (String "e" (String "s" (String "t" (String "." s))))) with ("test." ++ s).
      rewrite strip_prefix_app. reflexivity.
    + cbn [append read_short]. rewrite (letter_not_t c n _ L). apply letters_find in L. destruct L as (f & F & <-). rewrite F. reflexivity.
    + cbn [read_short]. rewrite (letter_not_t c n _ L). apply letters_find in L. destruct L as (f & F & <-). rewrite F.
      rewrite (proj2 (after_equal_iff t) E). apply switch_find in W. destruct W as (g & G & O).
      rewrite (find_long_in f (find_short_in _ _ F)) in G. injection G as <-. rewrite O, IH. reflexivity.
    + cbn [read_short]. rewrite (letter_not_t c n _ L). apply letters_find in L. destruct L as (f & F & <-). rewrite F.
      rewrite (proj2 (after_equal_iff t) E). rewrite (proj2 (not_switch _ f (find_long_in f (find_short_in _ _ F))) W).
      destruct t; [congruence|reflexivity].
    + cbn [read_short]. rewrite (letter_not_t c n _ L). apply letters_find in L. destruct L as (f & F & <-). rewrite F.
      cbn [after_equal]. rewrite (proj2 (not_switch _ f (find_long_in f (find_short_in _ _ F))) W). reflexivity.
Qed.

Lemma sp_long s args i rest items : long_word s args i rest -> spells rest items -> spells (("--" ++ s) :: args) (i :: items).
Proof. intros H S. destruct H; constructor; assumption. Qed.
Lemma read_args_sound fuel : forall args items, read_args fuel args = Some items -> spells args items.
Proof.
  induction fuel as [|fuel IH]; intros [|s args] items; cbn [read_args]; try (intros [= <-]; constructor); try discriminate. cbv zeta.
  assert (P : (s = "-" \/ (forall u, s <> "-" ++ u)) -> option_map (cons (Operand s)) (read_args fuel args) = Some items -> spells (s :: args) items).
  { intros C. destruct (read_args fuel args) as [l|] eqn:R; [|discriminate]. intros [= <-]. apply sp_operand; auto. }
  destruct s as [|d [|c t]].
  - apply P. right. intros u. discriminate.
  - apply P. destruct (Ascii.eqb_spec d "-") as [->|C]; [left; reflexivity|right; intros u [= E]; congruence].
  - destruct (Ascii.eqb_spec d "-") as [->|C]; [|apply P; right; intros u [= E]; congruence].
    destruct (Ascii.eqb_spec c "-") as [->|C].
    + destruct (String.eqb_spec t "") as [->|Ht]; [intros [= <-]; apply sp_end|].
      destruct (read_long t args) as [[i rest]|] eqn:R; [|discriminate]. destruct (read_args fuel rest) as [l|] eqn:R2; [|discriminate].
      intros [= <-]. apply (sp_long t args i rest l); [apply read_long_iff, R|apply IH, R2].
    + destruct (read_short (String c t) args) as [[l rest]|] eqn:R; [|discriminate]. destruct (read_args fuel rest) as [l2|] eqn:R2; [|discriminate].
      intros [= <-]. apply (sp_bundle (String c t) args l rest l2); [discriminate|intros u [= E]; congruence|apply read_short_iff, R|apply IH, R2].
Qed.
Lemma read_args_long fuel s args i rest items : long_word s args i rest -> read_args fuel rest = Some items ->
  read_args (S fuel) (("--" ++ s) :: args) = Some (i :: items).
Proof.
  intros H R. cbn [append read_args]. cbv zeta. cbn [Ascii.eqb Bool.eqb].
  change (Ascii.eqb "-" "-") with true. cbv iota.
  replace (String.eqb s "") with false.
  - rewrite (proj2 (read_long_iff _ _ _ _) H), R. reflexivity.
  - symmetry. apply String.eqb_neq. intros ->. apply read_long_iff in H. discriminate.
Qed.
Lemma read_args_complete args items : spells args items -> forall fuel, (List.length args <= fuel)%nat -> read_args fuel args = Some items.
Proof.
  induction 1 as [|args|n s args items N S IH|n args items N S IH|n s args items N W S IH|t args some rest items T D B S IH|s args items C S IH]; intros fuel Hf;
    (destruct fuel as [|fuel]; [try (cbn in Hf; lia)|]); cbn [List.length] in Hf; try reflexivity.
  - apply (read_args_long fuel (n ++ "=" ++ s) args _ args); [constructor; exact N|apply IH; lia].
  - apply (read_args_long fuel n args _ args); [constructor; exact N|apply IH; lia].
  - apply (read_args_long fuel n (s :: args) _ args); [constructor; assumption|apply IH; lia].
  - destruct t as [|c t]; [congruence|]. cbn [append read_args]. cbv zeta. change (Ascii.eqb "-" "-") with true. cbv iota.
    destruct (Ascii.eqb_spec c "-") as [->|_]; [destruct (D t); reflexivity|].
    apply read_short_iff in B. pose proof (read_short_len _ _ _ _ B). rewrite B, IH by lia. reflexivity.
  - cbn [read_args]. cbv zeta. rewrite IH by lia. destruct s as [|d [|c t]]; [reflexivity|reflexivity|].
    destruct (Ascii.eqb_spec d "-") as [->|_]; [|reflexivity]. destruct C as [C|C]; [discriminate|]. destruct (C (String c t)). reflexivity.
Qed.

(** *** what the flags set *)
(** the result of ParseFlags for the variables, without the operands *)
Definition seen (v : variables) : options * bool :=
  (upd_printer (fun r => PrinterOptions (ExtrusionWidth r) (v_center v) (ForceSafeStartStopGCode r) (HasHeatedBed r) (StartGCode r) (EndGCode r)) (v_options v), v_version v).
Definition sets_only (f : flag) (d : string * (options * bool -> value)) : Prop :=
  forall v s, match set f v s with
              | Some v' => if String.eqb (long f) (fst d) then reading (snd d (seen v)) s = Some (snd d (seen v')) else snd d (seen v') = snd d (seen v)
              | None => if String.eqb (long f) (fst d) then reading (snd d (seen v)) s = None else True
              end.
Lemma parse_bool_reading s : match parse_bool s with Some b => reading (VBool true) s = Some (VBool b) /\ reading (VBool false) s = Some (VBool b) | None => reading (VBool true) s = None /\ reading (VBool false) s = None end.
Proof.
  unfold parse_bool, reading. cbn [existsb].
  repeat match goal with |- context [String.eqb s ?t] => destruct (String.eqb s t); cbn [orb] end; auto.
Qed.
(** An assignment that changes only the field of the flag [n]. *)
Definition assigns (n : string) (asg : variables -> variables) (old new : variables -> value) : Prop :=
  Forall (fun d : string * (options * bool -> value) => forall v,
    if String.eqb n (fst d) then snd d (seen v) = old v /\ snd d (seen (asg v)) = new v else snd d (seen (asg v)) = snd d (seen v)) documented.
Lemma flag_assigns f (old : variables -> value) :
  (forall v s, match set f v s with
               | Some v' => exists asg new, assigns (long f) asg old new /\ v' = asg v /\ reading (old v) s = Some (new v)
               | None => reading (old v) s = None
               end) ->
  Forall (fun d : string * (options * bool -> value) => forall v, String.eqb (long f) (fst d) = true -> snd d (seen v) = old v) documented ->
  Forall (sets_only f) documented.
Proof.
  intros H O. rewrite Forall_forall in *. intros d Hd v s. specialize (H v s). specialize (O d Hd v).
  destruct (set f v s) as [v'|].
  - destruct H as (asg & new & A & -> & R). unfold assigns in A. rewrite Forall_forall in A. specialize (A d Hd v).
    destruct (String.eqb (long f) (fst d)); [|exact A]. destruct A as [A1 A2]. rewrite A1, A2. exact R.
  - destruct (String.eqb (long f) (fst d)); [|exact I]. rewrite O by reflexivity. exact H.
Qed.
Ltac each := repeat match goal with |- Forall _ [] => constructor | |- Forall _ (_ :: _) => constructor end.
Lemma int_flag n upd get : (forall x, assigns n (on_options (upd x)) (fun v => VInt (get v)) (fun _ => VInt x)) -> Forall (sets_only (IntFlag n upd)) documented.
Proof.
  intros A. apply (flag_assigns _ (fun v => VInt (get v))).
  - intros v s. cbn [set IntFlag]. cbn [reading]. unfold MicrometerSet. destruct (parse_int true s) as [x [e|]]; [reflexivity|].
    exists (on_options (upd x)), (fun _ => VInt x). split; [apply A|]. split; reflexivity.
  - specialize (A 0). unfold assigns in A. eapply Forall_impl; [|exact A]. cbn beta. intros d H v E. specialize (H v). cbn [long IntFlag] in E. rewrite E in H. apply H.
Qed.
Lemma milli_flag n upd get : (forall x, assigns n (on_options (upd x)) (fun v => VFloat (get v)) (fun _ => VFloat x)) -> Forall (sets_only (MilliFlag n upd)) documented.
Proof.
  intros A. apply (flag_assigns _ (fun v => VFloat (get v))).
  - intros v s. cbn [set MilliFlag]. cbn [reading]. destruct (MillimeterSet s) as [x [e|]]; [reflexivity|].
    exists (on_options (upd x)), (fun _ => VFloat x). split; [apply A|]. split; reflexivity.
  - specialize (A S754_nan). unfold assigns in A. eapply Forall_impl; [|exact A]. cbn beta. intros d H v E. specialize (H v). cbn [long MilliFlag] in E. rewrite E in H. apply H.
Qed.
Lemma bool_flag f n (upd : bool -> variables -> variables) get : long f = n ->
  (forall v s, set f v s = match parse_bool s with Some x => Some (upd x v) | None => None end) ->
  (forall x, assigns n (upd x) (fun v => VBool (get v)) (fun _ => VBool x)) -> Forall (sets_only f) documented.
Proof.
  intros L S A. apply (flag_assigns _ (fun v => VBool (get v))).
  - intros v s. rewrite S. pose proof (parse_bool_reading s) as P. destruct (parse_bool s) as [x|].
    + exists (upd x), (fun _ => VBool x). split; [rewrite L; apply A|]. split; [reflexivity|]. destruct (get v); apply P.
    + destruct (get v); apply P.
  - specialize (A true). unfold assigns in A. eapply Forall_impl; [|exact A]. cbn beta. intros d H v E. specialize (H v). rewrite L in E. rewrite E in H. apply H.
Qed.
Lemma fan_flag n upd get : (forall x, assigns n (on_options (upd x)) (fun v => VTable (get (v_options v))) (fun _ => VTable x)) -> Forall (sets_only (FanFlag n get upd)) documented.
Proof.
  intros A. apply (flag_assigns _ (fun v => VTable (get (v_options v)))).
  - intros v s. cbn [set FanFlag]. cbn [reading]. destruct (FanSpeedSet (get (v_options v)) s) as [x [e|]]; [reflexivity|].
    exists (on_options (upd x)), (fun _ => VTable x). split; [apply A|]. split; reflexivity.
  - specialize (A []). unfold assigns in A. eapply Forall_impl; [|exact A]. cbn beta. intros d H v E. specialize (H v). cbn [long FanFlag] in E. rewrite E in H. apply H.
Qed.
Lemma hunk_flag n upd get : (forall x, assigns n (on_options (upd x)) (fun v => VLines (get (v_options v))) (fun _ => VLines x)) -> Forall (sets_only (HunkFlag n get upd)) documented.
Proof.
  intros A. apply (flag_assigns _ (fun v => VLines (get (v_options v)))).
  - intros v s. cbn [set HunkFlag]. cbn [reading]. destruct (HunkSet (get (v_options v)) s) as [x [e|]]; [reflexivity|].
    exists (on_options (upd x)), (fun _ => VLines x). split; [apply A|]. split; reflexivity.
  - specialize (A []). unfold assigns in A. eapply Forall_impl; [|exact A]. cbn beta. intros d H v E. specialize (H v). cbn [long HunkFlag] in E. rewrite E in H. apply H.
Qed.
Ltac pick := unfold assigns, documented; each; let w := fresh in intros w;
  first [ exact eq_refl | split; exact eq_refl ].
Lemma output_flag : Forall (sets_only OutputFlag) documented.
Proof.
  apply (flag_assigns _ (fun v => VText (OutputFilePath (GoSlice (v_options v))))).
  - intros v s. cbn [set OutputFlag]. exists (on_options (upd_goslice (fun r => GoSliceOptions (InputFilePath r) s))), (fun _ => VText s).
    split; [|split; reflexivity]. cbn [long OutputFlag]. pick.
  - unfold documented. each; intros v; first [discriminate|reflexivity].
Qed.
Lemma center_flag : Forall (sets_only CenterFlag) documented.
Proof.
  apply (flag_assigns _ (fun v => VVec (v_center v))).
  - intros v s. cbn [set CenterFlag reading]. destruct (MicroVec3Set (v_center v) s) as [x [e|]]; [reflexivity|].
    exists (fun v => Variables (v_options v) (v_version v) x), (fun _ => VVec x).
    split; [|split; reflexivity]. cbn [long CenterFlag]. pick.
  - unfold documented. each; intros v; first [discriminate|reflexivity].
Qed.
Ltac a_flag := lazymatch goal with
  | |- Forall (sets_only (MicroFlag ?n ?u)) _ => change (MicroFlag n u) with (IntFlag n u); eapply int_flag; intros x; pick
  | |- Forall (sets_only (IntFlag ?n ?u)) _ => eapply int_flag; intros x; pick
  | |- Forall (sets_only (MilliFlag ?n ?u)) _ => eapply milli_flag; intros x; pick
  | |- Forall (sets_only (BoolFlag ?n ?u)) _ => eapply (bool_flag _ n (fun x => on_options (u x))); [reflexivity|reflexivity|intros x; pick]
  | |- Forall (sets_only (FanFlag ?n ?g ?u)) _ => eapply fan_flag; intros x; pick
  | |- Forall (sets_only (HunkFlag ?n ?g ?u)) _ => eapply hunk_flag; intros x; pick
  | |- Forall (sets_only OutputFlag) _ => exact output_flag
  | |- Forall (sets_only CenterFlag) _ => exact center_flag
  | |- Forall (sets_only VersionFlag) _ => eapply (bool_flag _ "version" (fun x v => Variables (v_options v) x (v_center v))); [reflexivity|reflexivity|intros x; pick]
  end.
Lemma flags_set_only : Forall (fun f => Forall (sets_only f) documented) flags.
Proof. unfold flags. each. all: a_flag. Qed.

(** *** all flags *)
Lemma apply_field name get n s v v' : In (name, get) documented -> find_long n <> None -> apply (Some v) (Given n s) = Some v' ->
  if String.eqb n name then reading (get (seen v)) s = Some (get (seen v')) else get (seen v') = get (seen v).
Proof.
  intros D N. cbn [apply]. destruct (find_long n) as [f|] eqn:F; [|congruence]. intros H.
  pose proof flags_set_only as A. rewrite Forall_forall in A. specialize (A f (find_long_In _ _ F)). rewrite Forall_forall in A.
  specialize (A _ D v s). rewrite H, (find_long_long _ _ F) in A. exact A.
Qed.
Lemma fold_field name get items : In (name, get) documented -> forall v v', fold_left apply items (Some v) = Some v' -> final name (get (seen v)) items = Some (get (seen v')).
Proof.
  intros D. induction items as [|[n s|s] items IH]; intros v v'; cbn [fold_left].
  - intros [= <-]. reflexivity.
  - destruct (apply (Some v) (Given n s)) as [w|] eqn:A; [|rewrite apply_none; discriminate]. intros H.
    assert (N : find_long n <> None) by (cbn [apply] in A; destruct (find_long n); [discriminate|discriminate A]).
    pose proof (apply_field name get n s v w D N A) as E. cbn [final]. destruct (String.eqb n name).
    + rewrite E. apply IH, H.
    + rewrite <- E. apply IH, H.
  - cbn [apply final]. apply IH.
Qed.
Lemma fold_total items : (forall n s, In (Given n s) items -> flag_name n) -> forall v,
  (forall name get, In (name, get) documented -> final name (get (seen v)) items <> None) -> exists v', fold_left apply items (Some v) = Some v'.
Proof.
  induction items as [|[n s|s] items IH]; intros N v H; cbn [fold_left].
  - eauto.
  - destruct (N n s (or_introl eq_refl)) as (get & D).
    pose proof (proj1 (flag_name_find n) (ex_intro _ get D)) as (f & F).
    destruct (apply (Some v) (Given n s)) as [w|] eqn:A.
    + apply IH; [intros; eapply N; right; eassumption|]. intros name g Dg E. apply (H name g Dg). cbn [final].
      pose proof (apply_field name g n s v w Dg ltac:(congruence) A) as P. destruct (String.eqb n name); [rewrite P; exact E|rewrite <- P; exact E].
    + exfalso. apply (H n get D). cbn [final]. rewrite String.eqb_refl.
      pose proof flags_set_only as S. rewrite Forall_forall in S. specialize (S f (find_long_In _ _ F)). rewrite Forall_forall in S.
      specialize (S _ D v s). cbn [apply] in A. rewrite F in A. rewrite A, (find_long_long _ _ F) in S. cbn [fst snd] in S. rewrite String.eqb_refl in S.
      rewrite S. reflexivity.
  - cbn [apply]. apply IH; [intros; eapply N; right; eassumption|exact H].
Qed.
Lemma bundle_names t args l rest : bundle t args l rest -> forall n s, In (Given n s) l -> flag_name n.
Proof.
  assert (L : forall c n, In (c, n) letters -> flag_name n).
  { intros c n [[= _ <-]|[[= _ <-]|[]]]; apply flag_name_find; eexists; reflexivity. }
  induction 1; intros m x HI; cbn [In] in HI; repeat match goal with H : _ \/ _ |- _ => destruct H | H : False |- _ => destruct H end;
    try match goal with H : Given _ _ = Given _ _ |- _ => injection H as H _; subst end; eauto.
Qed.
Lemma spells_names args items : spells args items -> forall n s, In (Given n s) items -> flag_name n.
Proof.
  induction 1; intros m x HI; cbn [In] in HI; try tauto.
  - apply in_map_iff in HI. destruct HI as (y & Hy & _). discriminate.
  - destruct HI as [[= -> ->]|HI]; eauto.
  - destruct HI as [[= <- <-]|HI]; eauto. apply switch_find in H. destruct H as (f & F & _). apply flag_name_find. eauto.
  - destruct HI as [[= -> ->]|HI]; eauto.
  - apply in_app_iff in HI. destruct HI as [HI|HI]; eauto using bundle_names.
  - destruct HI as [HI|HI]; [discriminate|]. eauto.
Qed.

Lemma spells_unique args i1 i2 : spells args i1 -> spells args i2 -> i1 = i2.
Proof.
  intros H1 H2. pose proof (read_args_complete _ _ H1 (List.length args) (le_n _)). pose proof (read_args_complete _ _ H2 (List.length args) (le_n _)). congruence.
Qed.
Lemma input_get name get o p b : In (name, get) documented -> get (upd_goslice (fun r => GoSliceOptions p (OutputFilePath r)) o, b) = get (o, b).
Proof. unfold documented. intros H. repeat (destruct H as [[= _ <-]|H]; [reflexivity|]). destruct H. Qed.
Definition start : variables := Variables DefaultOptions false (Center (Printer DefaultOptions)).
Lemma ParseFlags_spec args o b : ParseFlags args = Some (o, b) ->
  exists items, spells args items /\ InputFilePath (GoSlice o) = hd "" (operands items) /\
    forall name get, In (name, get) documented -> final name (get defaults) items = Some (get (o, b)).
Proof.
  unfold ParseFlags. fold start. rewrite parse_args_read. destruct (read_args (List.length args) args) as [items|] eqn:R; [|discriminate].
  destruct (fold_left apply items (Some start)) as [v|] eqn:F; [|discriminate].
  change (upd_printer _ (v_options v)) with (fst (seen v)). change (v_version v) with (snd (seen v)). destruct (seen v) as [o' b'] eqn:S. cbn [fst snd].
  intros H. exists items. split; [eapply read_args_sound; eassumption|].
  assert (I0 : InputFilePath (GoSlice o') = "").
  { assert (K : forall l v v', fold_left apply l (Some v) = Some v' -> InputFilePath (GoSlice (fst (seen v'))) = InputFilePath (GoSlice (fst (seen v)))).
    { clear. induction l as [|[n s|s] l IH]; intros v v'; cbn [fold_left].
      - intros [= <-]. reflexivity.
      - destruct (apply (Some v) (Given n s)) as [w|] eqn:A; [|rewrite apply_none; discriminate]. intros H. rewrite (IH _ _ H).
        cbn [apply] in A. destruct (find_long n) as [f|] eqn:F; [|discriminate]. apply find_long_In in F.
        clear - A F. unfold flags in F.
        repeat (destruct F as [<-|F]; [cbn [set VersionFlag OutputFlag CenterFlag MicroFlag IntFlag MilliFlag BoolFlag FanFlag HunkFlag] in A;
          repeat match type of A with context [match ?e with _ => _ end] => destruct e; try discriminate A end; injection A as <-; reflexivity|]).
        destruct F.
      - cbn [apply]. apply IH. }
    specialize (K _ _ _ F). rewrite S in K. exact K. }
  destruct (operands items) as [|p ps]; injection H as <- <-.
  - split; [exact I0|]. intros name get D. rewrite <- S. apply (fold_field name get items D start v F).
  - split; [reflexivity|]. intros name get D. rewrite (input_get name get o' p b' D), <- S. apply (fold_field name get items D start v F).
Qed.
Lemma ParseFlags_total args items : spells args items -> (forall name get, In (name, get) documented -> final name (get defaults) items <> None) ->
  exists r, ParseFlags args = Some r.
Proof.
  intros S H. unfold ParseFlags. fold start. rewrite parse_args_read, (read_args_complete _ _ S) by lia.
  destruct (fold_total items (spells_names _ _ S) start H) as (v & ->). eauto.
Qed.
