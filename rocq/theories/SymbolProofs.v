(** Symbols of derived units read back. *)

From Coq Require Import ZArith Ascii String List Bool Lia.
From Verif Require Import RatioMathsProofs Outcome CInt RatioMaths FixedString StringProofs TextTools DerivedSymbol SpecText TextProofs.
Import ListNotations.
Local Open Scope string_scope.
Local Open Scope Z_scope.
Local Open Scope res_scope.

(** * Splitting into factors *)

Ltac flat := repeat (first [rewrite append_assoc | progress (cbn [append])]); rewrite ?append_nil_r; try reflexivity.

(** The text [x] stays within one factor. *)
Definition passes (x : string) : Prop :=
  forall sep cur y, split false sep cur (x ++ y) = split false sep (cur ++ x) y.

Lemma passes_nil : passes "".
Proof. intros sep cur y. now rewrite append_nil_r. Qed.
Lemma passes_app : forall a b, passes a -> passes b -> passes (a ++ b).
Proof. intros a b A B sep cur y. rewrite append_assoc, A, B. now rewrite append_assoc. Qed.
Definition no_split (c : ascii) : bool := negb (Ascii.eqb c " " || Ascii.eqb c "/" || Ascii.eqb c "(").
Lemma passes_chars : forall x, all_chars no_split x = true -> passes x.
Proof.
  induction x as [|c x IH]; intros H sep cur y; [now rewrite append_nil_r|].
  cbn [all_chars] in H. apply andb_true_iff in H as [H1 H2]. cbn [append split].
  unfold no_split in H1. apply negb_true_iff, orb_false_iff in H1 as [H1 H3]. rewrite H1, H3.
  rewrite (IH H2). unfold add_char. now rewrite append_assoc.
Qed.
Lemma passes_par : forall x, all_chars (fun c => negb (Ascii.eqb c ")")) x = true -> forall sep cur y,
  split true sep cur (x ++ String ")" y) = split false sep (cur ++ x ++ ")") y.
Proof.
  induction x as [|c x IH]; intros H sep cur y; [reflexivity|].
  cbn [all_chars] in H. apply andb_true_iff in H as [H1 H2]. cbn [append split]. rewrite H1, (IH H2).
  unfold add_char. now rewrite append_assoc.
Qed.

Lemma all_chars_app : forall p a b, all_chars p (a ++ b) = all_chars p a && all_chars p b.
Proof. induction a as [|c a IH]; intros b; [reflexivity|]. cbn. now rewrite IH, andb_assoc. Qed.
Lemma all_chars_impl : forall p q s, (forall c, p c = true -> q c = true) -> all_chars p s = true -> all_chars q s = true.
Proof.
  induction s as [|c s IH]; intros I H; [reflexivity|]. cbn in *. apply andb_true_iff in H as [A B]. rewrite (I _ A). auto.
Qed.

Ltac digits10 H :=
  match type of H with 0 <= ?d <= 9 =>
    let C := fresh in
    assert (C : d = 0 \/ d = 1 \/ d = 2 \/ d = 3 \/ d = 4 \/ d = 5 \/ d = 6 \/ d = 7 \/ d = 8 \/ d = 9) by lia;
    repeat (destruct C as [->|C]; [try reflexivity|]); [..|subst d; try reflexivity]
  end.

Definition is_digit (c : ascii) : bool := match digit_of c with Some _ => true | None => false end.
Lemma digits_chars : forall ds, Forall (fun d => 0 <= d <= 9) ds -> all_chars is_digit (write char_of_digit ds) = true.
Proof.
  induction ds as [|d ds IH]; intros F; [reflexivity|]. inversion F as [|? ? D F']; subst. rewrite write_cons, all_chars_app, (IH F').
  digits10 D.
Qed.
Lemma digit_no : forall c x, is_digit c = true -> digit_of x = None -> Ascii.eqb c x = false.
Proof. intros c x H N. destruct (Ascii.eqb_spec c x) as [->|E]; auto. unfold is_digit in H. now rewrite N in H. Qed.
Lemma digit_no_split : forall c, is_digit c = true -> no_split c = true.
Proof. intros c H. unfold no_split. rewrite !(digit_no c) by (auto; reflexivity). reflexivity. Qed.
Lemma superscripts_chars : forall ds, Forall (fun d => 0 <= d <= 9) ds -> all_chars no_split (write superscript_of_digit ds) = true.
Proof.
  induction ds as [|d ds IH]; intros F; [reflexivity|]. inversion F as [|? ? D F']; subst. rewrite write_cons, all_chars_app, (IH F').
  digits10 D.
Qed.

Lemma cut_at_spec : forall c x y, all_chars (fun a => negb (Ascii.eqb a c)) x = true -> cut_at c (x ++ String c y) = (x, y).
Proof.
  intros c. induction x as [|a x IH]; intros y H; cbn [append cut_at].
  - now rewrite Ascii.eqb_refl.
  - cbn [all_chars] in H. apply andb_true_iff in H as [H1 H2]. apply negb_true_iff in H1. rewrite H1, (IH y H2). reflexivity.
Qed.

(** * Exponents *)

Definition exponent_text (e : string) (x : Z * Z) : Prop :=
  read_exponent e = Some x /\ (e = "" \/ exponent_begins e = true) /\ passes e.

Lemma exponent_one : exponent_text "" (1, 1).
Proof. split; [reflexivity|]. split; [now left|apply passes_nil]. Qed.
Lemma exponent_fraction : forall a b n d, decimal a n -> decimal b d ->
  exponent_text ("^(" ++ write char_of_digit a ++ "/" ++ write char_of_digit b ++ ")") (n, d).
Proof.
  intros a b n d Da Db. pose proof (digits_chars a (proj1 Da)) as Ca. pose proof (digits_chars b (proj1 Db)) as Cb. split; [|split].
  - cbn [append read_exponent]. change ("/" ++ write char_of_digit b ++ ")") with (String "/" (write char_of_digit b ++ ")")).
    rewrite cut_at_spec.
    2:{ eapply all_chars_impl; [|exact Ca]. intros c H. now rewrite (digit_no c). }
    change (write char_of_digit b ++ ")") with (write char_of_digit b ++ String ")" ""). rewrite cut_at_spec.
    2:{ eapply all_chars_impl; [|exact Cb]. intros c H. now rewrite (digit_no c). }
    rewrite (proj1 (decimal_reads a n Da)), (proj1 (decimal_reads b d Db)). reflexivity.
  - right. reflexivity.
  - intros sep cur y. cbn [append split Ascii.eqb Bool.eqb orb].
    replace ((write char_of_digit a ++ String "/" (write char_of_digit b ++ ")")) ++ y) with
      ((write char_of_digit a ++ "/" ++ write char_of_digit b) ++ String ")" y).
    2:{ flat. }
    rewrite passes_par.
    + unfold add_char. flat.
    + rewrite !all_chars_app. apply andb_true_iff. split; [|apply andb_true_iff; split; [reflexivity|]].
      * eapply all_chars_impl; [|exact Ca]. intros c H. now rewrite (digit_no c).
      * eapply all_chars_impl; [|exact Cb]. intros c H. now rewrite (digit_no c).
Qed.

(** Powers: the standard and the ASCII text. *)
Lemma exponent_ascii : forall ds n, decimal ds n -> exponent_text ("^" ++ write char_of_digit ds) (n, 1).
Proof.
  intros ds n D. pose proof (digits_chars ds (proj1 D)) as C. pose proof (proj1 (decimal_reads_int ds n D)) as R.
  split; [|split; [now right|]].
  - destruct (decimal_first ds n D) as (d & r & -> & Rd). rewrite write_cons in *. cbn [append read_exponent].
    clear D C. digits10 Rd; cbn [append char_of_digit nth Z.to_nat Pos.to_nat Pos.iter_op Nat.add] in *; now rewrite R.
  - apply passes_chars. rewrite all_chars_app. apply andb_true_iff. split; [reflexivity|].
    eapply all_chars_impl; [|exact C]. apply digit_no_split.
Qed.
Lemma exponent_ascii_neg : forall ds n, decimal ds n -> exponent_text ("^-" ++ write char_of_digit ds) (- n, 1).
Proof.
  intros ds n D. pose proof (digits_chars ds (proj1 D)) as C. pose proof (proj1 (decimal_reads ds n D)) as R.
  split; [|split; [now right|]].
  - cbn [append read_exponent]. cbn [read_int]. rewrite R. reflexivity.
  - apply passes_chars. rewrite all_chars_app. apply andb_true_iff. split; [reflexivity|].
    eapply all_chars_impl; [|exact C]. apply digit_no_split.
Qed.
Lemma not_caret : forall e, match e with String c _ => c <> "^"%char | EmptyString => False end ->
  read_exponent e = option_map whole (read_superscript e).
Proof.
  intros [|c r] H; [contradiction|]. unfold read_exponent. destruct c as [[] [] [] [] [] [] [] []]; try reflexivity. now elim H.
Qed.
Lemma exponent_super : forall ds n, decimal ds n -> exponent_text (write superscript_of_digit ds) (n, 1).
Proof.
  intros ds n D. pose proof (superscripts_chars ds (proj1 D)) as C. pose proof (proj2 (decimal_reads_int ds n D)) as R.
  split; [|split; [right|]].
  - rewrite not_caret; [now rewrite R|]. destruct (decimal_first ds n D) as (d & r & -> & Rd). rewrite write_cons.
    clear D C R. digits10 Rd; discriminate.
  - destruct (decimal_first ds n D) as (d & r & -> & Rd). rewrite write_cons. clear D C R. digits10 Rd.
  - now apply passes_chars.
Qed.
Lemma exponent_super_neg : forall ds n, decimal ds n -> exponent_text ("⁻" ++ write superscript_of_digit ds) (- n, 1).
Proof.
  intros ds n D. pose proof (superscripts_chars ds (proj1 D)) as C. pose proof (proj2 (decimal_reads ds n D)) as R.
  split; [|split; [now right|]].
  - rewrite not_caret; [|discriminate]. cbn [append read_superscript]. change (byte _ =? 226) with true at 1.
    cbn. rewrite R. reflexivity.
  - apply passes_chars. rewrite all_chars_app. apply andb_true_iff. split; [reflexivity|exact C].
Qed.

(** * Symbols *)

Lemma plain_parts : forall s, plain_symbol s = true ->
  s <> "" /\ s <> "1" /\ s <> "⋅" /\ all_chars plain_char s = true /\ superscript_free s = true.
Proof.
  intros s H. unfold plain_symbol in H. rewrite !andb_true_iff, !negb_true_iff, !String.eqb_neq in H. tauto.
Qed.
Lemma plain_passes : forall s, all_chars plain_char s = true -> passes s.
Proof.
  intros s H. apply passes_chars. eapply all_chars_impl; [|exact H]. intros c P. unfold plain_char, no_split in *.
  apply negb_true_iff in P. rewrite !orb_false_iff in P. destruct P as ((((A & B) & _) & D) & _). now rewrite A, B, D.
Qed.
Lemma begins_cases : forall s, superscript_begins s = true ->
  (exists a b r, s = String a (String b r) /\ byte a = 194) \/
  (exists a b c r, s = String a (String b (String c r)) /\ byte a = 226 /\ byte b = 129).
Proof.
  intros [|a [|b r]] H; try discriminate. cbn [superscript_begins] in H. apply orb_true_iff in H as [H|H].
  - apply andb_true_iff in H as [H _]. apply Z.eqb_eq in H. left. eauto.
  - destruct r as [|c r]; [discriminate|]. apply andb_true_iff in H as [H _]. apply andb_true_iff in H as [H1 H2].
    apply Z.eqb_eq in H1, H2. right. repeat eexists; eauto.
Qed.
Lemma begins_first : forall e a r, exponent_begins e = true -> e = String a r -> byte a = 94 \/ byte a = 194 \/ byte a = 226.
Proof.
  intros e a r H E. unfold exponent_begins in H. subst e. destruct (Ascii.eqb_spec a "^") as [->|N]; [now left|].
  assert (B : superscript_begins (String a r) = true).
  { destruct a as [[] [] [] [] [] [] [] []]; try exact H. now elim N. }
  right. destruct (begins_cases _ B) as [(x & y & z & E & X)|(x & y & z & t & E & X & _)]; inversion E; subst; auto.
Qed.

(** A symbol without superscripts followed by an exponent does not begin with one. *)
Lemma free_begins : forall a s e, superscript_free (String a s) = true -> (e = "" \/ exponent_begins e = true) ->
  superscript_begins (String a (s ++ e)) = false.
Proof.
  intros a s e F E. destruct (superscript_begins (String a (s ++ e))) eqn:B; auto. exfalso.
  cbn [superscript_free] in F. apply andb_true_iff in F as [F F3]. apply andb_true_iff in F as [F1 F2].
  apply negb_true_iff in F1.
  destruct s as [|b [|c s]].
  - apply andb_true_iff in F3 as [F3 F4]. apply negb_true_iff, Z.eqb_neq in F3. apply negb_true_iff, Z.eqb_neq in F4.
    destruct (begins_cases _ B) as [(x & y & z & X & Y)|(x & y & z & t & X & Y & _)]; inversion X; subst; contradiction.
  - apply negb_true_iff, andb_false_iff in F3. cbn [append] in B.
    destruct E as [->|E].
    + cbn [append] in B. congruence.
    + destruct e as [|c e]; [discriminate|]. cbn [superscript_begins] in B, F1. rewrite orb_false_r in F1. rewrite F1 in B. cbn [orb] in B.
      apply andb_true_iff in B as [B _]. apply andb_true_iff in B as [B1 B2]. rewrite B1, B2 in F3. destruct F3; discriminate.
  - cbn [append superscript_begins] in *. congruence.
Qed.
Lemma cut_symbol : forall s e, all_chars plain_char s = true -> superscript_free s = true -> (e = "" \/ exponent_begins e = true) ->
  cut_exponent (s ++ e) = (s, e).
Proof.
  induction s as [|a s IH]; intros e P F E.
  - cbn [append]. destruct E as [->|E]; [reflexivity|]. destruct e; [discriminate|]. cbn [cut_exponent]. now rewrite E.
  - pose proof (free_begins a s e F E) as B. cbn [append cut_exponent]. cbn [all_chars] in P. apply andb_true_iff in P as [P1 P2].
    assert (X : exponent_begins (String a (s ++ e)) = false).
    { unfold exponent_begins. destruct (Ascii.eqb_spec a "^") as [->|N]; [discriminate|].
      destruct a as [[] [] [] [] [] [] [] []]; try exact B. now elim N. }
    rewrite X. cbn [superscript_free] in F. apply andb_true_iff in F as [F _]. apply andb_true_iff in F as [_ F].
    now rewrite (IH e P2 F E).
Qed.

(** One factor. *)
Definition factor (t : string) (sym : string) (x : Z * Z) : Prop :=
  passes t /\ t <> "1" /\ t <> "⋅" /\ exists e, cut_exponent t = (sym, e) /\ read_exponent e = Some x.
Lemma factor_intro : forall sym e x, plain_symbol sym = true -> exponent_text e x -> factor (sym ++ e) sym x.
Proof.
  intros sym e x P (R & B & Pe). destruct (plain_parts _ P) as (N0 & N1 & N2 & A & F). pose proof (cut_symbol sym e A F B) as C.
  split; [apply passes_app; auto; now apply plain_passes|]. split; [|split; [|now exists e]]; intros X; rewrite X in C; vm_compute in C; inversion C; subst; contradiction.
Qed.

(** The factors after the first: each with its separator. *)
Definition separator (dot : string) (slash : bool) : string := if slash then "/" else dot.
Definition is_dot (dot : string) : Prop := dot = " " \/ dot = " ⋅ ".
Fixpoint product_text (dot : string) (l : list (bool * string)) : string :=
  match l with [] => "" | (b, t) :: r => separator dot b ++ t ++ product_text dot r end.
Definition sep_char (b : bool) : ascii := if b then "/" else " ".

Lemma filter_nodot : forall c t r, t <> "⋅" -> filter no_dot ((c, t) :: r) = (c, t) :: filter no_dot r.
Proof.
  intros c t r N. cbn [filter]. unfold no_dot at 1. cbn [snd]. destruct (String.eqb_spec t "⋅"); [contradiction|reflexivity].
Qed.
Lemma split_product : forall dot l, is_dot dot -> Forall (fun p => passes (snd p) /\ snd p <> "⋅") l ->
  forall sep cur, cur <> "⋅" -> filter no_dot (split false sep cur (product_text dot l)) =
    (sep, cur) :: map (fun p => (sep_char (fst p), snd p)) l.
Proof.
  intros dot l Hd F. induction F as [|[b t] l [P N] F IH]; intros sep cur Nc.
  - cbn [product_text split]. now rewrite filter_nodot.
  - cbn [product_text map fst snd] in *. destruct b; cbn [separator sep_char].
    + cbn [append split Ascii.eqb Bool.eqb orb]. rewrite filter_nodot by auto. rewrite (P "/"%char "" (product_text dot l)). cbn [append].
      now rewrite IH.
    + destruct Hd as [->| ->].
      * cbn [append split Ascii.eqb Bool.eqb orb]. rewrite filter_nodot by auto. rewrite (P " "%char "" (product_text " " l)). cbn [append].
        now rewrite IH.
      * change (" ⋅ " ++ t ++ product_text " ⋅ " l) with (String " " ("⋅" ++ String " " (t ++ product_text " ⋅ " l))).
        cbn [split Ascii.eqb Bool.eqb orb]. rewrite filter_nodot by auto.
        assert (Q : passes "⋅") by (apply passes_chars; reflexivity). rewrite (Q " "%char "" (String " " (t ++ product_text " ⋅ " l))).
        cbn [append split Ascii.eqb Bool.eqb orb]. cbn [filter no_dot snd]. change (String.eqb "⋅" "⋅") with true. cbn [negb].
        rewrite (P " "%char "" (product_text " ⋅ " l)). cbn [append]. now rewrite IH.
Qed.

(** ** Slashes *)
Lemma has_char_app : forall c a b, has_char c (a ++ b) = has_char c a || has_char c b.
Proof. intros c. induction a as [|x a IH]; intros b; cbn; [reflexivity|]. now rewrite IH, orb_assoc. Qed.
Lemma has_char_all : forall c s, has_char c s = negb (all_chars (fun a => negb (Ascii.eqb a c)) s).
Proof. intros c. induction s as [|x s IH]; cbn; [reflexivity|]. rewrite IH, negb_andb, negb_involutive. reflexivity. Qed.
Lemma plain_no_slash : forall s, plain_symbol s = true -> has_char "/" s = false.
Proof.
  intros s P. destruct (plain_parts _ P) as (_ & _ & _ & A & _). rewrite has_char_all. apply negb_false_iff. eapply all_chars_impl; [|exact A].
  intros c H. unfold plain_char in H. apply negb_true_iff in H. rewrite !orb_false_iff in H. destruct H as ((((_ & H) & _) & _) & _). now rewrite H.
Qed.
Lemma digits_no_slash : forall ds, Forall (fun d => 0 <= d <= 9) ds ->
  has_char "/" (write char_of_digit ds) = false /\ has_char "/" (write superscript_of_digit ds) = false.
Proof.
  intros ds F. rewrite !has_char_all, !negb_false_iff. split.
  - eapply all_chars_impl; [|exact (digits_chars ds F)]. intros c H. now rewrite (digit_no c).
  - eapply all_chars_impl; [|exact (superscripts_chars ds F)]. intros c H. unfold no_split in H.
    destruct (Ascii.eqb c "/"); [|reflexivity]. rewrite ?orb_true_r, ?orb_true_l in H. discriminate H.
Qed.

(** * The texts of the model *)

(** The exponents the library can write. *)
Definition exponent_fits (x : Z * Z) : Prop := fst x <> 0 /\ Z.abs (fst x) <= INTMAX_MAX /\ 0 < snd x <= INTMAX_MAX.
(** What is written behind the symbol, with [neg] negative exponents in the list. *)
Definition shown (neg : Z) (x : Z * Z) : Z * Z :=
  (if (snd x =? 1) && (1 <? neg) then fst x else Z.abs (fst x), snd x).
Definition slash (neg : Z) (x : Z * Z) : bool := (fst x <? 0) && (neg =? 1).

Lemma exp_text_shape : forall n d sym neg idx, exponent_fits (n, d) -> exists es ea,
  exp_text n d sym neg idx = Ok (SymbolText (st_standard (operator_text (n <? 0) neg idx) ++ st_standard sym ++ es)
                                            (st_ascii (operator_text (n <? 0) neg idx) ++ st_ascii sym ++ ea)) /\
  exponent_text es (shown neg (n, d)) /\ exponent_text ea (shown neg (n, d)) /\
  (d = 1 -> has_char "/" es = false /\ has_char "/" ea = false).
Proof.
  intros n d sym neg idx (N0 & Na & Dd). cbn [fst snd] in *. unfold exp_text, shown. cbn [fst snd].
  assert (Ia : iabs n = Ok (Z.abs n)) by (apply iabs_total; auto).
  destruct (Z.eqb_spec d 1) as [->|Nd]; cbn [negb andb].
  - destruct (Z.eqb_spec n 1) as [->|N1]; cbn [negb].
    + exists "", "". rewrite !append_nil_r, st_add_append. split; [reflexivity|]. destruct (1 <? neg); (split; [apply exponent_one|]; split; [apply exponent_one|auto]).
    + destruct (Z.ltb_spec 1 neg) as [L|L].
      * destruct (superscript_digits n) as (ds & D & E); [unfold INTMAX_MIN, INTMAX_MAX in *; lia|]. rewrite E. cbn [bind]. rewrite !st_add_append.
        destruct (Z.ltb_spec n 0) as [S|S]; cbn [st_standard st_ascii].
        -- exists ("⁻" ++ write superscript_of_digit ds), ("^-" ++ write char_of_digit ds). split; [now rewrite !append_assoc|].
           rewrite Z.abs_neq in D by lia. pose proof (exponent_super_neg ds (- n) D) as X1. pose proof (exponent_ascii_neg ds (- n) D) as X2.
           rewrite Z.opp_involutive in X1, X2. split; [exact X1|]. split; [exact X2|]. intros _.
           rewrite !has_char_app. destruct (digits_no_slash ds (proj1 D)) as [-> ->]. split; reflexivity.
        -- exists (write superscript_of_digit ds), ("^" ++ write char_of_digit ds). split; [now rewrite !append_assoc|].
           rewrite Z.abs_eq in D by lia. split; [now apply exponent_super|]. split; [now apply exponent_ascii|]. intros _.
           rewrite !has_char_app. destruct (digits_no_slash ds (proj1 D)) as [-> ->]. split; reflexivity.
      * destruct (Z.eqb_spec n (-1)) as [->|Nm]; cbn [negb].
        -- exists "", "". rewrite !append_nil_r, st_add_append. split; [reflexivity|]. split; [apply exponent_one|]. split; [apply exponent_one|auto].
        -- rewrite Ia. cbn [bind]. destruct (superscript_digits (Z.abs n)) as (ds & D & E); [unfold INTMAX_MIN, INTMAX_MAX in *; lia|].
           rewrite E. cbn [bind]. rewrite !st_add_append. destruct (Z.ltb_spec (Z.abs n) 0); [lia|]. cbn [st_standard st_ascii].
           exists (write superscript_of_digit ds), ("^" ++ write char_of_digit ds). split; [now rewrite !append_assoc|].
           rewrite Z.abs_eq in D by lia. split; [now apply exponent_super|]. split; [now apply exponent_ascii|]. intros _.
           rewrite !has_char_app. destruct (digits_no_slash ds (proj1 D)) as [-> ->]. split; reflexivity.
  - rewrite Ia. cbn [bind]. destruct (regular_pos (Z.abs n)) as (a & Da & Ea); [lia|]. destruct (regular_pos d) as (b & Db & Eb); [lia|].
    rewrite Ea, Eb. cbn [bind]. rewrite !st_add_append. cbn [st_standard st_ascii st_of_ascii].
    exists ("^(" ++ write char_of_digit a ++ "/" ++ write char_of_digit b ++ ")"), ("^(" ++ write char_of_digit a ++ "/" ++ write char_of_digit b ++ ")").
    split; [|split; [now apply exponent_fraction|split; [now apply exponent_fraction|lia]]].
    f_equal. f_equal; flat.
Qed.

(** A list of factors, as the texts of the tokens. *)
Definition item : Type := (Z * Z) * symbol_text.
Definition item_ok (x : item) : Prop :=
  exponent_fits (fst x) /\ plain_symbol (st_standard (snd x)) = true /\ plain_symbol (st_ascii (snd x)) = true.
Definition tokens (part : symbol_text -> string) (neg : Z) (l : list item) (ts : list (bool * string)) : Prop :=
  Forall2 (fun x t => fst t = slash neg (fst x) /\ factor (snd t) (part (snd x)) (shown neg (fst x))) l ts.

Lemma op_next : forall n neg i, operator_text (n <? 0) neg (S i) =
  SymbolText (separator " ⋅ " (slash neg (n, 1))) (separator " " (slash neg (n, 1))).
Proof. intros. unfold operator_text, slash. cbn [fst]. now destruct ((n <? 0) && (neg =? 1)). Qed.

Lemma texts_next : forall neg l idx, Forall item_ok l -> l <> [] -> exists t ts ta,
  exp_texts neg (S idx) l = Ok t /\ st_standard t = product_text " ⋅ " ts /\ st_ascii t = product_text " " ta /\
  tokens st_standard neg l ts /\ tokens st_ascii neg l ta.
Proof.
  intros neg l. induction l as [|[[n d] s] l IH]; intros idx F Ne; [contradiction|]. inversion F as [|? ? (Fi & Ps & Pa) F']; subst. cbn [fst snd] in *.
  destruct (exp_text_shape n d s neg (S idx) Fi) as (es & ea & E & Xs & Xa & _). rewrite op_next in E. cbn [st_standard st_ascii] in E.
  pose proof (factor_intro _ _ _ Ps Xs) as Gs. pose proof (factor_intro _ _ _ Pa Xa) as Ga.
  destruct l as [|y l].
  - cbn [exp_texts]. rewrite E. eexists. exists [(slash neg (n, d), st_standard s ++ es)], [(slash neg (n, d), st_ascii s ++ ea)].
    split; [reflexivity|]. cbn [st_standard st_ascii product_text]. rewrite !append_nil_r.
    split; [reflexivity|]. split; [reflexivity|]. split; constructor; try constructor; cbn [fst snd]; auto.
  - destruct (IH (S idx) F' ltac:(discriminate)) as (t & ts & ta & E' & Ts & Ta & Hs & Ha).
    change (exp_texts neg (S idx) (((n, d), s) :: y :: l)) with
      (a <- exp_text n d s neg (S idx); b <- exp_texts neg (S (S idx)) (y :: l); Ok (st_add a b)).
    rewrite E. cbn [bind]. rewrite E'. cbn [bind]. rewrite st_add_append. cbn [st_standard st_ascii].
    eexists. exists ((slash neg (n, d), st_standard s ++ es) :: ts), ((slash neg (n, d), st_ascii s ++ ea) :: ta).
    split; [reflexivity|]. cbn [st_standard st_ascii product_text]. rewrite Ts, Ta.
    split; [now rewrite !append_assoc|]. split; [now rewrite !append_assoc|]. split; constructor; cbn [fst snd]; auto.
Qed.

(** What the text says about an exponent. *)
Definition read_back (neg : Z) (x : Z * Z) : Z * Z :=
  if (1 <? neg) && negb (snd x =? 1) then (Z.abs (fst x), snd x) else x.

Lemma neg_count_nonneg : forall l, 0 <= negative_exp_count l.
Proof. unfold negative_exp_count. induction l as [|n l IH]; cbn; [lia|]. destruct (n <? 0); lia. Qed.
Lemma neg_count_in : forall l n, In n l -> n < 0 -> 1 <= negative_exp_count l.
Proof.
  unfold negative_exp_count. induction l as [|m l IH]; intros n I N; [contradiction|]. cbn [fold_right].
  pose proof (neg_count_nonneg l) as P. unfold negative_exp_count in P.
  destruct I as [->|I]; [destruct (Z.ltb_spec n 0); lia|]. specialize (IH n I N). destruct (m <? 0); lia.
Qed.

Lemma sign_read : forall neg x, (fst x < 0 -> 1 <= neg) ->
  (let (n, d) := shown neg x in if slash neg x then (- n, d) else (n, d)) = read_back neg x.
Proof.
  intros neg [n d] H. cbn [fst snd] in H. unfold shown, slash, read_back. cbn [fst snd].
  destruct (Z.ltb_spec n 0) as [S|S]; cbn [andb].
  - specialize (H S). destruct (Z.eqb_spec neg 1) as [->|Ng].
    + change (1 <? 1) with false. rewrite andb_false_r. cbn [andb]. f_equal. lia.
    + destruct (Z.ltb_spec 1 neg); [|lia]. rewrite andb_true_r. cbn [andb]. destruct (d =? 1); reflexivity.
  - destruct (1 <? neg), (d =? 1); cbn [andb negb]; f_equal; lia.
Qed.

Lemma tokens_read : forall part neg l ts, tokens part neg l ts -> Forall (fun x => fst (fst x) < 0 -> 1 <= neg) l ->
  read_factors (map (fun p => (sep_char (fst p), snd p)) ts) = Some (map (fun x => (part (snd x), read_back neg (fst x))) l).
Proof.
  intros part neg l ts T. induction T as [|x [b t] l ts [S (Pt & _ & _ & e & C & R)] T IH]; intros F; [reflexivity|].
  inversion F as [|? ? F1 F2]; subst. cbn [fst snd] in *. subst b. cbn [map read_factors fst snd]. rewrite (IH F2).
  unfold read_factor. cbn [fst snd]. rewrite C, R. rewrite <- (sign_read neg (fst x) F1).
  destruct (shown neg (fst x)) as [n d]. destruct (slash neg (fst x)); reflexivity.
Qed.

Lemma tokens_plain : forall part neg l ts, tokens part neg l ts -> Forall (fun p => passes (snd p) /\ snd p <> "⋅") ts.
Proof. intros part neg l ts T. induction T as [|x t l ts [_ (P & _ & D & _)] T IH]; constructor; auto. Qed.

(** The whole text of one style. *)
Lemma read_product : forall part dot neg x l b t ts, is_dot dot -> tokens part neg (x :: l) ((b, t) :: ts) ->
  Forall (fun x => fst (fst x) < 0 -> 1 <= neg) (x :: l) ->
  read_symbol ((if b then "1/" else "") ++ t ++ product_text dot ts) =
    Some (map (fun x => (part (snd x), read_back neg (fst x))) (x :: l)).
Proof.
  intros part dot neg x l b t ts Hd T F. pose proof (tokens_read _ _ _ _ T F) as R. pose proof (tokens_plain _ _ _ _ T) as P.
  inversion P as [|? ? [P1 P2] P3]; subst. cbn [snd] in *.
  assert (N1 : t <> "1").
  { inversion T as [|? ? ? ? [_ (_ & N & _)] _]. exact N. }
  unfold read_symbol. destruct b.
  - change ("1/" ++ t ++ product_text dot ts) with ("1" ++ String "/" (t ++ product_text dot ts)).
    cbn [append split Ascii.eqb Bool.eqb orb]. change (add_char "" "1") with "1".
    rewrite filter_nodot by discriminate. rewrite (P1 "/"%char "" (product_text dot ts)). cbn [append].
    rewrite split_product by auto. exact R.
  - cbn [append]. rewrite (P1 " "%char "" (product_text dot ts)). cbn [append]. rewrite split_product by auto. cbn [snd].
    destruct (String.eqb_spec t "1"); [contradiction|]. exact R.
Qed.

Lemma reads_back : forall l, l <> [] -> Forall item_ok l ->
  let neg := negative_exp_count (map (fun x => fst (fst x)) l) in
  exists t, derived_symbol_text l = Ok t /\
  read_symbol (st_standard t) = Some (map (fun x => (st_standard (snd x), read_back neg (fst x))) l) /\
  read_symbol (st_ascii t) = Some (map (fun x => (st_ascii (snd x), read_back neg (fst x))) l).
Proof.
  intros l Ne F neg. unfold derived_symbol_text. fold neg.
  assert (G : Forall (fun x : item => fst (fst x) < 0 -> 1 <= neg) l).
  { apply Forall_forall. intros x I S. unfold neg. eapply neg_count_in; [|exact S]. apply in_map_iff. now exists x. }
  clearbody neg. destruct l as [|[[n d] s] l]; [contradiction|]. inversion F as [|? ? (Fi & Ps & Pa) F']; subst. cbn [fst snd] in *.
  destruct (exp_text_shape n d s neg 0 Fi) as (es & ea & E & Xs & Xa & _).
  pose proof (factor_intro _ _ _ Ps Xs) as Gs. pose proof (factor_intro _ _ _ Pa Xa) as Ga.
  assert (Op : operator_text (n <? 0) neg 0 = st_of_ascii (if slash neg (n, d) then "1/" else "")).
  { unfold operator_text, slash. cbn [fst]. now destruct ((n <? 0) && (neg =? 1)). }
  rewrite Op in E. cbn [st_standard st_ascii st_of_ascii] in E.
  destruct l as [|y l].
  - cbn [exp_texts]. rewrite E. eexists. split; [reflexivity|]. cbn [st_standard st_ascii].
    split; [rewrite <- (append_nil_r (st_standard s ++ es)); apply (read_product st_standard " ⋅ " neg ((n, d), s) [] (slash neg (n, d)) _ [])
           |rewrite <- (append_nil_r (st_ascii s ++ ea)); apply (read_product st_ascii " " neg ((n, d), s) [] (slash neg (n, d)) _ [])];
      auto; try (now left); try (now right); constructor; try constructor; auto.
  - destruct (texts_next neg (y :: l) 0 F' ltac:(discriminate)) as (t & ts & ta & E' & Ts & Ta & Hs & Ha).
    change (exp_texts neg 0 (((n, d), s) :: y :: l)) with
      (a <- exp_text n d s neg 0; b <- exp_texts neg 1 (y :: l); Ok (st_add a b)).
    rewrite E. cbn [bind]. rewrite E'. cbn [bind]. rewrite st_add_append. cbn [st_standard st_ascii].
    eexists. split; [reflexivity|]. cbn [st_standard st_ascii]. rewrite Ts, Ta.
    split.
    + rewrite append_assoc. apply (read_product st_standard " ⋅ " neg ((n, d), s) (y :: l) (slash neg (n, d)) (st_standard s ++ es) ts);
        auto; [now right|constructor; auto].
    + rewrite append_assoc. apply (read_product st_ascii " " neg ((n, d), s) (y :: l) (slash neg (n, d)) (st_ascii s ++ ea) ta);
        auto; [now left|constructor; auto].
Qed.

(** ** The sign of fractions *)

Lemma read_back_id : forall neg x, fst x <> 0 ->
  (read_back neg x = x <-> (fst x < 0 -> neg <= 1 \/ snd x = 1)).
Proof.
  intros neg [n d] N. unfold read_back. cbn [fst snd] in *. destruct (Z.ltb_spec 1 neg), (Z.eqb_spec d 1); cbn [andb negb]; split; intros; auto; try lia.
  - inversion H0. lia.
  - f_equal. assert (~ n < 0) by (intros S; specialize (H0 S); lia). lia.
Qed.

Lemma exp_text_slash : forall n s neg idx t, exponent_fits (n, 1) -> plain_symbol (st_standard s) = true -> plain_symbol (st_ascii s) = true ->
  exp_text n 1 s neg idx = Ok t ->
  has_char "/" (st_standard t) = slash neg (n, 1) /\ has_char "/" (st_ascii t) = slash neg (n, 1).
Proof.
  intros n s neg idx t Fi Ps Pa H. destruct (exp_text_shape n 1 s neg idx Fi) as (es & ea & E & _ & _ & W).
  destruct (W eq_refl) as [W1 W2]. rewrite E in H. inversion H; subst. cbn [st_standard st_ascii]. rewrite !has_char_app.
  rewrite (plain_no_slash _ Ps), (plain_no_slash _ Pa), W1, W2, !orb_false_r. unfold operator_text, slash. cbn [fst].
  destruct idx, ((n <? 0) && (neg =? 1)); split; reflexivity.
Qed.
Lemma exp_texts_slash : forall neg l idx t, Forall item_ok l -> Forall (fun x : item => snd (fst x) = 1) l -> exp_texts neg idx l = Ok t ->
  has_char "/" (st_standard t) = existsb (fun x => slash neg (fst x)) l /\ has_char "/" (st_ascii t) = existsb (fun x => slash neg (fst x)) l.
Proof.
  intros neg. induction l as [|[[n d] s] l IH]; intros idx t F W H; [discriminate|].
  inversion F as [|? ? (Fi & Ps & Pa) F']; subst. inversion W as [|? ? W1 W']; subst. cbn [fst snd] in *. subst d. cbn [existsb fst].
  destruct l as [|y l].
  - cbn [exp_texts] in H. cbn [existsb]. rewrite orb_false_r. now apply (exp_text_slash n s neg idx).
  - change (exp_texts neg idx (((n, 1), s) :: y :: l)) with
      (a <- exp_text n 1 s neg idx; b <- exp_texts neg (S idx) (y :: l); Ok (st_add a b)) in H.
    step H as a Ha. step H as b Hb. inv_ok. rewrite st_add_append. cbn [st_standard st_ascii]. rewrite !has_char_app.
    destruct (IH _ _ F' W' Hb) as [I1 I2]. destruct (exp_text_slash n s neg idx a Fi Ps Pa Ha) as [J1 J2].
    rewrite I1, I2, J1, J2. split; reflexivity.
Qed.
