(** Theorems about the texts of numbers and of derived units (C56, C58). *)

From Coq Require Import ZArith Ascii String List Bool Lia.
From Verif Require Import Outcome CInt RatioMaths FixedString TextTools DerivedSymbol SpecText StringProofs TextProofs SymbolProofs.
Import ListNotations.
Local Open Scope string_scope.
Local Open Scope Z_scope.

(** * C56: superscript and decimal rendering *)

(** The superscript text of an integer reads back as that integer, in both styles: superscript
    digits after a superscript minus, or ["^"] and ASCII digits after ["-"]. *)
Theorem C56_superscript : forall v, INTMAX_MIN < v <= INTMAX_MAX ->
  exists s a, superscript v = Ok (SymbolText s ("^" ++ a)) /\ read_superscript s = Some v /\ read_int a = Some v.
Proof.
  intros v H. destruct (superscript_digits v H) as (ds & D & E). rewrite E. destruct (Z.ltb_spec v 0) as [L|L].
  - rewrite Z.abs_neq in D by lia. destruct (decimal_reads ds (- v) D) as [R1 R2].
    exists ("⁻" ++ write superscript_of_digit ds), ("-" ++ write char_of_digit ds). split; [reflexivity|].
    cbn [append read_int]. rewrite R1. split; [|cbn [option_map]; f_equal; lia].
    cbn [read_superscript]. change (byte _ =? 226) with true at 1. change (byte _ =? 129) with true at 1. change (byte _ =? 187) with true at 1.
    cbn [andb]. rewrite R2. cbn [option_map]. f_equal. lia.
  - rewrite Z.abs_eq in D by lia. destruct (decimal_reads_int ds v D) as [R1 R2].
    exists (write superscript_of_digit ds), (write char_of_digit ds). auto.
Qed.
Print Assumptions C56_superscript.
Example C56_superscript_case : superscript (-120) = Ok (SymbolText "⁻¹²⁰" "^-120").
Proof. reflexivity. Qed.

(** The plain text of a non-negative integer is its decimal notation, the same in both styles. *)
Theorem C56_regular : forall v, 0 <= v <= INTMAX_MAX ->
  exists ds, decimal ds v /\ regular v = Ok (SymbolText (write char_of_digit ds) (write char_of_digit ds)) /\
             read_int (write char_of_digit ds) = Some v.
Proof.
  intros v H. destruct (regular_pos v H) as (ds & D & E). exists ds. split; auto. split; [exact E|]. apply (decimal_reads_int ds v D).
Qed.
Print Assumptions C56_regular.
Example C56_regular_case : regular 9223372036854775807 = Ok (st_of_ascii "9223372036854775807").
Proof. reflexivity. Qed.

(** Different integers have different texts, in either style. *)
Theorem C56_distinct : forall v w, INTMAX_MIN < v <= INTMAX_MAX -> INTMAX_MIN < w <= INTMAX_MAX -> v <> w ->
  (forall s t, superscript v = Ok s -> superscript w = Ok t -> st_standard s <> st_standard t /\ st_ascii s <> st_ascii t) /\
  (0 <= v -> 0 <= w -> forall s t, regular v = Ok s -> regular w = Ok t -> st_standard s <> st_standard t /\ st_ascii s <> st_ascii t).
Proof.
  intros v w Hv Hw N. split.
  - intros s t Es Et. destruct (C56_superscript v Hv) as (a & b & E1 & A & B). destruct (C56_superscript w Hw) as (c & d & E2 & C & D).
    rewrite E1 in Es. rewrite E2 in Et. inversion Es; inversion Et; subst. cbn [st_standard st_ascii]. split; intros X.
    + congruence.
    + inversion X. congruence.
  - intros Pv Pw s t Es Et. destruct (C56_regular v ltac:(lia)) as (a & _ & E1 & A). destruct (C56_regular w ltac:(lia)) as (b & _ & E2 & B).
    rewrite E1 in Es. rewrite E2 in Et. inversion Es; inversion Et; subst. cbn [st_standard st_ascii]. split; intros X; congruence.
Qed.
Print Assumptions C56_distinct.

(** The plain text of a negative integer is right in ASCII, but its Unicode form has an ASCII
    minus followed by superscripts. *)
Theorem C56_negative : forall v, INTMAX_MIN < v < 0 ->
  exists ds, decimal ds (- v) /\
    regular v = Ok (SymbolText ("-" ++ write superscript_of_digit ds) ("-" ++ write char_of_digit ds)) /\
    read_int ("-" ++ write char_of_digit ds) = Some v /\ read_int ("-" ++ write superscript_of_digit ds) = None.
Proof.
  intros v H. destruct (regular_neg v H) as (ds & D & E). exists ds. split; auto. split; auto. cbn [append read_int].
  rewrite (proj1 (decimal_reads ds (- v) D)). split; [cbn [option_map]; f_equal; lia|].
  destruct (decimal_first ds (- v) D) as (d & r & -> & Rd). rewrite write_cons. clear - Rd. digits10 Rd.
Qed.
Print Assumptions C56_negative.
Theorem C56_negative_refuted : exists v s, INTMAX_MIN < v /\ regular v = Ok s /\ st_standard s = "-²" /\ read_int (st_standard s) = None.
Proof. exists (-2), (SymbolText "-²" "-2"). repeat split; reflexivity. Qed.
Print Assumptions C56_negative_refuted.

(** The most negative integer has no text: its negation overflows in a constant expression. *)
Theorem C56_most_negative_refuted : superscript INTMAX_MIN = Undef /\ regular INTMAX_MIN = Undef.
Proof. split; reflexivity. Qed.
Print Assumptions C56_most_negative_refuted.

(** * C58: symbols of derived units *)

(** A constituent: its exponent as numerator and denominator, and its symbol.  Symbols do not
    contain the characters used to write products and powers. *)
Definition constituent : Type := (Z * Z) * symbol_text.
Definition writable (c : constituent) : Prop :=
  (fst (fst c) <> 0 /\ Z.abs (fst (fst c)) <= INTMAX_MAX /\ 0 < snd (fst c) <= INTMAX_MAX) /\
  plain_symbol (st_standard (snd c)) = true /\ plain_symbol (st_ascii (snd c)) = true.
Definition negatives (l : list constituent) : list constituent := filter (fun c => fst (fst c) <? 0) l.

Lemma negatives_count : forall l : list constituent, negative_exp_count (map (fun x => fst (fst x)) l) = Z.of_nat (length (negatives l)).
Proof.
  induction l as [|x l IH]; [reflexivity|]. unfold negative_exp_count, negatives in *. cbn [map fold_right filter].
  rewrite IH. destruct (fst (fst x) <? 0); [cbn [length]; lia|reflexivity].
Qed.

(** The text of a derived unit, of any length, reads back as its constituents with their
    exponents - exactly when there is at most one negative exponent or no negative exponent is
    a fraction. *)
Theorem C58_reads_back : forall l : list constituent, l <> [] -> Forall writable l ->
  exists t, derived_symbol_text l = Ok t /\
    ((length (negatives l) <= 1)%nat \/ (forall c, In c (negatives l) -> snd (fst c) = 1) <->
     read_symbol (st_standard t) = Some (map (fun c => (st_standard (snd c), fst c)) l)) /\
    ((length (negatives l) <= 1)%nat \/ (forall c, In c (negatives l) -> snd (fst c) = 1) <->
     read_symbol (st_ascii t) = Some (map (fun c => (st_ascii (snd c), fst c)) l)).
Proof.
  intros l Ne F. destruct (reads_back l Ne F) as (t & E & Rs & Ra). exists t. split; [exact E|]. rewrite negatives_count in Rs, Ra.
  assert (G : (length (negatives l) <= 1)%nat \/ (forall c, In c (negatives l) -> snd (fst c) = 1) <->
     Forall (fun c => read_back (Z.of_nat (length (negatives l))) (fst c) = fst c) l).
  { rewrite Forall_forall. split.
    - intros H c I. apply read_back_id; [rewrite Forall_forall in F; apply (F c I)|]. intros S. destruct H as [H|H]; [left; lia|right].
      apply H. apply filter_In. split; auto. apply Z.ltb_lt. exact S.
    - intros H. destruct (le_lt_dec (length (negatives l)) 1) as [L|L]; [now left|right]. intros c I. apply filter_In in I as [I S].
      apply Z.ltb_lt in S. specialize (H c I). rewrite Forall_forall in F. destruct (proj1 (read_back_id _ _ (proj1 (proj1 (F c I)))) H S); [lia|auto]. }
  rewrite G. generalize dependent (Z.of_nat (length (negatives l))). intros neg Rs Ra _.
  assert (M : forall (part : symbol_text -> string), Forall (fun c => read_back neg (fst c) = fst c) l <->
    Some (map (fun x => (part (snd x), read_back neg (fst x))) l) = Some (map (fun c => (part (snd c), fst c)) l)).
  { intros part. clear. induction l as [|x l IH]; cbn [map]; [split; [reflexivity|constructor]|].
    split.
    - intros F. inversion F as [|? ? A B]; subst. rewrite A. apply IH in B. inversion B as [B']. now rewrite B'.
    - intros H. inversion H as [[A B]]. constructor; [now rewrite A|]. apply IH. f_equal. exact B. }
  rewrite Rs, Ra. split; apply M.
Qed.
Print Assumptions C58_reads_back.
Definition newton_metre_text : list constituent :=
  [((1, 1), st_of_ascii "kg"); ((2, 1), st_of_ascii "m"); ((-2, 1), SymbolText "µs" "us"); ((-1, 3), st_of_ascii "K")].
Example C58_reads_back_case :
  derived_symbol_text (firstn 3 newton_metre_text) = Ok (SymbolText "kg ⋅ m²/µs²" "kg m^2/us^2") /\
  derived_symbol_text [((-1, 1), st_of_ascii "A"); ((-2, 1), st_of_ascii "m")] = Ok (SymbolText "A⁻¹ ⋅ m⁻²" "A^-1 m^-2") /\
  derived_symbol_text [((-3, 2), st_of_ascii "m")] = Ok (st_of_ascii "1/m^(3/2)") /\
  Forall writable newton_metre_text.
Proof.
  split; [reflexivity|]. split; [reflexivity|]. split; [reflexivity|].
  repeat constructor; cbn; try discriminate.
Qed.

(** The order and the number of constituents, and every exponent up to the sign of such a
    fraction, are in the text always. *)
Theorem C58_up_to_sign : forall l : list constituent, l <> [] -> Forall writable l ->
  exists t r, derived_symbol_text l = Ok t /\ read_symbol (st_ascii t) = Some r /\
    Forall2 (fun c x => fst x = st_ascii (snd c) /\ snd (snd x) = snd (fst c) /\
      (fst (snd x) = fst (fst c) \/ fst (fst c) < 0 /\ snd (fst c) <> 1 /\ fst (snd x) = - fst (fst c))) l r.
Proof.
  intros l Ne F. destruct (reads_back l Ne F) as (t & E & _ & Ra). exists t. eexists. split; [exact E|]. split; [exact Ra|].
  generalize (negative_exp_count (map (fun x => fst (fst x)) l)) as neg. intros neg. clear. induction l as [|[[n d] s] l IH]; constructor; [|exact IH].
  cbn [fst snd]. split; auto. unfold read_back. cbn [fst snd]. destruct (Z.eqb_spec d 1); destruct (1 <? neg); cbn [andb negb fst snd]; auto.
  split; auto. destruct (Z.abs_spec n) as [[? ->]|[? ->]]; auto.
Qed.
Print Assumptions C58_up_to_sign.
Theorem C58_fraction_refuted : exists (l : list constituent) t, Forall writable l /\
  derived_symbol_text l = Ok t /\ st_ascii t = "s^-1 m^(1/2)" /\ map fst l = [(-1, 1); (-1, 2)].
Proof.
  exists [((-1, 1), st_of_ascii "s"); ((-1, 2), st_of_ascii "m")], (SymbolText "s⁻¹ ⋅ m^(1/2)" "s^-1 m^(1/2)").
  split; [|repeat split; reflexivity]. repeat constructor; cbn; try discriminate.
Qed.
Print Assumptions C58_fraction_refuted.

(** With whole exponents a slash is written exactly if one exponent is negative; otherwise the
    negative exponents are explicit. *)
Theorem C58_slash : forall l t, Forall writable l -> Forall (fun c => snd (fst c) = 1) l -> derived_symbol_text l = Ok t ->
  (has_char "/" (st_standard t) = true <-> length (negatives l) = 1%nat) /\
  (has_char "/" (st_ascii t) = true <-> length (negatives l) = 1%nat).
Proof.
  intros l t F W H. unfold derived_symbol_text in H. destruct (exp_texts_slash _ _ _ _ F W H) as [A B]. rewrite A, B, negatives_count.
  enough (X : existsb (fun x : item => slash (Z.of_nat (length (negatives l))) (fst x)) l = true <-> length (negatives l) = 1%nat) by (split; exact X).
  rewrite existsb_exists. split.
  - intros (x & _ & S). unfold slash in S. apply andb_true_iff in S as [_ S]. apply Z.eqb_eq in S. lia.
  - intros L. destruct (negatives l) as [|c r] eqn:E; [discriminate|]. assert (I : In c (negatives l)) by (rewrite E; now left).
    apply filter_In in I as [I S]. exists c. split; auto. unfold slash. rewrite S. rewrite L. reflexivity.
Qed.
Print Assumptions C58_slash.
