(** Proofs about the output of [format.h], and about all format strings. *)

From Coq Require Import ZArith Ascii String List Bool Lia DecimalString Arith DecimalZ DecimalPos.
From Verif Require Import Outcome FixedString StringProofs SpecText SymbolProofs Unit Dim Rep QuantityCast Quantity UnitText QuantityIo Format SpecFormat FormatProofs.
Import ListNotations.
Local Open Scope string_scope.
Local Open Scope Z_scope.
Local Open Scope fres_scope.

(** ** The specifications after the items *)
Lemma after_keeps : forall l f, f_fill (fold_left after l f) = f_fill f /\ f_align (fold_left after l f) = f_align f /\
  f_width (fold_left after l f) = f_width f /\ f_value (fold_left after l f) = f_value f || existsb is_value l /\
  f_unit (fold_left after l f) = f_unit f || existsb is_symbol l.
Proof.
  induction l as [|i l IH]; intros f; [cbn; rewrite !orb_false_r; auto|]. cbn [fold_left existsb].
  destruct (IH (after f i)) as (-> & -> & -> & -> & ->). destruct i; cbn; rewrite ?orb_false_r, ?orb_true_r; auto.
Qed.
Lemma number_pos : forall d, int_digits d -> 0 <= number_of d.
Proof.
  intros d (n & R & _). unfold number_of. rewrite R. apply read_nat_first in R as (_ & _ & _ & _ & R). apply read_digits_le in R; lia.
Qed.
Lemma overlay_fields : forall sp m, overlay sp m =
  RepSpecs (match m_sign m with Some Plus => SPlus | Some Minus => SMinus | Some Space => SSpace | None => s_sign sp end)
    (match m_precision m with Some d => number_of d | None => s_precision sp end)
    (match m_type m with Some c => c | None => s_type sp end) (m_alt m || s_alt sp) (m_locale m || s_locale sp).
Proof.
  intros [a b c d e] m. unfold overlay, o_alt, o_dot, o_locale, o_type, o_sign, with_sign, with_alt, with_precision, with_locale.
  destruct (m_sign m) as [[]|], (m_alt m), (m_precision m), (m_locale m), (m_type m); reflexivity.
Qed.
Lemma overlay_twice : forall sp m, overlay (overlay sp m) m = overlay sp m.
Proof.
  intros sp m. rewrite !overlay_fields. cbn [s_sign s_precision s_type s_alt s_locale].
  destruct (m_sign m) as [[]|], (m_alt m), (m_precision m), (m_locale m), (m_type m); reflexivity.
Qed.
Lemma after_value : forall l f m, (forall m', In (Value m') l -> m' = m) -> f_rep f = overlay no_rep_specs m ->
  f_rep (fold_left after l f) = overlay no_rep_specs m.
Proof.
  induction l as [|i l IH]; intros f m U E; [exact E|]. cbn [fold_left]. apply IH; [intros m' I; apply U; now right|].
  destruct i as [c| | | |m'|a]; try exact E. cbn. rewrite (U m' (or_introl eq_refl)), E. apply overlay_twice.
Qed.
Lemma after_value0 : forall l f m, (forall m', In (Value m') l -> m' = m) -> In (Value m) l -> f_rep f = no_rep_specs ->
  f_rep (fold_left after l f) = overlay no_rep_specs m.
Proof.
  induction l as [|i l IH]; intros f m U I E; [contradiction|]. cbn [fold_left]. destruct i as [c| | | |m'|a];
    try (apply IH; [intros m' J; apply U; now right|destruct I as [I|I]; [discriminate|exact I]|exact E]).
  apply after_value; [intros m'' J; apply U; now right|]. cbn. now rewrite (U m' (or_introl eq_refl)), E.
Qed.
Lemma after_symbol : forall l f a, (forall a', In (Symbol a') l -> a' = a) -> In (Symbol a) l \/ f_modifier f = (if a then "A"%char else zero) ->
  f_modifier f = zero \/ f_modifier f = (if a then "A"%char else zero) ->
  f_modifier (fold_left after l f) = (if a then "A"%char else zero).
Proof.
  induction l as [|i l IH]; intros f a U I E; cbn [fold_left]; [destruct I as [I|I]; [contradiction|exact I]|].
  destruct i as [c| | | |m'|a'];
    try (apply IH; [intros m'' J; apply U; now right|destruct I as [[I|I]|I]; [discriminate|now left|now right]|exact E]).
  pose proof (U a' (or_introl eq_refl)) as ->. apply IH; [intros m'' J; apply U; now right|right|right]; cbn; (destruct a; [reflexivity|destruct E as [E|E]; exact E]).
Qed.

(** ** The format string of the number *)
Lemma type_not_zero : forall c, rep_type c -> Ascii.eqb c zero = false.
Proof. intros c T. cbn in T. repeat (destruct T as [<-|T]; [reflexivity|]). contradiction. Qed.
Lemma number_format_doc : forall fl m, documented_rep fl m -> number_format fl (overlay no_rep_specs m) =
  "{:" ++ spell_sign (m_sign m) ++ (if m_alt m then "#" else "")
  ++ (match m_precision m with Some d => "." ++ notation (number_of d) | None => "" end)
  ++ (match m_type m with
      | Some c => one c
      | None => match m_precision m with Some _ => "f" | None => if fl then "g" else "" end
      end) ++ (if m_locale m then "L" else "") ++ "}".
Proof.
  intros fl m [D T]. rewrite overlay_fields. unfold number_format. cbn [s_sign s_precision s_type s_alt s_locale no_rep_specs].
  rewrite !orb_false_r. f_equal. f_equal; [destruct (m_sign m) as [[]|]; reflexivity|]. f_equal.
  assert (Z : match m_type m with Some c => Ascii.eqb c zero = false | None => True end) by (destruct (m_type m); [apply type_not_zero; auto|exact I]).
  destruct (m_precision m) as [d|].
  - destruct (D d eq_refl) as [-> I]. pose proof (number_pos d I). destruct (Z.leb_spec 0 (number_of d)); [|lia].
    unfold decimal_text, notation, char_text, one. destruct (m_type m); rewrite ?Z; cbn [Ascii.eqb eqb zero]; flat.
  - change (0 <=? -1) with false. cbv iota. cbn [append]. unfold char_text, one. destruct fl, (m_type m); rewrite ?Z; reflexivity.
Qed.
Lemma number_format_standard : forall fl m, documented_rep fl m -> locale_free fl m -> number_format fl (overlay no_rep_specs m) = value_format fl m.
Proof.
  intros fl m D L. rewrite number_format_doc by exact D. unfold value_format. do 4 f_equal. destruct (m_locale m) eqn:E.
  - destruct (L E) as [-> ->]. destruct D as [D _]. destruct (m_precision m) as [d|]; [destruct (D d eq_refl); discriminate|]. reflexivity.
  - reflexivity.
Qed.

(** A string that ends with a type and [L] is not a format string for a number. *)
Lemma snoc_inj : forall a b x y, a ++ String x "" = b ++ String y "" -> a = b /\ x = y.
Proof.
  induction a as [|c a IH]; intros [|d b] x y E; cbn in E.
  - inversion E. auto.
  - inversion E. destruct b; discriminate.
  - inversion E. destruct a; discriminate.
  - inversion E. destruct (IH b x y H1) as [-> ->]. auto.
Qed.
Lemma snoc_last : forall s, s <> "" -> exists a x, s = a ++ String x "".
Proof.
  induction s as [|c s IH]; intros N; [contradiction|]. destruct s as [|d s]; [exists "", c; reflexivity|].
  destruct IH as (a & x & E); [discriminate|]. exists (String c a), x. now rewrite E.
Qed.
Lemma digits_last : forall d acc n a x, read_digits acc d = Some n -> d = a ++ String x "" -> is_digit_char x = true.
Proof.
  intros d acc n a. revert d acc. induction a as [|c a IH]; intros d acc x R E; subst d; cbn [append read_digits] in R.
  - rewrite digit_char. destruct (digit_of x); [reflexivity|discriminate].
  - destruct (digit_of c); [|discriminate]. now apply (IH _ _ _ R).
Qed.
Definition front (m : rep_mod) : string :=
  spell_sign (m_sign m) ++ (if m_alt m then "#" else "") ++ (match m_precision m with Some d => "." ++ d | None => "" end).
Lemma front_last : forall fl m a x, documented_rep fl m -> front m = a ++ String x "" -> is_digit_char x = true \/ In x ["+"; "-"; " "; "#"]%char.
Proof.
  intros fl m a x [D _] E. unfold front in E. destruct (m_precision m) as [d|].
  - destruct (D d eq_refl) as (_ & n & R & _). apply read_nat_first in R as (c & r & Ed & _ & R).
    destruct (snoc_last d) as (b & y & Eb); [rewrite Ed; discriminate|]. pose proof (digits_last _ _ _ _ _ R Eb) as Y. left.
    rewrite Eb in E. rewrite <- !append_assoc in E. apply snoc_inj in E as [_ <-]. exact Y.
  - right. destruct (m_alt m).
    + rewrite append_nil_r in E. change "#" with (String "#" "") in E. apply snoc_inj in E as [_ <-]. cbn. auto.
    + cbn [append] in E. rewrite append_nil_r in E. destruct (m_sign m) as [[]|]; cbn [spell_sign] in E;
        [apply (snoc_inj "") in E as [_ <-]|apply (snoc_inj "") in E as [_ <-]|apply (snoc_inj "") in E as [_ <-]|destruct a; discriminate]; cbn; auto.
Qed.
Lemma spell_front : forall m, spell_rep m = front m ++ (if m_locale m then "L" else "") ++ (match m_type m with Some c => one c | None => "" end).
Proof. intros m. unfold spell_rep, front. rewrite !append_assoc. reflexivity. Qed.
Lemma type_then_locale : forall fl m p c, documented_rep fl m -> rep_type c -> spell_rep m <> p ++ String c "L".
Proof.
  intros fl m p c D T E. rewrite spell_front in E. replace (p ++ String c "L") with ((p ++ String c "") ++ String "L" "") in E by flat.
  destruct (m_type m) as [y|] eqn:Y.
  - rewrite <- append_assoc in E. apply snoc_inj in E as [_ ->]. apply D in Y. cbn in Y. repeat (destruct Y as [Y|Y]; [discriminate|]). contradiction.
  - rewrite append_nil_r in E. destruct (m_locale m).
    + apply snoc_inj in E as [E _]. destruct (front_last _ _ _ _ D E) as [F|F]; cbn in T;
        repeat (destruct T as [<-|T]; [cbn in F; try discriminate; repeat (destruct F as [F|F]; [discriminate|]); contradiction|]); contradiction.
    + rewrite append_nil_r in E. destruct (front_last _ _ _ _ D E) as [F|F]; cbn in F; [discriminate|].
      repeat (destruct F as [F|F]; [discriminate|]). contradiction.
Qed.
Lemma read_acc : forall u p, read_digits (Zpos p) (NilEmpty.string_of_uint u) = Some (Zpos (Pos.of_uint_acc u p)).
Proof.
  induction u; intros p; cbn [NilEmpty.string_of_uint read_digits]; [reflexivity|..]; cbn [Pos.of_uint_acc]; rewrite <- IHu;
    match goal with |- context [digit_of ?c] => let v := eval vm_compute in (digit_of c) in change (digit_of c) with v end; cbv iota; f_equal; lia.
Qed.
Lemma read_uint : forall u, read_digits 0 (NilEmpty.string_of_uint u) = Some (Z.of_N (Pos.of_uint u)).
Proof.
  induction u; cbn [NilEmpty.string_of_uint read_digits]; [reflexivity|..]; cbn [Pos.of_uint]; rewrite <- ?IHu; cbn [Z.of_N]; rewrite <- ?read_acc;
    match goal with |- context [digit_of ?c] => let v := eval vm_compute in (digit_of c) in change (digit_of c) with v end; reflexivity.
Qed.
Lemma notation_reads : forall n, 0 <= n -> read_nat (notation n) = Some n.
Proof.
  intros n P. unfold notation. pose proof (DecimalZ.of_to n) as E. destruct n as [|p|p]; [reflexivity| |lia]. cbn [Z.to_int] in *. cbn [NilZero.string_of_int].
  cbn [Z.of_int] in E. unfold Z.of_uint in E. pose proof (read_uint (Pos.to_uint p)) as R. rewrite E in R. unfold NilZero.string_of_uint.
  destruct (Pos.to_uint p) eqn:U; cbn [NilEmpty.string_of_uint] in *; exact R.
Qed.

(** ** Padding *)
Lemma repeated_copies : forall n s, repeated n s = copies n s.
Proof. induction n; intros; [reflexivity|]. cbn. now rewrite IHn. Qed.
Lemma pad_aligned : forall f columns s,
  aligned (f_fill f) (match f_align f with ALeft | ANone => Left | ARight => Right | ACenter => Center end) (f_width f) columns s (pad_text f columns s).
Proof.
  intros f columns s. unfold pad_text, aligned. set (n := Z.to_nat (f_width f - Z.of_nat (columns s))).
  assert (N : Z.of_nat n = Z.max 0 (f_width f - Z.of_nat (columns s))) by (unfold n; lia). clearbody n.
  destruct (f_align f); rewrite ?repeated_copies.
  - exists 0%nat, n. split; [reflexivity|]. split; [exact N|reflexivity].
  - exists 0%nat, n. split; [reflexivity|]. split; [exact N|reflexivity].
  - exists n, 0%nat. cbn [copies]. rewrite append_nil_r. split; [reflexivity|]. split; [rewrite Nat.add_0_r; exact N|reflexivity].
  - exists (Nat.div2 n), (n - Nat.div2 n)%nat. split; [reflexivity|]. pose proof (Nat.div2_odd n) as O.
    destruct (Nat.odd n); cbn [Nat.b2n] in O; split; lia.
Qed.
Lemma realign_of : forall f, match f_align (field_specs f) with ALeft | ANone => Left | ARight => Right | ACenter => Center end = field_alignment f.
Proof.
  intros f. unfold field_specs, realign, field_alignment, default_alignment. destruct (after_keeps (d_items f) (base_specs f)) as (_ & A & _ & V & U).
  cbn [f_align]. rewrite A, V, U. cbn [f_align f_value f_unit base_specs orb]. destruct (d_align f) as [[]|]; cbn [align_mod]; try reflexivity.
  destruct (existsb is_symbol (d_items f)), (existsb is_value (d_items f)); reflexivity.
Qed.

(** ** Output of documented fields *)
Lemma format_items : forall fl f x sy put value columns, documented fl f -> d_items f <> [] -> (forall s, put s x = FOk (value s)) ->
  format put columns fl (field_specs f) (spell (d_items f)) x sy =
    FOk (pad_text (field_specs f) columns (String.concat "" (map (written value fl (field_specs f) sy) (d_items f)))).
Proof.
  intros fl f x sy put value columns (Fi & W & D & C) N P. unfold format.
  destruct (items_first fl (d_items f) (String "}" "") ltac:(eexists _, _; eauto) D C) as (c & r & E & _ & _ & _ & M).
  destruct M as [-> _]; [now left|].
  assert (S : exists r', spell (d_items f) = String "%" r').
  { destruct (spell (d_items f)) as [|y r']; [discriminate|]. inversion E. eauto. }
  destruct S as (r' & S). rewrite S. change (Ascii.eqb "%" "}") with false. cbv iota. rewrite <- S. clear S r'.
  unfold parse_units_format. rewrite <- (append_nil_r (spell (d_items f))). rewrite (loop_items fl); [|exact D|now left|lia].
  cbn [fbind fst snd]. rewrite (emit_items put value) by exact P. reflexivity.
Qed.
Lemma format_default : forall fl f x sy put value columns, f_rep f = no_rep_specs -> (forall s, put s x = FOk (value s)) ->
  format put columns fl f "" x sy = FOk (pad_text f columns (default_text value fl (st_standard sy))).
Proof.
  intros fl f x sy put value columns R P. unfold format. rewrite R, P. cbn [fbind]. unfold default_text.
  destruct fl; reflexivity.
Qed.
Lemma written_text : forall fl f value sy, documented fl f -> uniform (d_items f) ->
  (forall m, In (Value m) (d_items f) -> locale_free fl m) ->
  String.concat "" (map (written value fl (field_specs f) sy) (d_items f)) = items_text value fl (st_standard sy) (st_ascii sy) (d_items f).
Proof.
  intros fl f value sy (_ & _ & D & _) [U1 U2] L. unfold items_text. f_equal. apply map_ext_in. intros i I. rewrite Forall_forall in D.
  destruct i as [c| | | |m|a]; try reflexivity; cbn [written item_text].
  - f_equal. unfold field_specs, realign. cbn [f_rep]. rewrite (after_value0 _ _ m); [|intros m' J; now apply U1|exact I|reflexivity].
    apply number_format_standard; [exact (D _ I)|now apply L].
  - unfold field_specs, realign. cbn [f_modifier]. rewrite (after_symbol _ _ a); [|intros a' J; now apply U2|now left|now left].
    destruct a; reflexivity.
Qed.

(** ** No read beyond the end *)
Definition safe {A : Type} (x : fres A) : Prop := x <> FOverrun /\ x <> FStuck.
Lemma safe_ok : forall A (a : A), safe (FOk a). Proof. split; discriminate. Qed.
Lemma safe_err : forall A, safe (@FError A). Proof. split; discriminate. Qed.
Lemma safe_dyn : forall A, safe (@FDynamic A). Proof. split; discriminate. Qed.
Lemma safe_bind : forall A B (x : fres A) (f : A -> fres B), safe x -> (forall a, x = FOk a -> safe (f a)) -> safe (fbind x f).
Proof. intros A B x f [X1 X2] F. destruct x; cbn; try contradiction; [now apply F|apply safe_err|apply safe_dyn]. Qed.
Create HintDb safe.
#[export] Hint Resolve safe_ok safe_err safe_dyn : safe.

(** [n] characters before a [Q]. *)
Definition inside (s : string) (n : Z) : Prop := exists p r, s = p ++ String "Q" r /\ n = len p.
Lemma inside_cases : forall s n, inside s n -> exists c r, s = String c r /\ ((n = 0 /\ c = "Q"%char) \/ (0 < n /\ inside r (n - 1))).
Proof.
  intros s n (p & r & -> & ->). destruct p as [|c p]; [exists "Q"%char, r; auto|]. exists c, (p ++ String "Q" r). split; [reflexivity|].
  right. rewrite len_cons. split; [lia|]. exists p, r. split; [reflexivity|lia].
Qed.
Lemma inside_int : forall s acc n, inside s n -> safe (parse_int acc s n) /\ forall v s' n', parse_int acc s n = FOk (v, s', n') -> inside s' n'.
Proof.
  induction s as [|c s IH]; intros acc n I; pose proof I as I0; apply inside_cases in I as (x & r & E & I); [discriminate|]. inversion E; subst x r. cbn [parse_int].
  destruct (Z.eqb_spec n 0) as [Z|Z]; [split; [auto with safe|intros; congruence]|].
  destruct I as [[I _]|[P I]]; [contradiction|]. destruct (is_digit_char c); [|split; [auto with safe|intros; congruence]].
  destruct (int_max <? _); [split; [auto with safe|discriminate]|]. now apply IH.
Qed.
Lemma type_safe : forall sp s n, inside s n -> safe (parse_type sp s n).
Proof.
  intros sp s n I. apply inside_cases in I as (c & r & -> & I). unfold parse_type, on_type. destruct (n =? 0); [auto with safe|]. cbn [deref fbind].
  destruct (negb _ && negb _); [|auto with safe]. destruct (mem_char _ _); auto with safe.
Qed.
Lemma locale_safe : forall sp s n, inside s n -> safe (parse_locale sp s n).
Proof.
  intros sp s n I. pose proof I as I0. apply inside_cases in I as (c & r & -> & I). unfold parse_locale. cbn [deref fbind tail].
  destruct (Ascii.eqb_spec c "L") as [->|N]; [|now apply type_safe]. destruct I as [[_ I]|[_ I]]; [discriminate|]. now apply type_safe.
Qed.
Lemma dot_safe : forall fl sp s n, inside s n -> safe (parse_dot fl sp s n).
Proof.
  intros fl sp s n I. pose proof I as I0. apply inside_cases in I as (c & r & -> & I). unfold parse_dot. cbn [deref fbind].
  destruct (Ascii.eqb_spec c ".") as [->|N]; [|now apply locale_safe]. destruct fl; [|auto with safe]. destruct I as [[_ I]|[_ I]]; [discriminate|].
  unfold parse_precision. cbn [tail]. destruct (n - 1 =? 0); [cbn [fbind]; auto with safe|]. pose proof I as I1. apply inside_cases in I1 as (d & r' & -> & _). cbn [deref fbind].
  destruct (is_digit_char d).
  - destruct (inside_int _ 0 _ I) as [S F]. apply safe_bind; [exact S|]. intros [[v s'] n'] E. cbn [fst snd]. apply locale_safe. now apply (F v).
  - destruct (Ascii.eqb d "{"); cbn [fbind]; auto with safe.
Qed.
Lemma alt_safe : forall fl sp s n, inside s n -> safe (parse_alt fl sp s n).
Proof.
  intros fl sp s n I. pose proof I as I0. apply inside_cases in I as (c & r & -> & I). unfold parse_alt. destruct (n =? 0); [auto with safe|]. cbn [deref fbind tail].
  destruct (Ascii.eqb_spec c "#") as [->|N]; [|now apply dot_safe]. destruct I as [[_ I]|[_ I]]; [discriminate|]. destruct (n - 1 =? 0); [auto with safe|now apply dot_safe].
Qed.
Lemma rep_safe : forall fl sp s n, inside s n -> safe (parse_units_rep fl sp s n).
Proof.
  intros fl sp s n I. pose proof I as I0. apply inside_cases in I as (c & r & -> & I). unfold parse_units_rep. cbn [deref fbind tail].
  destruct (Ascii.eqb_spec c "+") as [->|N1]; [destruct I as [[_ I]|[_ I]]; [discriminate|now apply alt_safe]|].
  destruct (Ascii.eqb_spec c "-") as [->|N2]; [destruct I as [[_ I]|[_ I]]; [discriminate|now apply alt_safe]|].
  destruct (Ascii.eqb_spec c " ") as [->|N3]; [destruct I as [[_ I]|[_ I]]; [discriminate|now apply alt_safe]|].
  now apply alt_safe.
Qed.

Lemma find_first_some : forall s n x, find_first s = Some (n, x) -> exists p c r, s = p ++ String c r /\ x = String c r /\ n = len p /\ no_q p /\ (c = "Q"%char \/ c = "q"%char).
Proof.
  induction s as [|a s IH]; intros n x H; cbn [find_first] in H; [discriminate|]. destruct (Ascii.eqb a "Q" || Ascii.eqb a "q") eqn:E.
  - inversion H; subst. exists "", a, s. split; [reflexivity|]. split; [reflexivity|]. split; [reflexivity|]. split; [intros y []|].
    apply orb_true_iff in E as [E|E]; apply Ascii.eqb_eq in E; auto.
  - destruct (find_first s) as [[k y]|] eqn:F; [|discriminate]. inversion H; subst. destruct (IH _ _ eq_refl) as (p & c & r & -> & -> & -> & N & C).
    exists (String a p), c, r. split; [reflexivity|]. split; [reflexivity|]. split; [now rewrite len_cons|]. split; [|exact C].
    intros y [<-|I]; [|now apply N]. apply orb_false_iff in E as [E1 E2]. apply Ascii.eqb_neq in E1, E2. auto.
Qed.
(** The calls up to what lies beyond the [Q]. *)
Definition shape (c : call) : call := match c with OnValue _ n => OnValue "" n | x => x end.
Definition call_ok (c : call) : Prop := match c with OnValue s n => inside s n | _ => True end.
Lemma flush_shape : forall p l l', map shape l = map shape l' -> map shape (flush p l) = map shape (flush p l').
Proof. intros [|c p] l l' E; cbn; [exact E|now f_equal]. Qed.
Lemma flush_ok : forall p l, Forall call_ok l -> Forall call_ok (flush p l).
Proof. intros [|c p] l E; cbn; [exact E|constructor; [exact I|exact E]]. Qed.
Lemma prepend_ok : forall l x y r, prepend l x = FOk (y, r) -> exists z, x = FOk (z, r) /\ y = (l ++ z)%list.
Proof. intros l x y r H. unfold prepend in H. destruct x as [[z r']| | | |]; try discriminate. cbn in H. inversion H. eauto. Qed.

Lemma loop_general : forall k pending s, (String.length s < k)%nat ->
  (parse_loop k pending s = FError \/
   exists l pre r, parse_loop k pending s = FOk (l, r) /\ s = pre ++ r /\ closed r /\ Forall call_ok l /\
     forall k', (String.length pre < k')%nat -> exists l', parse_loop k' pending pre = FOk (l', "") /\ map shape l' = map shape l).
Proof.
  induction k as [|k IH]; intros pending s K; [lia|]. destruct s as [|c s]; cbn [parse_loop].
  - right. exists (flush pending []), "", "". split; [reflexivity|]. split; [reflexivity|]. split; [now left|]. split; [apply flush_ok; constructor|].
    intros k' K'. destruct k'; [lia|]. eexists. split; reflexivity.
  - destruct (Ascii.eqb_spec c "}") as [->|Nb].
    + right. exists (flush pending []), "", (String "}" s). split; [reflexivity|]. split; [reflexivity|]. split; [right; eauto|]. split; [apply flush_ok; constructor|].
      intros k' K'. destruct k'; [lia|]. eexists. split; reflexivity.
    + cbn [String.length] in K. destruct (Ascii.eqb_spec c "%") as [->|Np]; cbn [negb].
      * assert (Simple : forall d x s2, (s = String d s2) -> (d = "%"%char /\ x = "%" \/ d = "n"%char /\ x = newline \/ d = "t"%char /\ x = tab) ->
          prepend (flush pending [OnText x]) (parse_loop k "" s2) = FError \/
          exists l pre r, prepend (flush pending [OnText x]) (parse_loop k "" s2) = FOk (l, r) /\ String "%" s = pre ++ r /\ closed r /\ Forall call_ok l /\
           forall k', (String.length pre < k')%nat -> exists l', parse_loop k' pending pre = FOk (l', "") /\ map shape l' = map shape l).
        { intros d x s2 -> X. cbn [String.length] in K. destruct (IH "" s2 ltac:(lia)) as [E|(l & pre & r & E & -> & C & O & F)]; rewrite E; [left; reflexivity|].
          right. exists (flush pending [OnText x] ++ l)%list, (String "%" (String d pre)), r. split; [reflexivity|]. split; [reflexivity|]. split; [exact C|].
          split; [apply Forall_app; split; [apply flush_ok; repeat constructor|exact O]|].
          intros k' K'. cbn [String.length] in K'. destruct k'; [lia|]. destruct (F k' ltac:(lia)) as (l' & E' & S'). exists (flush pending [OnText x] ++ l')%list.
          split; [|rewrite !map_app; now f_equal]. cbn [parse_loop]. change (Ascii.eqb "%" "}") with false. change (negb (Ascii.eqb "%" "%")) with false. cbv iota.
          destruct X as [[-> ->]|[[-> ->]|[-> ->]]]; cbn [Ascii.eqb eqb]; rewrite E'; reflexivity. }
        destruct s as [|d s2]; [left; reflexivity|].
        destruct (Ascii.eqb_spec d "%") as [->|N1]; [apply (Simple "%"%char); auto|].
        destruct (Ascii.eqb_spec d "n") as [->|N2]; [apply (Simple "n"%char); auto|].
        destruct (Ascii.eqb_spec d "t") as [->|N3]; [apply (Simple "t"%char); auto|]. clear Simple.
        destruct (find_first (String d s2)) as [[n x]|] eqn:FF; [|left; reflexivity].
        destruct (find_first_some _ _ _ FF) as (p & q & t & Es & -> & -> & Nq & Q). cbn [deref fbind tail].
        assert (Lt : (String.length t < k)%nat) by (rewrite Es, append_length in K; cbn [String.length] in K; lia).
        destruct (IH "" t Lt) as [E|(l & pre & r & E & -> & C & O & F)]; rewrite E; [left; reflexivity|].
        right. eexists _, (String "%" (p ++ String q pre)), r. split; [reflexivity|]. split; [rewrite Es; flat|]. split; [exact C|].
        split; [cbn [fst snd]; apply Forall_app; split; [apply flush_ok; constructor; [|constructor]|exact O]|].
        { destruct (Ascii.eqb_spec q "Q") as [->|]; [|exact I]. cbn. exists p, (pre ++ r). split; [exact Es|reflexivity]. }
        intros k' K'. cbn [String.length] in K'. rewrite append_length in K'. cbn [String.length] in K'. destruct k'; [lia|].
        destruct (F k' ltac:(lia)) as (l' & E' & S'). cbn [parse_loop]. change (Ascii.eqb "%" "}") with false. change (negb (Ascii.eqb "%" "%")) with false. cbv iota.
        assert (Ed : exists s3, p ++ String q pre = String d s3) by (destruct p as [|y p]; cbn in Es |- *; inversion Es; eauto).
        destruct Ed as (s3 & Ed). rewrite Ed. rewrite !eqb_neq by assumption. rewrite <- Ed. rewrite (find_first_app p q) by assumption. cbn [deref fbind tail].
        rewrite E'. eexists. split; [reflexivity|]. cbn [fst snd]. rewrite !map_app. f_equal; [|exact S']. apply flush_shape. destruct (Ascii.eqb q "Q"); reflexivity.
      * destruct (IH (pending ++ String c "") s ltac:(lia)) as [E|(l & pre & r & E & -> & C & O & F)]; [left; exact E|].
        right. exists l, (String c pre), r. split; [exact E|]. split; [reflexivity|]. split; [exact C|]. split; [exact O|].
        intros k' K'. cbn [String.length] in K'. destruct k'; [lia|]. destruct (F k' ltac:(lia)) as (l' & E' & S'). exists l'. split; [|exact S'].
        cbn [parse_loop]. rewrite !eqb_neq by assumption. exact E'.
Qed.
Lemma handle_safe : forall fl l f, Forall call_ok l -> safe (handle_all fl f l).
Proof.
  induction l as [|c l IH]; intros f O; cbn [handle_all]; [auto with safe|]. inversion O; subst. apply safe_bind; [|intros; now apply IH].
  destruct c as [t|s n|c]; cbn [handle]; [auto with safe| |auto with safe]. apply safe_bind; [|auto with safe]. destruct (n =? 0); [auto with safe|now apply rep_safe].
Qed.
Lemma int_len : forall s acc, safe (parse_int acc s (len s)).
Proof.
  induction s as [|c s IH]; intros acc; [split; discriminate|]. rewrite len_cons. cbn [parse_int]. destruct (Z.eqb_spec (len s + 1) 0); [lia|].
  destruct (is_digit_char c); [|auto with safe]. destruct (int_max <? _); [auto with safe|]. replace (len s + 1 - 1) with (len s) by lia. apply IH.
Qed.
Lemma align_safe : forall s, s <> "" -> safe (parse_align s).
Proof.
  intros [|c r] N; [contradiction|]. unfold parse_align. destruct (drop (code_point_length c) (String c r)); [destruct (is_align c); auto with safe|].
  destruct (is_align a); [destruct (Ascii.eqb c "{"); auto with safe|destruct (is_align c); auto with safe].
Qed.
Lemma width_safe : forall s, s <> "" -> safe (parse_width s).
Proof.
  intros [|c r] N; [contradiction|]. unfold parse_width. cbn [deref fbind]. destruct (is_digit_char c).
  - apply safe_bind; [apply int_len|auto with safe].
  - destruct (Ascii.eqb c "{"); auto with safe.
Qed.
Lemma parse_safe : forall fl s, safe (parse fl s).
Proof.
  intros fl s. unfold parse. destruct s as [|c r]; [auto with safe|]. destruct (Ascii.eqb c "}"); [auto with safe|].
  apply safe_bind; [now apply align_safe|]. intros [[fill al] s1] _. destruct (String.eqb_spec s1 ""); [auto with safe|].
  apply safe_bind; [now apply width_safe|]. intros [w s2] _. cbn [fst snd]. destruct (String.eqb_spec s2 ""); [auto with safe|].
  unfold parse_units_format. destruct (loop_general (S (String.length s2)) "" s2 ltac:(lia)) as [E|(l & pre & r' & E & _ & _ & O & _)]; rewrite E; cbn [fbind fst snd]; [auto with safe|].
  apply safe_bind; [now apply handle_safe|auto with safe].
Qed.

(** Everything that parses can be written. *)
Lemma emit_all_ok : forall put fl f x sy value, (forall s, put s x = FOk (value s)) -> forall l, exists t, emit_all put fl f x sy l = FOk t.
Proof.
  intros put fl f x sy value P. induction l as [|c l (t & IH)]; [eexists; reflexivity|]. cbn [emit_all]. rewrite IH.
  destruct c; cbn [emit]; rewrite ?P; cbn [fbind]; eexists; reflexivity.
Qed.
Lemma emit_shape : forall put fl f x sy l l', map shape l = map shape l' -> emit_all put fl f x sy l = emit_all put fl f x sy l'.
Proof.
  intros put fl f x sy. induction l as [|c l IH]; intros [|c' l'] E; try discriminate; [reflexivity|]. cbn [map] in E. inversion E. cbn [emit_all]. rewrite (IH l') by assumption.
  f_equal. destruct c, c'; cbn in H0; inversion H0; subst; reflexivity.
Qed.
Lemma parse_text : forall fl s f fs r, parse fl s = FOk (f, fs, r) -> fs = "" \/
  exists l l', parse_units_format fs = FOk (l', "") /\ map shape l' = map shape l /\ (exists s2, s2 = fs ++ r /\ parse_units_format s2 = FOk (l, r)).
Proof.
  intros fl s f fs r H. unfold parse in H. destruct s as [|c s]; [inversion H; now left|]. destruct (Ascii.eqb c "}"); [inversion H; now left|].
  destruct (parse_align (String c s)) as [[[fill al] s1]| | | |]; try discriminate. cbn [fbind] in H. destruct (String.eqb s1 ""); [inversion H; now left|].
  destruct (parse_width s1) as [[w s2]| | | |]; try discriminate. cbn [fbind fst snd] in H. destruct (String.eqb s2 ""); [inversion H; now left|].
  destruct (loop_general (S (String.length s2)) "" s2 ltac:(lia)) as [E|(l & pre & r' & E & Es & _ & O & F)]; fold (parse_units_format s2) in E; rewrite E in H; cbn [fbind fst snd] in H; [discriminate|].
  destruct (handle_all _ _ _); try discriminate. cbn [fbind] in H. inversion H; subst. rewrite consumed_app. right.
  destruct (F (S (String.length pre)) ltac:(lia)) as (l' & E' & S'). exists l, l'. split; [exact E'|]. split; [exact S'|]. eauto.
Qed.
Lemma format_ok : forall fl s f fs r put value columns x sy, parse fl s = FOk (f, fs, r) -> (forall t, put t x = FOk (value t)) ->
  exists t, format put columns fl f fs x sy = FOk t.
Proof.
  intros fl s f fs r put value columns x sy H P. unfold format. apply parse_text in H as [->|(l & l' & E & _)].
  - rewrite P. cbn [fbind]. eexists. reflexivity.
  - destruct (emit_all_ok put fl f x sy value P l') as (t & Et). destruct fs as [|c fs]; [rewrite P; cbn [fbind]; eexists; reflexivity|].
    destruct (Ascii.eqb c "}"); [rewrite P; cbn [fbind]; eexists; reflexivity|]. rewrite E. cbn [fbind fst snd]. rewrite Et. eexists. reflexivity.
Qed.
