(** Theorems about the formatting of quantities (C62). *)

From Coq Require Import ZArith Ascii String List Bool Lia DecimalString Arith.
From Verif Require Import Outcome FixedString StringProofs SpecText SymbolProofs Unit Dim Rep QuantityCast Quantity UnitText QuantityIo
  Format SpecFormat FormatProofs FormatProofs2 FormatProofs3.
Import ListNotations.
Local Open Scope string_scope.
Local Open Scope Z_scope.
Local Open Scope fres_scope.

(** A documented format specification is accepted up to the brace that closes it, and the
    output is its items in order: literal characters, the special signs, the number written
    with the modifiers of the standard, the symbol of the unit; padded as asked for.
    This holds if all values in the specification have the same modifiers, all symbols too, and
    no locale is asked for together with a type. *)
Theorem C62_documented : forall floating f t, documented floating f -> uniform (d_items f) ->
  (forall m, In (Value m) (d_items f) -> locale_free floating m) ->
  forall put value columns x symbol, (forall s, put s x = FOk (value s)) ->
  exists specs format_str out,
    parse floating (spell_field f ++ "}" ++ t) = FOk (specs, format_str, "}" ++ t) /\
    format put columns floating specs format_str x symbol = FOk out /\
    aligned (field_fill f) (field_alignment f) (field_width f) columns (field_text value floating (st_standard symbol) (st_ascii symbol) f) out.
Proof.
  intros fl f t D U L put value columns x sy P. change ("}" ++ t) with (String "}" t). unfold field_text.
  destruct (d_items f) as [|i l] eqn:I.
  - assert (C : empty_field f \/ ~ empty_field f).
    { unfold empty_field. destruct (d_align f); [right; intros (A & _); discriminate|]. destruct (d_width f); [right; intros (_ & A & _); discriminate|]. left; auto. }
    destruct C as [C|C].
    + rewrite (parse_empty fl f t D C). exists no_fspecs, "", (default_text value fl (st_standard sy)). split; [reflexivity|].
      split; [rewrite (format_default fl no_fspecs x sy put value) by (reflexivity || exact P); unfold pad_text; cbn [f_align f_width f_fill no_fspecs]|].
      * replace (Z.to_nat (0 - _)) with 0%nat by lia. cbn [repeated]. now rewrite append_nil_r.
      * exists 0%nat, 0%nat. destruct C as (A & W & _). unfold field_width, field_alignment. rewrite W, A. cbn [copies append]. rewrite append_nil_r.
        split; [reflexivity|]. split; [lia|]. destruct (default_alignment (d_items f)); auto.
    + rewrite (parse_doc fl f t D C). eexists _, _, _. split; [reflexivity|]. rewrite I. cbn [spell].
      split; [apply format_default; [|exact P]|].
      * unfold field_specs, realign. cbn [f_rep]. now rewrite I.
      * destruct (after_keeps (d_items f) (base_specs f)) as (F & _ & W & _). pose proof (pad_aligned (field_specs f) columns (default_text value fl (st_standard sy))) as Pa.
        rewrite realign_of in Pa. unfold field_specs in Pa at 1 2. cbn [f_fill f_width realign] in Pa. rewrite F, W in Pa. exact Pa.
  - assert (C : ~ empty_field f) by (unfold empty_field; rewrite I; intros (_ & _ & E); discriminate).
    rewrite (parse_doc fl f t D C). eexists _, _, _. split; [reflexivity|]. rewrite <- I in *.
    split; [apply (format_items fl f x sy put value columns D); [rewrite I; discriminate|exact P]|].
    rewrite (written_text fl f value sy D U L).
    destruct (after_keeps (d_items f) (base_specs f)) as (F & _ & W & _). pose proof (pad_aligned (field_specs f) columns (items_text value fl (st_standard sy) (st_ascii sy) (d_items f))) as Pa.
    rewrite realign_of in Pa. unfold field_specs in Pa at 1 2. cbn [f_fill f_width realign] in Pa. rewrite F, W in Pa. exact Pa.
Qed.
Print Assumptions C62_documented.

(** [{:*^12%.1fQ [%Aq]}]. *)
Definition sample_mod : rep_mod := RepMod (Some Plus) true (Some "1") false (Some "e"%char).
Definition sample_field : field :=
  Field (Some "*") (Some Center) (Some "12") [Value sample_mod; Literal " "; Literal "["; Symbol true; Literal "]"; Percent; Tab].
Ltac doc_rep := let d := fresh in let E := fresh in
  split; [intros d E; first [discriminate E|inversion E; subst d; split; [reflexivity|eexists; split; [reflexivity|vm_compute; discriminate]]]
         |intros d E; first [discriminate E|inversion E; subst d; cbn; tauto]].
Ltac doc_items := lazymatch goal with |- Forall ?p ?l => let l' := eval cbv in l in change (Forall p l') end; repeat (apply Forall_cons; [first [exact I|split; [discriminate|split; discriminate]|doc_rep]|]); apply Forall_nil.
Example C62_sample : spell_field sample_field = "*^12%+#.1eQ [%Aq]%%%t" /\ documented true sample_field /\ uniform (d_items sample_field) /\
  (forall m, In (Value m) (d_items sample_field) -> locale_free true m) /\
  field_text (fun s => s) true "Ω" "ohm" sample_field = "{:+#.1e} [ohm]%" ++ one (ascii_of_nat 9) /\ field_alignment sample_field = Center.
Proof.
  split; [reflexivity|]. split; [|split; [|split; [|split; reflexivity]]].
  - split; [|split; [|split]].
    + intros s E. inversion E. subst s. split; [|discriminate]. exists "*"%char, "". split; [reflexivity|]. split; [discriminate|]. split; [discriminate|]. left. split; [|reflexivity]. cbn. lia.
    + intros d E. inversion E. subst d. exists 12. split; [reflexivity|]. lia.
    + doc_items.
    + intros i r E. inversion E. exact I.
  - split; cbn; intros a b; intuition congruence.
  - intros m I E. cbn in I. repeat (destruct I as [I|I]; [inversion I; subst m; discriminate|]). contradiction.
Qed.

(** ** Modifiers are shared by the whole specification *)

(** Whatever the modifiers, all numbers in the output look the same, and all symbols. *)
Theorem C62_shared : forall floating f t, documented floating f -> d_items f <> [] ->
  forall put value columns x symbol, (forall s, put s x = FOk (value s)) ->
  exists specs format_str out number unit,
    parse floating (spell_field f ++ "}" ++ t) = FOk (specs, format_str, "}" ++ t) /\
    format put columns floating specs format_str x symbol = FOk out /\
    aligned (field_fill f) (field_alignment f) (field_width f) columns
      (String.concat "" (map (fun i => match i with
                                       | Value _ => number
                                       | Symbol _ => unit
                                       | _ => item_text value floating (st_standard symbol) (st_ascii symbol) i
                                       end) (d_items f))) out.
Proof.
  intros fl f t D N put value columns x sy P. assert (C : ~ empty_field f) by (intros (_ & _ & E); contradiction).
  change ("}" ++ t) with (String "}" t). rewrite (parse_doc fl f t D C).
  exists (field_specs f), (spell (d_items f)), (pad_text (field_specs f) columns (String.concat "" (map (written value fl (field_specs f) sy) (d_items f)))),
    (value (number_format fl (f_rep (field_specs f)))), (if Ascii.eqb (f_modifier (field_specs f)) "A" then st_ascii sy else st_standard sy).
  split; [reflexivity|]. split; [now apply format_items|].
  destruct (after_keeps (d_items f) (base_specs f)) as (F & _ & W & _). pose proof (pad_aligned (field_specs f) columns (String.concat "" (map (written value fl (field_specs f) sy) (d_items f)))) as Pa.
  rewrite realign_of in Pa. unfold field_specs in Pa at 1 2. cbn [f_fill f_width realign] in Pa. rewrite F, W in Pa.
  erewrite map_ext; [exact Pa|]. intros i. destruct i; reflexivity.
Qed.
Print Assumptions C62_shared.

(** So [{:%.1Q %.3Q}] shows the number twice with three digits, and [{:%Aq %q}] the ASCII
    symbol twice: the items are not written with their own modifiers. *)
Definition show (floating : bool) (s : string) (symbol : symbol_text) : fres string :=
  p <-- parse floating s; format (fun f _ => FOk f) String.length floating (fst (fst p)) (snd (fst p)) (NInt 0) symbol.
Theorem C62_shared_refuted : exists f g, documented true f /\ documented true g /\
  show true (spell_field f ++ "}") (st_of_ascii "m") = FOk "{:.3f} {:.3f}" /\
  items_text (fun s => s) true "m" "m" (d_items f) = "{:.1f} {:.3f}" /\
  show true (spell_field g ++ "}") (SymbolText "Ω" "ohm") = FOk "ohm ohm" /\
  items_text (fun s => s) true "Ω" "ohm" (d_items g) = "ohm Ω".
Proof.
  exists (Field None None None [Value (RepMod None false (Some "1") false None); Literal " "; Value (RepMod None false (Some "3") false None)]),
    (Field None None None [Symbol true; Literal " "; Symbol false]).
  split; [|split; [|split; [|split; [|split]]]]; try reflexivity.
  - split; [|split; [|split]]; try discriminate.
    + doc_items.
    + intros i r E. inversion E. exact I.
  - split; [|split; [|split]]; try discriminate.
    + doc_items.
    + intros i r E. inversion E. exact I.
Qed.
Print Assumptions C62_shared_refuted.

(** ** The locale *)

(** The format string handed to fmt for a number follows the grammar of the standard exactly
    if no locale is asked for, or if there is neither a written nor an assumed type: the code
    puts [L] after the type. *)
Theorem C62_locale : forall floating m, documented_rep floating m ->
  (standard_format floating (number_format floating (overlay no_rep_specs m)) <-> locale_free floating m).
Proof.
  intros fl m D. split.
  - intros (m' & D' & E) L. rewrite number_format_doc in E by exact D. rewrite L in E.
    assert (X : forall c p, rep_type c -> spell_rep m' <> p ++ String c "L") by (intros c p T; now apply (type_then_locale fl)).
    assert (E' : spell_rep m' ++ "}" = ((spell_sign (m_sign m) ++ (if m_alt m then "#" else "") ++
       (match m_precision m with Some d => "." ++ notation (number_of d) | None => "" end)) ++
      (match m_type m with Some c => one c | None => match m_precision m with Some _ => "f" | None => if fl then "g" else "" end end) ++ "L") ++ "}").
    { assert (Cancel : forall a b : string, "{:" ++ a = "{:" ++ b -> a = b) by (intros a b Z; now inversion Z).
      apply Cancel in E. rewrite <- E. flat. }
    apply snoc_inj in E' as [E' _]. clear E. destruct (m_type m) as [c|] eqn:T.
    + elim (X c (spell_sign (m_sign m) ++ (if m_alt m then "#" else "") ++ (match m_precision m with Some d => "." ++ notation (number_of d) | None => "" end))); [now apply D|exact E'].
    + destruct (m_precision m) as [d|] eqn:Pr.
      * elim (X "f"%char (spell_sign (m_sign m) ++ (if m_alt m then "#" else "") ++ "." ++ notation (number_of d))); [cbn; tauto|exact E'].
      * destruct fl; [|auto]. elim (X "g"%char (spell_sign (m_sign m) ++ (if m_alt m then "#" else "") ++ "")); [cbn; tauto|exact E'].
  - intros L. rewrite number_format_standard by assumption. destruct D as [D T].
    exists (RepMod (m_sign m) (m_alt m) (match m_precision m with Some d => Some (notation (number_of d)) | None => None end) (m_locale m)
      (match m_type m with Some c => Some c | None => match m_precision m with Some _ => Some "f"%char | None => if fl then Some "g"%char else None end end)).
    split; [split; cbn [m_precision m_type]|].
    + intros d E. destruct (m_precision m) as [d0|]; [|discriminate]. destruct (D d0 eq_refl) as [F I]. split; [exact F|]. inversion E; subst d.
      exists (number_of d0). split; [apply notation_reads; now apply number_pos|]. destruct I as (n & R & B). unfold number_of. now rewrite R.
    + intros c E. destruct (m_type m); [inversion E; subst; now apply T|]. destruct (m_precision m); [inversion E; cbn; tauto|]. destruct fl; inversion E; cbn; tauto.
    + unfold value_format, spell_rep. cbn [m_sign m_alt m_precision m_locale m_type]. rewrite !append_assoc. f_equal. f_equal. f_equal.
      destruct (m_precision m), (m_type m); try destruct fl; flat.
Qed.
Print Assumptions C62_locale.
Theorem C62_locale_refuted : exists m, documented_rep true m /\ show true ("%" ++ spell_rep m ++ "Q}") (st_of_ascii "m") = FOk "{:gL}" /\ ~ standard_format true "{:gL}".
Proof.
  exists (RepMod None false None true None). assert (D : documented_rep true (RepMod None false None true None)) by (split; discriminate).
  split; [exact D|]. split; [reflexivity|]. intros S. apply (proj1 (C62_locale true _ D)) in S. destruct (S eq_refl). discriminate.
Qed.
Print Assumptions C62_locale_refuted.

(** ** Errors *)

(** After any documented specification, a value with an unknown type, a value of an integral
    representation with a precision, and a conversion without an end are rejected. *)
Theorem C62_rejected : forall floating f t, documented floating f -> erroneous floating t -> parse floating (spell_field f ++ t) = FError.
Proof. exact parse_erroneous. Qed.
Print Assumptions C62_rejected.
Example C62_rejected_samples : erroneous true "%+.1kQ}" /\ erroneous false "%#.3Q %q}" /\ erroneous false "%".
Proof.
  split; [|split].
  - apply (bad_type true (RepMod (Some Plus) false (Some "1") false None) "k" "" "}"); try reflexivity.
    + split; [|discriminate]. intros d E. inversion E; subst. split; [reflexivity|]. exists 1. split; [reflexivity|lia].
    + cbn. intuition discriminate.
    + cbn. intuition discriminate.
    + intros E. elim E. reflexivity.
    + cbn. unfold contains_q. cbn. tauto.
  - apply (bad_precision false (RepMod None true None false None) "3" " %q}"); try reflexivity. unfold contains_q. cbn. intuition discriminate.
  - apply (bad_end false ""); [unfold contains_q; cbn; tauto|discriminate].
Qed.

(** ** All format strings *)

(** Parsing any string ends, without reading beyond the end of the string, and what has been
    accepted can be formatted: the second pass over the text finds the same conversions. *)
Theorem C62_safe : forall floating s,
  parse floating s <> FOverrun /\ parse floating s <> FStuck /\
  forall specs format_str r, parse floating s = FOk (specs, format_str, r) ->
    (forall put value columns x symbol, (forall t, put t x = FOk (value t)) -> exists out, format put columns floating specs format_str x symbol = FOk out) /\
    (format_str = "" \/ exists l l', parse_units_format (format_str ++ r) = FOk (l, r) /\ parse_units_format format_str = FOk (l', "") /\ map shape l' = map shape l).
Proof.
  intros fl s. destruct (parse_safe fl s) as [S1 S2]. split; [exact S1|]. split; [exact S2|]. intros specs fs r H. split.
  - intros put value columns x sy P. now apply (format_ok fl s specs fs r put value).
  - apply parse_text in H as [H|(l & l' & E & Sh & s2 & -> & E2)]; [now left|right]. eauto.
Qed.
Print Assumptions C62_safe.
Example C62_safe_sample : exists specs, parse true "*^12%+#.1eQ [%Aq]%%%t}rest" = FOk (specs, "%+#.1eQ [%Aq]%%%t", "}rest").
Proof. eexists. reflexivity. Qed.

(** ** Strings that are not documented and yet accepted *)

(** Any character before [q] is taken for a modifier, and ignored unless it is [A]; so is
    anything between the type of a number and [Q]; and the search for [Q] or [q] goes beyond
    the conversion, even beyond the brace that ends the field. *)
Theorem C62_modifier_refuted :
  show true "%zq}" (SymbolText "Ω" "ohm") = FOk "Ω" /\ show true "%Azzq}" (SymbolText "Ω" "ohm") = FOk "ohm" /\
  show true "%.2fzzQ}" (st_of_ascii "m") = FOk "{:.2f}" /\
  show true "%d apples, %q}" (st_of_ascii "m") = FOk "m" /\
  (exists specs, parse true "%} and {:%Q}." = FOk (specs, "%} and {:%Q", "}.")).
Proof. repeat (split; [reflexivity|]). eexists. reflexivity. Qed.
Print Assumptions C62_modifier_refuted.

(** ** The default *)

(** The empty specification gives what [{:%Q %q}] gives exactly if the symbol is not empty,
    otherwise the space is left out; and it gives what the output stream gives, if both
    write the number in the same way. *)
Theorem C62_default : forall floating put value columns x symbol, (forall s, put s x = FOk (value s)) ->
  exists a b, (p <-- parse floating "}"; format put columns floating (fst (fst p)) (snd (fst p)) x symbol) = FOk a /\
    (p <-- parse floating "%Q %q}"; format put columns floating (fst (fst p)) (snd (fst p)) x symbol) = FOk b /\
    a = default_text value floating (st_standard symbol) /\ (a = b <-> st_standard symbol <> "").
Proof.
  intros fl put value columns x sy P. exists (default_text value fl (st_standard sy)), (value (if fl then "{:g}" else "{:}") ++ " " ++ st_standard sy).
  assert (Z : forall f s, f_width f = 0 -> pad_text f columns s = s).
  { intros f s E. unfold pad_text. rewrite E. replace (Z.to_nat (0 - _)) with 0%nat by lia. destruct (f_align f); cbn [repeated append Nat.div2 Nat.sub]; now rewrite ?append_nil_r. }
  split; [|split; [|split; [reflexivity|]]].
  - cbn [parse fbind fst snd]. change (Ascii.eqb "}" "}") with true. cbv iota. cbn [fbind fst snd]. rewrite (format_default fl no_fspecs x sy put value) by (reflexivity || exact P).
    now rewrite Z.
  - set (f := Field None None None [Value (RepMod None false None false None); Literal " "; Symbol false]).
    change "%Q %q}" with (spell_field f ++ String "}" "").
    assert (D : documented fl f).
    { split; [|split; [|split]]; try discriminate.
      - doc_items.
      - intros i r E. inversion E. exact I. }
    rewrite (parse_doc fl f "" D) by (intros (_ & _ & E); discriminate). cbn [fbind fst snd].
    rewrite (format_items fl f x sy put value columns D ltac:(discriminate) P). rewrite Z by reflexivity. destruct fl; reflexivity.
  - unfold default_text. destruct (String.eqb_spec (st_standard sy) "") as [E|E].
    + rewrite E. split; [|intros N; now elim N]. intros H. exfalso. assert (L := f_equal String.length H). rewrite append_length in L. cbn in L. lia.
    + split; auto.
Qed.
Print Assumptions C62_default.
Theorem C62_stream : forall (F : Type) (put_f : F -> number -> string) (default : F) (os : stream F) (floating : bool) put value columns x symbol,
  (forall s, put s x = FOk (value s)) -> value (if floating then "{:g}" else "{:}") = put_f (os_format os) x -> os_width os = 0 ->
  exists a, (p <-- parse floating "}"; format put columns floating (fst (fst p)) (snd (fst p)) x symbol) = FOk a /\
    os_out (put_quantity put_f default os x symbol) = os_out os ++ a.
Proof.
  intros F put_f default os fl put value columns x sy P V W. destruct (C62_default fl put value columns x sy P) as (a & b & Ea & _ & A & _).
  exists a. split; [exact Ea|]. rewrite A. unfold put_quantity, default_text. rewrite W, V. cbn [negb Z.eqb].
  assert (Zp : forall c b s, padded 0 c b s = s).
  { intros c l s. unfold padded. replace (Z.to_nat (0 - len s)) with 0%nat by lia. destruct l; cbn [fill_chars append]; now rewrite ?append_nil_r. }
  unfold to_stream. destruct (String.eqb (st_standard sy) ""); cbn [negb]; unfold insert_number, insert_text; cbn [os_out os_width os_fill os_left]; rewrite ?W, !Zp; flat.
Qed.
Print Assumptions C62_stream.
Example C62_default_sample : show false "}" (st_of_ascii "") = FOk "{:}" /\ show false "%Q %q}" (st_of_ascii "") = FOk "{:} " /\
  show true ">9}" (SymbolText "Ω" "ohm") = FOk "  {:g} Ω".
Proof. split; [reflexivity|]. split; reflexivity. Qed.
