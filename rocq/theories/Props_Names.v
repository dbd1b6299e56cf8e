(** Property theorems C73: literals, reference constants and aliases of units.

    The names are read by the reader of [SpecNames], which knows the symbols and the
    prefixes of the SI Brochure and the customary symbols, but nothing of the library. *)

From Coq Require Import ZArith QArith Qpower Lqa Lia String List Bool.
From Verif Require Import Outcome CInt Root Ratio Unit Downcast Dim DimOp Equivalent Rep QuantityCast Quantity Reference
  System Catalogue Names SpecReal SpecDim SpecUnit SpecQuantity SpecCatalogue SpecNames MagnitudeProofs IntProofs QuantityProofs
  SystemProofs IsqProofs CatalogueProofs ChronoProofs KindProofs NamesProofs Props_Catalogue.
Import ListNotations.
Local Open Scope string_scope.
Local Open Scope Z_scope.
Local Open Scope res_scope.

#[local] Opaque full catalogue unit_table natural_table quantity_table isq_templates prefix_table
  literals references aliases all_names.

(** A name the program can use has exactly one reading as a unit of the quantity it is
    declared for, and stands for the unit with the value of that reading (up to the
    deviations of C65, which are those of the units).  In the natural system the name is the
    power of the gigaelectronvolt the quantity is measured in. *)
Theorem C73_names : forall est mode prog e, compiles est mode prog e ->
  forall n r t, In n (map l_name literals ++ references ++ aliases)%list -> named_type e n r = Ok t ->
  exists x u, find_dim e (n_dim n) = Ok x /\ find_unit e (n_unit n) = Ok u /\ t = QType (snd x) u r /\
   (natural_dim x = false ->
      exists v, readings_as (quantity_name x) (n_ns n) (n_name n) = [v] /\
        sized est t (deviation (n_unit n) * v * si_coherent (quantity_name x))) /\
   (natural_dim x = true ->
      exists k row, assoc natural_readings (n_name n) = Some k /\
        assoc quantity_table (quantity_name x) = Some row /\
        k = exponent_in row "dim_mass" - exponent_in row "dim_length" - exponent_in row "dim_time" /\
        sized est t (inject_Z (10 ^ 9) ^ exponent_in row "dim_mass")).
Proof. intros est mode prog e [I E]. exact (names_sized est mode prog e I E). Qed.
Print Assumptions C73_names.

(** All of them can be used in a program that includes everything, ... *)
Theorem C73_available : forall est mode e, compiles est mode catalogue e ->
  forall n r, In n (map l_name literals ++ references ++ aliases)%list -> n_ns n <> "si::radioactivity" ->
  exists t, named_type e n r = Ok t.
Proof. intros est mode e [_ E]. exact (names_available est mode e E). Qed.
Print Assumptions C73_available.
(** ... but the aliases of the units of radioactivity, which name types that are nowhere
    declared: no program can use them (si/radioactivity.h:198-218). *)
Theorem C73_radioactivity_refuted : forall est mode prog e, compiles est mode prog e ->
  forall n r, In n (map l_name literals ++ references ++ aliases)%list -> n_ns n = "si::radioactivity" ->
  named_type e n r = IllFormed.
Proof. intros est mode prog e [I E]. exact (dangling_ill est mode prog e I E). Qed.
Print Assumptions C73_radioactivity_refuted.

(** Within a namespace a name stands for one thing, also where the names of several headers
    meet (the namespaces of the aliases are inline) ... *)
Theorem C73_unambiguous :
  (forall a b, In a literals -> In b literals -> n_ns (l_name a) = n_ns (l_name b) -> n_name (l_name a) = n_name (l_name b) -> l_name a = l_name b) /\
  (forall a b, In a references -> In b references -> String.prefix "natural" (n_ns a) = false ->
     n_ns a = n_ns b -> n_name a = n_name b -> a = b) /\
  (forall a b, In a aliases -> In b aliases -> String.prefix "natural" (n_ns a) = false -> String.prefix "natural" (n_ns b) = false ->
     enclosing (n_ns a) = enclosing (n_ns b) -> n_name a = n_name b -> a = b).
Proof.
  destruct names_unique as (U1 & U2 & U3). split; [|split].
  - intros a b Ha Hb E1 E2. apply (nodup_map_inj _ _ U1); try now apply in_map. unfold literal_key. now rewrite E1, E2.
  - intros a b Ha Hb N E1 E2. apply (nodup_map_inj _ _ U2); try (unfold literal_key; now rewrite E1, E2).
    + apply filter_In. split; auto. unfold not_natural. now rewrite N.
    + apply filter_In. split; auto. unfold not_natural. now rewrite <- E1, N.
  - intros a b Ha Hb Na Nb E1 E2. apply (nodup_map_inj _ _ U3); try (unfold alias_key; now rewrite E1, E2).
    + apply filter_In. split; auto. unfold not_natural. now rewrite Na.
    + apply filter_In. split; auto. unfold not_natural. now rewrite Nb.
Qed.
Print Assumptions C73_unambiguous.
(** ... except in the natural system, where [GeV] is a mass, an energy, a momentum and an
    acceleration. *)
Theorem C73_natural_refuted : exists a b, In a references /\ In b references /\
  n_ns a = "natural" /\ n_ns b = "natural" /\ n_name a = "GeV" /\ n_name b = "GeV" /\
  n_dim a = "natural::dim_mass" /\ n_dim b = "natural::dim_energy" /\
  dim_equivalent (dim_called (n_dim a)) (dim_called (n_dim b)) = false.
Proof.
  exists (UName "natural" "GeV" "natural::dim_mass" "natural::gigaelectronvolt"),
    (UName "natural" "GeV" "natural::dim_energy" "natural::gigaelectronvolt").
  assert (T : forall a l, existsb (fun b => String.eqb (n_ns a) (n_ns b) && String.eqb (n_name a) (n_name b) &&
      String.eqb (n_dim a) (n_dim b) && String.eqb (n_unit a) (n_unit b)) l = true -> In a l).
  { intros [a1 a2 a3 a4] l H. apply existsb_exists in H as ([b1 b2 b3 b4] & Hb & H). cbn in H.
    repeat match goal with H : _ && _ = true |- _ => apply andb_true_iff in H as [? ?] end.
    repeat match goal with H : String.eqb _ _ = true |- _ => apply String.eqb_eq in H end. subst. exact Hb. }
  split; [apply T; vm_compute; reflexivity|]. split; [apply T; vm_compute; reflexivity|].
  repeat split; vm_compute; reflexivity.
Qed.
Print Assumptions C73_natural_refuted.

(** ** Values *)

(** The literal of a whole number: that number of the named unit, in 64 bits. *)
Theorem C73_whole_literal : forall audit e n t l, named_type e n (RInt I64) = Ok t ->
  0 <= l <= INTMAX_MAX -> whole_literal audit e n l = Ok (Quantity t (NInt l)).
Proof.
  intros audit e n t l T L. unfold whole_literal. rewrite T. cbn [bind].
  assert (R : in_range I64 l = true). { unfold in_range. apply andb_true_iff. cbn. unfold INTMAX_MAX in L. lia. }
  rewrite R, andb_false_r. cbn [n_convert bind]. rewrite (wrap_id _ _ R).
  assert (Rt : q_rep t = RInt I64) by (unfold named_type in T; step T as x X; step T as u U; step T as z Z; now inversion T).
  rewrite <- Rt at 1. apply make_same. rewrite Rt. exact R.
Qed.
Print Assumptions C73_whole_literal.
(** A number of up to 64 bits that does not fit 63 is caught where the program is built with
    audit checks ... *)
Theorem C73_large_literal_audit : forall e n t l, named_type e n (RInt I64) = Ok t ->
  INTMAX_MAX < l -> whole_literal true e n l = Contract.
Proof.
  intros e n t l T L. unfold whole_literal. rewrite T. cbn [bind].
  assert (R : in_range I64 l = false). { unfold in_range. apply andb_false_iff. cbn. unfold INTMAX_MAX in L. lia. }
  now rewrite R.
Qed.
Print Assumptions C73_large_literal_audit.
(** ... and silently becomes another (negative) number where it is not: the default. *)
Theorem C73_large_literal_refuted : forall e n t l, named_type e n (RInt I64) = Ok t ->
  INTMAX_MAX < l < 2 ^ 64 -> whole_literal false e n l = Ok (Quantity t (NInt (l - 2 ^ 64))).
Proof.
  intros e n t l T L. unfold whole_literal. rewrite T. cbn [bind andb].
  assert (R : in_range I64 (l - 2 ^ 64) = true).
  { unfold in_range. apply andb_true_iff. cbn. unfold INTMAX_MAX in L. lia. }
  assert (W : wrap I64 l = l - 2 ^ 64).
  { unfold wrap. change (imin I64) with (- 2 ^ 63). change (wbits (iwidth I64)) with 64.
    unfold INTMAX_MAX in L. change (9223372036854775807) with (2 ^ 63 - 1) in L.
    replace (l - - 2 ^ 63) with ((l - 2 ^ 63) + 1 * 2 ^ 64) by lia.
    rewrite Z.mod_add by lia. rewrite Z.mod_small by lia. lia. }
  cbn [n_convert bind]. rewrite W.
  assert (Rt : q_rep t = RInt I64) by (unfold named_type in T; step T as x X; step T as u U; step T as z Z; now inversion T).
  rewrite <- Rt at 1. apply make_same. rewrite Rt. exact R.
Qed.
Print Assumptions C73_large_literal_refuted.

(** The literal of a decimal number keeps the [long double]; information and traffic units
    have none. *)
Theorem C73_float_literal : forall e x t l, named_type e (l_name x) (RFlt F80) = Ok t ->
  num_ok (RFlt F80) l = true ->
  float_literal e x l = if l_float x then Ok (Quantity t l) else IllFormed.
Proof.
  intros e x t l T L. unfold float_literal. destruct (l_float x); [|reflexivity]. cbn [constrained bind]. rewrite T. cbn [bind].
  assert (Rt : q_rep t = RFlt F80) by (unfold named_type in T; step T as y Y; step T as u U; step T as z Z; now inversion T).
  rewrite <- Rt at 1. apply make_same. now rewrite Rt.
Qed.
Print Assumptions C73_float_literal.
Theorem C73_float_literals_exist : forall x, In x literals ->
  l_float x = negb (String.prefix "iec80000" (n_ns (l_name x))).
Proof.
  intros x Hx.
  assert (T : forallb (fun x => Bool.eqb (l_float x) (negb (String.prefix "iec80000" (n_ns (l_name x))))) literals = true)
    by (vm_compute; reflexivity).
  pose proof (proj1 (forallb_forall _ _) T x Hx) as B. now apply eqb_prop in B.
Qed.
Print Assumptions C73_float_literals_exist.

(** A number times a reference constant, and an alias applied to a number: that number of
    the named unit, in the type of the number. *)
Theorem C73_reference : forall e n r v t, named_type e n r = Ok t -> num_ok r v = true ->
  exists x, named_reference e n = Ok x /\ times_reference r v x = Ok (Quantity t v) /\
    aliased e n r v = Ok (Quantity t v).
Proof.
  intros e n r v t T V. unfold aliased. rewrite T. unfold named_type in T. step T as y Y. step T as u U. step T as z Z. inversion T; subst t.
  unfold named_reference. rewrite Y, U. cbn [bind]. unfold mk_reference. rewrite Z. cbn [bind].
  exists (Reference (snd y) u). split; [reflexivity|].
  split; [unfold times_reference; cbn [ref_dim ref_unit]|cbn [bind]];
    exact (make_same (QType (snd y) u r) v V).
Qed.
Print Assumptions C73_reference.

(** ** Cases *)

(** [3_q_km]: three times a thousand metres, as the reader says. *)
Example C73_ex : exists n t, In n (map l_name literals) /\ n_ns n = "si" /\ n_name n = "km" /\
  readings_as "dim_length" "si" "km" = [(ten_to 3 * 1)%Q] /\
  named_type full n (RInt I64) = Ok t /\ deviation (n_unit n) = 1%Q /\
  whole_literal false full n 3 = Ok (Quantity t (NInt 3)) /\
  compiles no_estimate Off catalogue full /\ sized no_estimate t 1000.
Proof.
  exists (UName "si" "km" "si::dim_length" "si::kilometre"), (QType (dim_called "si::dim_length") (unit_called "si::kilometre") (RInt I64)).
  assert (Hn : In (UName "si" "km" "si::dim_length" "si::kilometre") (map l_name literals)).
  { assert (T : existsb (fun b => if uname_dec (UName "si" "km" "si::dim_length" "si::kilometre") b then true else false)
      (map l_name literals) = true) by (vm_compute; reflexivity).
    apply existsb_exists in T as (b & Hb & D). destruct (uname_dec _ b); [now subst|discriminate]. }
  assert (T : named_type full (UName "si" "km" "si::dim_length" "si::kilometre") (RInt I64) =
    Ok (QType (dim_called "si::dim_length") (unit_called "si::kilometre") (RInt I64))) by (vm_compute; reflexivity).
  assert (C : compiles no_estimate Off catalogue full) by (split; [apply incl_refl | apply full_elaborates]).
  split; [exact Hn|]. split; [reflexivity|]. split; [reflexivity|]. split; [vm_compute; reflexivity|].
  split; [exact T|]. split; [vm_compute; reflexivity|].
  split; [apply C73_whole_literal; [exact T | unfold INTMAX_MAX; lia]|]. split; [exact C|].
  destruct (C73_names _ _ _ _ C _ _ _ (in_or_app _ _ _ (or_introl Hn)) T) as (x & u & X & _ & _ & S & _).
  assert (Ex : x = (Some "dim_length", dim_called "si::dim_length")).
  { assert (Q : find_dim full "si::dim_length" = Ok (Some "dim_length", dim_called "si::dim_length")) by (vm_compute; reflexivity).
    cbn [n_dim] in X. rewrite Q in X. now inversion X. }
  subst x. destruct (S eq_refl) as (v & V & Sz).
  assert (V' : readings_as "dim_length" "si" "km" = [(ten_to 3 * 1)%Q]) by (vm_compute; reflexivity).
  change (readings_as "dim_length" "si" "km" = [v]) in V. rewrite V' in V. injection V as <-.
  eapply sized_ext; [|exact Sz]. vm_compute. reflexivity.
Qed.

(** The same letters in different namespaces: the foot and the femtotonne, ... *)
Example C73_ft : readings_as "dim_length" "si::international" "ft" = [foot_value] /\
  readings_as "dim_mass" "si" "ft" = [(ten_to (-15) * 1000)%Q] /\
  readings_as "dim_length" "si::uscs" "ft" = [survey_foot_value].
Proof. vm_compute. auto. Qed.
(** ... the minute of time is no milli-inch, the pascal no peta-year; a name the reader
    does not know has no reading. *)
Example C73_readings : readings_as "dim_time" "si" "min" = [60%Q] /\ readings_as "dim_length" "si" "min" = [] /\
  readings "si" "xyz" = [] /\
  readings_as "dim_speed" "si" "km_per_h" = [((ten_to 3 * 1) ^ 1 * ((3600 ^ 1) ^ (-1) * 1))%Q].
Proof. vm_compute. auto. Qed.

(** 2^63 metres in a default build. *)
Example C73_large_ex : exists t, named_type full (UName "si" "m" "si::dim_length" "si::metre") (RInt I64) = Ok t /\
  whole_literal false full (UName "si" "m" "si::dim_length" "si::metre") (2 ^ 63) = Ok (Quantity t (NInt (- 2 ^ 63))).
Proof.
  exists (QType (dim_called "si::dim_length") (unit_called "si::metre") (RInt I64)).
  split; [vm_compute; reflexivity|].
  rewrite (C73_large_literal_refuted full _ (QType (dim_called "si::dim_length") (unit_called "si::metre") (RInt I64)) (2 ^ 63));
    [reflexivity | vm_compute; reflexivity | unfold INTMAX_MAX; lia].
Qed.
