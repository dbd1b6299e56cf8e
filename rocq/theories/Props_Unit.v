(** Theorems about units (C43, C45-C47). *)

From Coq Require Import ZArith QArith Qreduction String List Bool Lia.
From Verif Require Import Outcome CInt Pow Root Ratio SpecRatio FixedString Unit Downcast Dim DimOp
  Equivalent SpecDim SpecUnit DerivedUnit UnitDecl Reference DimOpProofs DimOpProofs2 MagnitudeProofs UnitProofs
  Samples.
Import ListNotations.
Local Open Scope string_scope.
Local Open Scope list_scope.
Local Open Scope Z_scope.
Local Open Scope res_scope.

(** * C43: equivalence of units *)

Theorem C43_reflexive_symmetric :
  (forall a, unit_equivalent a a = true) /\
  (forall a b, unit_equivalent a b = unit_equivalent b a).
Proof. split; [exact unit_equivalent_refl|exact unit_equivalent_sym]. Qed.
Print Assumptions C43_reflexive_symmetric.

(** In every program equivalent units have the same ratio to the same reference. *)
Theorem C43_equivalent_is_same_size : forall est l env, unit_program est [] l = Ok env -> forall a b,
  (In a env \/ anonymous a) -> (In b env \/ anonymous b) -> unit_equivalent a b = true ->
  u_ratio a = u_ratio b /\ u_ref a = u_ref b.
Proof. exact unit_equivalent_same. Qed.
Print Assumptions C43_equivalent_is_same_size.

(** A scaled unit without a name is equivalent to every unit of that size. *)
Theorem C43_anonymous : forall a b, u_name a = None ->
  (u_ratio a = u_ratio b /\ u_ref a = u_ref b) -> unit_equivalent a b = true.
Proof. exact unit_equivalent_anonymous. Qed.
Print Assumptions C43_anonymous.

(** Two aliases of one unit are equivalent to it, but not to one another. *)
Definition alias_program : list unit_decl :=
  [UNamed "gram" (st_of_ascii "g") "si_prefix";
   UPrefixed "megagram" (Prefix "mega" "si_prefix" (st_of_ascii "M") (Ratio 1 1 6)) "gram";
   UAlias "tonne" "megagram" (st_of_ascii "t") "si_prefix";
   UAlias "metric_ton" "megagram" (st_of_ascii "mt") "no_prefix"].
Theorem C43_transitivity_refuted : forall est, exists a b c g,
  unit_program est [] alias_program = Ok [a; b; c; g] /\
  unit_equivalent a c = true /\ unit_equivalent c b = true /\ unit_equivalent a b = false.
Proof.
  intros est.
  exists (CUnit (Some "metric_ton") ["megagram"] (Ratio 1 1 6) "gram" true (Some (st_of_ascii "mt")) "no_prefix"),
    (CUnit (Some "tonne") ["megagram"] (Ratio 1 1 6) "gram" true (Some (st_of_ascii "t")) "si_prefix"),
    (CUnit (Some "megagram") [] (Ratio 1 1 6) "gram" true (Some (st_of_ascii "Mg")) "no_prefix"),
    (CUnit (Some "gram") [] (Ratio 1 1 0) "gram" true (Some (st_of_ascii "g")) "si_prefix").
  vm_compute. auto.
Qed.
Print Assumptions C43_transitivity_refuted.

(** * C45: derived units *)

(** The declared unit has the magnitude of the product of the units raised to the exponents
    exactly when the default units of the constituent dimensions, each raised to its
    exponent less one towards zero, multiply to the ratio of the coherent unit. *)
Theorem C45_exact_iff : forall est child name es cu rec sym pf us u p, make_dimension rec = Ok es ->
  Forall item_good rec -> Forall unit_good us -> unit_good cu -> product_of rec us p ->
  mk_named_derived_unit est child (DDerived name es cu rec) sym pf us = Ok u ->
  u_ref u = u_ref cu /\
  (magnitude (DDerived name es cu rec) u p <-> (surplus rec == rval (u_ratio cu))%Q).
Proof. exact named_derived_exact. Qed.
Print Assumptions C45_exact_iff.

Theorem C45_exact_iff_deduced_symbol : forall est child name es cu rec us u p, make_dimension rec = Ok es ->
  Forall item_good rec -> Forall unit_good us -> unit_good cu -> product_of rec us p ->
  mk_derived_unit est child (DDerived name es cu rec) us = Ok u ->
  u_ref u = u_ref cu /\
  (magnitude (DDerived name es cu rec) u p <-> (surplus rec == rval (u_ratio cu))%Q).
Proof. exact derived_exact. Qed.
Print Assumptions C45_exact_iff_deduced_symbol.

(** In particular when the coherent unit is its own reference and every constituent has a
    default unit of ratio 1 or the exponent 1 or -1. *)
Theorem C45_usual_case : forall rec,
  Forall (fun x => (rval (u_ratio (dimension_unit (fst x))) == 1)%Q \/ Z.abs (fst (snd x)) = 1) rec ->
  (surplus rec == 1)%Q.
Proof. exact surplus_one. Qed.
Print Assumptions C45_usual_case.

(** km/h of the speed with coherent unit m/s. *)
Example C45_ex : forall est,
  mk_derived_unit est "kilometre_per_hour" dim_speed [kilometre; hour] =
  Ok (CUnit (Some "kilometre_per_hour") [] (Ratio 1 36 1) "metre_per_second" false
        (Some (st_of_ascii "km/h")) "no_prefix").
Proof. intros. vm_compute. reflexivity. Qed.
Lemma km_magnitude : magnitude (DBase dim_L) kilometre 1000.
Proof.
  exists 1%Q. split; [split; [|split]|].
  - repeat constructor; [discriminate|]. exists 2. reflexivity.
  - reflexivity.
  - vm_compute. reflexivity.
  - vm_compute. reflexivity.
Qed.
Lemma hour_magnitude : magnitude (DBase dim_T) hour 3600.
Proof.
  exists 1%Q. split; [split; [|split]|].
  - repeat constructor; [discriminate|]. exists 2. reflexivity.
  - reflexivity.
  - vm_compute. reflexivity.
  - vm_compute. reflexivity.
Qed.
Lemma good_L : dim_good (DBase dim_L).
Proof.
  split; [|repeat split; vm_compute; congruence]. repeat constructor; try (vm_compute; congruence).
  exists 2. reflexivity.
Qed.
Lemma good_T : dim_good (DBase dim_T).
Proof.
  split; [|repeat split; vm_compute; congruence]. repeat constructor; try (vm_compute; congruence).
  exists 2. reflexivity.
Qed.
Lemma good_M : dim_good (DBase dim_M).
Proof.
  split; [|repeat split; vm_compute; congruence]. repeat constructor; try (vm_compute; congruence).
  exists 2. reflexivity.
Qed.
Example C45_ex_hypotheses : make_dimension speed_recipe = Ok (exponents dim_speed) /\
  Forall item_good speed_recipe /\ Forall unit_good [kilometre; hour] /\ unit_good metre_per_second /\
  product_of speed_recipe [kilometre; hour] (1000 ^ 1 * (3600 ^ (-1) * 1)) /\
  (surplus speed_recipe == rval (u_ratio metre_per_second))%Q.
Proof.
  split; [vm_compute; reflexivity|]. split; [|split; [|split; [|split]]].
  - constructor; [|constructor; [|constructor]]; (split; [|first [exact good_L|exact good_T]]);
      (split; [exact I|repeat split; vm_compute; congruence]).
  - repeat constructor; vm_compute; congruence.
  - repeat split; vm_compute; congruence.
  - constructor; [exact km_magnitude|]. constructor; [exact hour_magnitude|]. constructor.
  - vm_compute. reflexivity.
Qed.

(** A default unit that is not its reference (kilogram) and occurs squared: the unit declared
    from the kilogram itself differs from the coherent unit by a factor of 1000. *)
Definition mass_squared : dimension :=
  DDerived "dim_mass_squared" [BExp dim_M 2 1]
    (CUnit (Some "square_kilogram") [] (Ratio 1 1 0) "square_kilogram" false None "no_prefix")
    [(DBase dim_M, (2, 1))].
Theorem C45_squared_default_unit_refuted : forall est,
  make_dimension [(DBase dim_M, (2, 1))] = Ok (exponents mass_squared) /\
  Forall item_good [(DBase dim_M, (2, 1))] /\
  product_of [(DBase dim_M, (2, 1))] [kilogram] (1000 ^ 2 * 1) /\
  exists u, mk_named_derived_unit est "kg2" mass_squared (st_of_ascii "kg2") "no_prefix" [kilogram] = Ok u /\
    magnitude mass_squared u (1000 ^ 3) /\ ~ magnitude mass_squared u (1000 ^ 2 * 1).
Proof.
  intros est. split; [vm_compute; reflexivity|]. split; [|split].
  - constructor; [|constructor]. split; [|exact good_M]. split; [exact I|repeat split; vm_compute; congruence].
  - constructor; [|constructor]. exists 1000%Q. split; [split; [|split]|].
    + repeat constructor; [discriminate|]. exists 2. reflexivity.
    + reflexivity.
    + vm_compute. reflexivity.
    + vm_compute. reflexivity.
  - exists (CUnit (Some "kg2") [] (Ratio 1 1 3) "square_kilogram" true (Some (st_of_ascii "kg2")) "no_prefix").
    split; [vm_compute; reflexivity|].
    assert (M : magnitude mass_squared
      (CUnit (Some "kg2") [] (Ratio 1 1 3) "square_kilogram" true (Some (st_of_ascii "kg2")) "no_prefix") (1000 ^ 3)).
    { exists 1000000%Q. split; [split; [|split]|].
      + repeat constructor; [discriminate|]. exists 4. reflexivity.
      + reflexivity.
      + vm_compute. reflexivity.
      + vm_compute. reflexivity. }
    split; [exact M|]. intros N. pose proof (magnitude_unique _ _ _ _ M N) as E. vm_compute in E. discriminate.
Qed.
Print Assumptions C45_squared_default_unit_refuted.

(** The denominator of an exponent is ignored: a unit for L^(1/2) built from a unit of 10^6 m
    has ratio 10^6 instead of 10^3. *)
Definition root_length : dimension :=
  DDerived "dim_root_length" [BExp dim_L 1 2]
    (CUnit (Some "root_metre") [] (Ratio 1 1 0) "root_metre" false None "no_prefix") [(DBase dim_L, (1, 2))].
Theorem C45_fractional_exponent_refuted : forall est,
  make_dimension [(DBase dim_L, (1, 2))] = Ok (exponents root_length) /\
  exists u, mk_named_derived_unit est "rMm" root_length (st_of_ascii "rMm") "no_prefix"
      [mk_sample_unit "megametre" "Mm" (Ratio 1 1 6) "metre"] = Ok u /\
    magnitude root_length u (10 ^ 6) /\ ~ magnitude root_length u (10 ^ 3).
Proof.
  intros est. split; [vm_compute; reflexivity|].
  exists (CUnit (Some "rMm") [] (Ratio 1 1 6) "root_metre" true (Some (st_of_ascii "rMm")) "no_prefix").
  split; [vm_compute; reflexivity|].
  assert (M : magnitude root_length
    (CUnit (Some "rMm") [] (Ratio 1 1 6) "root_metre" true (Some (st_of_ascii "rMm")) "no_prefix") (10 ^ 6)).
  { exists 1%Q. split; [split; [|split]|].
    + repeat constructor; [discriminate|]. exists 1. reflexivity.
    + reflexivity.
    + vm_compute. reflexivity.
    + vm_compute. reflexivity. }
  split; [exact M|]. intros N. pose proof (magnitude_unique _ _ _ _ M N) as E. vm_compute in E. discriminate.
Qed.
Print Assumptions C45_fractional_exponent_refuted.

(** * C46: references *)

Theorem C46_multiply : forall w d1 u1 d2 u2 d u m1 m2, consistent w ->
  dim_good d1 -> dim_good d2 -> unit_good u1 -> unit_good u2 -> unit_good (dimension_unit d) ->
  reference_multiply w (Reference d1 u1) (Reference d2 u2) = Ok (Reference d u) ->
  magnitude d1 u1 m1 -> magnitude d2 u2 m2 ->
  magnitude d u (m1 * m2) /\ dim_good d /\ unit_good u /\ unit_of u d = true /\
  dimension_multiply w d1 d2 = Ok d.
Proof. exact reference_multiply_magnitude. Qed.
Print Assumptions C46_multiply.

Theorem C46_divide : forall w d1 u1 d2 u2 d u m1 m2, consistent w ->
  dim_good d1 -> dim_good d2 -> unit_good u1 -> unit_good u2 -> unit_good (dimension_unit d) ->
  reference_divide w (Reference d1 u1) (Reference d2 u2) = Ok (Reference d u) ->
  magnitude d1 u1 m1 -> magnitude d2 u2 m2 ->
  magnitude d u (m1 / m2) /\ dim_good d /\ unit_good u /\ unit_of u d = true /\
  dimension_divide w d1 d2 = Ok d.
Proof. exact reference_divide_magnitude. Qed.
Print Assumptions C46_divide.

(** km / h without a declared speed: an unnamed unit of the unknown dimension; kg * kg, whose
    default unit is not the reference. *)
Example C46_ex : reference_divide empty_world (Reference (DBase dim_L) kilometre) (Reference (DBase dim_T) hour) =
  Ok (Reference (DUnknown [BExp dim_L 1 1; BExp dim_T (-1) 1] [BExp dim_L 1 1; BExp dim_T (-1) 1])
        (CUnit None [] (Ratio 1 36 1) "unknown_coherent_unit" false None "no_prefix")) /\
  reference_multiply empty_world (Reference (DBase dim_M) gram) (Reference (DBase dim_M) kilogram) =
  Ok (Reference (DUnknown [BExp dim_M 2 1] [BExp dim_M 2 1])
        (CUnit None [] (Ratio 1 1 (-3)) "unknown_coherent_unit" false None "no_prefix")).
Proof. vm_compute. auto. Qed.

(** * C47: named and prefixed units *)

Theorem C47_chain : forall b f u, unit_good b -> scaled_from b f u ->
  unit_good u /\ u_ref u = u_ref b /\ (rval (u_ratio u) == f * rval (u_ratio b))%Q /\ (0 < f)%Q.
Proof. exact scaled_from_spec. Qed.
Print Assumptions C47_chain.

Theorem C47_magnitude : forall d b f u m, unit_good b -> scaled_from b f u ->
  magnitude d b m -> magnitude d u (f * m).
Proof. exact scaled_from_magnitude. Qed.
Print Assumptions C47_magnitude.

Theorem C47_equal_iff_factors_agree : forall d b f g u v m n, unit_good b -> unit_good (dimension_unit d) ->
  scaled_from b f u -> scaled_from b g v -> magnitude d u m -> magnitude d v n ->
  ((m == n)%Q <-> (f == g)%Q).
Proof. exact scaled_from_equal. Qed.
Print Assumptions C47_equal_iff_factors_agree.

(** inch = 2.54 cm, foot = 12 in, mile = 5280 ft. *)
Definition scaled_program : list unit_decl :=
  [UNamed "metre" (st_of_ascii "m") "si_prefix";
   UPrefixed "centimetre" (Prefix "centi" "si_prefix" (st_of_ascii "c") (Ratio 1 1 (-2))) "metre";
   UScaled "inch" (st_of_ascii "in") "no_prefix" (Ratio 254 1 (-2)) "centimetre";
   UScaled "foot" (st_of_ascii "ft") "no_prefix" (Ratio 12 1 0) "inch";
   UScaled "mile" (st_of_ascii "mi") "no_prefix" (Ratio 528 1 1) "foot"].
Example C47_ex : forall est, exists mi ft inch cm m,
  unit_program est [] scaled_program = Ok [mi; ft; inch; cm; m] /\
  u_ratio mi = Ratio 1609344 1 (-3) /\ u_ref mi = "metre".
Proof.
  intros est.
  exists (CUnit (Some "mile") [] (Ratio 1609344 1 (-3)) "metre" true (Some (st_of_ascii "mi")) "no_prefix"),
    (CUnit (Some "foot") [] (Ratio 3048 1 (-4)) "metre" true (Some (st_of_ascii "ft")) "no_prefix"),
    (CUnit (Some "inch") [] (Ratio 254 1 (-4)) "metre" true (Some (st_of_ascii "in")) "no_prefix"),
    (CUnit (Some "centimetre") [] (Ratio 1 1 (-2)) "metre" true (Some (st_of_ascii "cm")) "no_prefix"),
    (CUnit (Some "metre") [] (Ratio 1 1 0) "metre" true (Some (st_of_ascii "m")) "si_prefix").
  vm_compute. auto.
Qed.
