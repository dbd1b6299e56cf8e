(** Property theorems C75 and the catalogue's part of C38, C69 and C70: the systems of units
    the library provides, in any program that includes any of its headers. *)

From Coq Require Import ZArith QArith Qpower Lqa Lia String List Bool Sorted.
From Verif Require Import Outcome CInt Root Ratio Unit Downcast TypeList Dim DimOp Equivalent Rep QuantityCast Quantity Expr
  System Catalogue SpecReal SpecDim SpecUnit SpecQuantity SpecExpr SpecCatalogue SpecSystems MagnitudeProofs DimOpProofs SystemProofs DimProofs StringProofs
  IsqProofs CatalogueProofs KindProofs WorldProofs SystemsProofs Props_Catalogue Props_Expr.
Import ListNotations.
Local Open Scope string_scope.
Local Open Scope Z_scope.
Local Open Scope res_scope.

#[local] Opaque full catalogue unit_table natural_table quantity_table isq_templates prefix_table systems isq_systems.

(** A dimension the program has declared on the base dimensions of [s], and that is found again
    under its exponents: a base dimension, or a derived one with downcasting, other dimensions
    with the same exponents being errors ([On]) or absent. *)
Definition of_system (e : env) (mode : downcast_mode) (s : list string) (d : dimension) : Prop :=
  (exists o, In (o, d) (en_dims e)) /\ built_on s d /\
  (is_derived d = false \/ (mode <> Off /\ (mode = On \/ alone e d))).

(** * C75: the products and quotients of the ISQ *)

(** The product (quotient) of two dimensions is the declared dimension of the quantity whose
    dimension in the ISQ it is: a length by a time is a speed, a force times a length an energy. *)
Theorem C75_product : forall est mode prog e s, compiles est mode prog e -> In s isq_systems ->
  forall tx ty tz dx dy dz rx ry rz,
  In (Some tx, dx) (en_dims e) -> In (Some ty, dy) (en_dims e) -> In (Some tz, dz) (en_dims e) ->
  built_on s dx -> built_on s dy -> of_system e mode s dz ->
  assoc quantity_table tx = Some rx -> assoc quantity_table ty = Some ry -> assoc quantity_table tz = Some rz ->
  (forall k, exponent_in rx k + exponent_in ry k = exponent_in rz k) -> dimension_multiply (en_world e) dx dy = Ok dz.
Proof.
  intros est mode prog e s [I E] Hs tx ty tz dx dy dz rx ry rz Hx Hy Hz Bx By (_ & Bz & K) Rx Ry Rz.
  exact (proj1 (program_multiply est mode prog e I E s Hs tx ty tz dx dy dz rx ry rz Hx Hy Hz Bx By Bz Rx Ry Rz K)).
Qed.
Print Assumptions C75_product.

Theorem C75_quotient : forall est mode prog e s, compiles est mode prog e -> In s isq_systems ->
  forall tx ty tz dx dy dz rx ry rz,
  In (Some tx, dx) (en_dims e) -> In (Some ty, dy) (en_dims e) -> In (Some tz, dz) (en_dims e) ->
  built_on s dx -> built_on s dy -> of_system e mode s dz ->
  assoc quantity_table tx = Some rx -> assoc quantity_table ty = Some ry -> assoc quantity_table tz = Some rz ->
  (forall k, exponent_in rx k - exponent_in ry k = exponent_in rz k) -> dimension_divide (en_world e) dx dy = Ok dz.
Proof.
  intros est mode prog e s [I E] Hs tx ty tz dx dy dz rx ry rz Hx Hy Hz Bx By (_ & Bz & K) Rx Ry Rz.
  exact (proj2 (program_multiply est mode prog e I E s Hs tx ty tz dx dy dz rx ry rz Hx Hy Hz Bx By Bz Rx Ry Rz K)).
Qed.
Print Assumptions C75_quotient.

(** A program in the library's own mode, with mechanics, frequencies and radioactivity. *)
Definition mechanics : list entry := Eval vm_compute in
  filter (fun x => existsb (String.eqb (entry_name x))
    ["si::second"; "si::dim_time"; "si::metre"; "si::dim_length"; "si::metre_per_second"; "si::dim_speed"; "si::metre_per_second_sq";
     "si::dim_acceleration"; "si::kilo"; "si::gram"; "si::kilogram"; "si::dim_mass"; "si::newton"; "si::dim_force"; "si::joule";
     "si::dim_energy"; "si::hertz"; "si::dim_frequency"; "si::becquerel"; "si::dim_radioactivity"]) catalogue.
Definition mechanical : env := Eval vm_compute in result (elaborate no_estimate Automatic isq_templates empty_env mechanics).
Definition mdim (n : string) : dimension := dim_or (find_dim mechanical n).
Definition si := ["si::dim_length"; "si::dim_mass"; "si::dim_time"; "si::dim_electric_current"; "si::dim_thermodynamic_temperature";
   "si::dim_amount_of_substance"; "si::dim_luminous_intensity"; "dim_angle<>"].

Lemma mechanical_compiles : forall est, compiles est Automatic mechanics mechanical.
Proof.
  intros est. split; [|vm_compute; reflexivity].
  assert (F : mechanics = filter (fun x => existsb (String.eqb (entry_name x)) (map entry_name mechanics)) catalogue) by (vm_compute; reflexivity).
  rewrite F. intros x Hx. apply filter_In in Hx. apply Hx.
Qed.

Definition builtb (s : list string) (d : dimension) : bool :=
  forallb (fun x => existsb (String.eqb (bd_name (e_dim x))) s) (exponents d).
Lemma builtb_built : forall s d, builtb s d = true -> built_on s d.
Proof.
  intros s d H x Hx. pose proof (proj1 (forallb_forall _ _) H x Hx) as A. apply existsb_exists in A as (n & Hn & A).
  apply String.eqb_eq in A. now rewrite A.
Qed.
Lemma mechanical_alone : forall n, In n ["si::dim_speed"; "si::dim_force"; "si::dim_energy"] -> alone mechanical (mdim n).
Proof.
  intros n Hn o m es u r H Ee.
  assert (T : forallb (fun n => forallb (fun x => negb (is_derived (snd x)) ||
      negb (if bexps_eq_dec (exponents (snd x)) (exponents (mdim n)) then true else false) || String.eqb (dim_name (snd x)) n) (en_dims mechanical))
      ["si::dim_speed"; "si::dim_force"; "si::dim_energy"] = true) by (vm_compute; reflexivity).
  pose proof (proj1 (forallb_forall _ _) T n Hn) as T1. cbv beta in T1.
  pose proof (proj1 (forallb_forall _ _) T1 _ H) as T2. cbn [snd is_derived negb orb exponents dim_name] in T2. rewrite Ee in T2.
  destruct (bexps_eq_dec (exponents (mdim n)) (exponents (mdim n))) as [_|N]; [|congruence]. cbn [negb orb] in T2. apply String.eqb_eq in T2. subst m.
  pose proof (elaborate_unique _ _ _ _ _ _ empty_unique (proj2 (mechanical_compiles no_estimate))) as (_ & _ & U3).
  pose proof (U3 _ _ H) as F. cbn [dim_name] in F. unfold mdim. rewrite F. reflexivity.
Qed.

Example C75_ex : forall est, compiles est Automatic mechanics mechanical /\ In si isq_systems /\
  dimension_divide (en_world mechanical) (mdim "si::dim_length") (mdim "si::dim_time") = Ok (mdim "si::dim_speed") /\
  dimension_multiply (en_world mechanical) (mdim "si::dim_force") (mdim "si::dim_length") = Ok (mdim "si::dim_energy").
Proof.
  intros est. split; [exact (mechanical_compiles est)|].
  assert (S : In si isq_systems) by (with_strategy transparent [isq_systems] now left). split; [exact S|].
  assert (P : forall n, In n ["si::dim_speed"; "si::dim_force"; "si::dim_energy"] -> of_system mechanical Automatic si (mdim n)).
  { intros n Hn. split; [|split; [apply builtb_built|right; split; [discriminate|right; now apply mechanical_alone]]].
    - destruct Hn as [<-|[<-|[<-|[]]]]; eexists; [apply (find_dim_in mechanical "si::dim_speed")|apply (find_dim_in mechanical "si::dim_force")|
        apply (find_dim_in mechanical "si::dim_energy")]; vm_compute; reflexivity.
    - destruct Hn as [<-|[<-|[<-|[]]]]; vm_compute; reflexivity. }
  split.
  - apply (C75_quotient est Automatic mechanics mechanical si (mechanical_compiles est) S "dim_length" "dim_time" "dim_speed" _ _ _
      [("dim_length", 1)] [("dim_time", 1)] [("dim_length", 1); ("dim_time", -1)]).
    + apply (find_dim_in mechanical "si::dim_length"). vm_compute; reflexivity.
    + apply (find_dim_in mechanical "si::dim_time"). vm_compute; reflexivity.
    + apply (find_dim_in mechanical "si::dim_speed"). vm_compute; reflexivity.
    + apply builtb_built. vm_compute; reflexivity.
    + apply builtb_built. vm_compute; reflexivity.
    + apply P. now left.
    + vm_compute; reflexivity.
    + vm_compute; reflexivity.
    + vm_compute; reflexivity.
    + intros k. unfold exponent_in. cbn [assoc].
      destruct (String.eqb k "dim_length") eqn:A; destruct (String.eqb k "dim_time") eqn:B; try reflexivity.
      apply String.eqb_eq in A, B. congruence.
  - apply (C75_product est Automatic mechanics mechanical si (mechanical_compiles est) S "dim_force" "dim_length" "dim_energy" _ _ _
      [("dim_length", 1); ("dim_mass", 1); ("dim_time", -2)] [("dim_length", 1)] [("dim_length", 2); ("dim_mass", 1); ("dim_time", -2)]).
    + apply (find_dim_in mechanical "si::dim_force"). vm_compute; reflexivity.
    + apply (find_dim_in mechanical "si::dim_length"). vm_compute; reflexivity.
    + apply (find_dim_in mechanical "si::dim_energy"). vm_compute; reflexivity.
    + apply builtb_built. vm_compute; reflexivity.
    + apply builtb_built. vm_compute; reflexivity.
    + apply P. right; right; now left.
    + vm_compute; reflexivity.
    + vm_compute; reflexivity.
    + vm_compute; reflexivity.
    + intros k. unfold exponent_in. cbn [assoc].
      destruct (String.eqb k "dim_length") eqn:A; [reflexivity|].
      destruct (String.eqb k "dim_mass"); [reflexivity|].
      destruct (String.eqb k "dim_time"); reflexivity.
Qed.

(** * C69 and C70 for the systems of the catalogue *)

Lemma of_system_in : forall est mode prog e s, compiles est mode prog e -> forall x, all_dims (of_system e mode s) x ->
  all_dims (in_system (base_of e s) (en_world e)) x.
Proof.
  intros est mode prog e s [I E] x.
  assert (K : forall d, of_system e mode s d -> in_system (base_of e s) (en_world e) d).
  { intros d ((o & O) & B & C). exact (program_in_system est mode prog e I E s o d O B C). }
  induction x; cbn [all_dims]; intuition. destruct c; intuition.
Qed.

(** The value of an integral expression of declared dimensions of one system is the exact one. *)
Theorem C69_catalogue : forall est mode prog e s, compiles est mode prog e -> In s systems ->
  forall x v q, all_dims (of_system e mode s) x -> means est (en_world e) x v -> eval est (en_world e) x = Ok q ->
  valued est q v.
Proof.
  intros est mode prog e s [I E] Hs x v q A M H.
  exact (proj2 (C69_value _ _ _ _ _ _ (program_symbols est mode prog e I E s Hs) (proj1 (program_good_system est mode prog e I E s))
    (of_system_in est mode prog e s (conj I E) x A) M H)).
Qed.
Print Assumptions C69_catalogue.

(** A formula of floating-point quantities in coherent units of one system compiles exactly when
    its dimensions agree, and computes what it computes on bare numbers. *)
Theorem C70_catalogue : forall est mode prog e s, compiles est mode prog e -> In s systems ->
  forall f x, formula f x -> all_dims (of_system e mode s) x -> (forall b, base_of e s b -> weight x b <= inject_Z INTMAX_MAX)%Q ->
  ((exists q, eval est (en_world e) x = Ok q) <-> (exists g, has_dim x g)) /\
  (forall q, eval est (en_world e) x = Ok q -> q_num q = NFlt (bare f x) /\ q_rep (q_type q) = RFlt f).
Proof.
  intros est mode prog e s [I E] Hs f x F A W. destruct (program_good_system est mode prog e I E s) as [G GO].
  destruct (C70_formula _ _ est f x (program_symbols est mode prog e I E s Hs) G GO F (of_system_in est mode prog e s (conj I E) x A) W) as [P Q].
  split; [exact P|]. intros q H. destruct (Q q H) as (Q1 & Q2 & _). auto.
Qed.
Print Assumptions C70_catalogue.

(** * C38: two symbols of the catalogue are used twice *)

Definition base_or (d : dimension) : bdim := match d with DBase b => b | _ => BDim "" "" unknown_coherent_unit end.
Definition mass_base := Eval vm_compute in base_or (dim_called "si::dim_mass").
Definition storage_base := Eval vm_compute in base_or (dim_called "iec80000::dim_storage_capacity").
Definition angle_base := Eval vm_compute in base_or (dim_called "dim_angle<>").
Definition traffic_base := Eval vm_compute in base_or (dim_called "iec80000::dim_traffic_intensity").
(** The base dimension of storage capacity has the symbol of the mass and that of traffic
    intensity the symbol of the angle, so the product of a storage capacity and a mass depends
    on the order of the operands, in every program. *)
Theorem C38_catalogue_refuted : forall est mode prog e, compiles est mode prog e ->
  forall a b, In (a, b) [("si::dim_mass", "iec80000::dim_storage_capacity"); ("dim_angle<>", "iec80000::dim_traffic_intensity")] ->
  exists d1 d2, dimension_multiply (en_world e) (dim_called a) (dim_called b) = Ok d1 /\
    dimension_multiply (en_world e) (dim_called b) (dim_called a) = Ok d2 /\ dim_equivalent d1 d2 = false.
Proof.
  intros est mode prog e [I E] a b Hab. pose proof (program_consistent est mode prog e E) as C.
  assert (G : forall x y, bd_symbol (e_dim x) = bd_symbol (e_dim y) -> downcast bexps_eq_dec (w_dims (en_world e)) [x; y] = None).
  { intros x y Sy. destruct (downcast bexps_eq_dec (w_dims (en_world e)) [x; y]) as [d|] eqn:D; [exfalso|reflexivity].
    apply downcast_in in D. pose proof (proj1 C _ _ D) as X. destruct (proj1 (program_declared est mode prog e E) _ _ D) as (_ & o & O).
    destruct (program_checked est mode prog e I E _ O) as [K _]. unfold dim_checked in K. cbn [snd] in K. rewrite X in K.
    apply andb_true_iff in K as [_ K]. do 3 apply andb_true_iff in K as [K _]. destruct (normalb_normal _ K) as [[S _] _].
    apply StronglySorted_inv in S as [_ F]. inversion F as [|? ? L _]; subst. unfold symbol_lt in L. rewrite Sy, str_compare_refl in L. discriminate. }
  assert (P : forall x y, downcast bexps_eq_dec (w_dims (en_world e)) [x; y] = None ->
    to_dimension (en_world e) [x; y] = downcast_dimension empty_world [x; y]).
  { intros x y H. unfold to_dimension, downcast_dimension. now rewrite H. }
  assert (Q : forall m c d1 d2, bd_symbol m = bd_symbol c ->
    dim_consolidate (merge_sorted exponent_less [BExp m 1 1] [BExp c 1 1]) = Ok [BExp c 1 1; BExp m 1 1] ->
    dim_consolidate (merge_sorted exponent_less [BExp c 1 1] [BExp m 1 1]) = Ok [BExp m 1 1; BExp c 1 1] ->
    downcast_dimension empty_world [BExp c 1 1; BExp m 1 1] = Ok d1 -> downcast_dimension empty_world [BExp m 1 1; BExp c 1 1] = Ok d2 ->
    dim_equivalent d1 d2 = false ->
    exists d1 d2, dimension_multiply (en_world e) (DBase m) (DBase c) = Ok d1 /\
      dimension_multiply (en_world e) (DBase c) (DBase m) = Ok d2 /\ dim_equivalent d1 d2 = false).
  { intros m c d1 d2 Sy X1 X2 X3 X4 X5. exists d1, d2.
    cbn [dimension_multiply exponents]. unfold merge_dimension. rewrite X1, X2. cbn [bind].
    rewrite (P _ _ (G (BExp c 1 1) (BExp m 1 1) (eq_sym Sy))), (P _ _ (G (BExp m 1 1) (BExp c 1 1) Sy)). auto. }
  destruct Hab as [H|[H|[]]]; injection H as <- <-.
  - change (dim_called "si::dim_mass") with (DBase mass_base). change (dim_called "iec80000::dim_storage_capacity") with (DBase storage_base).
    eapply Q; vm_compute; reflexivity.
  - change (dim_called "dim_angle<>") with (DBase angle_base). change (dim_called "iec80000::dim_traffic_intensity") with (DBase traffic_base).
    eapply Q; vm_compute; reflexivity.
Qed.
Print Assumptions C38_catalogue_refuted.

(** * C64: base dimensions have named units *)

(** In any program, of the library or of a user: an unnamed unit is no unit of a base dimension. *)
Theorem C64_base_unit_named : forall est mode ts prog e, elaborate est mode ts empty_env prog = Ok e ->
  forall o b, In (o, DBase b) (en_dims e) -> u_named (bd_unit b) = true /\ In (bd_unit b) (en_units e).
Proof.
  assert (K : forall est mode ts prog e e', elaborate est mode ts e prog = Ok e' ->
    (forall o b, In (o, DBase b) (en_dims e) -> u_named (bd_unit b) = true /\ In (bd_unit b) (en_units e)) ->
    forall o b, In (o, DBase b) (en_dims e') -> u_named (bd_unit b) = true /\ In (bd_unit b) (en_units e')).
  { intros est mode ts prog. induction prog as [|x prog IH]; cbn [elaborate]; intros e e' H P.
    - inversion H; subst; exact P.
    - step H as m M. apply (IH m e' H). clear IH H. destruct (elaborate_yields _ _ _ _ _ _ M) as (_ & t & Y & A & _).
      destruct t as [p|u|o' d]; cbn [adds] in A; destruct A as (A1 & A2 & A3); rewrite A2, A3.
      + exact P.
      + intros o b H. destruct (P o b H). split; [auto|now right].
      + intros o b [H|H]; [|exact (P o b H)]. inversion H; subst o' d. clear H M A1 A2 A3.
        assert (B : exists n s u cu, find_unit e u = Ok cu /\ mk_base_dimension n s cu = Ok b).
        { destruct x; cbn [yields] in Y; try (destruct Y as (? & ? & _ & _ & C); discriminate C).
          - destruct Y as (cu & b' & F & B & C). injection C as -> <-. eauto 9.
          - destruct Y as (s & cu & b' & _ & F & B & C). injection C as -> <-. eauto 9.
          - destruct Y as (? & ? & ? & _ & _ & B & C). apply derived_made in B as [B _]. injection C as -> <-. discriminate B.
          - destruct Y as (? & ? & ? & ? & ? & _ & _ & _ & _ & B & C). apply derived_made in B as [B _]. injection C as -> <-. discriminate B. }
        destruct B as (n & s & u & cu & F & B). unfold mk_base_dimension in B. step B as z Z. inversion B; subst b. cbn [bd_unit].
        split; [now apply constrained_ok in Z|exact (find_unit_in _ _ _ F)]. }
  intros est mode ts prog e H. apply (K est mode ts prog empty_env e H). intros o b [].
Qed.
Print Assumptions C64_base_unit_named.
Example C64_named_ex : exists b, In (Some "dim_length", DBase b) (en_dims mechanical) /\ u_name (bd_unit b) = Some "si::metre".
Proof. eexists. split; [apply (find_dim_in mechanical "si::dim_length"); vm_compute; reflexivity|reflexivity]. Qed.
