(** C90 for the International System as the library declares it: any two programs that include
    any of its headers, in any downcasting modes. *)

From Coq Require Import ZArith QArith String List Bool Lia.
From Verif Require Import Outcome CInt Root Ratio SpecRatio Unit Downcast Dim DimOp Equivalent SpecDim SpecUnit Rep QuantityCast Quantity Point Affine Static SpecStatic
  System Catalogue SpecCatalogue SpecSystems SpecExpr MagnitudeProofs DimOpProofs SystemProofs CatalogueProofs WorldProofs SystemsProofs SpecModes ModeProofs Props_Catalogue
  Props_Expr Props_Systems Props_Concepts Props_Affine Props_Modes.
Import ListNotations.
Local Open Scope string_scope.
Local Open Scope list_scope.
Local Open Scope Z_scope.
Local Open Scope res_scope.

(** The base dimensions the library declares for the SI. *)
Definition si_dimensions : bdim -> Prop := base_of full si.

Definition own_reference (x : option string * dimension) : bool :=
  negb (is_derived (snd x) && builtb si (snd x)) || (if ratio_eq_dec (u_ratio (dimension_unit (snd x))) (Ratio 1 1 0) then true else false).
Definition tenb (x : option string * bdim) : bool :=
  negb (inside si (snd x)) || (if ratio_eq_dec (base_ratio (snd x)) (Ratio 1 1 (rexp (base_ratio (snd x)))) then true else false).
Lemma own_references : forallb own_reference (en_dims full) = true.
Proof. vm_compute. reflexivity. Qed.
Lemma tens : forallb tenb (bases full) = true.
Proof. vm_compute. reflexivity. Qed.
Lemma si_first : In si systems.
Proof. now left. Qed.

#[local] Opaque full catalogue unit_table natural_table quantity_table isq_templates prefix_table systems isq_systems si.

Lemma full_base : forall b, si_dimensions b -> exists o, In (o, b) (bases full) /\ inside si b = true.
Proof.
  intros b [(o & O) I]. exists o. split; [|now apply inside_in]. apply in_flat_map. exists (o, DBase b). split; [exact O|now left].
Qed.
Lemma si_dimensions_identify : symbols_identify si_dimensions.
Proof.
  intros a b A B Sy. destruct (full_base a A) as (o & Oa & Ia), (full_base b B) as (o' & Ob & Ib).
  pose proof (proj1 (forallb_forall _ _) symbols_checked si si_first) as T1. cbv beta in T1.
  pose proof (proj1 (forallb_forall _ _) T1 _ Oa) as T2. cbv beta in T2.
  pose proof (proj1 (forallb_forall _ _) T2 _ Ob) as T3. cbv beta in T3. cbn [snd] in T3.
  rewrite Ia, Ib, Sy, String.eqb_refl in T3. cbn [andb negb orb] in T3. now destruct (bdim_eq_dec a b).
Qed.
Lemma si_dimensions_decimal : decimal si_dimensions.
Proof.
  intros b B. destruct (full_base b B) as (o & O & I). pose proof (proj1 (forallb_forall _ _) tens _ O) as T. unfold tenb in T. cbn [snd] in T. rewrite I in T. cbn [negb orb] in T.
  destruct (ratio_eq_dec (base_ratio b) (Ratio 1 1 (rexp (base_ratio b)))) as [E|_]; [|discriminate]. split; [|eexists; exact E].
  destruct B as [(o' & B) _]. pose proof (proj1 (forallb_forall _ _) full_dims_good _ B) as G. unfold dim_goodb in G. cbn [snd exponents forallb e_dim e_den] in G.
  apply andb_true_iff in G as [G _]. rewrite andb_true_r in G. apply andb_true_iff in G as [_ G]. now apply ratio_goodb_good.
Qed.
Lemma catalogue_plain : forall est mode prog e, compiles est mode prog e -> plain_program si_dimensions (en_world e).
Proof.
  intros est mode prog e [I E]. split; [exact (elaborate_reachable _ _ _ _ _ _ E reach_empty)|]. intros es d Hd V.
  destruct (proj1 (program_declared est mode prog e E) _ _ Hd) as (X & o & O). apply (program_dims est mode prog e I E) in O.
  pose proof (proj1 (forallb_forall _ _) own_references _ O) as T. unfold own_reference in T. cbn [snd] in T.
  rewrite X in T. replace (builtb si d) with true in T.
  - cbn [andb negb orb] in T. destruct (ratio_eq_dec (u_ratio (dimension_unit d)) (Ratio 1 1 0)) as [R|_]; [exact R|discriminate].
  - symmetry. apply forallb_forall. intros b Hb. rewrite (proj1 (program_consistent est mode prog e E) es d Hd) in Hb. destruct (V b Hb) as [_ N].
    apply existsb_exists. exists (bd_name (e_dim b)). split; [exact N|apply String.eqb_refl].
Qed.
Lemma declared_plain : forall est mode prog e, compiles est mode prog e -> forall o d, In (o, d) (en_dims e) -> built_on si d -> plain_dim si_dimensions d.
Proof.
  intros est mode prog e [I E] o d O B. destruct (program_ndim est mode prog e I E si o d O B) as [[N V] W].
  split; [split; [exact N|]|split; [exact W|]].
  - intros x Hx. destruct (V x Hx) as [(o' & O') M]. split; [exists o'; exact (program_dims est mode prog e I E _ O')|exact M].
  - intros D. apply (program_dims est mode prog e I E) in O. pose proof (proj1 (forallb_forall _ _) own_references _ O) as T. unfold own_reference in T. cbn [snd] in T.
    pose proof (proj1 (forallb_forall _ _) dims_checked _ O) as C. unfold dim_checked in C. cbn [snd] in C. apply andb_true_iff in C as [C _].
    replace (is_derived d) with true in T by (destruct d; [discriminate D|reflexivity|discriminate C]). replace (builtb si d) with true in T.
    + cbn [andb negb orb] in T. destruct (ratio_eq_dec (u_ratio (dimension_unit d)) (Ratio 1 1 0)) as [R|_]; [exact R|discriminate].
    + symmetry. apply forallb_forall. intros b Hb. apply existsb_exists. exists (bd_name (e_dim b)). split; [exact (B b Hb)|apply String.eqb_refl].
Qed.

(** The types a program can write with the dimensions and units of the SI it includes. *)
Theorem C90_si_types : forall est mode prog e o d u r, compiles est mode prog e -> In (o, d) (en_dims e) -> built_on si d ->
  In u (en_units e) -> unit_of u d = true -> plain_type si_dimensions (QType d u r).
Proof.
  intros est mode prog e o d u r C O B Hu R. split; [exact (declared_plain est mode prog e C o d O B)|]. split; [|exact R]. destruct C as [I E].
  apply (proj1 (proj2 (selection_in_full _ _ _ _ I E))) in Hu. pose proof (proj1 (forallb_forall _ _) full_units_good _ Hu) as G. now apply ratio_goodb_good.
Qed.
Print Assumptions C90_si_types.

(** Whatever two programs include of the library, and in whatever modes they are compiled: an
    expression of the SI has results that differ only in the names of their types. *)
Theorem C90_si : forall est mode mode' prog prog' e e' rb x v v', compiles est mode prog e -> compiles est mode' prog' e' -> honest rb ->
  plain_expr si_dimensions x -> expr_sound x -> aeval rb est (en_world e) x = Ok v -> aeval rb est (en_world e') x = Ok v' -> same_value v v'.
Proof.
  intros est mode mode' prog prog' e e' rb x v v' C C' R. apply (C90_same_value si_dimensions rb est (en_world e) (en_world e')).
  - exact si_dimensions_identify.
  - exact si_dimensions_decimal.
  - exact R.
  - exact (catalogue_plain est mode prog e C).
  - exact (catalogue_plain est mode' prog' e' C').
Qed.
Print Assumptions C90_si.

(** If both compile it, they agree on whether it is defined. *)
Theorem C90_si_outcome : forall est mode mode' prog prog' e e' rb x t t', compiles est mode prog e -> compiles est mode' prog' e' -> honest rb ->
  plain_expr si_dimensions x -> expr_sound x -> type_of rb est (en_world e) x = Ok t -> type_of rb est (en_world e') x = Ok t' ->
  (exists v v', aeval rb est (en_world e) x = Ok v /\ aeval rb est (en_world e') x = Ok v' /\ same_value v v') \/
  (aeval rb est (en_world e) x = Undef /\ aeval rb est (en_world e') x = Undef).
Proof.
  intros est mode mode' prog prog' e e' rb x t t' C C' R. apply (C90_outcome si_dimensions rb est (en_world e) (en_world e')).
  - exact si_dimensions_identify.
  - exact si_dimensions_decimal.
  - exact R.
  - exact (catalogue_plain est mode prog e C).
  - exact (catalogue_plain est mode' prog' e' C').
Qed.
Print Assumptions C90_si_outcome.

(** 2 kg times 3 m/s2 plus 4 N: a force with downcasting, of no known dimension without. *)
Definition uunit (n : string) : cunit := match find_unit unaided n with Ok u => u | _ => unit_one end.
Definition push : aexpr := ABinary BAdd
  (ABinary BMul (AQuantity (Quantity (QType (udim "si::dim_mass") (uunit "si::kilogram") (RInt I64)) (NInt 2)))
                (AQuantity (Quantity (QType (udim "si::dim_acceleration") (uunit "si::metre_per_second_sq") (RInt I64)) (NInt 3))))
  (AQuantity (Quantity (QType (udim "si::dim_force") (uunit "si::newton") (RInt I64)) (NInt 4))).
Example C90_si_ex : forall est, exists q q', compiles est Automatic mechanics mechanical /\ compiles est Off mechanics unaided /\
  plain_expr si_dimensions push /\ expr_sound push /\
  aeval no_rebinding est (en_world mechanical) push = Ok (VQuantity q) /\ aeval no_rebinding est (en_world unaided) push = Ok (VQuantity q') /\
  q_num q = NInt 10 /\ q_num q' = NInt 10 /\ q_type q = QType (mdim "si::dim_force") (uunit "si::newton") (RInt I64).
Proof.
  intros est. assert (M := mechanical_compiles est). assert (Co : compiles est Off mechanics unaided) by (split; [exact (proj1 M)|vm_compute; reflexivity]).
  assert (T : forall n u, In (n, u) [("si::dim_mass", "si::kilogram"); ("si::dim_acceleration", "si::metre_per_second_sq"); ("si::dim_force", "si::newton")] ->
    plain_type si_dimensions (QType (udim n) (uunit u) (RInt I64))).
  { intros n u H. assert (K : exists o, find_dim unaided n = Ok (o, udim n) /\ find_unit unaided u = Ok (uunit u) /\ builtb si (udim n) = true /\ unit_of (uunit u) (udim n) = true).
    { destruct H as [H|[H|[H|[]]]]; injection H as <- <-; eexists; vm_compute; auto. }
    destruct K as (o & A & B & D & E). apply (C90_si_types est Off mechanics unaided o); auto; [exact (find_dim_in unaided n _ A)|now apply builtb_built|exact (find_unit_in unaided u _ B)]. }
  eexists; eexists. split; [exact M|]. split; [exact Co|]. split.
  { split; [split|]; apply T; cbn; auto. }
  split; [cbn; auto|]. split; [vm_compute; reflexivity|]. split; [vm_compute; reflexivity|]. split; [vm_compute; reflexivity|]. split; [vm_compute; reflexivity|]. vm_compute. reflexivity.
Qed.
