(** Property theorems C74: the physical constants. *)

From Coq Require Import ZArith QArith Qpower Qabs Lqa Lia String List Bool SpecFloat.
From Verif Require Import Outcome CInt Root Ratio Unit Downcast Dim DimOp Rep QuantityCast Quantity
  System Catalogue Names Constants SpecDim SpecUnit SpecQuantity SpecCatalogue SpecSystems SpecConstants
  IntProofs SystemProofs CatalogueProofs NamesProofs ConstantsProofs Props_Catalogue.
Import ListNotations.
Local Open Scope string_scope.
Local Open Scope Z_scope.
Local Open Scope res_scope.

(** The program has the dimensions and units of the headers constants.h includes. *)
Definition provides (e : env) (l : list (string * string)) : Prop :=
  forall d u, In (d, u) l -> (exists x, find_dim e d = Ok x) /\ exists c, find_unit e u = Ok c.
Definition si_needed : list (string * string) := [
  ("si::dim_energy", "si::joule"); ("si::dim_energy", "si::gigaelectronvolt"); ("si::dim_time", "si::second");
  ("si::dim_electric_charge", "si::coulomb"); ("si::dim_thermodynamic_temperature", "si::kelvin");
  ("si::dim_amount_of_substance", "si::mole"); ("si::dim_speed", "si::metre_per_second"); ("si::dim_frequency", "si::hertz");
  ("si::dim_acceleration", "si::metre_per_second_sq")].

#[local] Opaque full catalogue unit_table natural_table quantity_table isq_templates prefix_table product_ok direct_ok inverse_ok.
Ltac computed_at f := pose proof (constants_computed f) as K; unfold computed in K;
  apply andb_true_iff in K as [K Kn]; apply andb_true_iff in K as [K Kg]; apply andb_true_iff in K as [K Kh]; apply andb_true_iff in K as [K Kc];
  apply andb_true_iff in K as [K Ke]; apply andb_true_iff in K as [K Ka]; apply andb_true_iff in K as [K Kb]; apply andb_true_iff in K as [Kp Kr].
Ltac needed P := apply P; unfold si_needed; cbn [In]; tauto.

Lemma reduced_found : forall est mode prog e f, compiles est mode prog e -> provides e si_needed ->
  exists q, reduced_planck_constant e (RFlt f) = Ok q /\ measures est f action reduced_value q.
Proof.
  intros est mode prog e f [I E] P. computed_at f.
  refine (product_measures est mode prog e I E false _ _ _ _ f _ _ _ _ _ _ _ _ _ Kr); needed P.
Qed.

(** In every program that has their units, every constant compiles for every floating-point
    type, has the dimension of the constant, and its value up to the rounding of the literal to
    [double] and of that to the representation. *)
Theorem C74_values : forall est mode prog e, compiles est mode prog e -> provides e si_needed ->
  forall f n es v, In (n, es, v) constants_table ->
  exists c q, assoc si_constants n = Some c /\ c e (RFlt f) = Ok q /\ measures est f es v q.
Proof.
  intros est mode prog e [I E] P f n es v H. computed_at f.
  pose (Found := fun x : string * list (string * Z) * Q => exists c q,
    assoc si_constants (fst (fst x)) = Some c /\ c e (RFlt f) = Ok q /\ measures est f (snd (fst x)) (snd x) q).
  assert (G : forall c n es v, assoc si_constants n = Some c -> (exists q, c e (RFlt f) = Ok q /\ measures est f es v q) -> Found (n, es, v)).
  { clear. intros c n es v A (q & Q). exists c, q. tauto. }
  cut (Forall Found constants_table); [intros T; exact (proj1 (Forall_forall _ _) T _ H)|]. clear n es v H.
  unfold constants_table. repeat (apply Forall_cons; [|]); [..|apply Forall_nil].
  - apply (G planck_constant); [reflexivity|].
    refine (product_measures est mode prog e I E false _ _ _ _ f _ _ _ _ _ _ _ _ _ Kp); needed P.
  - apply (G elementary_charge); [reflexivity|].
    refine (direct_measures est mode prog e I E _ _ f _ _ _ _ _ Ke); needed P.
  - apply (G boltzmann_constant); [reflexivity|].
    refine (product_measures est mode prog e I E true _ _ _ _ f _ _ _ _ _ _ _ _ _ Kb); needed P.
  - apply (G avogadro_constant); [reflexivity|]. unfold avogadro_constant.
    destruct (n_convert (RFlt f) (decimal 602214076 15)) as [x| | | |]; [|discriminate Ka..]. cbn [bind].
    refine (inverse_measures est mode prog e I E _ _ f _ _ _ _ _ _ _ Ka); needed P.
  - apply (G speed_of_light); [reflexivity|].
    refine (direct_measures est mode prog e I E _ _ f _ _ _ _ _ Kc); needed P.
  - apply (G hyperfine_structure_transition_frequency); [reflexivity|].
    refine (direct_measures est mode prog e I E _ _ f _ _ _ _ _ Kh); needed P.
  - apply (G standard_gravity); [reflexivity|].
    refine (direct_measures est mode prog e I E _ _ f _ _ _ _ _ Kg); needed P.
Qed.
Print Assumptions C74_values.

(** The reduced Planck constant is 6.58...e-16 eV s (CODATA 2018); the library's is 10^15
    times that, and 10^14 times the Planck constant it should be a fraction of. *)
Theorem C74_reduced_planck_refuted : forall est mode prog e, compiles est mode prog e -> provides e si_needed ->
  forall f, exists q, reduced_planck_constant e (RFlt f) = Ok q /\
    let electronvolt := 1602176634 # 10 ^ 28 in
    measures est f action (inject_Z (10 ^ 15) * ((6582119569 # 10 ^ 25) * electronvolt)) q /\
    (inject_Z (10 ^ 14) * (662607015 # 10 ^ 42) < inject_Z (10 ^ 15) * ((6582119569 # 10 ^ 25) * electronvolt))%Q.
Proof.
  intros est mode prog e C P f. destruct (reduced_found est mode prog e f C P) as (q & Q & R & D & x & m & N & S & A).
  exists q. split; [exact Q|]. cbv zeta. split; [|reflexivity].
  split; [exact R|]. split; [exact D|]. exists x, m. split; [exact N|]. split; [exact S|].
  assert (V : (inject_Z (10 ^ 15) * ((6582119569 # 10 ^ 25) * (1602176634 # 10 ^ 28)) == reduced_value)%Q) by reflexivity.
  rewrite V. exact A.
Qed.
Print Assumptions C74_reduced_planck_refuted.

(** The natural system: the speed of light is one. *)
Theorem C74_natural : forall est mode prog e, compiles est mode prog e -> provides e [("natural::dim_speed", "one")] ->
  forall f, exists q, natural_speed_of_light e (RFlt f) = Ok q /\
    measures est f [("natural::dim_length", 1); ("natural::dim_time", -1)] 1 q.
Proof.
  intros est mode prog e [I E] P f. computed_at f.
  refine (direct_measures est mode prog e I E _ _ f _ _ _ _ _ Kn). apply P. now left.
Qed.
Print Assumptions C74_natural.

(** Whole numbers: the constants written with a decimal point do not compile (the one of
    Avogadro converts its literal explicitly, and no type has that number), and the others hold
    their number if it is a number of the type ... *)
Theorem C74_integral : forall est mode prog e, compiles est mode prog e -> provides e si_needed -> forall i,
  (forall n c, In (n, c) si_constants -> In n ["planck_constant"; "reduced_planck_constant"; "elementary_charge"; "boltzmann_constant"; "avogadro_constant"; "standard_gravity"] ->
     c e (RInt i) = IllFormed) /\
  (in_range i 299792458 = true -> exists q, speed_of_light e (RInt i) = Ok q /\ q_num q = NInt 299792458) /\
  (in_range i 9192631770 = true -> exists q, hyperfine_structure_transition_frequency e (RInt i) = Ok q /\ q_num q = NInt 9192631770).
Proof.
  intros est mode prog e [I E] P i.
  assert (R : forall d u from v, In (d, u) si_needed -> from = RFlt F64 -> Constants.value_of e d u (RInt i) from v = IllFormed).
  { intros d u from v H ->. destruct (P d u H) as ((x & X) & c & C). unfold Constants.value_of, named_type. cbn [n_dim n_unit]. rewrite X, C. cbn [bind].
    destruct (unit_of c (snd x)); reflexivity. }
  split; [|split].
  - intros n c H N.
    destruct H as [H|[H|[H|[H|[H|[H|[H|[H|[]]]]]]]]]; injection H as <- <-;
      try (exfalso; cbn in N; intuition discriminate);
      [unfold planck_constant|unfold reduced_planck_constant|unfold elementary_charge|unfold boltzmann_constant| |unfold standard_gravity];
      try (rewrite R; [reflexivity|unfold si_needed; cbn [In]; tauto|reflexivity]).
    destruct i as [[] []]; vm_compute; reflexivity.
  - intros H. unfold speed_of_light. rewrite (value_of_full est mode prog e I E) by needed P.
    destruct i as [[] []]; try discriminate H; eexists; split; vm_compute; reflexivity.
  - intros H. unfold hyperfine_structure_transition_frequency. rewrite (value_of_full est mode prog e I E) by needed P.
    destruct i as [[] []]; try discriminate H; eexists; split; vm_compute; reflexivity.
Qed.
Print Assumptions C74_integral.
(** ... and silently another one if it is not. *)
Theorem C74_narrow_refuted : forall est mode prog e, compiles est mode prog e -> provides e si_needed ->
  exists q, hyperfine_structure_transition_frequency e (RInt I32) = Ok q /\ q_num q = NInt 602697178.
Proof.
  intros est mode prog e [I E] P. unfold hyperfine_structure_transition_frequency.
  rewrite (value_of_full est mode prog e I E) by needed P. eexists; split; vm_compute; reflexivity.
Qed.
Print Assumptions C74_narrow_refuted.

Example C74_ex : forall est, compiles est Off catalogue full /\ provides full si_needed /\ provides full [("natural::dim_speed", "one")] /\
  exists q x, planck_constant full (RFlt F64) = Ok q /\ q_num q = NFlt x /\ x = S754_finite false 7747209898635537 (-163).
Proof.
  intros est. split; [split; [apply incl_refl|apply full_elaborates]|].
  assert (T : forallb (fun x => match find_dim full (fst x), find_unit full (snd x) with Ok _, Ok _ => true | _, _ => false end)
    (("natural::dim_speed", "one") :: si_needed) = true) by (vm_compute; reflexivity).
  assert (P : forall l, incl l (("natural::dim_speed", "one") :: si_needed) -> provides full l).
  { intros l L d u H. pose proof (proj1 (forallb_forall _ _) T _ (L _ H)) as A. cbn [fst snd] in A.
    destruct (find_dim full d); try discriminate A. destruct (find_unit full u); try discriminate A. eauto. }
  split; [apply P; intros y Hy; now right|]. split; [apply P; intros y [<-|[]]; now left|].
  eexists. eexists. split; [vm_compute; reflexivity|]. split; reflexivity.
Qed.
