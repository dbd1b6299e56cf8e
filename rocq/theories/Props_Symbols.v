(** Property theorems C79: the printed symbols of the units of the catalogue.

    The texts are read by the reader of [SpecSymbols], which knows the symbols and the
    prefixes of the SI Brochure and the customary symbols, and the notation of products,
    powers and factors, but nothing of the library. *)

From Coq Require Import ZArith QArith Qpower Lqa Lia String List Bool.
From Verif Require Import Outcome CInt Root Ratio FixedString Unit Downcast Dim DimOp UnitDecl UnitText Equivalent Rep QuantityCast Quantity
  System Catalogue SpecRatio SpecReal SpecDim SpecUnit SpecQuantity SpecCatalogue SpecText SpecNames SpecSymbols MagnitudeProofs QuantityProofs
  SystemProofs IsqProofs CatalogueProofs NamesProofs SymbolsProofs StringProofs UnitTextProofs QuantityIo Props_UnitText Props_Catalogue.
Import ListNotations.
Local Open Scope string_scope.
Local Open Scope Z_scope.
Local Open Scope res_scope.

#[local] Opaque full catalogue unit_table natural_table quantity_table isq_templates prefix_table one_symbol.

(** Every unit of a program has a text for every dimension it measures. *)
Theorem C79_available : forall est mode prog e, compiles est mode prog e ->
  forall u x, In u (en_units e) -> In x (en_dims e) -> unit_of u (snd x) = true ->
  exists t, unit_text (en_guides e) (en_units e) (snd x) u = Ok t.
Proof. intros est mode prog e [I H]. exact (texts_exist est mode prog e I H). Qed.
Print Assumptions C79_available.

(** The text, in Unicode and in ASCII, has exactly one reading as a unit of the quantity, and
    the unit has the value of that reading (up to the deviations of C65). *)
Theorem C79_declared : forall est mode prog e, compiles est mode prog e ->
  forall u x n t, In u (en_units e) -> In x (en_dims e) -> unit_of u (snd x) = true -> natural_dim x = false ->
  u_name u = Some n -> assoc misprinted n = None -> unit_text (en_guides e) (en_units e) (snd x) u = Ok t ->
  exists v, reads_as (quantity_name x) t v /\
    forall r, sized est (QType (snd x) u r) (deviation n * v * si_coherent (quantity_name x)).
Proof.
  intros est mode prog e [I H] u x n t Hu Hx O N Nm M T.
  assert (E : named u = n) by (unfold named; now rewrite Nm). subst n. exact (declared_read est mode prog e I H u x t Hu Hx O N M T).
Qed.
Print Assumptions C79_declared.

(** The four units whose text cannot be read as a unit of their quantity: the symbol of the
    angular velocity in place of that of its unit, a missing solidus, and twice an exponent
    that is lost (C59): the joule per cubic metre is written as joule times cubic metre. *)
Theorem C79_misprinted_refuted : forall est mode prog e, compiles est mode prog e ->
  forall u x n s t, In u (en_units e) -> In x (en_dims e) -> unit_of u (snd x) = true ->
  u_name u = Some n -> In (n, s) misprinted -> unit_text (en_guides e) (en_units e) (snd x) u = Ok t ->
  t = s /\ ~ exists v, reads_as (quantity_name x) t v.
Proof.
  intros est mode prog e [I H] u x n s t Hu Hx O Nm M T.
  assert (A : assoc misprinted (named u) = Some s).
  { unfold named. rewrite Nm. cbn in M. repeat (destruct M as [M|M]; [inversion M; reflexivity|]). destruct M. }
  destruct (misprints est mode prog e I H u x t s Hu Hx O A T) as (E & U & _). split; [exact E|].
  intros (v & a & b & X & _). rewrite U in X. discriminate X.
Qed.
Print Assumptions C79_misprinted_refuted.

(** A unit that results from a computation, of any size: if it has no symbol of its own, the
    factor or the prefix in front of the symbol of the coherent unit gives its size.  (Not if
    that symbol has a prefix already: see below.) *)
Theorem C79_computed : forall est mode prog e, compiles est mode prog e ->
  forall u x n t, In x (en_dims e) -> unit_of u (snd x) = true -> natural_dim x = false ->
  unit_good u -> u_symbol u = None ->
  u_name (dimension_unit (snd x)) = Some n -> assoc misprinted n = None ->
  (In n prefixed_coherent ->
     forall p, In p (en_prefixes e) -> ~ (rval (u_ratio u) == rval (p_ratio p) * rval (u_ratio (dimension_unit (snd x))))%Q) ->
  unit_text (en_guides e) (en_units e) (snd x) u = Ok t ->
  exists v, reads_as (quantity_name x) t v /\ forall r, sized est (QType (snd x) u r) (v * si_coherent (quantity_name x)).
Proof.
  intros est mode prog e [I H] u x n t Hx O N G S Nm M P T.
  assert (E : named (dimension_unit (snd x)) = n) by (unfold named; now rewrite Nm). subst n.
  exact (computed_read est mode prog e I H u x t Hx O N G S M P T).
Qed.
Print Assumptions C79_computed.

(** The prefix is put in front of the symbol of the coherent unit also where this has one
    already: 10^6 g is written kkg, a unit of ten metres kcm where the base unit is the
    centimetre.  Neither has a reading. *)
Definition unnamed_unit (n : Z) (ref : string) : cunit := CUnit None [] (Ratio 1 1 n) ref false None "no_prefix".
Theorem C79_double_prefix_refuted : forall est, compiles est Off catalogue full /\
  Forall (fun c : Z * string * (string * string) * string => let '(n, ref, (dim, q), txt) := c in
    exists x, In x (en_dims full) /\ dim_name (snd x) = dim /\ quantity_name x = q /\ unit_of (unnamed_unit n ref) (snd x) = true /\
      unit_text (en_guides full) (en_units full) (snd x) (unnamed_unit n ref) = Ok (SymbolText txt txt) /\
      unicode_readings txt = [] /\ ascii_readings txt = [])
    [(6, "si::gram", ("si::dim_mass", "dim_mass"), "kkg"); (1, "si::metre", ("si::cgs::dim_length", "dim_length"), "kcm")].
Proof.
  intros est. split; [split; [apply incl_refl|apply full_elaborates]|]. constructor; [|constructor; [|constructor]].
  - exists (Some "dim_mass", dim_called "si::dim_mass"). split; [apply (find_dim_in full "si::dim_mass"); vm_compute; reflexivity|].
    repeat split; vm_compute; reflexivity.
  - exists (Some "dim_length", dim_called "si::cgs::dim_length"). split; [apply (find_dim_in full "si::cgs::dim_length"); vm_compute; reflexivity|].
    repeat split; vm_compute; reflexivity.
Qed.
Print Assumptions C79_double_prefix_refuted.

(** In the natural system the text gives the power of the gigaelectronvolt. *)
Theorem C79_natural : forall est mode prog e, compiles est mode prog e ->
  forall u x t, In u (en_units e) -> In x (en_dims e) -> unit_of u (snd x) = true -> natural_dim x = true ->
  unit_text (en_guides e) (en_units e) (snd x) u = Ok t ->
  exists k v, natural_reads t k v /\ exists row, assoc quantity_table (quantity_name x) = Some row /\
    k = exponent_in row "dim_mass" - exponent_in row "dim_length" - exponent_in row "dim_time" /\
    forall r, sized est (QType (snd x) u r) (v * inject_Z (10 ^ 9) ^ exponent_in row "dim_mass").
Proof. intros est mode prog e [I H]. exact (natural_printed est mode prog e I H). Qed.
Print Assumptions C79_natural.

(** Units of a quantity with the same text, in Unicode or in ASCII, have the same size, also
    across systems of units, unless the header gets the size of one of them wrong. *)
Lemma same_row_named : forall a b, In a unit_table -> In b unit_table -> ur_name a = ur_name b -> a = b.
Proof. intros a b A B E. exact (nodup_map_inj _ _ C65_table_functional a b A B E). Qed.
Theorem C79_one_size : forall est mode prog e, compiles est mode prog e ->
  forall u x s v y t n m, In u (en_units e) -> In x (en_dims e) -> unit_of u (snd x) = true -> natural_dim x = false ->
  In v (en_units e) -> In y (en_dims e) -> unit_of v (snd y) = true -> natural_dim y = false ->
  quantity_name x = quantity_name y -> u_name u = Some n -> u_name v = Some m -> deviation n = 1%Q -> deviation m = 1%Q ->
  unit_text (en_guides e) (en_units e) (snd x) u = Ok s -> unit_text (en_guides e) (en_units e) (snd y) v = Ok t ->
  st_standard s = st_standard t \/ st_ascii s = st_ascii t ->
  exists k, forall r, sized est (QType (snd x) u r) k /\ sized est (QType (snd y) v r) k.
Proof.
  intros est mode prog e C u x s v y t n m Hu Hx Ou Nx Hv Hy Ov Ny Q Nu Nv Du Dv S T E.
  assert (Eu : named u = n) by (unfold named; now rewrite Nu). assert (Ev : named v = m) by (unfold named; now rewrite Nv).
  destruct (assoc misprinted n) as [mu|] eqn:Mu, (assoc misprinted m) as [mv|] eqn:Mv.
  - (* both misprinted: the same unit *)
    destruct C as [I H]. rewrite <- Eu in Mu. rewrite <- Ev in Mv.
    destruct (misprints est mode prog e I H u x s mu Hu Hx Ou Mu S) as [-> _]. destruct (misprints est mode prog e I H v y t mv Hv Hy Ov Mv T) as [-> _].
    assert (Nm : n = m).
    { rewrite <- Eu, <- Ev. clear - Mu Mv E. cbn in Mu, Mv.
      repeat match type of Mu with (if String.eqb ?a ?b then _ else _) = _ => destruct (String.eqb_spec a b) as [->|_] end; try discriminate Mu;
      repeat match type of Mv with (if String.eqb ?a ?b then _ else _) = _ => destruct (String.eqb_spec a b) as [->|_] end; try discriminate Mv;
      inversion Mu; inversion Mv; subst; try reflexivity; destruct E as [E|E]; discriminate E. }
    destruct (units_sized est mode prog e I H u x Hu Hx Ou Nx) as (ru & Ru & Nu' & _ & Su).
    destruct (units_sized est mode prog e I H v y Hv Hy Ov Ny) as (rv & Rv & Nv' & _ & Sv).
    assert (R : ru = rv) by (apply same_row_named; auto; congruence). subst rv.
    eexists. intros r. split; [exact (Su r)|]. rewrite Q. exact (Sv r).
  - destruct (C79_declared est mode prog e C v y m t Hv Hy Ov Ny Nv Mv T) as (w & (a & b & A & B & _) & _).
    destruct C as [I H]. rewrite <- Eu in Mu. destruct (misprints est mode prog e I H u x s mu Hu Hx Ou Mu S) as (_ & X & Y).
    rewrite Q in X, Y. destruct E as [E|E]; rewrite E in *; congruence.
  - destruct (C79_declared est mode prog e C u x n s Hu Hx Ou Nx Nu Mu S) as (w & (a & b & A & B & _) & _).
    destruct C as [I H]. rewrite <- Ev in Mv. destruct (misprints est mode prog e I H v y t mv Hv Hy Ov Mv T) as (_ & X & Y).
    rewrite <- Q in X, Y. destruct E as [E|E]; rewrite E in *; congruence.
  - destruct (C79_declared est mode prog e C u x n s Hu Hx Ou Nx Nu Mu S) as (a & A & Sa).
    destruct (C79_declared est mode prog e C v y m t Hv Hy Ov Ny Nv Mv T) as (b & B & Sb).
    rewrite Q in A. pose proof (reads_as_unique _ _ _ _ _ A B E) as V.
    eexists. intros r. split; [exact (Sa r)|]. eapply sized_ext; [|exact (Sb r)]. rewrite Du, Dv, Q, V. reflexivity.
Qed.
Print Assumptions C79_one_size.
(** Two nautical miles with the same text and different sizes: that of the foot-pound-second
    system is wrong (C65). *)
Theorem C79_one_size_refuted : forall est, compiles est Off catalogue full /\
  Forall (fun n => In (unit_called n) (en_units full) /\ unit_of (unit_called n) (dim_called "si::dim_length") = true /\
     unit_text (en_guides full) (en_units full) (dim_called "si::dim_length") (unit_called n) = Ok (SymbolText "mi(naut)" "mi(naut)"))
    ["si::international::nautical_mile"; "si::fps::nautical_mile"] /\
  forall r, sized est (QType (dim_called "si::dim_length") (unit_called "si::international::nautical_mile") r) 1852 /\
    sized est (QType (dim_called "si::dim_length") (unit_called "si::fps::nautical_mile") r) (18288 # 10).
Proof.
  intros est. split; [split; [apply incl_refl|apply full_elaborates]|]. split.
  - constructor; [|constructor; [|constructor]].
    + split; [apply (find_unit_in full "si::international::nautical_mile"); vm_compute; reflexivity|]. split; vm_compute; reflexivity.
    + split; [apply (find_unit_in full "si::fps::nautical_mile"); vm_compute; reflexivity|]. split; vm_compute; reflexivity.
  - intros r. split; (eapply sized_ext; [|apply mag_sized; vm_compute; reflexivity]; vm_compute; reflexivity).
Qed.
Print Assumptions C79_one_size_refuted.

(** What is written to a stream: the number and a text that reads as the unit. *)
Theorem C79_output : forall est mode prog e, compiles est mode prog e ->
  forall F (put : F -> number -> string) default os q os' x n, os_width os = 0 ->
  In x (en_dims e) -> q_dim (q_type q) = snd x -> In (q_unit (q_type q)) (en_units e) -> unit_of (q_unit (q_type q)) (snd x) = true ->
  natural_dim x = false -> u_name (q_unit (q_type q)) = Some n -> assoc misprinted n = None -> deviation n = 1%Q ->
  output put default (en_guides e) (en_units e) os q = Ok os' ->
  exists t v, os_out os' = os_out os ++ quantity_text (put (os_format os) (q_num q)) (st_standard t) /\
    reads_as (quantity_name x) t v /\ sized est (q_type q) (v * si_coherent (quantity_name x)).
Proof.
  intros est mode prog e C F put default os q os' x n W Hx Dq Hu O N Nm M Dv H.
  destruct (C61_output F put default _ _ os q os' W H) as (t & T & ->). rewrite Dq in T.
  destruct (C79_declared est mode prog e C _ x n t Hu Hx O N Nm M T) as (v & R & S).
  exists t, v. split; [reflexivity|]. split; [exact R|]. eapply sized_ext; [|specialize (S (q_rep (q_type q)))]; [|rewrite <- Dq in S; destruct (q_type q); exact S].
  rewrite Dv. ring.
Qed.
Print Assumptions C79_output.

(** Instances: kilometre per hour; 25.4 mm/s as computed; and what is written. *)
Example C79_ex : forall est, compiles est Off catalogue full /\
  In (unit_called "si::kilometre_per_hour") (en_units full) /\ In (Some "dim_speed", dim_called "si::dim_speed") (en_dims full) /\
  unit_text (en_guides full) (en_units full) (dim_called "si::dim_speed") (unit_called "si::kilometre_per_hour") = Ok (SymbolText "km/h" "km/h") /\
  reads_as "dim_speed" (SymbolText "km/h" "km/h") (10 # 36) /\
  unit_text (en_guides full) (en_units full) (dim_called "si::dim_speed") (CUnit None [] (Ratio 127 5 (-3)) "si::metre_per_second" false None "no_prefix") =
    Ok (SymbolText "[127/5 × 10⁻³] m/s" "[127/5 x 10^-3] m/s") /\
  reads_as "dim_speed" (SymbolText "[127/5 × 10⁻³] m/s" "[127/5 x 10^-3] m/s") (254 # 10000) /\
  reads_as "dim_resistance" (SymbolText "µΩ" "uohm") (ten_to (-6)) /\
  natural_reads (SymbolText "GeV⁻¹" "GeV^-1") (-1) 1 /\ deviation "si::kilometre_per_hour" = 1%Q /\ assoc misprinted "si::kilometre_per_hour" = None.
Proof.
  intros est. split; [split; [apply incl_refl|apply full_elaborates]|].
  split; [apply (find_unit_in full "si::kilometre_per_hour"); vm_compute; reflexivity|].
  split; [apply (find_dim_in full "si::dim_speed"); vm_compute; reflexivity|].
  split; [vm_compute; reflexivity|]. split; [apply reads_asb_spec; vm_compute; reflexivity|].
  split; [vm_compute; reflexivity|]. split; [apply reads_asb_spec; vm_compute; reflexivity|].
  split; [apply reads_asb_spec; vm_compute; reflexivity|].
  split; [|split; vm_compute; reflexivity].
  eexists _, _. split; [vm_compute; reflexivity|]. split; [vm_compute; reflexivity|]. repeat split; vm_compute; reflexivity.
Qed.
