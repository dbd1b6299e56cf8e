(** Property theorems C63, C64, C65, C67: the catalogue of prefixes, dimensions and units.

    A program is any selection of the declarations of the catalogue, in any order, under
    any downcasting mode. *)

From Coq Require Import ZArith QArith Qabs Qpower Lqa Lia String List Bool.
From Verif Require Import Outcome CInt Root Ratio FixedString Unit Downcast Dim DimOp DerivedUnit UnitDecl UnitText
  QuantityCast Equivalent Rep System Catalogue SpecRatio SpecDim SpecUnit SpecQuantity SpecCatalogue
  RatioProofs MagnitudeProofs CastProofs QuantityProofs QuantityProofs5 UnitProofs StringProofs SystemProofs IsqProofs CatalogueProofs
  CatalogueCastProofs.
From Verif Require Samples.
Import ListNotations.
Local Open Scope string_scope.
Local Open Scope Z_scope.

#[local] Opaque full catalogue unit_table natural_table quantity_table isq_templates prefix_table.

(** The program [prog] of declarations of the catalogue compiles; [e] is what it declares. *)
Definition compiles (est : estimate) (mode : downcast_mode) (prog : list entry) (e : env) : Prop :=
  incl prog catalogue /\ elaborate est mode isq_templates empty_env prog = Ok e.

(** * C63: prefixes *)

(** Every prefix of a program is the one of that name in the SI Brochure or in
    IEC 80000-13: its symbol and its value. *)
Theorem C63_prefixes : forall est mode prog e, compiles est mode prog e ->
  forall p, In p (en_prefixes e) ->
  exists v, In (p_family p, p_name p, p_symbol p, v) prefix_table /\ (rval (p_ratio p) == v)%Q.
Proof. intros est mode prog e [I H]. exact (prefixes_listed est mode prog e I H). Qed.
Print Assumptions C63_prefixes.

(** None is missing from the catalogue. *)
Theorem C63_complete : forall est mode e, compiles est mode catalogue e ->
  forall f n s v, In (f, n, s, v) prefix_table -> exists p, In p (en_prefixes e) /\ p_name p = n.
Proof. intros est mode e [_ H]. exact (prefixes_complete est mode e H). Qed.
Print Assumptions C63_complete.

(** Two prefixes of a program with the same value are the same prefix. *)
Definition value_identifies : bool :=
  forallb (fun '(f, n, _, v) => forallb (fun '(f', n', _, v') =>
    negb (Qeq_bool v v') || String.eqb n n') prefix_table) prefix_table.
Theorem C63_distinct : forall est mode prog e, compiles est mode prog e ->
  forall p q, In p (en_prefixes e) -> In q (en_prefixes e) -> (rval (p_ratio p) == rval (p_ratio q))%Q -> p = q.
Proof.
  intros est mode prog e C p q Hp Hq V.
  destruct (C63_prefixes _ _ _ _ C p Hp) as (v & Rp & Vp). destruct (C63_prefixes _ _ _ _ C q Hq) as (v' & Rq & Vq).
  assert (T : value_identifies = true) by (vm_compute; reflexivity). unfold value_identifies in T.
  pose proof (proj1 (forallb_forall _ _) T _ Rp) as T1. cbv beta iota in T1.
  pose proof (proj1 (forallb_forall _ _) T1 _ Rq) as T2. cbv beta iota in T2.
  apply orb_true_iff in T2 as [T2|T2].
  - exfalso. apply negb_true_iff in T2. assert (E : Qeq_bool v v' = true) by (apply Qeq_bool_iff; rewrite <- Vp, <- Vq; exact V).
    rewrite E in T2. discriminate.
  - apply String.eqb_eq in T2. destruct C as [_ H].
    destruct (elaborate_unique _ _ _ _ _ _ empty_unique H) as (U & _ & _).
    pose proof (U p Hp) as Fp. pose proof (U q Hq) as Fq. rewrite T2 in Fp. rewrite Fp in Fq. now inversion Fq.
Qed.
Print Assumptions C63_distinct.

(** A prefixed unit (of any program, not only of the catalogue) is the unit times the
    prefix, and its symbol is that of the unit behind that of the prefix.  Only units that
    take prefixes of the family can be prefixed; a prefixed unit takes no further one. *)
Theorem C63_prefixed_unit : forall child p u v, lowest (p_ratio p) -> storable (p_ratio p) -> unit_good u ->
  mk_prefixed_unit child p u = Ok v ->
  (rval (u_ratio v) == rval (p_ratio p) * rval (u_ratio u))%Q /\ u_ref v = u_ref u /\
  (exists s, u_symbol u = Some s /\
     u_symbol v = Some (SymbolText (st_standard (p_symbol p) ++ st_standard s) (st_ascii (p_symbol p) ++ st_ascii s))) /\
  p_family p = u_prefixes u /\
  (forall name family sym r again child', mk_prefix name family sym r = Ok again ->
     mk_prefixed_unit child' again v = IllFormed).
Proof.
  intros child p u v L S G H.
  assert (SF : scaled_from u (rval (p_ratio p) * 1) v) by (eapply sf_prefixed; eauto; apply sf_base).
  destruct (scaled_from_spec _ _ _ G SF) as (_ & R & V & _). split; [rewrite V; ring|]. split; [exact R|].
  unfold mk_prefixed_unit in H. step H as x X. step H as y Y. step H as z Z.
  apply constrained_ok, andb_true_iff in X as [_ X]. apply String.eqb_eq in X.
  destruct (u_symbol u) as [s|]; [|discriminate]. inversion H; subst v.
  split; [exists s; split; [reflexivity|]; cbn [u_symbol]; unfold st_add; now rewrite !fs_add_append|]. split; [exact X|].
  intros name family sym r again child' M. unfold mk_prefix in M. step M as w W. inversion M; subst again.
  apply constrained_ok in W. unfold mk_prefixed_unit. cbn [u_named u_prefixes p_family andb].
  apply negb_true_iff in W. now rewrite W.
Qed.
Print Assumptions C63_prefixed_unit.

(** In the catalogue: kilometre is 1000 metre with symbol "km"; kilo of kilometre does not exist. *)
Example C63_ex : exists kilo metre km,
  In kilo (en_prefixes full) /\ In metre (en_units full) /\ In km (en_units full) /\
  p_name kilo = "si::kilo" /\ (rval (p_ratio kilo) == 1000)%Q /\
  lowest (p_ratio kilo) /\ storable (p_ratio kilo) /\ unit_good metre /\
  mk_prefixed_unit "si::kilometre" kilo metre = Ok km /\ u_symbol km = Some (st_of_ascii "km") /\
  mk_prefixed_unit "kilokilometre" kilo km = IllFormed.
Proof.
  exists (Prefix "si::kilo" "si::prefix" (st_of_ascii "k") (Ratio 1 1 3)),
    (CUnit (Some "si::metre") [] (Ratio 1 1 0) "si::metre" true (Some (st_of_ascii "m")) "si::prefix"),
    (CUnit (Some "si::kilometre") [] (Ratio 1 1 3) "si::metre" true (Some (st_of_ascii "km")) no_prefix).
  split; [apply (find_prefix_in full "si::kilo"); vm_compute; reflexivity|].
  split; [apply (find_unit_in full "si::metre"); vm_compute; reflexivity|].
  split; [apply (find_unit_in full "si::kilometre"); vm_compute; reflexivity|].
  repeat split; vm_compute; try reflexivity; try congruence.
Qed.

(** * C64: dimensions *)

(** Every dimension a program declares with a class template of the ISQ has the exponents
    ISO 80000 gives to that quantity: for any program, not only selections of the
    catalogue, and whatever the units and the base dimensions it is built on. *)
Theorem C64_exponents : forall est mode prog e t d,
  elaborate est mode isq_templates empty_env prog = Ok e -> In (Some t, d) (en_dims e) ->
  exists row, assoc quantity_table t = Some row /\
    forall k, (quantity_expo (quantity_of e) k (exponents d) == inject_Z (exponent_in row k))%Q.
Proof.
  intros est mode prog e t d H I. destruct (isq_exponents _ _ _ _ _ _ H I) as (row & R & Q & _). eauto.
Qed.
Print Assumptions C64_exponents.

(** Nothing else occurs: the exponents are whole, and of dimensions declared with the
    templates of the base quantities. *)
Theorem C64_only_base_quantities : forall est mode prog e t d x,
  elaborate est mode isq_templates empty_env prog = Ok e -> In (Some t, d) (en_dims e) -> In x (exponents d) ->
  e_den x = 1 /\ In (quantity_of e (e_dim x))
    ["dim_length"; "dim_mass"; "dim_time"; "dim_electric_current"; "dim_thermodynamic_temperature";
     "dim_amount_of_substance"; "dim_luminous_intensity"; "dim_angle"].
Proof.
  intros est mode prog e t d x H I X. destruct (isq_exponents _ _ _ _ _ _ H I) as (row & _ & _ & F). exact (F x X).
Qed.
Print Assumptions C64_only_base_quantities.

(** Dimensions of a selection of the catalogue can be compared and converted exactly when
    the quantities have the same exponents (and the systems are compatible). *)
Theorem C64_equivalent : forall est mode prog e, compiles est mode prog e ->
  forall x y a b, In x (en_dims e) -> In y (en_dims e) ->
  assoc quantity_table (quantity_name x) = Some a -> assoc quantity_table (quantity_name y) = Some b ->
  natural_dim x = natural_dim y ->
  (dim_equivalent (snd x) (snd y) = true <-> forall k, exponent_in a k = exponent_in b k).
Proof.
  intros est mode prog e [I H] x y a b Hx Hy Ra Rb N.
  rewrite (equivalent_iff _ _ _ _ I H x y Hx Hy). unfold comparable. rewrite N, Bool.eqb_reflx, Ra, Rb. cbn [andb].
  unfold row_eqb. rewrite forallb_forall.
  assert (O : forall q row, assoc quantity_table q = Some row -> forall k, ~ In k kinds -> exponent_in row k = 0).
  { intros q row R k Nk. apply exponent_in_other; auto.
    exact (proj1 (forallb_forall _ _) rows_ok _ (assoc_in _ _ _ _ R)). }
  split.
  - intros E k. destruct (in_dec string_dec k kinds) as [Hk|Hk]; [apply Z.eqb_eq, E, Hk|].
    now rewrite (O _ _ Ra k Hk), (O _ _ Rb k Hk).
  - intros E k _. apply Z.eqb_eq, E.
Qed.
Print Assumptions C64_equivalent.

(** Frequency and activity have the same exponents, energy and torque do not: torque is per angle. *)
Definition dim_or (x : res (option string * dimension)) : dimension := match x with Ok y => snd y | _ => DUnknown [] [] end.
Definition dim_called (n : string) : dimension := dim_or (find_dim full n).
Example C64_ex : forall est, compiles est Off catalogue full /\
  In (Some "dim_capacitance", dim_called "si::dim_capacitance") (en_dims full) /\
  (quantity_expo (quantity_of full) "dim_time" (exponents (dim_called "si::dim_capacitance")) == 4)%Q /\
  (quantity_expo (quantity_of full) "dim_mass" (exponents (dim_called "si::dim_capacitance")) == -1)%Q /\
  In (Some "dim_frequency", dim_called "si::dim_frequency") (en_dims full) /\
  In (Some "dim_radioactivity", dim_called "si::dim_radioactivity") (en_dims full) /\
  dim_equivalent (dim_called "si::dim_frequency") (dim_called "si::dim_radioactivity") = true /\
  In (Some "dim_torque", dim_called "si::dim_torque") (en_dims full) /\
  In (Some "dim_energy", dim_called "si::dim_energy") (en_dims full) /\
  dim_equivalent (dim_called "si::dim_torque") (dim_called "si::dim_energy") = false.
Proof.
  intros est. split; [split; [apply incl_refl | apply full_elaborates]|].
  split; [apply (find_dim_in full "si::dim_capacitance"); vm_compute; reflexivity|].
  split; [vm_compute; reflexivity|]. split; [vm_compute; reflexivity|].
  split; [apply (find_dim_in full "si::dim_frequency"); vm_compute; reflexivity|].
  split; [apply (find_dim_in full "si::dim_radioactivity"); vm_compute; reflexivity|].
  split; [vm_compute; reflexivity|].
  split; [apply (find_dim_in full "si::dim_torque"); vm_compute; reflexivity|].
  split; [apply (find_dim_in full "si::dim_energy"); vm_compute; reflexivity|].
  vm_compute; reflexivity.
Qed.

(** A program that is no part of the catalogue: a system with its own length and time. *)
Example C64_ex_own : forall est, exists e d,
  elaborate est Off isq_templates empty_env
    [ENamed "ell" (st_of_ascii "ell") no_prefix; EBaseOf "my_length" "dim_length" "ell";
     ENamed "blink" (st_of_ascii "bl") no_prefix; EBaseOf "my_time" "dim_time" "blink";
     EUnit "ell_per_blink"; EDimOf "my_speed" "dim_speed" "ell_per_blink" ["my_length"; "my_time"]] = Ok e /\
  In (Some "dim_speed", d) (en_dims e) /\ length (exponents d) = 2%nat /\
  elaborate est Off isq_templates empty_env
    [ENamed "ell" (st_of_ascii "ell") no_prefix; EBaseOf "my_length" "dim_length" "ell";
     EUnit "ell_ell"; EDimOf "my_speed" "dim_speed" "ell_ell" ["my_length"; "my_length"]] = IllFormed.
Proof.
  intros est. eexists. eexists. split; [vm_compute; reflexivity|]. split; [left; reflexivity|]. split; vm_compute; reflexivity.
Qed.

(** * C65: units *)

(** Every unit of a program, as a unit of each dimension of the program it can be used
    with (but for the natural system), has the value of the table: the quantity is the
    right one and the magnitude in terms of metre, gram, second, ... is that of the
    coherent SI unit times the value. *)
Theorem C65_units : forall est mode prog e, compiles est mode prog e ->
  forall u x n, In u (en_units e) -> In x (en_dims e) -> unit_of u (snd x) = true -> natural_dim x = false ->
  u_name u = Some n -> assoc (rounded_units ++ wrong_units) n = None ->
  exists row, In row unit_table /\ ur_name row = n /\ ur_quantity row = quantity_name x /\
    forall r, sized est (QType (snd x) u r) (ur_value row * si_coherent (quantity_name x)).
Proof.
  intros est mode prog e [I H] u x n Hu Hx O N U A.
  destruct (units_sized est mode prog e I H u x Hu Hx O N) as (row & R & Nm & Q & S).
  rewrite U in Nm. inversion Nm; subst n. exists row. split; [exact R|]. split; [reflexivity|]. split; [exact Q|].
  intros r. eapply sized_ext; [|exact (S r)]. unfold deviation. rewrite A. ring.
Qed.
Print Assumptions C65_units.

(** The table has one row per name. *)
Theorem C65_table_functional : NoDup (map ur_name unit_table).
Proof.
  assert (G : forall l, (fix nodup (l : list string) : bool :=
      match l with [] => true | a :: r => negb (existsb (String.eqb a) r) && nodup r end) l = true -> NoDup l).
  { induction l as [|a l IH]; intros H; constructor.
    - apply andb_true_iff in H as [H _]. intros I. apply negb_true_iff in H.
      assert (X : existsb (String.eqb a) l = true) by (apply existsb_exists; exists a; rewrite String.eqb_refl; auto).
      rewrite X in H; discriminate.
    - apply IH. now apply andb_true_iff in H as [_ H]. }
  apply G. vm_compute. reflexivity.
Qed.
Print Assumptions C65_table_functional.

(** The units defined with a rounded constant are off by less than 10^-7 of their value. *)
Theorem C65_rounded : forall est mode prog e, compiles est mode prog e ->
  forall u x n f, In u (en_units e) -> In x (en_dims e) -> unit_of u (snd x) = true ->
  u_name u = Some n -> In (n, f) rounded_units ->
  exists row, In row unit_table /\ ur_name row = n /\ ur_quantity row = quantity_name x /\
    (Qabs (f - 1) < 1 # 10000000)%Q /\
    forall r, sized est (QType (snd x) u r) (f * (ur_value row * si_coherent (quantity_name x))).
Proof.
  intros est mode prog e [I H] u x n f Hu Hx O U A.
  assert (B : forallb (fun y => (if Qlt_le_dec (Qabs (snd y - 1)) (1 # 10000000) then true else false) &&
     Qeq_bool (deviation (fst y)) (snd y) && match natural_row (fst y) with Some _ => false | None => true end)
     rounded_units = true) by (vm_compute; reflexivity).
  pose proof (proj1 (forallb_forall _ _) B _ A) as C. cbn [fst snd] in C.
  apply andb_true_iff in C as [C C3]. apply andb_true_iff in C as [C1 C2]. apply Qeq_bool_iff in C2.
  destruct (Qlt_le_dec (Qabs (f - 1)) (1 # 10000000)) as [L|L]; [|discriminate].
  assert (N : natural_dim x = false).
  { destruct (natural_dim x) eqn:N; auto. exfalso.
    destruct (natural_sized est mode prog e I H u x Hu Hx O N) as (n' & k & v & row & R & U' & _).
    rewrite U in U'. inversion U'; subst n'.
    destruct (natural_row n) eqn:Nr; [discriminate|]. unfold natural_row in Nr.
    pose proof (find_none _ _ Nr _ R) as X. cbn [fst] in X. rewrite String.eqb_refl in X. discriminate. }
  destruct (units_sized est mode prog e I H u x Hu Hx O N) as (row & R & Nm & Q & S).
  rewrite U in Nm. inversion Nm; subst n. exists row. split; [exact R|]. split; [reflexivity|]. split; [exact Q|].
  split; [exact L|]. intros r. eapply sized_ext; [|exact (S r)]. rewrite C2. ring.
Qed.
Print Assumptions C65_rounded.

(** The wrong ones: hectolitre is a litre, the nautical mile of the fps system has 2000
    yards, its cubic yard is not the cube of the yard and its pound-force per square inch is
    smaller than per square foot.  Each differs by more than one per cent. *)
Theorem C65_wrong_refuted : forall est n f, In (n, f) wrong_units ->
  exists u x row, In u (en_units full) /\ In x (en_dims full) /\ unit_of u (snd x) = true /\ u_name u = Some n /\
    In row unit_table /\ ur_name row = n /\ ur_quantity row = quantity_name x /\
    (1 # 100 < Qabs (f - 1))%Q /\
    (forall r, sized est (QType (snd x) u r) (f * (ur_value row * si_coherent (quantity_name x)))) /\
    (forall r, ~ sized est (QType (snd x) u r) (ur_value row * si_coherent (quantity_name x))).
Proof.
  intros est n f A.
  assert (B : forallb (fun y => (if Qlt_le_dec (1 # 100) (Qabs (snd y - 1)) then true else false) &&
     Qeq_bool (deviation (fst y)) (snd y) &&
     existsb (fun u => has_name (fst y) u &&
       existsb (fun x => unit_of u (snd x) && negb (natural_dim x)) (en_dims full)) (en_units full))
     wrong_units = true) by (vm_compute; reflexivity).
  pose proof (proj1 (forallb_forall _ _) B _ A) as C. cbv beta in C. cbn [fst snd] in C. clear B.
  apply andb_true_iff in C as [C C3]. apply andb_true_iff in C as [C1 C2]. apply Qeq_bool_iff in C2.
  assert (L : (1 # 100 < Qabs (f - 1))%Q) by (clear C2 C3 A; destruct (Qlt_le_dec (1 # 100) (Qabs (f - 1))); [assumption | discriminate C1]).
  destruct (proj1 (existsb_exists _ _) C3) as (u & Hu & C4). apply andb_true_iff in C4 as [C4 C5].
  destruct (proj1 (existsb_exists _ _) C5) as (x & Hx & C6). apply andb_true_iff in C6 as [O N].
  apply negb_true_iff in N.
  assert (U : u_name u = Some n).
  { clear - C4. unfold has_name in C4. destruct (u_name u); [|discriminate C4]. apply String.eqb_eq in C4. now subst. }
  clear C3 C4 C5.
  destruct (units_sized est Off catalogue full (incl_refl _) (full_elaborates est) u x Hu Hx O N) as (row & R & Nm & Q & S).
  rewrite U in Nm. injection Nm as Nm'. exists u, x, row.
  split; [exact Hu|]. split; [exact Hx|]. split; [exact O|]. split; [exact U|]. split; [exact R|].
  split; [symmetry; exact Nm'|]. split; [exact Q|]. split; [exact L|]. rewrite <- Nm' in S.
  assert (S' : forall r, sized est (QType (snd x) u r) (f * (ur_value row * si_coherent (quantity_name x)))).
  { intros r. eapply sized_ext; [|exact (S r)]. rewrite C2. ring. }
  split; [exact S'|]. intros r Z. destruct (S' r) as (G & _ & _ & M). destruct Z as (_ & _ & _ & M').
  pose proof (magnitude_unique _ _ _ _ M M') as E.
  assert (P : (0 < ur_value row * si_coherent (quantity_name x))%Q)
    by (apply (magnitude_pos _ _ _ (proj2 G) (proj2 (proj1 G)) M')).
  assert (F : (f == 1)%Q).
  { apply (Qmult_inj_r _ _ (ur_value row * si_coherent (quantity_name x))); [lra|]. rewrite E. ring. }
  rewrite F in L. clear - L. vm_compute in L. discriminate L.
Qed.
Print Assumptions C65_wrong_refuted.

(** The natural system: a unit of a quantity is the power of the gigaelectronvolt that
    length and time as inverse and mass as direct energy require. *)
Theorem C65_natural : forall est mode prog e, compiles est mode prog e ->
  forall u x, In u (en_units e) -> In x (en_dims e) -> unit_of u (snd x) = true -> natural_dim x = true ->
  exists n k v row, In (n, k, v) natural_table /\ u_name u = Some n /\
    assoc quantity_table (quantity_name x) = Some row /\
    k = exponent_in row "dim_mass" - exponent_in row "dim_length" - exponent_in row "dim_time" /\
    forall r, sized est (QType (snd x) u r) (v * inject_Z (10 ^ 9) ^ exponent_in row "dim_mass").
Proof. intros est mode prog e [I H]. exact (natural_sized est mode prog e I H). Qed.
Print Assumptions C65_natural.

(** No unit of the catalogue is left out: each is a unit of some dimension. *)
Theorem C65_every_unit : forall est mode e, compiles est mode catalogue e ->
  forall u, In u (en_units e) -> exists x, In x (en_dims e) /\ unit_of u (snd x) = true.
Proof. intros est mode e [_ H]. exact (units_measured est mode e H). Qed.
Print Assumptions C65_every_unit.

(** Alias units add a name: the type every unit expression resolves to stays as it was, and
    the alias has the ratio and the reference of the unit it stands for. *)
Theorem C65_aliases : forall est mode e x e' n u,
  (exists s pf, x = UAlias n u s pf) \/ (exists p au, x = UPrefixedAlias n u p au) ->
  declare_unit_entry est mode e x = Ok e' ->
  en_world e' = en_world e /\ en_dims e' = en_dims e /\
  exists v b, en_units e' = v :: en_units e /\ In b (en_units e) /\ u_name b = Some u /\
    u_name v = Some n /\ u_ratio v = u_ratio b /\ u_ref v = u_ref b.
Proof.
  intros est mode e x e' n u X H. unfold declare_unit_entry in H. step H as us Eus. destruct us as [|v us]; [discriminate|].
  assert (R : registers x = false) by (destruct X as [(s & pf & ->)|(p & au & ->)]; reflexivity). rewrite R in H.
  cbn [bind] in H. inversion H; subst e'. cbn [en_world en_dims en_units]. split; [reflexivity|]. split; [reflexivity|].
  assert (L : forall b, unit_lookup (en_units e) u = Ok b -> In b (en_units e) /\ u_name b = Some u).
  { intros b E. unfold unit_lookup in E. destruct (find (has_name u) (en_units e)) as [b'|] eqn:F; [|discriminate].
    inversion E; subst b'. apply find_some in F. destruct F as [I N]. split; [exact I|]. unfold has_name in N.
    destruct (u_name b); [|discriminate]. apply String.eqb_eq in N. now subst. }
  unfold unit_declare in Eus. step Eus as c Ec. step Eus as w Ew. inversion Eus; subst w us. exists v.
  destruct X as [(s & pf & ->)|(p & au & ->)]; cbn [unit_elaborate] in Ew; step Ew as b Eb; destruct (L b Eb) as [I N]; exists b.
  - inversion Ew; subst v. auto 7.
  - step Ew as a Ea. unfold mk_prefixed_alias_unit in Ew. step Ew as c2 Ec2. destruct (u_symbol a); inversion Ew; subst v. auto 7.
Qed.
Print Assumptions C65_aliases.
Definition small_env : env := Env [] [Samples.metre; Samples.second] [] empty_registry empty_world.
Example C65_aliases_ex : forall est, exists e',
  declare_unit_entry est On small_env (UAlias "tick" "second" (ascii "x") "no_prefix") = Ok e' /\ length (en_units e') = 3%nat.
Proof. intros est. eexists. split; reflexivity. Qed.

Definition unit_or (x : res cunit) : cunit := match x with Ok u => u | _ => unknown_coherent_unit end.
Definition unit_called (n : string) : cunit := unit_or (find_unit full n).
(** A mile per hour, an electronvolt and a gauss meet the hypotheses of [C65_units]. *)
Example C65_ex : forall est, compiles est Off catalogue full /\
  In (unit_called "si::international::mile_per_hour") (en_units full) /\
  In (Some "dim_speed", dim_called "si::dim_speed") (en_dims full) /\
  sized est (QType (dim_called "si::dim_speed") (unit_called "si::international::mile_per_hour") (RInt I64)) (1609344 # 3600000) /\
  sized est (QType (dim_called "si::dim_energy") (unit_called "si::electronvolt") (RInt I64))
    ((1602176634 # 1000000000) * ten_to (-19) * 1000) /\
  sized est (QType (dim_called "si::dim_volume") (unit_called "si::hectolitre") (RInt I64)) (1 # 1000).
Proof.
  intros est. split; [split; [apply incl_refl | apply full_elaborates]|].
  split; [apply (find_unit_in full "si::international::mile_per_hour"); vm_compute; reflexivity|].
  split; [apply (find_dim_in full "si::dim_speed"); vm_compute; reflexivity|].
  split; [|split]; (eapply sized_ext; [|apply mag_sized; vm_compute; reflexivity]; vm_compute; reflexivity).
Qed.

(** * C67: conversions between units of the catalogue *)

(** What the theorems on conversions assume is met by every pair of units of a program
    whose dimensions are equivalent. *)
Theorem C67_references : forall est mode prog e, compiles est mode prog e ->
  forall x y u v r s, In x (en_dims e) -> In y (en_dims e) -> dim_equivalent (snd x) (snd y) = true ->
  unit_of u (snd x) = true -> unit_of v (snd y) = true ->
  references_ok (QType (snd x) u r) (QType (snd y) v s).
Proof. intros est mode prog e [I H]. exact (references_agree est mode prog e I H). Qed.
Print Assumptions C67_references.

(** The factor of the conversion is the quotient of the values, and it fits 64 bits but
    for the listed pairs, between which conversions do not compile. *)
Theorem C67_factor : forall est mode prog e, compiles est mode prog e ->
  forall x y u v n m, In x (en_dims e) -> In y (en_dims e) -> dim_equivalent (snd x) (snd y) = true ->
  In u (en_units e) -> In v (en_units e) -> unit_of u (snd x) = true -> unit_of v (snd y) = true ->
  natural_dim x = false -> u_name u = Some n -> u_name v = Some m ->
  (unconvertible n m = false -> exists a b c, In a unit_table /\ ur_name a = n /\ In b unit_table /\ ur_name b = m /\
     cast_ratio est (snd x) u (snd y) v = Ok c /\
     (rval c == (deviation n * ur_value a) / (deviation m * ur_value b))%Q) /\
  (unconvertible n m = true -> cast_ratio est (snd x) u (snd y) v = Contract).
Proof.
  intros est mode prog e [I H] x y u v n m Hx Hy E Hu Hv Ou Ov N Un Vm.
  destruct (casts_compile est mode prog e I H x y u v Hx Hy E Hu Hv Ou Ov) as [A B].
  assert (Nu : named u = n) by (unfold named; now rewrite Un).
  assert (Nv : named v = m) by (unfold named; now rewrite Vm). rewrite Nu, Nv in A, B.
  split; [|exact B]. intros D. destruct (A D) as [c C].
  destruct (coherent_same est mode prog e I H x y Hx Hy E) as [N' K]. rewrite N in N'. symmetry in N'.
  destruct (units_sized est mode prog e I H u x Hu Hx Ou N) as (a & Ra & Na & Qa & Sa).
  destruct (units_sized est mode prog e I H v y Hv Hy Ov N') as (b & Rb & Nb & Qb & Sb).
  rewrite Un in Na. rewrite Vm in Nb. injection Na as Na'. injection Nb as Nb'. rewrite <- Na' in *. rewrite <- Nb' in *.
  exists a, b, c. split; [exact Ra|]. split; [symmetry; exact Na'|]. split; [exact Rb|]. split; [symmetry; exact Nb'|].
  split; [exact C|].
  destruct (Sa (RInt I64)) as (G1 & _ & X1 & M1). destruct (Sb (RInt I64)) as (G2 & _ & X2 & M2).
  pose proof (references_agree est mode prog e I H x y u v (RInt I64) (RInt I64) Hx Hy E Ou Ov) as R.
  destruct (cast_ratio_magnitude est _ _ c _ _ G1 G2 X1 X2 R M1 M2 C) as [V _]. rewrite V, K.
  pose proof (magnitude_pos _ _ _ (proj2 G2) (proj2 (proj1 G2)) M2) as P. rewrite <- K in P |- *.
  assert (Z1 : ~ (deviation m * ur_value b == 0)%Q) by (intros Z; rewrite Z in P; lra).
  assert (Z2 : ~ (si_coherent (quantity_name x) == 0)%Q) by (intros Z; rewrite Z in P; lra).
  field. repeat split; first [exact Z2 | intros Z; apply Z1; rewrite Z; ring].
Qed.
Print Assumptions C67_factor.

(** A cast between integral quantities (64-bit unsigned ones aside): whenever the result is
    defined, it is the number times the quotient of the values, truncated and brought into
    the target type.  An implicit conversion to 64 bits is exact. *)
Definition value_of (row : unit_row) : Q := (deviation (ur_name row) * ur_value row)%Q.
Theorem C67_values : forall est mode prog e, compiles est mode prog e ->
  forall x y u v n m, In x (en_dims e) -> In y (en_dims e) -> dim_equivalent (snd x) (snd y) = true ->
  In u (en_units e) -> In v (en_units e) -> unit_of u (snd x) = true -> unit_of v (snd y) = true ->
  natural_dim x = false -> u_name u = Some n -> u_name v = Some m ->
  exists a b, In a unit_table /\ ur_name a = n /\ In b unit_table /\ ur_name b = m /\
  forall i j k, i <> U64 -> j <> U64 -> in_range i k = true ->
    (forall r, quantity_cast est (QType (snd x) u (RInt i)) (QType (snd y) v (RInt j)) (NInt k) = Ok r ->
       exists z, r = NInt (wrap j z) /\ trunc_of (inject_Z k * value_of a / value_of b) z) /\
    (forall r, q_convert est (QType (snd x) u (RInt i)) (QType (snd y) v (RInt I64)) (NInt k) = Ok r ->
       exists z, r = NInt z /\ (inject_Z k * value_of a == inject_Z z * value_of b)%Q).
Proof.
  intros est mode prog e [I H] x y u v n m Hx Hy E Hu Hv Ou Ov N Un Vm.
  destruct (coherent_same est mode prog e I H x y Hx Hy E) as [N' K]. rewrite N in N'. symmetry in N'.
  destruct (units_sized est mode prog e I H u x Hu Hx Ou N) as (a & Ra & Na & Qa & Sa).
  destruct (units_sized est mode prog e I H v y Hv Hy Ov N') as (b & Rb & Nb & Qb & Sb).
  rewrite Un in Na. rewrite Vm in Nb. injection Na as Na'. injection Nb as Nb'.
  exists a, b. split; [exact Ra|]. split; [symmetry; exact Na'|]. split; [exact Rb|]. split; [symmetry; exact Nb'|].
  intros i j k Ui Uj Ri.
  assert (Sb' : forall r, sized est (QType (snd y) v r) (value_of b * si_coherent (quantity_name x))).
  { intros r. eapply sized_ext; [|exact (Sb r)]. unfold value_of. rewrite K. reflexivity. }
  clear Sb. rename Sb' into Sb.
  assert (P : (0 < value_of b * si_coherent (quantity_name x))%Q).
  { destruct (Sb (RInt I64)) as (G2 & _ & _ & M2). exact (magnitude_pos _ _ _ (proj2 G2) (proj2 (proj1 G2)) M2). }
  assert (Z1 : ~ (value_of b == 0)%Q) by (intros Z; rewrite Z in P; lra).
  assert (Z2 : ~ (si_coherent (quantity_name x) == 0)%Q) by (intros Z; rewrite Z in P; lra).
  pose proof (fun s => references_agree est mode prog e I H x y u v (RInt i) s Hx Hy E Ou Ov) as R.
  split; intros r C.
  - destruct (defined_truncates est _ _ i j _ _ (Sa (RInt i)) (Sb (RInt j)) (R (RInt j)) eq_refl eq_refl Ui Uj k r Ri C)
      as (z & Ez & T).
    exists z. split; [exact Ez|]. eapply trunc_ext; [|exact T].
    change (inject_Z k * (value_of a * si_coherent (quantity_name x)) / (value_of b * si_coherent (quantity_name x)) ==
            inject_Z k * value_of a / value_of b)%Q. field. split; assumption.
  - destruct (convert_exact est _ _ i I64 _ _ k r (Sa (RInt i)) (Sb (RInt I64)) (R (RInt I64)) eq_refl eq_refl Ri
      (convert_int64 est _ _ i _ _ k r (Sa (RInt i)) (Sb (RInt I64)) (R (RInt I64)) eq_refl Ui eq_refl Ri C) C) as (z & Ez & _ & V).
    exists z. split; [exact Ez|]. unfold same_value in V.
    apply (Qmult_inj_r _ _ (si_coherent (quantity_name x)) Z2). rewrite <- !Qmult_assoc. exact V.
Qed.
Print Assumptions C67_values.

(** A third of a nautical mile in metres, a pound in grams, joules and ergs; 1 horse power
    converts to foot-pounds per second, but not to watts, nor a parsec to miles. *)
Definition cast_called (est : estimate) (d u d' u' : string) (n : Z) : res number :=
  quantity_cast est (QType (dim_called d) (unit_called u) (RInt I64)) (QType (dim_called d') (unit_called u') (RInt I64)) (NInt n).
Example C67_ex : forall est, compiles est Off catalogue full /\
  cast_called est "si::dim_length" "si::international::nautical_mile" "si::dim_length" "si::metre" 7 = Ok (NInt 12964) /\
  cast_called est "si::fps::dim_mass" "si::fps::pound" "si::dim_mass" "si::gram" 10 = Ok (NInt 4535) /\
  cast_called est "si::dim_energy" "si::joule" "si::cgs::dim_energy" "si::cgs::erg" 3 = Ok (NInt 30000000) /\
  cast_called est "si::fps::dim_power" "si::fps::horse_power" "si::fps::dim_power" "si::fps::foot_pound_force_per_second" 2 =
    Ok (NInt 1100).
Proof. intros est. split; [split; [apply incl_refl | apply full_elaborates]|]. split; [|split; [|split]]; vm_compute; reflexivity. Qed.
Theorem C67_horse_power_refuted : forall est,
  dim_equivalent (dim_called "si::fps::dim_power") (dim_called "si::dim_power") = true /\
  cast_called est "si::fps::dim_power" "si::fps::horse_power" "si::dim_power" "si::watt" 1 = Contract /\
  cast_called est "si::dim_length" "si::iau::parsec" "si::dim_length" "si::international::mile" 1 = Contract.
Proof. intros est. split; [|split]; vm_compute; reflexivity. Qed.
Print Assumptions C67_horse_power_refuted.
