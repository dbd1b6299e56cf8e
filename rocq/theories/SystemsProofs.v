(** The systems of units of the catalogue, in any program: symbols identify their base
    dimensions, declared dimensions are in normal form, and products of declared dimensions
    with the exponents of a declared dimension are that dimension. *)

From Coq Require Import ZArith QArith Qpower Lqa Lia String List Bool Permutation Sorted.
From Verif Require Import Outcome CInt Root Ratio Unit Downcast Dim DimOp DerivedUnit UnitDecl
  System Catalogue SpecDim SpecUnit SpecQuantity SpecExpr SpecCatalogue SpecSystems MagnitudeProofs DimProofs DimOpProofs DimOpProofs3
  SystemProofs IsqProofs CatalogueProofs KindProofs ExprProofs2 WorldProofs.
Import ListNotations.
Local Open Scope string_scope.
Local Open Scope Z_scope.
Local Open Scope res_scope.

(** ** The whole catalogue *)

Definition symbol_ltb (a b : bdim) : bool :=
  match String.compare (bd_symbol a) (bd_symbol b) with Lt => true | _ => false end.
Fixpoint sorted_by_symbol (es : list bexp) : bool :=
  match es with
  | [] => true
  | e :: r => forallb (fun f => symbol_ltb (e_dim e) (e_dim f)) r && sorted_by_symbol r
  end.
Definition properb (e : bexp) : bool := negb (e_num e =? 0) && (e_den e =? 1) && (Z.abs (e_num e) <=? 9).
Definition normalb (es : list bexp) : bool := sorted_by_symbol es && forallb properb es.
Definition not_base (d : dimension) : bool :=
  match exponents d with [e] => negb (is_plus_one e) | _ => true end.
Definition dim_checked (x : option string * dimension) : bool :=
  match snd x with DUnknown _ _ => false | _ => true end &&
  (normalb (exponents (snd x)) && (negb (is_derived (snd x)) || not_base (snd x)) &&
  negb (rexp (u_ratio (dimension_unit (snd x))) =? INTMAX_MIN) &&
  forallb (fun e => negb (rexp (base_ratio (e_dim e)) =? INTMAX_MIN)) (exponents (snd x))).
Lemma dims_checked : forallb dim_checked (en_dims full) = true.
Proof. vm_compute. reflexivity. Qed.

Definition bases (e : env) : list (option string * bdim) :=
  flat_map (fun x => match snd x with DBase b => [(fst x, b)] | _ => [] end) (en_dims e).
Definition inside (s : list string) (b : bdim) : bool := existsb (String.eqb (bd_name b)) s.
Definition opt_eqb (a b : option string) : bool :=
  match a, b with Some x, Some y => String.eqb x y | None, None => true | _, _ => false end.
Lemma symbols_checked : forallb (fun s => forallb (fun x => forallb (fun y =>
    negb (inside s (snd x) && inside s (snd y) && String.eqb (bd_symbol (snd x)) (bd_symbol (snd y))) ||
    (if bdim_eq_dec (snd x) (snd y) then true else false)) (bases full)) (bases full)) systems = true.
Proof. vm_compute. reflexivity. Qed.
Lemma quantities_checked : forallb (fun s => forallb (fun x => forallb (fun y =>
    negb (inside s (snd x) && inside s (snd y)) ||
    match fst x, fst y with
    | Some p, Some q => negb (String.eqb p q) || (if bdim_eq_dec (snd x) (snd y) then true else false)
    | _, _ => false
    end) (bases full)) (bases full)) isq_systems = true.
Proof. vm_compute. reflexivity. Qed.

#[local] Opaque full catalogue unit_table natural_table quantity_table isq_templates prefix_table systems isq_systems.

Lemma symbol_ltb_lt : forall a b, symbol_ltb a b = true -> symbol_lt a b.
Proof. intros a b. unfold symbol_ltb, symbol_lt. destruct (String.compare _ _); congruence. Qed.
Lemma sorted_by_symbol_spec : forall es, sorted_by_symbol es = true ->
  StronglySorted (fun e f => symbol_lt (e_dim e) (e_dim f)) es.
Proof.
  induction es as [|e es IH]; cbn [sorted_by_symbol]; intros H; constructor; apply andb_true_iff in H as [A B]; auto.
  apply Forall_forall. intros f Hf. apply symbol_ltb_lt. exact (proj1 (forallb_forall _ _) A f Hf).
Qed.
Lemma normalb_normal : forall es, normalb es = true -> normal es /\ Forall (fun e => e_den e = 1) es.
Proof.
  intros es H. apply andb_true_iff in H as [A B].
  assert (P : forall e, In e es -> e_num e <> 0 /\ e_den e = 1 /\ Z.abs (e_num e) <= 9).
  { intros e He. pose proof (proj1 (forallb_forall _ _) B e He) as P. unfold properb in P.
    apply andb_true_iff in P as [P P3]. apply andb_true_iff in P as [P1 P2].
    apply negb_true_iff, Z.eqb_neq in P1. apply Z.eqb_eq in P2. apply Z.leb_le in P3. auto. }
  split; [split; [now apply sorted_by_symbol_spec|]|]; apply Forall_forall; intros e He; destruct (P e He) as (P1 & P2 & P3).
  - unfold proper. rewrite P2. split; [exact P1|]. split; [lia|]. split; [apply Z.gcd_1_r|]. unfold INTMAX_MAX. lia.
  - exact P2.
Qed.

Section Program.
Variables (est : estimate) (mode : downcast_mode) (prog : list entry) (e : env).
Hypothesis (I : incl prog catalogue) (E : elaborate est mode isq_templates empty_env prog = Ok e).

Lemma program_consistent : consistent (en_world e).
Proof. exact (reachable_consistent _ (elaborate_reachable _ _ _ _ _ _ E reach_empty)). Qed.
Lemma program_declared : declared e.
Proof. exact (elaborate_declared _ _ _ _ _ _ E empty_declared). Qed.
Lemma program_dims : incl (en_dims e) (en_dims full).
Proof. exact (proj2 (proj2 (selection_in_full _ _ _ _ I E))). Qed.
Lemma program_checked : forall x, In x (en_dims e) -> dim_checked x = true /\ dim_goodb (snd x) = true.
Proof.
  intros x Hx. apply program_dims in Hx. pose proof full_dims_good as G. pose proof dims_checked as D.
  exact (conj (proj1 (forallb_forall _ _) D x Hx) (proj1 (forallb_forall _ _) G x Hx)).
Qed.
Lemma program_bases : forall o b, In (o, DBase b) (en_dims e) -> In (o, b) (bases full).
Proof.
  intros o b H. apply program_dims in H. unfold bases. apply in_flat_map. exists (o, DBase b). split; [exact H|]. now left.
Qed.
Lemma inside_in : forall s b, In (bd_name b) s -> inside s b = true.
Proof. intros s b H. apply existsb_exists. exists (bd_name b). split; [exact H|apply String.eqb_refl]. Qed.

Section System.
Variable s : list string.

Lemma program_symbols : In s systems -> symbols_identify (base_of e s).
Proof.
  intros Hs a b [(o & A) As] [(o' & B) Bs] Sy. apply program_bases in A, B.
  pose proof symbols_checked as T.
  pose proof (proj1 (forallb_forall _ _) T s Hs) as T1. cbv beta in T1.
  pose proof (proj1 (forallb_forall _ _) T1 _ A) as T2. cbv beta in T2.
  pose proof (proj1 (forallb_forall _ _) T2 _ B) as T3. cbv beta in T3. cbn [snd] in T3.
  rewrite (inside_in _ _ As), (inside_in _ _ Bs), Sy, String.eqb_refl in T3. cbn [andb negb orb] in T3.
  now destruct (bdim_eq_dec a b).
Qed.

Lemma program_good_system : good_system (base_of e s) (en_world e) /\ ordinary_system (base_of e s) (en_world e).
Proof.
  split; [split; [exact program_consistent|split]|split].
  - intros b [(o & B) _]. destruct (program_checked _ B) as [_ G]. unfold dim_goodb in G. cbn [snd exponents forallb e_dim e_den] in G.
    apply andb_true_iff in G as [G _]. rewrite andb_true_r in G. apply andb_true_iff in G as [_ G].
    now apply ratio_goodb_good.
  - intros es d Hd. destruct (proj1 program_declared _ _ Hd) as (_ & o & O).
    destruct (program_checked _ O) as [_ G]. unfold dim_goodb in G. apply andb_true_iff in G as [_ G]. now apply ratio_goodb_good.
  - intros b [(o & B) _]. destruct (program_checked _ B) as [D _]. unfold dim_checked in D. cbn [snd exponents forallb e_dim] in D. apply andb_true_iff in D as [_ D].
    apply andb_true_iff in D as [_ D]. rewrite andb_true_r in D. now apply negb_true_iff, Z.eqb_neq in D.
  - intros es d Hd. destruct (proj1 program_declared _ _ Hd) as (_ & o & O).
    destruct (program_checked _ O) as [D _]. unfold dim_checked in D. apply andb_true_iff in D as [_ D].
    apply andb_true_iff in D as [D _]. apply andb_true_iff in D as [_ D]. now apply negb_true_iff, Z.eqb_neq in D.
Qed.

Lemma program_ndim : forall o d, In (o, d) (en_dims e) -> built_on s d -> ndim (base_of e s) d /\ SpecExpr.whole d.
Proof.
  intros o d Hd B. destruct (program_checked _ Hd) as [D _]. unfold dim_checked in D. cbn [snd] in D. apply andb_true_iff in D as [_ D].
  apply andb_true_iff in D as [D _]. apply andb_true_iff in D as [D _]. apply andb_true_iff in D as [D _].
  destruct (normalb_normal _ D) as [N W]. split; [split; [exact N|]|exact W].
  intros x Hx. split; [|exact (B x Hx)].
  exact (elaborate_closed _ _ _ _ _ _ E ltac:(intros ? ? ? []) _ _ _ Hd Hx).
Qed.

Lemma program_canonical : forall o d, In (o, d) (en_dims e) ->
  is_derived d = false \/ (mode <> Off /\ (mode = On \/ alone e d)) -> canonical (en_world e) d.
Proof.
  intros o d Hd K. unfold canonical.
  destruct d as [b|n es u r|args es].
  - reflexivity.
  - destruct K as [K|[M K]]; [discriminate|].
    assert (Dd : dim_declared e (DDerived n es u r)) by (split; [reflexivity|eauto]).
    assert (A : mode = On \/ forall a, dim_declared e a -> exponents a = exponents (DDerived n es u r) -> a = DDerived n es u r).
    { destruct K as [K|K]; [now left|right]. intros a (V & o' & O) Ea. destruct a as [|n' es' u' r'|]; try discriminate.
      exact (K o' n' es' u' r' O Ea). }
    pose proof (program_downcast _ _ _ _ _ E M _ Dd A) as Dc.
    destruct (program_checked _ Hd) as [D _]. unfold dim_checked in D. cbn [snd is_derived negb orb] in D. apply andb_true_iff in D as [_ D].
    apply andb_true_iff in D as [D _]. apply andb_true_iff in D as [D _]. apply andb_true_iff in D as [_ D].
    unfold not_base in D. cbn [exponents] in D, Dc |- *.
    unfold to_dimension, downcast_dimension.
    destruct es as [|x [|y es]]; cbn [exponents]; [now rewrite Dc| |now rewrite Dc].
    apply negb_true_iff in D. rewrite D. now rewrite Dc.
  - exfalso. destruct (program_checked _ Hd) as [D _]. discriminate D.
Qed.

Lemma program_in_system : forall o d, In (o, d) (en_dims e) -> built_on s d ->
  is_derived d = false \/ (mode <> Off /\ (mode = On \/ alone e d)) -> in_system (base_of e s) (en_world e) d.
Proof.
  intros o d Hd B K. destruct (program_ndim _ _ Hd B) as [N W]. split; [exact N|]. split; [exact (program_canonical _ _ Hd K)|exact W].
Qed.

(** ** Quantities *)

Lemma program_quantity : In s isq_systems -> forall b, base_of e s b ->
  exists t, In (Some t, DBase b) (en_dims e) /\ quantity_of e b = t.
Proof.
  intros Hs b [(o & B) Bs]. pose proof (program_bases _ _ B) as B'.
  pose proof quantities_checked as T.
  pose proof (proj1 (forallb_forall _ _) T s Hs) as T1. cbv beta in T1.
  pose proof (proj1 (forallb_forall _ _) T1 _ B') as T2. cbv beta in T2.
  pose proof (proj1 (forallb_forall _ _) T2 _ B') as T3. cbv beta in T3. cbn [fst snd] in T3.
  rewrite (inside_in _ _ Bs) in T3. cbn [andb negb orb] in T3. destruct o as [t|]; [|discriminate].
  exists t. split; [exact B|].
  exact (quantity_of_labels e (elaborate_unique _ _ _ _ _ _ empty_unique E) t b B).
Qed.
Lemma quantity_injective : In s isq_systems -> forall a b, base_of e s a -> base_of e s b ->
  quantity_of e a = quantity_of e b -> a = b.
Proof.
  intros Hs a b A B Q. destruct (program_quantity Hs a A) as (t & A1 & A2). destruct (program_quantity Hs b B) as (t' & B1 & B2).
  apply program_bases in A1, B1. destruct A as [_ As], B as [_ Bs].
  pose proof quantities_checked as T.
  pose proof (proj1 (forallb_forall _ _) T s Hs) as T1. cbv beta in T1.
  pose proof (proj1 (forallb_forall _ _) T1 _ A1) as T2. cbv beta in T2.
  pose proof (proj1 (forallb_forall _ _) T2 _ B1) as T3. cbv beta in T3. cbn [fst snd] in T3.
  rewrite (inside_in _ _ As), (inside_in _ _ Bs) in T3. cbn [andb negb orb] in T3.
  assert (X : String.eqb t t' = true) by (apply String.eqb_eq; congruence). rewrite X in T3. cbn [negb orb] in T3.
  now destruct (bdim_eq_dec a b).
Qed.

Lemma expo_quantity : In s isq_systems -> forall es b, over (base_of e s) es -> base_of e s b ->
  (expo es b == quantity_expo (quantity_of e) (quantity_of e b) es)%Q.
Proof.
  intros Hs es b; induction es as [|x es IH]; cbn [expo quantity_expo]; intros O B; [reflexivity|].
  rewrite IH; [|intros y Hy; apply O; now right|exact B].
  destruct (bdim_eq_dec (e_dim x) b) as [<-|N]; [now rewrite String.eqb_refl|].
  destruct (String.eqb (quantity_of e (e_dim x)) (quantity_of e b)) eqn:Q; [|reflexivity].
  apply String.eqb_eq in Q. exfalso. apply N. apply (quantity_injective Hs); auto. apply O. now left.
Qed.

Lemma small_representable : forall o d b, In (o, d) (en_dims e) -> representable (dim_expo d b).
Proof.
  intros o d b Hd. destruct (program_checked _ Hd) as [D _]. unfold dim_checked in D. cbn [snd] in D. apply andb_true_iff in D as [_ D].
  apply andb_true_iff in D as [D _]. apply andb_true_iff in D as [D _]. apply andb_true_iff in D as [D _].
  destruct (normalb_normal _ D) as [[S P] W]. unfold dim_expo.
  destruct (in_dec bdim_eq_dec b (map e_dim (exponents d))) as [Hb|Hb].
  - apply in_map_iff in Hb as (x & <- & Hx).
    pose proof (proj1 (Forall_forall _ _) P x Hx) as (_ & _ & _ & A & _). pose proof (proj1 (Forall_forall _ _) W x Hx) as Q1.
    apply (representable_int (e_num x)); [|exact A]. rewrite (expo_entry _ x S Hx). unfold equot. cbv beta in Q1. rewrite Q1.
    change (inject_Z 1) with 1%Q. field.
  - apply (representable_int 0); [|vm_compute; discriminate]. apply expo_absent.
    intros f Hf C. apply Hb. rewrite <- C. now apply in_map.
Qed.

Lemma program_expo : In s isq_systems -> forall t d, In (Some t, d) (en_dims e) -> built_on s d ->
  exists row, assoc quantity_table t = Some row /\
    forall b, base_of e s b -> (dim_expo d b == inject_Z (exponent_in row (quantity_of e b)))%Q.
Proof.
  intros Hs t d Hd B. destruct (isq_exponents _ _ _ _ _ _ E Hd) as (row & R & X & _). exists row. split; [exact R|].
  intros b Ub. destruct (program_ndim _ _ Hd B) as [[_ O] _]. unfold dim_expo. rewrite (expo_quantity Hs _ _ O Ub). apply X.
Qed.

Lemma isq_in_systems : In s isq_systems -> In s systems.
Proof. intros H. with_strategy transparent [systems] unfold systems. apply in_or_app. now left. Qed.

Lemma program_multiply : In s isq_systems -> forall tx ty tz dx dy dz rx ry rz,
  In (Some tx, dx) (en_dims e) -> In (Some ty, dy) (en_dims e) -> In (Some tz, dz) (en_dims e) ->
  built_on s dx -> built_on s dy -> built_on s dz ->
  assoc quantity_table tx = Some rx -> assoc quantity_table ty = Some ry -> assoc quantity_table tz = Some rz ->
  is_derived dz = false \/ (mode <> Off /\ (mode = On \/ alone e dz)) ->
  ((forall k, exponent_in rx k + exponent_in ry k = exponent_in rz k) -> dimension_multiply (en_world e) dx dy = Ok dz) /\
  ((forall k, exponent_in rx k - exponent_in ry k = exponent_in rz k) -> dimension_divide (en_world e) dx dy = Ok dz).
Proof.
  intros Hs tx ty tz dx dy dz rx ry rz Hx Hy Hz Bx By Bz Rx Ry Rz K.
  pose proof (program_symbols (isq_in_systems Hs)) as U. pose proof program_consistent as C.
  destruct (program_ndim _ _ Hx Bx) as [Nx _]. destruct (program_ndim _ _ Hy By) as [Ny _]. destruct (program_ndim _ _ Hz Bz) as [Nz _].
  destruct (program_expo Hs _ _ Hx Bx) as (rx' & Rx' & Ex). destruct (program_expo Hs _ _ Hy By) as (ry' & Ry' & Ey).
  destruct (program_expo Hs _ _ Hz Bz) as (rz' & Rz' & Ez).
  assert (rx' = rx) by congruence. assert (ry' = ry) by congruence. assert (rz' = rz) by congruence. subst rx' ry' rz'.
  pose proof (program_canonical _ _ Hz K) as Cz. split; intros Sum.
  - assert (V : forall b, base_of e s b -> (dim_expo dx b + dim_expo dy b == dim_expo dz b)%Q).
    { intros b Ub. rewrite (Ex b Ub), (Ey b Ub), (Ez b Ub), <- inject_Z_plus, Sum. reflexivity. }
    destruct (dimension_multiply_complete _ U _ dx dy C Nx Ny) as [d Hd].
    { intros b Ub. apply (representable_ext (dim_expo dz b)); [symmetry; exact (V b Ub)|exact (small_representable _ _ _ Hz)]. }
    rewrite Hd. f_equal. destruct (dimension_multiply_ok _ U _ dx dy d C Nx Ny Hd) as (Nd & Cd & Vd).
    apply (canonical_unique _ U (en_world e)); auto. intros b Ub. rewrite Vd. exact (V b Ub).
  - assert (V : forall b, base_of e s b -> (dim_expo dx b - dim_expo dy b == dim_expo dz b)%Q).
    { intros b Ub. rewrite (Ex b Ub), (Ey b Ub), (Ez b Ub), <- Sum. unfold Qminus. rewrite <- inject_Z_opp, <- inject_Z_plus. reflexivity. }
    destruct (dimension_divide_complete _ U _ dx dy C Nx Ny) as [d Hd].
    { intros b Ub. apply (representable_ext (dim_expo dz b)); [symmetry; exact (V b Ub)|exact (small_representable _ _ _ Hz)]. }
    rewrite Hd. f_equal. destruct (dimension_divide_ok _ U _ dx dy d C Nx Ny Hd) as (Nd & Cd & Vd).
    apply (canonical_unique _ U (en_world e)); auto. intros b Ub. rewrite Vd. exact (V b Ub).
Qed.
End System.
End Program.
