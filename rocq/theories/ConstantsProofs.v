(** The physical constants, in any program that has their dimensions and units. *)

From Coq Require Import ZArith QArith Qpower Qabs Lqa Lia String List Bool Permutation Sorted SpecFloat.
From Verif Require Import Outcome CInt Root Ratio SpecRatio Unit Downcast Dim DimOp DerivedUnit UnitDecl Rep QuantityCast Quantity Reference
  System Catalogue Names Constants SpecDim SpecUnit SpecQuantity SpecExpr SpecCatalogue SpecSystems SpecConstants MagnitudeProofs DimProofs
  DimOpProofs DimOpProofs3 SystemProofs IsqProofs CatalogueProofs KindProofs ExprProofs2 WorldProofs SystemsProofs NamesProofs.
Import ListNotations.
Local Open Scope string_scope.
Local Open Scope Z_scope.
Local Open Scope res_scope.

(** ** Products computed once and for all *)

(** The dimensions a product with the exponents of [d0] can be: [d0], or a declared one. *)
Definition candidates (d0 : dimension) : list dimension :=
  d0 :: filter (fun d => if bexps_eq_dec (exponents d) (exponents d0) then true else false) (map snd (en_dims full)).
Definition rescaled (d : dimension) (x : ratio) : res ratio := rmul x (u_ratio (dimension_unit d)).
Definition mag_at (d : dimension) (y : ratio) : Q :=
  Qred (CatalogueProofs.coherent (exponents d) * (rval y / rval (u_ratio (dimension_unit d)))).
Definition good_at (k : Q) (d : dimension) (y : res ratio) : bool :=
  match y with Ok y => unit_ratio_ok y && ratio_goodb y && dim_goodb d && Qeq_bool (mag_at d y) k | _ => false end.

Definition bareb (ex : list bexp) (es : list (string * Z)) : bool :=
  (fix go (ex : list bexp) (es : list (string * Z)) : bool :=
    match ex, es with
    | [], [] => true
    | x :: ex, y :: es => String.eqb (bd_name (e_dim x)) (fst y) && (e_num x =? snd y) && (e_den x =? 1) && go ex es
    | _, _ => false
    end) ex es.
Lemma bareb_bare : forall ex es, bareb ex es = true ->
  map (fun x => (bd_name (e_dim x), e_num x, e_den x)) ex = map (fun x => (fst x, snd x, 1)) es.
Proof.
  induction ex as [|x ex IH]; intros [|y es] H; try discriminate; [reflexivity|]. cbn in H.
  apply andb_true_iff in H as [H H4]. apply andb_true_iff in H as [H H3]. apply andb_true_iff in H as [H1 H2].
  apply String.eqb_eq in H1. apply Z.eqb_eq in H2, H3. cbn [map]. rewrite (IH es H4), H1, H2, H3. reflexivity.
Qed.
Definition closeb (f : fty) (es : list (string * Z)) (v k : Q) (n : number) : bool :=
  match n with
  | NFlt x => Qle_bool (Qabs (sf_value x * k - v * si_factor es)) (accuracy f * (v * si_factor es))
  | _ => false
  end.
Lemma measures_by : forall est f es v q k, q_rep (q_type q) = RFlt f -> bareb (exponents (q_dim (q_type q))) es = true ->
  sized est (q_type q) k -> closeb f es v k (q_num q) = true -> measures est f es v q.
Proof.
  intros est f es v q k R B S C. split; [exact R|]. split; [exact (bareb_bare _ _ B)|].
  unfold closeb in C. destruct (q_num q) as [z|x]; [discriminate|]. exists x, k. split; [reflexivity|]. split; [exact S|].
  now apply Qle_bool_iff in C.
Qed.

#[local] Opaque full catalogue unit_table natural_table quantity_table isq_templates prefix_table systems isq_systems.

Definition si_system := ["si::dim_length"; "si::dim_mass"; "si::dim_time"; "si::dim_electric_current"; "si::dim_thermodynamic_temperature";
   "si::dim_amount_of_substance"; "si::dim_luminous_intensity"; "dim_angle<>"].

Lemma normalb_representable : forall es b, normalb es = true -> representable (expo es b).
Proof.
  intros es b D. destruct (normalb_normal _ D) as [[S P] W].
  destruct (in_dec bdim_eq_dec b (map e_dim es)) as [Hb|Hb].
  - apply in_map_iff in Hb as (x & <- & Hx).
    pose proof (proj1 (Forall_forall _ _) P x Hx) as (_ & _ & _ & A & _). pose proof (proj1 (Forall_forall _ _) W x Hx) as Q1.
    apply (representable_int (e_num x)); [|exact A]. rewrite (expo_entry _ x S Hx). unfold equot. cbv beta in Q1. rewrite Q1.
    change (inject_Z 1) with 1%Q. field.
  - apply (representable_int 0); [|vm_compute; discriminate]. apply expo_absent.
    intros f Hf C. apply Hb. rewrite <- C. now apply in_map.
Qed.

Section Program.
Variables (est : estimate) (mode : downcast_mode) (prog : list entry) (e : env).
Hypothesis (I : incl prog catalogue) (E : elaborate est mode isq_templates empty_env prog = Ok e).

Definition has (d u : string) : Prop := (exists x, find_dim e d = Ok x) /\ exists c, find_unit e u = Ok c.

Lemma value_of_full : forall d u r from v, has d u -> value_of e d u r from v = value_of full d u r from v.
Proof.
  intros d u r from v [(x & X) (c & C)]. destruct (program_agrees est mode prog e I E) as (_ & A2 & A3).
  unfold value_of, named_type. cbn [n_dim n_unit]. rewrite X, C, (A2 _ _ C), (A3 _ _ X). reflexivity.
Qed.

Let U := base_of e si_system.
Lemma in_si : In si_system systems.
Proof. with_strategy transparent [systems] now left. Qed.
Lemma si_symbols : symbols_identify U.
Proof. exact (program_symbols est mode prog e I E si_system in_si). Qed.
Lemma world_consistent : consistent (en_world e).
Proof. exact (program_consistent est mode prog e E). Qed.
Lemma empty_consistent : consistent empty_world.
Proof. exact (reachable_consistent _ reach_empty). Qed.

(** A canonical dimension with the exponents of [d0] is a candidate. *)
Lemma canonical_candidate : forall d d0, canonical (en_world e) d -> canonical empty_world d0 -> exponents d = exponents d0 ->
  In d (candidates d0).
Proof.
  intros d d0 C C0 X. unfold candidates.
  assert (K : d = d0 \/ exists o, In (o, d) (en_dims e)).
  { unfold canonical in C, C0. rewrite <- X in C0. unfold to_dimension, downcast_dimension in C, C0.
    assert (D : forall es, match downcast bexps_eq_dec (w_dims (en_world e)) es with
        | Some x => Ok x | None => mk_unknown_dimension es end = Ok d -> mk_unknown_dimension es = Ok d0 ->
        d = d0 \/ exists o, In (o, d) (en_dims e)).
    { intros es H H0. destruct (downcast bexps_eq_dec (w_dims (en_world e)) es) as [x|] eqn:Dc; [|left; congruence].
      injection H as ->. right. apply downcast_in in Dc. exact (proj2 (proj1 (program_declared est mode prog e E) _ _ Dc)). }
    destruct (exponents d) as [|y [|z es]]; [exact (D _ C C0)| |exact (D _ C C0)].
    destruct (is_plus_one y); [left; congruence|exact (D _ C C0)]. }
  destruct K as [->|(o & O)]; [now left|right]. apply filter_In. split.
  - apply in_map_iff. exists (o, d). split; [reflexivity|]. exact (program_dims est mode prog e I E _ O).
  - rewrite X. now destruct (bexps_eq_dec (exponents d0) (exponents d0)).
Qed.

Lemma unit_found : forall d y k, good_at k d (Ok y) = true -> exists u, downcast_unit (en_world e) d y = Ok u /\
  unit_of u d = true /\ forall r, sized est (QType d u r) k.
Proof.
  intros d y k G. unfold good_at in G. apply andb_true_iff in G as [G G4]. apply andb_true_iff in G as [G G3]. apply andb_true_iff in G as [G1 G2].
  assert (T : exists u, downcast_unit (en_world e) d y = Ok u).
  { unfold downcast_unit. rewrite G1. cbn [constrained bind]. destruct (downcast _ _ _) as [u|]; [eauto|]. unfold scaled_unit. rewrite G1. cbn. eauto. }
  destruct T as (u & H). destruct (downcast_unit_ratio _ _ _ _ world_consistent H) as (Ru & Ou & _).
  exists u. split; [exact H|]. split; [exact Ou|]. intros r. apply Qeq_bool_iff in G4.
  eapply sized_ext; [|apply mag_sized; [exact G3|rewrite Ru; exact G2|exact Ou]].
  unfold mag. rewrite Ru. exact G4.
Qed.

(** Products and quotients. *)
Definition product_of (over : bool) (w : world) (a b : quantity) : res quantity := if over then q_over w a b else q_times w a b.
Definition dims_of (over : bool) (w : world) (a b : dimension) : res dimension :=
  if over then dimension_divide w a b else dimension_multiply w a b.
Definition ratios_of (over : bool) (a b : ratio) : res ratio := if over then rdiv a b else rmul a b.
Definition chain (over : bool) (dx : dimension) (ux : cunit) (dy : dimension) (uy : cunit) (d : dimension) : res ratio :=
  a <- relative_ratio dx ux; b <- relative_ratio dy uy; x <- ratios_of over a b; rescaled d x.

Lemma dims_found : forall over dx dy d0, ndim U dx -> ndim U dy -> dims_of over empty_world dx dy = Ok d0 -> normalb (exponents d0) = true ->
  exists d, dims_of over (en_world e) dx dy = Ok d /\ exponents d = exponents d0 /\ In d (candidates d0).
Proof.
  intros over dx dy d0 Nx Ny H0 B. pose proof si_symbols as S. pose proof world_consistent as C. pose proof empty_consistent as C0.
  assert (R : forall b, representable (dim_expo d0 b)) by (intros b; now apply normalb_representable).
  destruct over; cbn [dims_of] in *.
  - destruct (dimension_divide_ok U S _ _ _ _ C0 Nx Ny H0) as (N0 & K0 & V0).
    destruct (dimension_divide_complete U S (en_world e) dx dy C Nx Ny) as (d & H).
    { intros b _. apply (representable_ext (dim_expo d0 b)); [apply V0|apply R]. }
    destruct (dimension_divide_ok U S _ _ _ _ C Nx Ny H) as (N & K & V).
    assert (X : exponents d = exponents d0).
    { apply (normal_unique U S); try apply N; try apply N0. intros b _. specialize (V b). specialize (V0 b). unfold dim_expo in V, V0. rewrite V, V0. reflexivity. }
    exists d. split; [exact H|]. split; [exact X|exact (canonical_candidate _ _ K K0 X)].
  - destruct (dimension_multiply_ok U S _ _ _ _ C0 Nx Ny H0) as (N0 & K0 & V0).
    destruct (dimension_multiply_complete U S (en_world e) dx dy C Nx Ny) as (d & H).
    { intros b _. apply (representable_ext (dim_expo d0 b)); [apply V0|apply R]. }
    destruct (dimension_multiply_ok U S _ _ _ _ C Nx Ny H) as (N & K & V).
    assert (X : exponents d = exponents d0).
    { apply (normal_unique U S); try apply N; try apply N0. intros b _. specialize (V b). specialize (V0 b). unfold dim_expo in V, V0. rewrite V, V0. reflexivity. }
    exists d. split; [exact H|]. split; [exact X|exact (canonical_candidate _ _ K K0 X)].
Qed.

Lemma product_found : forall over ox oy dx dy ux uy rx ry nx ny d0 n k,
  In (ox, dx) (en_dims e) -> In (oy, dy) (en_dims e) -> built_on si_system dx -> built_on si_system dy ->
  dims_of over empty_world dx dy = Ok d0 -> normalb (exponents d0) = true ->
  forallb (fun d => good_at k d (chain over dx ux dy uy d)) (candidates d0) = true ->
  n_op (if over then OpDiv else OpMul) rx ry nx ny = Ok n ->
  exists q, product_of over (en_world e) (Quantity (QType dx ux rx) nx) (Quantity (QType dy uy ry) ny) = Ok q /\
    q_rep (q_type q) = arith_rep rx ry /\ q_num q = n /\ exponents (q_dim (q_type q)) = exponents d0 /\ sized est (q_type q) k.
Proof.
  intros over ox oy dx dy ux uy rx ry nx ny d0 n k Hx Hy Bx By H0 B G Hn.
  destruct (dims_found over dx dy d0 (proj1 (program_ndim est mode prog e I E _ _ _ Hx Bx)) (proj1 (program_ndim est mode prog e I E _ _ _ Hy By)) H0 B)
    as (d & Hd & X & Hc).
  pose proof (proj1 (forallb_forall _ _) G d Hc) as Gd. cbv beta in Gd.
  unfold chain, rescaled, ratios_of in Gd.
  destruct (relative_ratio dx ux) as [ra| | | |] eqn:Ra; try discriminate Gd. destruct (relative_ratio dy uy) as [rb| | | |] eqn:Rb; try discriminate Gd.
  cbn [bind] in Gd.
  destruct over; cbn [dims_of product_of] in *; unfold q_over, q_times, reference_divide, reference_multiply; cbn [q_type q_dim q_unit q_rep q_num ref_dim ref_unit];
    rewrite Hd; cbn [bind]; rewrite Ra; cbn [bind]; rewrite Rb; cbn [bind].
  - destruct (rdiv ra rb) as [x| | | |] eqn:Rx; try discriminate Gd. cbn [bind] in Gd |- *.
    destruct (rmul x (u_ratio (dimension_unit d))) as [y| | | |] eqn:Ry; try discriminate Gd. cbn [bind].
    destruct (unit_found d y k Gd) as (u & Hu & Ou & Su). rewrite Hu. cbn [bind]. unfold mk_reference. rewrite Ou. cbn [constrained bind].
    rewrite Hn. cbn [bind ref_dim ref_unit]. eexists. split; [reflexivity|]. cbn [q_type q_rep q_num q_dim]. auto.
  - destruct (rmul ra rb) as [x| | | |] eqn:Rx; try discriminate Gd. cbn [bind] in Gd |- *.
    destruct (rmul x (u_ratio (dimension_unit d))) as [y| | | |] eqn:Ry; try discriminate Gd. cbn [bind].
    destruct (unit_found d y k Gd) as (u & Hu & Ou & Su). rewrite Hu. cbn [bind]. unfold mk_reference. rewrite Ou. cbn [constrained bind].
    rewrite Hn. cbn [bind ref_dim ref_unit]. eexists. split; [reflexivity|]. cbn [q_type q_rep q_num q_dim]. auto.
Qed.

(** ** Constants *)

Definition builtb (d : dimension) : bool := forallb (fun x => existsb (String.eqb (bd_name (e_dim x))) si_system) (exponents d).
Lemma builtb_built : forall d, builtb d = true -> built_on si_system d.
Proof.
  intros d H x Hx. pose proof (proj1 (forallb_forall _ _) H x Hx) as A. apply existsb_exists in A as (n & Hn & A).
  apply String.eqb_eq in A. now rewrite A.
Qed.

Definition direct_ok (f : fty) (es : list (string * Z)) (v : Q) (c : res quantity) : bool :=
  match c with
  | Ok q => dim_goodb (q_dim (q_type q)) && ratio_goodb (u_ratio (q_unit (q_type q))) && bareb (exponents (q_dim (q_type q))) es &&
      closeb f es v (mag (q_dim (q_type q)) (q_unit (q_type q))) (q_num q)
  | _ => false
  end.
Lemma value_of_parts : forall d u r from v q, value_of e d u r from v = Ok q ->
  exists x c n, find_dim e d = Ok x /\ find_unit e u = Ok c /\ unit_of c (snd x) = true /\ q = Quantity (QType (snd x) c r) n.
Proof.
  intros d u r from v q H. unfold value_of, named_type in H. cbn [n_dim n_unit] in H. step H as t T. step T as x X. step T as c C. step T as z Z.
  apply constrained_ok in Z. injection T as <-. unfold q_make in H. step H as y Y. step H as n N. injection H as <-. eauto 9.
Qed.
Lemma direct_measures : forall d u f from v es k, has d u ->
  direct_ok f es k (value_of full d u (RFlt f) from v) = true ->
  exists q, value_of e d u (RFlt f) from v = Ok q /\ measures est f es k q.
Proof.
  intros d u f from v es k H G. rewrite <- (value_of_full d u (RFlt f) from v H) in G.
  destruct (value_of e d u (RFlt f) from v) as [q| | | |] eqn:Q; try discriminate G. exists q. split; [reflexivity|].
  destruct (value_of_parts _ _ _ _ _ _ Q) as (x & c & n & X & C & O & ->). unfold direct_ok in G. cbn [q_type q_dim q_unit q_num] in G.
  apply andb_true_iff in G as [G G4]. apply andb_true_iff in G as [G G3]. apply andb_true_iff in G as [G1 G2].
  apply (measures_by est f es k _ (mag (snd x) c)); cbn [q_type q_rep q_dim q_num]; auto. now apply mag_sized.
Qed.

Definition product_ok (over : bool) (f : fty) (es : list (string * Z)) (v k : Q) (a b : res quantity) : bool :=
  match a, b with
  | Ok a, Ok b =>
      let dx := q_dim (q_type a) in let dy := q_dim (q_type b) in
      match dims_of over empty_world dx dy, n_op (if over then OpDiv else OpMul) (RFlt f) (RFlt f) (q_num a) (q_num b) with
      | Ok d0, Ok n => builtb dx && builtb dy && normalb (exponents d0) && bareb (exponents d0) es && closeb f es v k n &&
          forallb (fun d => good_at k d (chain over dx (q_unit (q_type a)) dy (q_unit (q_type b)) d)) (candidates d0)
      | _, _ => false
      end
  | _, _ => false
  end.
Lemma product_measures : forall over d1 u1 d2 u2 f from1 v1 from2 v2 es v k, has d1 u1 -> has d2 u2 ->
  product_ok over f es v k (value_of full d1 u1 (RFlt f) from1 v1) (value_of full d2 u2 (RFlt f) from2 v2) = true ->
  exists q, (a <- value_of e d1 u1 (RFlt f) from1 v1; b <- value_of e d2 u2 (RFlt f) from2 v2; product_of over (en_world e) a b) = Ok q /\
    measures est f es v q.
Proof.
  intros over d1 u1 d2 u2 f from1 v1 from2 v2 es v k H1 H2 G.
  rewrite <- (value_of_full d1 u1 (RFlt f) from1 v1 H1), <- (value_of_full d2 u2 (RFlt f) from2 v2 H2) in G.
  destruct (value_of e d1 u1 (RFlt f) from1 v1) as [a| | | |] eqn:A; try discriminate G.
  destruct (value_of e d2 u2 (RFlt f) from2 v2) as [b| | | |] eqn:B; try discriminate G. cbn [bind].
  destruct (value_of_parts _ _ _ _ _ _ A) as (x & c & n & X & C & O & ->). destruct (value_of_parts _ _ _ _ _ _ B) as (y & c' & n' & Y & C' & O' & ->).
  unfold product_ok in G. cbn [q_type q_dim q_unit q_num] in G. cbv zeta in G.
  destruct (dims_of over empty_world (snd x) (snd y)) as [d0| | | |] eqn:D0; try discriminate G.
  destruct (n_op (if over then OpDiv else OpMul) (RFlt f) (RFlt f) n n') as [m| | | |] eqn:M; try discriminate G.
  apply andb_true_iff in G as [G G6]. apply andb_true_iff in G as [G G5]. apply andb_true_iff in G as [G G4].
  apply andb_true_iff in G as [G G3]. apply andb_true_iff in G as [G1 G2]. apply builtb_built in G1, G2.
  apply find_dim_in in X, Y. destruct x as [ox dx]. destruct y as [oy dy]. cbn [snd] in *.
  destruct (product_found over ox oy dx dy c c' (RFlt f) (RFlt f) n n' d0 m k X Y G1 G2 D0 G3 G6 M) as (q & Q & R & N & Ex & S).
  exists q. split; [exact Q|]. apply (measures_by est f es v q k).
  - rewrite R. now destruct f.
  - now rewrite Ex.
  - exact S.
  - now rewrite N.
Qed.

(** A number divided by a quantity. *)
Definition inverse_ok (f : fty) (es : list (string * Z)) (v k : Q) (x : number) (b : res quantity) : bool :=
  match b with
  | Ok b =>
      match dim_invert empty_world (q_dim (q_type b)), rinv (u_ratio (q_unit (q_type b))), n_op OpDiv (RFlt f) (RFlt f) x (q_num b) with
      | Ok d0, Ok y, Ok n => builtb (q_dim (q_type b)) && bareb (exponents d0) es && closeb f es v k n &&
          forallb (fun d => good_at k d (Ok y)) (candidates d0)
      | _, _, _ => false
      end
  | _ => false
  end.
Lemma inverse_measures : forall d2 u2 f x from2 v2 es v k, has d2 u2 ->
  inverse_ok f es v k x (value_of full d2 u2 (RFlt f) from2 v2) = true ->
  exists q, (b <- value_of e d2 u2 (RFlt f) from2 v2; value_div_q (en_world e) (RFlt f) x b) = Ok q /\ measures est f es v q.
Proof.
  intros d2 u2 f x from2 v2 es v k H2 G. rewrite <- (value_of_full d2 u2 (RFlt f) from2 v2 H2) in G.
  destruct (value_of e d2 u2 (RFlt f) from2 v2) as [b| | | |] eqn:B; try discriminate G. cbn [bind].
  destruct (value_of_parts _ _ _ _ _ _ B) as (y & c & n & Y & C & O & ->). unfold inverse_ok in G. cbn [q_type q_dim q_unit q_num] in G.
  destruct (dim_invert empty_world (snd y)) as [d0| | | |] eqn:D0; try discriminate G.
  destruct (rinv (u_ratio c)) as [r| | | |] eqn:R; try discriminate G.
  destruct (n_op OpDiv (RFlt f) (RFlt f) x n) as [m| | | |] eqn:M; try discriminate G.
  apply andb_true_iff in G as [G G6]. apply andb_true_iff in G as [G G5]. apply andb_true_iff in G as [G1 G2]. apply builtb_built in G1.
  apply find_dim_in in Y. destruct y as [oy dy]. cbn [snd] in *.
  destruct (program_ndim est mode prog e I E _ _ _ Y G1) as [Ny _].
  destruct (dim_invert_ok U (en_world e) dy world_consistent Ny) as (d & Hd & N & K & V).
  destruct (dim_invert_ok U empty_world dy empty_consistent Ny) as (d' & Hd' & N0 & K0 & V0). rewrite D0 in Hd'. injection Hd' as <-.
  assert (X : exponents d = exponents d0).
  { apply (normal_unique U si_symbols); try apply N; try apply N0. intros b _. specialize (V b). specialize (V0 b). unfold dim_expo in V, V0. rewrite V, V0. reflexivity. }
  pose proof (canonical_candidate _ _ K K0 X) as Hc.
  pose proof (proj1 (forallb_forall _ _) G6 d Hc) as Gd. cbv beta in Gd.
  destruct (unit_found d r k Gd) as (u & Hu & Ou & Su).
  unfold value_div_q. cbn [q_type q_dim q_unit q_rep q_num].
  assert (A : arith_rep (RFlt f) (RFlt f) = RFlt f) by (now destruct f). rewrite A.
  assert (Sc : safe_convertible (RFlt f) (RFlt f) = true) by reflexivity. rewrite Sc. cbn [constrained bind].
  rewrite Hd. cbn [bind]. rewrite R. cbn [bind]. rewrite Hu. cbn [bind]. rewrite M. cbn [bind].
  eexists. split; [reflexivity|]. apply (measures_by est f es v _ k); cbn [q_type q_rep q_dim q_num]; auto. now rewrite X.
Qed.
End Program.

(** ** Computation *)

Definition formats := [F32; F64; F80].
Lemma all_formats : forall f, In f formats.
Proof. intros []; cbn; auto. Qed.

Definition electric := [("si::dim_electric_current", 1); ("si::dim_time", 1)].
Definition action := [("si::dim_length", 2); ("si::dim_mass", 1); ("si::dim_time", -1)].
Definition capacity := [("si::dim_length", 2); ("si::dim_mass", 1); ("si::dim_time", -2); ("si::dim_thermodynamic_temperature", -1)].
Definition reduced_value : Q := (6582119569 # 10 ^ 19) * (1602176634 # 10 ^ 19).

Definition computed (f : fty) : bool :=
  product_ok false f action (662607015 # 10 ^ 42) 1000
    (value_of full "si::dim_energy" "si::joule" (RFlt f) (RFlt F64) (decimal 662607015 (-42)))
    (value_of full "si::dim_time" "si::second" (RFlt f) (RInt I32) (NInt 1)) &&
  product_ok false f action reduced_value (801088317 # 5000000000000000)
    (value_of full "si::dim_energy" "si::gigaelectronvolt" (RFlt f) (RFlt F64) (decimal 6582119569 (-19)))
    (value_of full "si::dim_time" "si::second" (RFlt f) (RInt I32) (NInt 1)) &&
  product_ok true f capacity (1380649 # 10 ^ 29) 1000
    (value_of full "si::dim_energy" "si::joule" (RFlt f) (RFlt F64) (decimal 1380649 (-29)))
    (value_of full "si::dim_thermodynamic_temperature" "si::kelvin" (RFlt f) (RInt I32) (NInt 1)) &&
  match n_convert (RFlt f) (decimal 602214076 15) with
  | Ok x => inverse_ok f [("si::dim_amount_of_substance", -1)] (inject_Z (602214076 * 10 ^ 15)) 1 x
      (value_of full "si::dim_amount_of_substance" "si::mole" (RFlt f) (RInt I32) (NInt 1))
  | _ => false
  end &&
  direct_ok f electric (1602176634 # 10 ^ 28) (elementary_charge full (RFlt f)) &&
  direct_ok f [("si::dim_length", 1); ("si::dim_time", -1)] (inject_Z 299792458) (speed_of_light full (RFlt f)) &&
  direct_ok f [("si::dim_time", -1)] (inject_Z 9192631770) (hyperfine_structure_transition_frequency full (RFlt f)) &&
  direct_ok f [("si::dim_length", 1); ("si::dim_time", -2)] (980665 # 10 ^ 5) (standard_gravity full (RFlt f)) &&
  direct_ok f [("natural::dim_length", 1); ("natural::dim_time", -1)] 1 (natural_speed_of_light full (RFlt f)).
Lemma constants_computed : forall f, computed f = true.
Proof. intros []; vm_compute; reflexivity. Qed.
