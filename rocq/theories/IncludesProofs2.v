(** Proofs about programs of the catalogue: a declaration whose names are declared compiles,
    and the outcome of a program is determined by its set of declarations. *)

From Coq Require Import ZArith Lia String List Bool Permutation.
From Verif Require Import Outcome Root Ratio Unit Downcast Dim DimOp DerivedUnit UnitDecl UnitText System Catalogue Includes SpecIncludes
  SystemProofs EquivProofs CatalogueProofs IncludesProofs.
Import ListNotations.
Local Open Scope string_scope.
Local Open Scope res_scope.
Local Open Scope list_scope.

Lemma catalogue_is : catalogue = flat_map h_entries headers.
Proof. reflexivity. Qed.
#[local] Opaque full catalogue headers isq_templates.

(** ** The names a declaration uses *)

Inductive kind := KPrefix | KUnit | KDim.
Definition entry_kind (x : entry) : kind :=
  match x with
  | EPrefix _ _ _ _ _ _ => KPrefix
  | EBase _ _ _ | EBaseOf _ _ _ | EDim _ _ _ | EDimOf _ _ _ _ => KDim
  | _ => KUnit
  end.
Definition uses (x : entry) : list (kind * string) :=
  match x with
  | EPrefix _ _ _ _ _ _ | EUnit _ | ENamed _ _ _ => []
  | EScaled _ _ _ _ _ _ u => [(KUnit, u)]
  | EPrefixed _ p u => [(KPrefix, p); (KUnit, u)]
  | EDerived _ d us | ENamedDerived _ d _ _ us => (KDim, d) :: map (pair KUnit) us
  | EAlias _ u _ _ => [(KUnit, u)]
  | EPrefixedAlias _ u p au => [(KUnit, u); (KPrefix, p); (KUnit, au)]
  | EBase _ _ u | EBaseOf _ _ u => [(KUnit, u)]
  | EDim _ u r => (KUnit, u) :: map (fun y => (KDim, fst y)) r
  | EDimOf _ _ u args => (KUnit, u) :: map (pair KDim) args
  end.
Definition has (e : env) (y : kind * string) : Prop :=
  match fst y with
  | KPrefix => exists p, find_prefix e (snd y) = Ok p
  | KUnit => exists u, find_unit e (snd y) = Ok u
  | KDim => exists d, find_dim e (snd y) = Ok d
  end.
Definition resolved (e : env) (x : entry) : Prop := forall y, In y (uses x) -> has e y.

Lemma map_res_total : forall (A B : Type) (f g : A -> res B) l r,
  (forall x, In x l -> exists y, g x = Ok y) -> (forall x y z, f x = Ok y -> g x = Ok z -> y = z) ->
  map_res f l = Ok r -> map_res g l = Ok r.
Proof.
  intros A B f g l; induction l as [|x l IH]; cbn [map_res]; intros r T S E; auto.
  step E as y Y. step E as ys Ys. destruct (T x (or_introl eq_refl)) as (z & Z). rewrite Z. cbn [bind].
  rewrite (IH ys); auto. - cbn [bind]. rewrite <- (S x y z Y Z). exact E.
  - intros w W. apply T. now right.
Qed.

(** The same thing in an environment that knows the names used. *)
Lemma yields_resolved : forall est ts a b c x t, agree a c -> agree b c -> resolved b x ->
  yields est ts a x t -> yields est ts b x t.
Proof.
  intros est ts a b c x t A B R Y. destruct (agree_same _ _ _ A B) as (P1 & P2 & P3).
  assert (RU : forall n, In (KUnit, n) (uses x) -> forall u, find_unit a n = Ok u -> find_unit b n = Ok u).
  { intros n I u U. destruct (R _ I) as (v & V). cbn [snd] in V. now rewrite V, (P2 _ _ _ U V). }
  assert (RP : forall n, In (KPrefix, n) (uses x) -> forall u, find_prefix a n = Ok u -> find_prefix b n = Ok u).
  { intros n I u U. destruct (R _ I) as (v & V). cbn [snd] in V. now rewrite V, (P1 _ _ _ U V). }
  assert (RD : forall n, In (KDim, n) (uses x) -> forall u, find_dim a n = Ok u -> find_dim b n = Ok u).
  { intros n I u U. destruct (R _ I) as (v & V). cbn [snd] in V. now rewrite V, (P3 _ _ _ U V). }
  assert (RUs : forall us l, (forall n, In n us -> In (KUnit, n) (uses x)) ->
    map_res (unit_lookup (en_units a)) us = Ok l -> map_res (unit_lookup (en_units b)) us = Ok l).
  { intros us l I. apply map_res_total; [intros n In; exact (R _ (I n In))|exact P2]. }
  destruct x; cbn [yields] in Y |- *; cbn [uses] in *.
  - exact Y.
  - destruct Y as (ud & v & E & U & ->). exists ud, v. split; [exact E|]. inversion E; subst ud. split; [exact U|reflexivity].
  - destruct Y as (ud & v & E & U & ->). exists ud, v. split; [exact E|]. inversion E; subst ud. split; [exact U|reflexivity].
  - destruct Y as (ud & v & E & U & ->). cbn [unit_entry] in E |- *. exists ud, v. split; [exact E|]. split; [|reflexivity].
    step E as r Er. inversion E; subst ud. cbn [unit_elaborate] in U |- *. step U as w W.
    rewrite (RU u (or_introl eq_refl) w W : unit_lookup _ _ = _). exact U.
  - destruct Y as (ud & v & E & U & ->). cbn [unit_entry] in E |- *. exists ud, v.
    step E as q Q. rewrite (RP p (or_introl eq_refl) q Q). cbn [bind]. split; [exact E|]. split; [|reflexivity].
    inversion E; subst ud. cbn [unit_elaborate] in U |- *. step U as w W.
    rewrite (RU u (or_intror (or_introl eq_refl)) w W : unit_lookup _ _ = _). exact U.
  - destruct Y as (ud & v & E & U & ->). cbn [unit_entry] in E |- *. exists ud, v.
    step E as q Q. rewrite (RD dim (or_introl eq_refl) q Q). cbn [bind]. split; [exact E|]. split; [|reflexivity].
    inversion E; subst ud. cbn [unit_elaborate] in U |- *. step U as w W. rewrite (RUs us w); auto.
    intros n In. right. now apply in_map.
  - destruct Y as (ud & v & E & U & ->). cbn [unit_entry] in E |- *. exists ud, v.
    step E as q Q. rewrite (RD dim (or_introl eq_refl) q Q). cbn [bind]. split; [exact E|]. split; [|reflexivity].
    inversion E; subst ud. cbn [unit_elaborate] in U |- *. step U as w W. rewrite (RUs us w); auto.
    intros n In. right. now apply in_map.
  - destruct Y as (ud & v & E & U & ->). cbn [unit_entry] in E |- *. exists ud, v. split; [exact E|]. split; [|reflexivity].
    inversion E; subst ud. cbn [unit_elaborate] in U |- *. step U as w W.
    rewrite (RU u (or_introl eq_refl) w W : unit_lookup _ _ = _). exact U.
  - destruct Y as (ud & v & E & U & ->). cbn [unit_entry] in E |- *. exists ud, v.
    step E as q Q. rewrite (RP p (or_intror (or_introl eq_refl)) q Q). cbn [bind]. split; [exact E|]. split; [|reflexivity].
    inversion E; subst ud. cbn [unit_elaborate] in U |- *. step U as w W. step U as w' W'.
    rewrite (RU u (or_introl eq_refl) w W : unit_lookup _ _ = _).
    rewrite (RU au (or_intror (or_intror (or_introl eq_refl))) w' W' : unit_lookup _ _ = _). exact U.
  - destruct Y as (cu & b' & F & M & ->). exists cu, b'. split; [exact (RU u (or_introl eq_refl) _ F)|auto].
  - destruct Y as (s & cu & b' & S & F & M & ->). exists s, cu, b'. split; [exact S|]. split; [exact (RU u (or_introl eq_refl) _ F)|auto].
  - destruct Y as (rec & cu & d & M & F & D & ->). exists rec, cu, d.
    split; [|split; [exact (RU u (or_introl eq_refl) _ F)|auto]].
    eapply map_res_total; [| |exact M].
    + intros [n z] In. destruct (R (KDim, n)) as (v & V).
      { right. apply in_map_iff. exists (n, z). auto. }
      cbn [snd fst] in V |- *. rewrite V. cbn [bind]. eauto.
    + cbn beta. intros [n z] y1 y2 Y1 Y2. cbn [fst] in *. step Y1 as d1 D1. step Y2 as d2 D2. rewrite (P3 _ _ _ D1 D2) in Y1. congruence.
  - destruct Y as (ds & r & rec & cu & d & M & S & Su & F & D & ->). exists ds, r, rec, cu, d.
    split; [|split; [exact S|split; [exact Su|split; [exact (RU u (or_introl eq_refl) _ F)|auto]]]].
    eapply map_res_total; [| |exact M]; [|exact P3].
    intros n In. apply (R (KDim, n)). right. now apply in_map.
Qed.

(** ** What a declaration adds and registers *)

Definition is_alias (x : entry) : bool := match x with EAlias _ _ _ _ | EPrefixedAlias _ _ _ _ => true | _ => false end.
Definition derived (d : dimension) : bool := match d with DDerived _ _ _ _ => true | _ => false end.

(** The thing, looked up in the whole catalogue. *)
Definition meaning (x : entry) : option thing :=
  match entry_kind x with
  | KPrefix => match find_prefix full (entry_name x) with Ok p => Some (TPrefix p) | _ => None end
  | KUnit => match find_unit full (entry_name x) with Ok u => Some (TUnit u) | _ => None end
  | KDim => match find_dim full (entry_name x) with Ok (o, d) => Some (TDim o d) | _ => None end
  end.

Definition prefixes_of (x : entry) : list prefix := match meaning x with Some (TPrefix p) => [p] | _ => [] end.
Definition units_of (x : entry) : list cunit := match meaning x with Some (TUnit u) => [u] | _ => [] end.
Definition dims_of (x : entry) : list (option string * dimension) := match meaning x with Some (TDim o d) => [(o, d)] | _ => [] end.
Definition prefix_guides (x : entry) : list (string * ratio * prefix) := map (fun p => (prefix_key p, p)) (prefixes_of x).
Definition unit_guides (x : entry) : list ((ratio * string) * cunit) :=
  if is_alias x then [] else map (fun u => ((u_ratio u, u_ref u), u)) (units_of x).
Definition dim_guides (x : entry) : list (list bexp * dimension) :=
  map (fun d => (exponents d, d)) (filter derived (map snd (dims_of x))).

Definition enter (mode : downcast_mode) (e : env) (x : entry) : res env :=
  g <- declare_all prefix_key_eq_dec On (prefix_guides x) (en_guides e);
  a <- declare_all ukey_eq_dec mode (unit_guides x) (w_units (en_world e));
  b <- declare_all bexps_eq_dec mode (dim_guides x) (w_dims (en_world e));
  Ok (Env (prefixes_of x ++ en_prefixes e) (units_of x ++ en_units e) (dims_of x ++ en_dims e) g (World b a)).

Lemma some_inj : forall (A : Type) (a b : A), Some a = Some b -> a = b.
Proof. congruence. Qed.
Lemma catalogue_means : forall est x, In x catalogue ->
  exists t m, meaning x = Some t /\ agree m full /\ yields est isq_templates m x t /\ finds full t /\ thing_name t = Some (entry_name x).
Proof.
  intros est x H. destruct (elaborate_realises _ _ _ _ _ _ (full_elaborates est) x H) as (m & t & A & Y & F).
  assert (N : thing_name t = Some (entry_name x)).
  { destruct x; cbn [yields] in Y; cbn [entry_name];
      try (destruct Y as (ud & v & E & U & ->); cbn [thing_name]; rewrite (unit_elaborate_name _ _ _ _ U), (unit_entry_name _ _ _ E); reflexivity).
    - destruct Y as (r & p & R & P & ->). cbn [thing_name]. unfold mk_prefix in P. unbind. reflexivity.
    - destruct Y as (cu & b & C & B & ->). unfold mk_base_dimension in B. unbind. reflexivity.
    - destruct Y as (s & cu & b & S & C & B & ->). unfold mk_base_dimension in B. unbind. reflexivity.
    - destruct Y as (rec & cu & d & R & C & B & ->). unfold mk_derived_dimension in B. unbind. reflexivity.
    - destruct Y as (ds & r & rec & cu & d & R & S & Su & C & B & ->). unfold mk_derived_dimension in B. unbind. reflexivity. }
  exists t, m. split; [|auto].
  unfold meaning. destruct x; cbn [yields] in Y; cbn [entry_kind];
    try (destruct Y as (ud & v & E & U & ->); cbn [finds] in F; cbn [thing_name] in N; destruct F as (nm0 & Nn & F);
         rewrite N in Nn; apply some_inj in Nn; subst nm0; rewrite F; reflexivity).
  - destruct Y as (r & p & R & P & ->). cbn [finds thing_name] in F, N. apply some_inj in N. cbn [entry_name] in N |- *. rewrite <- N, F. reflexivity.
  - destruct Y as (cu & b & C & B & ->). cbn [finds thing_name] in F, N. apply some_inj in N. cbn [entry_name] in N |- *. rewrite <- N, F. reflexivity.
  - destruct Y as (s & cu & b & S & C & B & ->). cbn [finds thing_name] in F, N. apply some_inj in N. cbn [entry_name] in N |- *. rewrite <- N, F. reflexivity.
  - destruct Y as (rec & cu & d & R & C & B & ->). cbn [finds thing_name] in F, N. apply some_inj in N. cbn [entry_name] in N |- *. rewrite <- N, F. reflexivity.
  - destruct Y as (ds & r & rec & cu & d & R & S & Su & C & B & ->). cbn [finds thing_name] in F, N. apply some_inj in N. cbn [entry_name] in N |- *. rewrite <- N, F. reflexivity.
Qed.

Lemma declare_all_one : forall (K T : Type) (keq : forall a b : K, {a = b} + {a <> b}) mode k (t : T) g,
  declare_all keq mode [(k, t)] g = declare keq mode k t g.
Proof. intros. cbn [declare_all]. destruct (declare keq mode k t g); reflexivity. Qed.

Lemma world_eta : forall w, World (w_dims w) (w_units w) = w.
Proof. intros []; reflexivity. Qed.

Lemma alias_registers : forall e x ud, unit_entry e x = Ok (Some ud) -> is_alias x = negb (registers ud).
Proof.
  intros e x ud H. destruct x; cbn [unit_entry] in H; try discriminate H;
    repeat (let v := fresh in let V := fresh in step H as v V); inversion H; reflexivity.
Qed.

(** One declaration of the catalogue, its names declared. *)
Lemma elaborate_enter : forall est mode e x, agree e full -> In x catalogue -> resolved e x -> taken e (entry_name x) = false ->
  elaborate_entry est mode isq_templates e x = enter mode e x.
Proof.
  intros est mode e x A I R T. destruct (catalogue_means est x I) as (t & m & Mn & Am & Ym & _ & Nt).
  pose proof (yields_resolved _ _ _ _ _ _ _ Am A R Ym) as Y. clear Ym Am m R I A.
  unfold elaborate_entry. rewrite T. cbn [negb constrained bind].
  assert (U : forall ud u, is_alias x = negb (registers ud) -> unit_elaborate est (en_units e) ud = Ok u -> decl_name ud = entry_name x -> t = TUnit u ->
    declare_unit_entry est mode e ud = enter mode e x).
  { intros ud u Al El Dn ->. unfold declare_unit_entry, unit_declare. rewrite Dn.
    assert (Ex : existsb (has_name (entry_name x)) (en_units e) = false).
    { unfold taken in T. apply orb_false_iff in T as [T _]. apply orb_false_iff in T as [_ T]. exact T. }
    rewrite Ex. cbn [negb constrained bind]. rewrite El. cbn [bind].
    unfold enter, prefix_guides, dim_guides, prefixes_of, dims_of, unit_guides, units_of. rewrite Mn, Al.
    cbn [map filter declare_all bind app]. destruct (registers ud); cbn [negb map].
    - rewrite declare_all_one. unfold declare_unit. destruct (declare ukey_eq_dec mode _ u (w_units (en_world e))); reflexivity.
    - cbn [declare_all bind]. now rewrite world_eta. }
  assert (D : forall o d n cu rec, t = TDim o d -> mk_derived_dimension n cu rec = Ok d ->
    (w <- declare_dimension mode n cu rec (en_world e); Ok (Env (en_prefixes e) (en_units e) ((o, d) :: en_dims e) (en_guides e) w)) = enter mode e x).
  { intros o d n cu rec -> Md. unfold declare_dimension. rewrite Md. cbn [bind].
    assert (De : derived d = true) by (unfold mk_derived_dimension in Md; unbind; reflexivity).
    unfold enter, prefix_guides, unit_guides, dim_guides, prefixes_of, dims_of, units_of. rewrite Mn.
    cbn [map snd filter]. rewrite De. cbn [map declare_all bind app].
    destruct (is_alias x); cbn [declare_all bind];
    (destruct (declare bexps_eq_dec mode (exponents d) d (w_dims (en_world e))); reflexivity). }
  assert (B : forall o b, t = TDim o (DBase b) ->
    Ok (Env (en_prefixes e) (en_units e) ((o, DBase b) :: en_dims e) (en_guides e) (en_world e)) = enter mode e x).
  { intros o b ->. unfold enter, prefix_guides, unit_guides, dim_guides, prefixes_of, dims_of, units_of. rewrite Mn.
    cbn [map snd filter derived]. destruct (is_alias x); cbn [map declare_all bind app]; now rewrite world_eta. }
  destruct x; cbn [yields] in Y;
    try (destruct Y as (ud & v & E & El & ->); rewrite E; cbn [bind]; apply (U ud v);
         [exact (alias_registers _ _ _ E)|exact El|exact (unit_entry_name _ _ _ E)|reflexivity]).
  - destruct Y as (r & p & Rr & P & ->). rewrite Rr. cbn [bind]. rewrite P. cbn [bind].
    unfold enter, prefix_guides, unit_guides, dim_guides, prefixes_of, dims_of, units_of. rewrite Mn. cbn [is_alias map filter].
    rewrite declare_all_one. destruct (declare prefix_key_eq_dec On (prefix_key p) p (en_guides e)); cbn [bind declare_all]; try reflexivity.
    now rewrite world_eta.
  - destruct Y as (cu & b & C & M & ->). unfold declare_base_entry. rewrite C. cbn [bind]. rewrite M. cbn [bind]. now apply B.
  - destruct Y as (s & cu & b & S & C & M & ->). rewrite S. cbn [bind]. unfold declare_base_entry. rewrite C. cbn [bind]. rewrite M. cbn [bind]. now apply B.
  - destruct Y as (rec & cu & d & Re & C & M & ->). rewrite Re. cbn [bind]. unfold declare_dim_entry. rewrite C. cbn [bind]. rewrite M. cbn [bind]. now apply D.
  - destruct Y as (ds & r & rec & cu & d & Re & S & Su & C & M & ->). rewrite Re. cbn [bind]. rewrite S. cbn [bind]. rewrite Su. cbn [bind].
    unfold declare_dim_entry. rewrite C. cbn [bind]. rewrite M. cbn [bind]. now apply D.
Qed.

(** ** A whole program *)

Lemma declare_all_app : forall (K T : Type) (keq : forall a b : K, {a = b} + {a <> b}) mode (l l' : list (K * T)) g,
  declare_all keq mode (l ++ l') g = (g' <- declare_all keq mode l g; declare_all keq mode l' g').
Proof.
  intros K T keq mode l l'. induction l as [|[k t] l IH]; intros g; cbn [app declare_all bind]; auto.
  destruct (declare keq mode k t g); cbn [bind]; auto.
Qed.
Lemma declare_all_cases : forall (K T : Type) (keq : forall a b : K, {a = b} + {a <> b}) mode (l : list (K * T)) g,
  (exists g', declare_all keq mode l g = Ok g') \/ declare_all keq mode l g = IllFormed.
Proof.
  intros K T keq mode l. induction l as [|[k t] l IH]; intros g; cbn [declare_all]; [eauto|].
  unfold declare. destruct mode; [|destruct (has_guide keq g k)|destruct (has_guide keq g k)]; cbn [bind]; auto.
Qed.

Definition kname (x : entry) : kind * string := (entry_kind x, entry_name x).
Fixpoint ready (done l : list entry) : Prop :=
  match l with
  | [] => True
  | x :: r => incl (uses x) (map kname done) /\ ready (x :: done) r
  end.
Definition outcome (mode : downcast_mode) (e : env) (l : list entry) : res env :=
  g <- declare_all prefix_key_eq_dec On (flat_map prefix_guides l) (en_guides e);
  a <- declare_all ukey_eq_dec mode (flat_map unit_guides l) (w_units (en_world e));
  b <- declare_all bexps_eq_dec mode (flat_map dim_guides l) (w_dims (en_world e));
  Ok (Env (rev (flat_map prefixes_of l) ++ en_prefixes e) (rev (flat_map units_of l) ++ en_units e)
          (rev (flat_map dims_of l) ++ en_dims e) g (World b a)).

Lemma rev_prefixes : forall x, rev (prefixes_of x) = prefixes_of x.
Proof. intros x. unfold prefixes_of. destruct (meaning x) as [[]|]; reflexivity. Qed.
Lemma rev_units : forall x, rev (units_of x) = units_of x.
Proof. intros x. unfold units_of. destruct (meaning x) as [[]|]; reflexivity. Qed.
Lemma rev_dims : forall x, rev (dims_of x) = dims_of x.
Proof. intros x. unfold dims_of. destruct (meaning x) as [[]|]; reflexivity. Qed.

Lemma enter_outcome : forall mode e x l, (e' <- enter mode e x; outcome mode e' l) = outcome mode e (x :: l).
Proof.
  intros mode e x l. unfold enter, outcome. cbn [flat_map]. rewrite !declare_all_app, !rev_app_distr, !rev_prefixes, !rev_units, !rev_dims.
  destruct (declare_all prefix_key_eq_dec On (prefix_guides x) (en_guides e)) as [g| | | |]; cbn [bind]; auto.
  destruct (declare_all_cases _ _ prefix_key_eq_dec On (flat_map prefix_guides l) g) as [[g' G]|G];
    destruct (declare_all_cases _ _ ukey_eq_dec mode (unit_guides x) (w_units (en_world e))) as [[a A]|A]; rewrite A; cbn [bind]; rewrite ?G; cbn [bind]; auto.
  - destruct (declare_all_cases _ _ ukey_eq_dec mode (flat_map unit_guides l) a) as [[a' A']|A'];
    destruct (declare_all_cases _ _ bexps_eq_dec mode (dim_guides x) (w_dims (en_world e))) as [[b B]|B]; rewrite B; cbn [bind en_guides en_world w_units w_dims en_prefixes en_units en_dims];
      rewrite ?G; cbn [bind]; rewrite ?A'; cbn [bind]; auto.
    destruct (declare_all bexps_eq_dec mode (flat_map dim_guides l) b); cbn [bind]; auto. now rewrite <- !app_assoc.
  - destruct (declare_all_cases _ _ bexps_eq_dec mode (dim_guides x) (w_dims (en_world e))) as [[b B]|B]; rewrite B; cbn [bind en_guides]; auto.
    now rewrite G.
Qed.

Lemma thing_kind : forall x t, meaning x = Some t ->
  match t with TPrefix _ => entry_kind x = KPrefix | TUnit _ => entry_kind x = KUnit | TDim _ _ => entry_kind x = KDim end.
Proof.
  intros x t H. unfold meaning in H. destruct (entry_kind x).
  - destruct (find_prefix full _); inversion H; auto.
  - destruct (find_unit full _); inversion H; auto.
  - destruct (find_dim full _) as [[o d]| | | |]; inversion H; auto.
Qed.

Lemma taken_adds : forall e e' t n k, adds e e' t -> thing_name t = Some n -> taken e' k = true -> k = n \/ taken e k = true.
Proof.
  intros e e' t n k A N T. unfold taken in T |- *. destruct t as [p|u|o d]; cbn [adds thing_name] in A, N; destruct A as (A1 & A2 & A3);
    rewrite A1, A2, A3 in T; cbn [existsb snd] in T.
  - injection N as <-. destruct (String.eqb k (p_name p)) eqn:E; [left; now apply String.eqb_eq|now right].
  - unfold has_name at 1 in T. rewrite N in T. destruct (String.eqb k n) eqn:E; [left; now apply String.eqb_eq|now right].
  - apply some_inj in N. subst n. destruct (String.eqb k (dim_name d)) eqn:E; [left; now apply String.eqb_eq|now right].
Qed.
Lemma finds_has : forall e x t, finds e t -> thing_name t = Some (entry_name x) -> meaning x = Some t -> has e (kname x).
Proof.
  intros e x t F N M. pose proof (thing_kind _ _ M) as K. unfold has, kname. cbn [fst snd].
  destruct t as [p|u|o d]; cbn [finds thing_name] in F, N; rewrite K.
  - apply some_inj in N. rewrite <- N. eauto.
  - destruct F as (n & E & F). rewrite N in E. apply some_inj in E. rewrite E. eauto.
  - apply some_inj in N. rewrite <- N. eauto.
Qed.
Lemma agree_has : forall a b y, agree a b -> has a y -> has b y.
Proof.
  intros a b y (A1 & A2 & A3) H. unfold has in *. destruct (fst y); destruct H as (v & V); eauto.
Qed.

Lemma elaborate_outcome : forall est mode l done e, agree e full -> incl l catalogue -> NoDup (map entry_name (done ++ l)) ->
  (forall n, taken e n = true -> In n (map entry_name done)) -> (forall y, In y (map kname done) -> has e y) -> ready done l ->
  elaborate est mode isq_templates e l = outcome mode e l.
Proof.
  intros est mode l. induction l as [|x l IH]; intros done e A I ND Tk Hs R.
  - unfold outcome. cbn [elaborate flat_map declare_all bind rev app]. rewrite world_eta. destruct e; reflexivity.
  - rewrite <- enter_outcome. cbn [elaborate].
    assert (Ix : In x catalogue) by (apply I; now left).
    assert (Nx : ~ In (entry_name x) (map entry_name done)).
    { rewrite map_app in ND. cbn [map] in ND. apply NoDup_remove_2 in ND. intros X. apply ND, in_or_app. now left. }
    assert (T : taken e (entry_name x) = false).
    { destruct (taken e (entry_name x)) eqn:E; auto. exfalso. exact (Nx (Tk _ E)). }
    destruct R as [Rx R].
    assert (Rs : resolved e x) by (intros y Y; apply Hs, Rx, Y).
    pose proof (elaborate_enter est mode e x A Ix Rs T) as E. rewrite <- E.
    destruct (elaborate_entry est mode isq_templates e x) as [e1| | | |] eqn:E1; cbn [bind]; auto.
    destruct (elaborate_yields _ _ _ _ _ _ E1) as (_ & t & Y & Ad & Nt).
    destruct (catalogue_means est x Ix) as (t' & m & Mn & Am & Ym & Ft & _).
    pose proof (yields_same _ _ _ _ _ _ _ _ A Am Y Ym) as Et. subst t'.
    apply (IH (x :: done)).
    + eapply adds_agree_into; eauto.
    + intros z Z. apply I. now right.
    + apply (Permutation_NoDup (l := map entry_name (done ++ x :: l))); auto. apply Permutation_map, Permutation_sym, Permutation_middle.
    + intros n Tn. destruct (taken_adds _ _ _ _ _ Ad Nt Tn) as [->|X]; [now left|right; auto].
    + intros y [<-|Y']; [eapply finds_has; eauto; eapply adds_finds; eauto|].
      eapply agree_has; [eapply adds_agree; eauto|auto].
    + exact R.
Qed.

(** ** Headers that include what they use *)

Definition kind_eqb (a b : kind) : bool :=
  match a, b with KPrefix, KPrefix | KUnit, KUnit | KDim, KDim => true | _, _ => false end.
Fixpoint knows (y : kind * string) (l : list (kind * string)) : bool :=
  match l with
  | [] => false
  | z :: r => if kind_eqb (fst y) (fst z) then (if String.eqb (snd y) (snd z) then true else knows y r) else knows y r
  end.
Fixpoint readyb (done : list (kind * string)) (l : list entry) : bool :=
  match l with
  | [] => true
  | x :: r => forallb (fun y => knows y done) (uses x) && readyb (kname x :: done) r
  end.
Lemma knows_in : forall y l, knows y l = true -> In y l.
Proof.
  intros y l. induction l as [|z l IH]; cbn [knows]; [discriminate|]. destruct y as [k n], z as [k' n']. cbn [fst snd].
  destruct (kind_eqb k k') eqn:E; [|intros; right; auto].
  destruct (String.eqb n n') eqn:F; [|intros; right; auto].
  intros _. left. apply String.eqb_eq in F. destruct k, k'; try discriminate; now subst.
Qed.
Lemma readyb_ready : forall l d done, readyb d l = true -> incl d (map kname done) -> ready done l.
Proof.
  induction l as [|x l IH]; intros d done H I; cbn [ready readyb] in *; auto. apply andb_true_iff in H as [H1 H2].
  rewrite forallb_forall in H1. split; [intros y Y; apply I, knows_in; auto|].
  apply (IH (kname x :: d)); auto. intros y [<-|Y]; [now left|right; auto].
Qed.

(** Every header: the names it uses are declared before, in it or in the headers it includes. *)
Definition self_contained (h : header) : bool :=
  match preprocess [h_path h] with
  | Ok hs => readyb (rev (map kname (flat_map h_entries (removelast hs)))) (h_entries h)
  | _ => false
  end.
Lemma headers_self_contained : forallb self_contained headers = true.
Proof. vm_compute. reflexivity. Qed.

Lemma included_before : forall l h p, ordered (l ++ [h]) -> included [h_path h] p -> p = h_path h \/ In p (map h_path l).
Proof.
  intros l h p Or H. assert (X : In p (map h_path (l ++ [h]))).
  { induction H as [p [<-|[]]|x q H IH Hx Q].
    - rewrite map_app. apply in_or_app. right. now left.
    - apply in_map_iff in IH as (y & E & Y). rewrite (path_unique x y) in Q; auto.
      + exact (ordered_closed _ _ _ Or Y Q).
      + exact (ordered_headers _ Or _ Y). }
  rewrite map_app in X. apply in_app_or in X as [X|[X|[]]]; auto.
Qed.

Lemma in_removelast : forall (A : Type) (l : list A) x, In x (removelast l) -> In x l.
Proof. intros A l x. induction l as [|y l IH]; cbn [removelast]; auto. destruct l; [intros []|]. intros [->|H]; [now left|right; auto]. Qed.

Lemma removelast_snoc : forall (A : Type) (l : list A) x, removelast (l ++ [x]) = l.
Proof. intros. rewrite removelast_app by discriminate. cbn [removelast]. apply app_nil_r. Qed.

Lemma ready_app : forall l l' done, ready done l -> ready (rev l ++ done) l' -> ready done (l ++ l').
Proof.
  induction l as [|x l IH]; intros l' done H H'; cbn [app ready rev] in *; auto. destruct H as [H1 H2]. split; auto.
  apply IH; auto. rewrite <- app_assoc in H'. exact H'.
Qed.
Lemma ready_more : forall l d d', incl (map kname d) (map kname d') -> ready d l -> ready d' l.
Proof.
  induction l as [|x l IH]; intros d d' I H; cbn [ready] in *; auto. destruct H as [H1 H2]. split.
  - intros y Y. apply I, H1, Y.
  - apply (IH (x :: d)); auto. cbn [map]. intros y [<-|Y]; [now left|right; auto].
Qed.

Lemma ordered_ready : forall hs, ordered hs -> ready [] (flat_map h_entries hs).
Proof.
  intros hs Or. induction Or as [|l h Or IH Hh Il Nh]; [exact I|].
  assert (Orh : ordered (l ++ [h])) by (constructor; auto).
  rewrite flat_map_app. cbn [flat_map]. rewrite app_nil_r. apply ready_app; auto. rewrite app_nil_r.
  pose proof (proj1 (forallb_forall _ _) headers_self_contained h Hh) as S. unfold self_contained in S.
  destruct (preprocess_spec [h_path h]) as (hs & P & O & C).
  { intros p [<-|[]]. now apply in_map. }
  rewrite P in S. eapply readyb_ready; [exact S|]. intros y Y. apply in_rev in Y.
  apply in_map_iff in Y as (x & <- & X). apply in_flat_map in X as (k & K & X).
  apply in_map. rewrite <- in_rev. apply in_flat_map. exists k. split; auto.
  pose proof (in_removelast _ _ _ K) as K'.
  assert (Ik : included [h_path h] (h_path k)) by (apply C; now apply in_map).
  destruct (included_before _ _ _ Orh Ik) as [E|E].
  - exfalso. destruct O as [|l' h' O' Hh' Il' Nh']; [destruct K'|]. rewrite removelast_snoc in K.
    assert (h' = h); [|subst h'; apply Nh'; rewrite <- E; now apply in_map].
    (* the last header put out is the one asked for *)
    assert (In (h_path h) (map h_path (l' ++ [h']))) by (apply C, included_directly; now left).
    rewrite map_app in H. apply in_app_or in H as [H|[H|[]]]; [|now apply path_unique].
    assert (Ih' : included [h_path h] (h_path h')) by (apply C; rewrite map_app; apply in_or_app; right; now left).
    exfalso. apply Nh'. clear - Ih' H O' . revert H. intros H.
    induction Ih' as [p [<-|[]]|x q H1 IH1 Hx Q]; auto.
    apply in_map_iff in IH1 as (z & Ez & Z). rewrite (path_unique x z) in Q; auto.
    + exact (ordered_closed _ _ _ O' Z Q).
    + exact (ordered_headers _ O' _ Z).
  - apply in_map_iff in E as (k' & Ek & K2). rewrite (path_unique k k'); auto.
    + exact (ordered_headers _ O _ K').
    + exact (ordered_headers _ Or _ K2).
Qed.

(** ** Names *)

Lemma elaborate_names : forall est mode ts l e e', elaborate est mode ts e l = Ok e' ->
  NoDup (map entry_name l) /\ forall x, In x l -> taken e (entry_name x) = false.
Proof.
  intros est mode ts l. induction l as [|x l IH]; intros e e' H; cbn [elaborate] in H.
  - split; [constructor|intros x []].
  - step H as m M. destruct (elaborate_yields _ _ _ _ _ _ M) as (T & t & _ & A & N). destruct (IH _ _ H) as [ND Tm]. cbn [map].
    assert (Keep : forall n, taken e n = true -> taken m n = true).
    { intros n. unfold taken. destruct t as [p|u|o d]; cbn [adds] in A; destruct A as (A1 & A2 & A3); rewrite A1, A2, A3; cbn [existsb];
        intros X; apply orb_true_iff in X as [X|X]; try (apply orb_true_iff in X as [X|X]); rewrite X, ?orb_true_r; reflexivity. }
    assert (Tx : taken m (entry_name x) = true).
    { unfold taken. destruct t as [p|u|o d]; cbn [adds thing_name] in A, N; destruct A as (A1 & A2 & A3); rewrite A1, A2, A3; cbn [existsb snd].
      - apply some_inj in N. now rewrite N, String.eqb_refl.
      - unfold has_name at 1. rewrite N, String.eqb_refl. cbn [orb]. now rewrite orb_true_r.
      - apply some_inj in N. rewrite N, String.eqb_refl. cbn [orb]. now rewrite !orb_true_r. }
    split.
    + constructor; auto. intros X. apply in_map_iff in X as (y & E & Y). specialize (Tm y Y). rewrite E in Tm. congruence.
    + intros y [<-|Y]; auto. specialize (Tm y Y). destruct (taken e (entry_name y)) eqn:E; auto. apply Keep in E. congruence.
Qed.
Lemma catalogue_names : NoDup (map entry_name catalogue).
Proof. exact (proj1 (elaborate_names _ _ _ _ _ _ (full_elaborates no_estimate))). Qed.

Definition path_in (hs : list header) (h : header) : bool := existsb (String.eqb (h_path h)) (map h_path hs).
Lemma headers_nodup : NoDup headers.
Proof.
  assert (G : forall l seen, paths_fresh seen l = true -> NoDup l).
  { induction l as [|h l IH]; intros seen H; constructor.
    - cbn [paths_fresh] in H. apply andb_true_iff in H as [_ H]. intros X. apply (fresh_find _ _ _ H) in X as [X _]. apply X. now left.
    - cbn [paths_fresh] in H. apply andb_true_iff in H as [_ H]. eauto. }
  exact (G _ _ headers_ordered).
Qed.
Lemma nodup_app : forall (A : Type) (l l' : list A), NoDup l -> NoDup l' -> (forall x, In x l -> ~ In x l') -> NoDup (l ++ l').
Proof.
  intros A l l' H H' D. induction H as [|x l N H IH]; cbn [app]; auto. constructor.
  - rewrite in_app_iff. intros [X|X]; [auto|]. apply (D x); [now left|auto].
  - apply IH. intros y Y. apply D. now right.
Qed.
Lemma headers_split : forall hs, NoDup hs -> incl hs headers ->
  Permutation headers (hs ++ filter (fun h => negb (path_in hs h)) headers).
Proof.
  intros hs ND I. assert (P : forall h, In h headers -> (path_in hs h = true <-> In h hs)).
  { intros h H. unfold path_in. rewrite existsb_eqb. split; [|apply in_map]. intros X. apply in_map_iff in X as (k & E & K).
    now rewrite (path_unique h k); auto. }
  apply NoDup_Permutation.
  - apply headers_nodup.
  - apply nodup_app; auto.
    + apply NoDup_filter, headers_nodup.
    + intros x X Y. apply filter_In in Y as [Y1 Y2]. apply negb_true_iff in Y2. apply (P x Y1) in X. congruence.
  - intros h. rewrite in_app_iff, filter_In. split.
    + intros H. destruct (path_in hs h) eqn:E; [left; now apply P|right; auto].
    + intros [H|[H _]]; auto.
Qed.

Lemma flat_map_perm : forall (A B : Type) (f : A -> list B) l l', Permutation l l' -> Permutation (flat_map f l) (flat_map f l').
Proof.
  intros A B f l l' P. induction P; cbn [flat_map]; auto.
  - now apply Permutation_app_head.
  - rewrite !app_assoc. apply Permutation_app_tail, Permutation_app_comm.
  - eapply perm_trans; eauto.
Qed.
Lemma nodup_app_left : forall (A : Type) (l l' : list A), NoDup (l ++ l') -> NoDup l.
Proof. intros A l l'. induction l as [|x l IH]; cbn [app]; intros H; constructor; inversion H; subst; auto. intros X. apply H2, in_or_app. now left. Qed.
Lemma entries_in_catalogue : forall hs, incl hs headers -> incl (flat_map h_entries hs) catalogue.
Proof. intros hs I x X. apply in_flat_map in X as (h & H & X). rewrite catalogue_is. apply in_flat_map. exists h. split; [apply I, H|exact X]. Qed.
Lemma entries_names : forall hs, NoDup hs -> incl hs headers -> NoDup (map entry_name (flat_map h_entries hs)).
Proof.
  intros hs ND I. pose proof (headers_split hs ND I) as P. apply (flat_map_perm _ _ h_entries) in P. rewrite flat_map_app, <- catalogue_is in P.
  apply (Permutation_map entry_name) in P. rewrite map_app in P.
  apply (nodup_app_left _ _ _ (Permutation_NoDup P catalogue_names)).
Qed.

Lemma outcome_of_headers : forall est mode hs, ordered hs ->
  elaborate est mode isq_templates empty_env (flat_map h_entries hs) = outcome mode empty_env (flat_map h_entries hs).
Proof.
  intros est mode hs Or. apply (elaborate_outcome est mode _ [] empty_env).
  - apply agree_empty.
  - apply entries_in_catalogue, ordered_headers, Or.
  - apply entries_names; [now apply ordered_nodup|now apply ordered_headers].
  - intros n H. discriminate H.
  - intros y [].
  - now apply ordered_ready.
Qed.
