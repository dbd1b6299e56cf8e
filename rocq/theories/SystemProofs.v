(** Proofs about programs of header declarations: what a declaration yields depends only
    on what its names denote, and every instance of the class templates of the ISQ has
    the exponents of the quantity. *)

From Coq Require Import ZArith QArith Qreduction Lqa Lia String List Bool Permutation Sorted.
From Verif Require Import Outcome CInt Ratio Root FixedString TypeList Unit Downcast Dim DimOp DerivedUnit UnitDecl
  UnitText System SpecDim SpecRatio SpecCatalogue TypeListProofs DimProofs DimOpProofs.
Import ListNotations.
Local Open Scope string_scope.
Local Open Scope Z_scope.
Local Open Scope res_scope.

(** ** Lookups *)

Definition agree (a b : env) : Prop :=
  (forall n p, find_prefix a n = Ok p -> find_prefix b n = Ok p) /\
  (forall n u, find_unit a n = Ok u -> find_unit b n = Ok u) /\
  (forall n d, find_dim a n = Ok d -> find_dim b n = Ok d).

Lemma agree_refl : forall a, agree a a.
Proof. intros a; repeat split; auto. Qed.
Lemma agree_trans : forall a b c, agree a b -> agree b c -> agree a c.
Proof. intros a b c (A1 & A2 & A3) (B1 & B2 & B3); repeat split; auto. Qed.
Lemma agree_empty : forall a, agree empty_env a.
Proof. intros a; repeat split; intros n x H; cbv in H; discriminate. Qed.

(** What one declaration adds. *)
Inductive thing := TPrefix (p : prefix) | TUnit (u : cunit) | TDim (o : option string) (d : dimension).
Definition thing_name (t : thing) : option string :=
  match t with TPrefix p => Some (p_name p) | TUnit u => u_name u | TDim _ d => Some (dim_name d) end.
Definition adds (e e' : env) (t : thing) : Prop :=
  match t with
  | TPrefix p => en_prefixes e' = p :: en_prefixes e /\ en_units e' = en_units e /\ en_dims e' = en_dims e
  | TUnit u => en_prefixes e' = en_prefixes e /\ en_units e' = u :: en_units e /\ en_dims e' = en_dims e
  | TDim o d => en_prefixes e' = en_prefixes e /\ en_units e' = en_units e /\ en_dims e' = (o, d) :: en_dims e
  end.

(** The declared thing, computed from the lookups alone. *)
Definition yields (est : estimate) (ts : list template) (e : env) (x : entry) (t : thing) : Prop :=
  match x with
  | EPrefix n pf s a b c => exists r p, mk_ratio a b c = Ok r /\ mk_prefix n pf s r = Ok p /\ t = TPrefix p
  | EBase n s u => exists cu b, find_unit e u = Ok cu /\ mk_base_dimension n s cu = Ok b /\ t = TDim None (DBase b)
  | EBaseOf n q u => exists s cu b, base_symbol ts q = Ok s /\ find_unit e u = Ok cu /\
      mk_base_dimension n s cu = Ok b /\ t = TDim (Some q) (DBase b)
  | EDim n u r => exists rec cu d,
      map_res (fun y => d <- find_dim e (fst y); Ok (snd d, (snd y, 1))) r = Ok rec /\
      find_unit e u = Ok cu /\ mk_derived_dimension n cu rec = Ok d /\ t = TDim None d
  | EDimOf n q u args => exists ds r rec cu d,
      map_res (find_dim e) args = Ok ds /\ specialisation ts q (map fst ds) = Ok r /\
      substitute (map snd ds) r = Ok rec /\ find_unit e u = Ok cu /\
      mk_derived_dimension n cu rec = Ok d /\ t = TDim (Some q) d
  | _ => exists ud u, unit_entry e x = Ok (Some ud) /\ unit_elaborate est (en_units e) ud = Ok u /\ t = TUnit u
  end.

Lemma unit_entry_name : forall e x ud, unit_entry e x = Ok (Some ud) -> decl_name ud = entry_name x.
Proof.
  intros e x ud H; destruct x; simpl in H; try discriminate;
    unbind; try reflexivity; try discriminate;
    match goal with H : Ok _ = Ok _ |- _ => inversion H; reflexivity | _ => idtac end.
Qed.

Lemma unit_elaborate_name : forall est us ud u, unit_elaborate est us ud = Ok u -> u_name u = Some (decl_name ud).
Proof.
  intros est us ud u H; destruct ud; simpl in *;
    unfold mk_unit, mk_named_unit, mk_named_scaled_unit, mk_prefixed_unit, mk_derived_unit,
      mk_named_derived_unit, mk_alias_unit, mk_prefixed_alias_unit in H; unbind;
    try reflexivity;
    match goal with H : context [match u_symbol ?v with _ => _ end] |- _ => destruct (u_symbol v); inversion H; reflexivity end.
Qed.

Lemma elaborate_yields : forall est mode ts e x e', elaborate_entry est mode ts e x = Ok e' ->
  taken e (entry_name x) = false /\
  exists t, yields est ts e x t /\ adds e e' t /\ thing_name t = Some (entry_name x).
Proof.
  intros est mode ts e x e' H. unfold elaborate_entry in H.
  step H as v0 T. apply constrained_ok, negb_true_iff in T. split; auto. clear v0.
  assert (U : forall ud, unit_entry e x = Ok (Some ud) -> declare_unit_entry est mode e ud = Ok e' ->
    exists t, (exists ud u, unit_entry e x = Ok (Some ud) /\ unit_elaborate est (en_units e) ud = Ok u /\ t = TUnit u) /\
      adds e e' t /\ thing_name t = Some (entry_name x)).
  { intros ud E D. unfold declare_unit_entry in D. step D as us D1.
    unfold unit_declare in D1. step D1 as v1 D2. step D1 as u D3. inversion D1; subst us.
    step D as w W. inversion D; subst e'. exists (TUnit u). split; [eauto|]. split; [simpl; auto|].
    simpl. rewrite (unit_elaborate_name _ _ _ _ D3). f_equal. eapply unit_entry_name; eauto. }
  destruct x;
    try (step H as o O; destruct o as [y|]; [|discriminate]; apply (U y O H)).
  - step H as r R. step H as p P. step H as g G. inversion H; subst e'.
    exists (TPrefix p). split; [simpl; eauto|]. split; [simpl; auto|].
    simpl. unfold mk_prefix in P. unbind. reflexivity.
  - unfold declare_base_entry in H. step H as cu C. step H as b B. inversion H; subst e'.
    exists (TDim None (DBase b)). split; [simpl; eauto|]. split; [simpl; auto|].
    unfold mk_base_dimension in B. unbind. reflexivity.
  - step H as s S. unfold declare_base_entry in H. step H as cu C. step H as b B. inversion H; subst e'.
    exists (TDim (Some t) (DBase b)). split; [simpl; eauto 10|]. split; [simpl; auto|].
    unfold mk_base_dimension in B. unbind. reflexivity.
  - step H as rec R. unfold declare_dim_entry in H. step H as cu C. step H as d D. step H as w W. inversion H; subst e'.
    exists (TDim None d). split; [simpl; eauto 10|]. split; [simpl; auto|].
    unfold mk_derived_dimension in D. unbind. reflexivity.
  - step H as ds Ds. step H as r R. step H as rec Rec. unfold declare_dim_entry in H.
    step H as cu C. step H as d D. step H as w W. inversion H; subst e'.
    exists (TDim (Some t) d). split; [simpl; eauto 12|]. split; [simpl; auto|].
    unfold mk_derived_dimension in D. unbind. reflexivity.
Qed.

(** Lookups of a name that was new: the thing just declared. *)
Lemma not_taken : forall e n, taken e n = false ->
  (forall p, find_prefix e n <> Ok p) /\ (forall u, find_unit e n <> Ok u) /\ (forall d, find_dim e n <> Ok d).
Proof.
  intros e n H. unfold taken in H. apply orb_false_iff in H as [H H3]. apply orb_false_iff in H as [H1 H2].
  assert (G : forall (A : Type) (f : A -> bool) l, existsb f l = false -> find f l = None).
  { intros A f l; induction l as [|y l IH]; simpl; auto. intros E. apply orb_false_iff in E as [E1 E2].
    rewrite E1; auto. }
  unfold find_prefix, find_unit, unit_lookup, find_dim.
  rewrite (G _ _ _ H1), (G _ _ _ H2), (G _ _ _ H3). repeat split; intros; discriminate.
Qed.

Lemma adds_agree : forall e e' t n, adds e e' t -> thing_name t = Some n -> taken e n = false -> agree e e'.
Proof.
  intros e e' t n A N T. destruct (not_taken _ _ T) as (F1 & F2 & F3).
  destruct t as [p|u|o d]; simpl in A, N; destruct A as (A1 & A2 & A3);
    unfold agree, find_prefix, find_unit, unit_lookup, find_dim; rewrite A1, A2, A3; repeat split; auto.
  - intros m q. simpl. destruct (String.eqb m (p_name p)) eqn:E; auto.
    apply String.eqb_eq in E. inversion N; subst. intros H. exfalso. eapply F1; exact H.
  - intros m q. simpl. unfold has_name at 2. rewrite N. destruct (String.eqb m n) eqn:E; auto.
    apply String.eqb_eq in E; subst. intros H. exfalso. eapply F2; exact H.
  - intros m q. simpl. destruct (String.eqb m (dim_name d)) eqn:E; auto.
    apply String.eqb_eq in E. inversion N; subst. intros H. exfalso. eapply F3; exact H.
Qed.

(** The thing is what the new environment finds under its name. *)
Definition finds (e : env) (t : thing) : Prop :=
  match t with
  | TPrefix p => find_prefix e (p_name p) = Ok p
  | TUnit u => exists n, u_name u = Some n /\ find_unit e n = Ok u
  | TDim o d => find_dim e (dim_name d) = Ok (o, d)
  end.

Lemma adds_finds : forall e e' t n, adds e e' t -> thing_name t = Some n -> finds e' t.
Proof.
  intros e e' t n A N. destruct t as [p|u|o d]; simpl in *; destruct A as (A1 & A2 & A3).
  - unfold find_prefix. rewrite A1. simpl. now rewrite String.eqb_refl.
  - exists n. split; auto. unfold find_unit, unit_lookup. rewrite A2. simpl. unfold has_name at 1. rewrite N.
    now rewrite String.eqb_refl.
  - unfold find_dim. rewrite A3. simpl. now rewrite String.eqb_refl.
Qed.

Lemma agree_finds : forall a b t, agree a b -> finds a t -> finds b t.
Proof.
  intros a b t (A1 & A2 & A3) F. destruct t; simpl in *; auto.
  destruct F as (n & N & F); eauto.
Qed.

(** From what the old environment finds and the new thing. *)
Lemma adds_agree_into : forall e e' t n b, adds e e' t -> thing_name t = Some n ->
  agree e b -> finds b t -> agree e' b.
Proof.
  intros e e' t n b A N (B1 & B2 & B3) F.
  destruct t as [p|u|o d]; simpl in A, N, F; destruct A as (A1 & A2 & A3); repeat split;
    intros m q; unfold find_prefix at 1 || unfold find_unit at 1 || unfold find_dim at 1;
    unfold unit_lookup; rewrite ?A1, ?A2, ?A3; simpl.
  - destruct (String.eqb m (p_name p)) eqn:E; [|apply B1].
    apply String.eqb_eq in E; subst. intros H; inversion H; subst; auto.
  - apply B2.
  - apply B3.
  - apply B1.
  - unfold has_name at 1. rewrite N. destruct (String.eqb m n) eqn:E; [|apply B2].
    apply String.eqb_eq in E; subst. intros H; inversion H; subst.
    destruct F as (n' & N' & F). rewrite N in N'; inversion N'; subst; auto.
  - apply B3.
  - apply B1.
  - apply B2.
  - destruct (String.eqb m (dim_name d)) eqn:E; [|apply B3].
    apply String.eqb_eq in E; subst. intros H; inversion H; subst; auto.
Qed.

(** ** The same entry yields the same thing in environments that agree *)

Lemma map_res_same : forall (A B : Type) (f g : A -> res B) l r s,
  (forall x y z, f x = Ok y -> g x = Ok z -> y = z) ->
  map_res f l = Ok r -> map_res g l = Ok s -> r = s.
Proof.
  intros A B f g l; induction l as [|x l IH]; simpl; intros r s H E F.
  - congruence.
  - unbind. f_equal; eauto.
Qed.

Lemma agree_same : forall a b c, agree a c -> agree b c ->
  (forall n p q, find_prefix a n = Ok p -> find_prefix b n = Ok q -> p = q) /\
  (forall n p q, find_unit a n = Ok p -> find_unit b n = Ok q -> p = q) /\
  (forall n p q, find_dim a n = Ok p -> find_dim b n = Ok q -> p = q).
Proof.
  intros a b c (A1 & A2 & A3) (B1 & B2 & B3). repeat split; intros n p q P Q.
  - apply A1 in P. apply B1 in Q. congruence.
  - apply A2 in P. apply B2 in Q. congruence.
  - apply A3 in P. apply B3 in Q. congruence.
Qed.

Ltac same :=
  repeat match goal with
  | H : ?x = Ok _, H' : ?x = Ok _ |- _ => rewrite H in H'; inversion H'; subst; clear H'
  | P : forall n p q, find_prefix ?a n = Ok p -> find_prefix ?b n = Ok q -> p = q,
    H : find_prefix ?a ?n = Ok ?x, H' : find_prefix ?b ?n = Ok ?y |- _ =>
      assert (x = y) by (eapply P; eauto); subst; clear H'
  | P : forall n p q, find_unit ?a n = Ok p -> find_unit ?b n = Ok q -> p = q,
    H : find_unit ?a ?n = Ok ?x, H' : find_unit ?b ?n = Ok ?y |- _ =>
      assert (x = y) by (eapply P; eauto); subst; clear H'
  | P : forall n p q, find_dim ?a n = Ok p -> find_dim ?b n = Ok q -> p = q,
    H : find_dim ?a ?n = Ok ?x, H' : find_dim ?b ?n = Ok ?y |- _ =>
      assert (x = y) by (eapply P; eauto); subst; clear H'
  end.

Lemma unit_entry_same : forall a b c x u v, agree a c -> agree b c ->
  unit_entry a x = Ok (Some u) -> unit_entry b x = Ok (Some v) -> u = v.
Proof.
  intros a b c x u v A B U V. destruct (agree_same _ _ _ A B) as (P1 & P2 & P3).
  destruct x; simpl in U, V; try discriminate; unbind; try congruence; same; congruence.
Qed.

Lemma unit_elaborate_same : forall est a b c x u v, agree a c -> agree b c ->
  unit_elaborate est (en_units a) x = Ok u -> unit_elaborate est (en_units b) x = Ok v -> u = v.
Proof.
  intros est a b c x u v A B U V. destruct (agree_same _ _ _ A B) as (_ & P & _).
  change (unit_lookup (en_units a)) with (find_unit a) in *.
  destruct x; cbn [unit_elaborate] in U, V; try congruence;
    change (unit_lookup (en_units a)) with (find_unit a) in U;
    change (unit_lookup (en_units b)) with (find_unit b) in V.
  - step U as x1 X1. step V as x2 X2. rewrite (P _ _ _ X1 X2) in U. congruence.
  - step U as x1 X1. step V as x2 X2. rewrite (P _ _ _ X1 X2) in U. congruence.
  - step U as x1 X1. step V as x2 X2. rewrite (map_res_same _ _ _ _ _ _ _ P X1 X2) in U. congruence.
  - step U as x1 X1. step V as x2 X2. rewrite (map_res_same _ _ _ _ _ _ _ P X1 X2) in U. congruence.
  - step U as x1 X1. step V as x2 X2. rewrite (P _ _ _ X1 X2) in U. congruence.
  - step U as x1 X1. step V as x2 X2. rewrite (P _ _ _ X1 X2) in U.
    step U as y1 Y1. step V as y2 Y2. rewrite (P _ _ _ Y1 Y2) in U. congruence.
Qed.

Lemma yields_same : forall est ts a b c x t s, agree a c -> agree b c ->
  yields est ts a x t -> yields est ts b x s -> t = s.
Proof.
  intros est ts a b c x t s A B T S. destruct (agree_same _ _ _ A B) as (P1 & P2 & P3).
  assert (G : (exists ud u, unit_entry a x = Ok (Some ud) /\ unit_elaborate est (en_units a) ud = Ok u /\ t = TUnit u) ->
              (exists ud u, unit_entry b x = Ok (Some ud) /\ unit_elaborate est (en_units b) ud = Ok u /\ s = TUnit u) -> t = s).
  { intros (u1 & v1 & X1 & Y1 & Z1) (u2 & v2 & X2 & Y2 & Z2).
    rewrite (unit_entry_same _ _ _ _ _ _ A B X1 X2) in Y1.
    rewrite (unit_elaborate_same _ _ _ _ _ _ _ A B Y1 Y2) in Z1. congruence. }
  destruct x; try (apply G; [exact T | exact S]); simpl in T, S.
  - destruct T as (r & p & X & Y & ->). destruct S as (r2 & p2 & X2 & Y2 & ->). same. reflexivity.
  - destruct T as (cu & p & X & Y & ->). destruct S as (cu2 & p2 & X2 & Y2 & ->). same. reflexivity.
  - destruct T as (sy & cu & p & W & X & Y & ->). destruct S as (sy2 & cu2 & p2 & W2 & X2 & Y2 & ->). same. reflexivity.
  - destruct T as (rec & cu & p & W & X & Y & ->). destruct S as (rec2 & cu2 & p2 & W2 & X2 & Y2 & ->).
    assert (E : rec = rec2).
    { eapply map_res_same; [|exact W|exact W2]. simpl. intros y z z' E1 E2. unbind. same. reflexivity. }
    subst rec2. same. reflexivity.
  - destruct T as (ds & r & rec & cu & p & V & V' & W & X & Y & ->).
    destruct S as (ds2 & r2 & rec2 & cu2 & p2 & V2 & V2' & W2 & X2 & Y2 & ->).
    rewrite (map_res_same _ _ _ _ _ _ _ P3 V V2) in V', W. same. reflexivity.
Qed.

(** ** Programs *)

Lemma elaborate_agree : forall est mode ts l e e', elaborate est mode ts e l = Ok e' -> agree e e'.
Proof.
  intros est mode ts l; induction l as [|x l IH]; simpl; intros e e' H.
  - inversion H; apply agree_refl.
  - step H as m M. destruct (elaborate_yields _ _ _ _ _ _ M) as (T & t & _ & A & N).
    eapply agree_trans; [eapply adds_agree; eauto | eauto].
Qed.

(** Every entry of a program is realised in the final environment. *)
Lemma elaborate_realises : forall est mode ts l e e', elaborate est mode ts e l = Ok e' ->
  forall x, In x l -> exists m t, agree m e' /\ yields est ts m x t /\ finds e' t.
Proof.
  intros est mode ts l; induction l as [|y l IH]; simpl; intros e e' H x Hx; [contradiction|].
  step H as m M. destruct Hx as [->|Hx]; [|eauto].
  destruct (elaborate_yields _ _ _ _ _ _ M) as (T & t & Y & A & N).
  pose proof (elaborate_agree _ _ _ _ _ _ H) as G.
  exists e, t. split; [|split; auto].
  - eapply agree_trans; [eapply adds_agree; eauto | auto].
  - eapply agree_finds; [exact G|]. eapply adds_finds; eauto.
Qed.

(** A program all of whose declarations are declarations of another one finds nothing
    else than the other one does, whatever the order and the downcasting mode. *)
Lemma elaborate_included : forall est mode mode' ts l l' e', elaborate est mode' ts empty_env l' = Ok e' ->
  (forall x, In x l -> In x l') ->
  forall m e, agree m e' -> elaborate est mode ts m l = Ok e -> agree e e'.
Proof.
  intros est mode mode' ts l l' e' H'. induction l as [|x l IH]; simpl; intros I m e A H.
  - inversion H; subst; auto.
  - step H as m2 M. destruct (elaborate_yields _ _ _ _ _ _ M) as (T & t & Y & Ad & N).
    destruct (elaborate_realises _ _ _ _ _ _ H' x (I x (or_introl eq_refl))) as (k & s & Ak & Yk & Fk).
    assert (t = s) by (eapply yields_same; [exact A|exact Ak|exact Y|exact Yk]). subst s.
    apply (IH (fun y Hy => I y (or_intror Hy)) m2 e); auto. eapply adds_agree_into; eauto.
Qed.

(** What is declared is found: names are not reused. *)
Definition lookups_unique (e : env) : Prop :=
  (forall p, In p (en_prefixes e) -> find_prefix e (p_name p) = Ok p) /\
  (forall u, In u (en_units e) -> exists n, u_name u = Some n /\ find_unit e n = Ok u) /\
  (forall o d, In (o, d) (en_dims e) -> find_dim e (dim_name d) = Ok (o, d)).

Lemma elaborate_unique : forall est mode ts l e e', lookups_unique e -> elaborate est mode ts e l = Ok e' ->
  lookups_unique e'.
Proof.
  intros est mode ts l; induction l as [|x l IH]; simpl; intros e e' U H.
  - inversion H; subst; auto.
  - step H as m M. apply (IH m e'); auto. clear IH H.
    destruct (elaborate_yields _ _ _ _ _ _ M) as (T & t & _ & A & N).
    pose proof (adds_agree _ _ _ _ A N T) as (G1 & G2 & G3).
    pose proof (adds_finds _ _ _ _ A N) as F. destruct U as (U1 & U2 & U3).
    destruct t as [p|u|o d]; simpl in A; destruct A as (A1 & A2 & A3); repeat split;
      (intros o' y Hy || intros y Hy); rewrite ?A1, ?A2, ?A3 in Hy;
      try (destruct (U2 _ Hy) as (n & N' & F'); exists n; split; auto; fail);
      try (apply G1, U1; exact Hy); try (apply G3, U3; exact Hy).
    + destruct Hy as [->|Hy]; auto.
    + destruct Hy as [->|Hy]; auto. destruct (U2 _ Hy) as (n & N' & F'); exists n; split; auto.
    + destruct Hy as [E|Hy]; auto. inversion E; subst; auto.
Qed.

Lemma empty_unique : lookups_unique empty_env.
Proof. repeat split; simpl; contradiction. Qed.

Lemma find_unit_in : forall e n u, find_unit e n = Ok u -> In u (en_units e).
Proof.
  intros e n u. unfold find_unit, unit_lookup. destruct (find (has_name n) (en_units e)) eqn:E; [|discriminate].
  intros H; inversion H; subst. now apply find_some in E.
Qed.
Lemma find_prefix_in : forall e n p, find_prefix e n = Ok p -> In p (en_prefixes e).
Proof.
  intros e n p. unfold find_prefix. destruct (find _ (en_prefixes e)) eqn:E; [|discriminate].
  intros H; inversion H; subst. now apply find_some in E.
Qed.
Lemma find_dim_in : forall e n p, find_dim e n = Ok p -> In p (en_dims e).
Proof.
  intros e n p. unfold find_dim. destruct (find _ (en_dims e)) eqn:E; [|discriminate].
  intros H; inversion H; subst. now apply find_some in E.
Qed.
Lemma find_unit_name : forall e n u, find_unit e n = Ok u -> u_name u = Some n.
Proof.
  intros e n u. unfold find_unit, unit_lookup. destruct (find (has_name n) (en_units e)) eqn:E; [|discriminate].
  intros H; inversion H; subst. apply find_some in E as [_ E]. unfold has_name in E.
  destruct (u_name u); [|discriminate]. apply String.eqb_eq in E. congruence.
Qed.

(** The declarations of a selection of the declarations of another program. *)
Lemma included_units : forall est mode mode' ts l l' e e',
  elaborate est mode' ts empty_env l' = Ok e' -> (forall x, In x l -> In x l') ->
  elaborate est mode ts empty_env l = Ok e ->
  (forall p, In p (en_prefixes e) -> In p (en_prefixes e')) /\
  (forall u, In u (en_units e) -> In u (en_units e')) /\
  (forall d, In d (en_dims e) -> In d (en_dims e')).
Proof.
  intros est mode mode' ts l l' e e' H' I H.
  assert (A : agree e e') by (eapply elaborate_included; eauto using agree_empty).
  pose proof (elaborate_unique _ _ _ _ _ _ empty_unique H) as (U1 & U2 & U3).
  destruct A as (A1 & A2 & A3). repeat split.
  - intros p Hp. eapply find_prefix_in. apply A1, U1; auto.
  - intros u Hu. destruct (U2 u Hu) as (n & N & F). eapply find_unit_in. apply A2; eauto.
  - intros [o d] Hd. eapply find_dim_in. apply A3, U3; auto.
Qed.
