(** Proofs about the catalogue: the whole of it is elaborated once, every unit is compared
    with the table, and the result carries over to programs that use part of it. *)

From Coq Require Import ZArith QArith Qpower Qreduction Lqa Lia String List Bool.
From Verif Require Import Outcome CInt Root Ratio FixedString Unit Downcast Dim DimOp DerivedUnit UnitDecl UnitText
  QuantityCast Equivalent System Catalogue SpecRatio SpecDim SpecUnit SpecQuantity SpecCatalogue DimOpProofs MagnitudeProofs
  SystemProofs IsqProofs.
Import ListNotations.
Local Open Scope string_scope.
Local Open Scope Z_scope.

(** ** The whole catalogue *)

Definition no_estimate : estimate := fun _ _ => Stuck.
Definition result (r : res env) : env := match r with Ok e => e | _ => empty_env end.
(** (Evaluated here, so that it is not evaluated in every proof.) *)
Definition full : env := Eval vm_compute in result (elaborate no_estimate Off isq_templates empty_env catalogue).

Lemma full_elaborates : forall est, elaborate est Off isq_templates empty_env catalogue = Ok full.
Proof. intros est. vm_compute. reflexivity. Qed.

(** ** Magnitudes by computation *)

Fixpoint coherent (es : list bexp) : Q :=
  match es with
  | [] => 1%Q
  | e :: r => Qred (rval (base_ratio (e_dim e)) ^ e_num e * coherent r)
  end.
Definition mag (d : dimension) (u : cunit) : Q :=
  Qred (coherent (exponents d) * (rval (u_ratio u) / rval (u_ratio (dimension_unit d)))).

Definition ratio_goodb (r : ratio) : bool :=
  (0 <? rden r) && (Z.gcd (rnum r) (rden r) =? 1) && negb (rden r mod 10 =? 0) && negb (rnum r mod 10 =? 0) &&
  (0 <? rnum r) && (rnum r <=? INTMAX_MAX) && (rden r <=? INTMAX_MAX) &&
  (INTMAX_MIN <=? rexp r) && (rexp r <=? INTMAX_MAX).
Definition dim_goodb (d : dimension) : bool :=
  forallb (fun e => (e_den e =? 1) && ratio_goodb (base_ratio (e_dim e))) (exponents d) &&
  ratio_goodb (u_ratio (dimension_unit d)).

Ltac split_andb :=
  repeat match goal with
  | H : _ && _ = true |- _ => apply andb_true_iff in H as [? ?]
  | H : (_ <? _) = true |- _ => apply Z.ltb_lt in H
  | H : (_ <=? _) = true |- _ => apply Z.leb_le in H
  | H : (_ =? _) = true |- _ => apply Z.eqb_eq in H
  | H : negb (_ =? _) = true |- _ => apply negb_true_iff, Z.eqb_neq in H
  end.

Lemma ratio_goodb_good : forall r, ratio_goodb r = true -> ratio_good r.
Proof.
  intros r H. unfold ratio_goodb in H. split_andb.
  unfold ratio_good, lowest, storable. rewrite !Z.abs_eq by lia. repeat split; auto; lia.
Qed.

Lemma whole_half : forall e, e_den e = 1 -> half_int e.
Proof. intros e H. split; rewrite H; [lia|]. apply Z.divide_1_l. Qed.
Lemma whole_twice : forall e, e_den e = 1 -> twice e = 2 * e_num e.
Proof. intros e H. unfold twice. rewrite H. now rewrite Z.div_1_r. Qed.

Lemma coherent_spec : forall es,
  forallb (fun e => (e_den e =? 1) && ratio_goodb (base_ratio (e_dim e))) es = true ->
  coherent_magnitude es (coherent es) /\
  Forall (fun e => half_int e /\ base_good (e_dim e)) es /\ Forall (fun e => e_den e = 1) es.
Proof.
  induction es as [|e es IH]; cbn [forallb]; intros H.
  - split; [|split; constructor]. split; [constructor|]. split; reflexivity.
  - apply andb_true_iff in H as [A B]. apply andb_true_iff in A as [A1 A2]. apply Z.eqb_eq in A1.
    apply ratio_goodb_good in A2. destruct (IH B) as ((H1 & H2 & H3) & H4 & H5).
    pose proof (good_pos _ A2) as P.
    split; [|split; constructor; auto; split; auto using whole_half].
    split; [constructor; auto using whole_half|]. cbn [coherent squared]. rewrite Qred_correct.
    assert (PP : (0 < rval (base_ratio (e_dim e)) ^ e_num e)%Q) by now apply Qpower_0_lt.
    split; [apply (Qmult_lt_0_compat _ _ PP H2)|].
    rewrite Qmult_power, H3, (whole_twice _ A1), <- Qpower_mult, (Z.mul_comm (e_num e)). reflexivity.
Qed.

Lemma mag_sized : forall est d u r, dim_goodb d = true -> ratio_goodb (u_ratio u) = true -> unit_of u d = true ->
  sized est (QType d u r) (mag d u).
Proof.
  intros est d u r D U O. unfold dim_goodb in D. apply andb_true_iff in D as [D1 D2].
  destruct (coherent_spec _ D1) as (C & G & W). apply ratio_goodb_good in D2, U.
  split; [split; simpl; auto; split; auto|]. split; [exact O|]. split.
  - simpl. eapply Forall_impl; [|exact W]. intros e E N. rewrite E in N. discriminate.
  - exists (coherent (exponents d)). split; [exact C|]. unfold mag. cbn [q_dim q_unit]. apply Qred_correct.
Qed.

(** ** The comparison *)

Definition named (u : cunit) : string := match u_name u with Some n => n | None => "" end.
Definition row_for (n : string) : option unit_row := find (fun r => String.eqb (ur_name r) n) unit_table.
Definition natural_row (n : string) : option (string * Z * Q) :=
  find (fun r => String.eqb (fst (fst r)) n) natural_table.
Definition unit_checked (u : cunit) (x : option string * dimension) : bool :=
  let n := named u in
  if natural_dim x then
    match natural_row n, assoc quantity_table (quantity_name x) with
    | Some (_, k, v), Some row =>
        (k =? exponent_in row "dim_mass" - exponent_in row "dim_length" - exponent_in row "dim_time") &&
        Qeq_bool (mag (snd x) u) (v * inject_Z (10 ^ 9) ^ exponent_in row "dim_mass")
    | _, _ => false
    end
  else
    match row_for n with
    | Some r => String.eqb (ur_quantity r) (quantity_name x) &&
        Qeq_bool (mag (snd x) u) (deviation n * ur_value r * si_coherent (quantity_name x))
    | None => false
    end.
Definition units_for (e : env) (d : dimension) : list cunit := filter (fun u => unit_of u d) (en_units e).

Lemma full_checked :
  forallb (fun x => forallb (fun u => unit_checked u x) (units_for full (snd x))) (en_dims full) = true.
Proof. vm_compute. reflexivity. Qed.
Lemma full_units_good : forallb (fun u => ratio_goodb (u_ratio u)) (en_units full) = true.
Proof. vm_compute. reflexivity. Qed.
Lemma full_dims_good : forallb (fun x => dim_goodb (snd x)) (en_dims full) = true.
Proof. vm_compute. reflexivity. Qed.

(** Every unit of the catalogue measures some dimension of it. *)
Lemma full_measured : forallb (fun u => existsb (fun x => unit_of u (snd x)) (en_dims full)) (en_units full) = true.
Proof. vm_compute. reflexivity. Qed.

(** ** Prefixes *)

Definition symbol_eqb (a b : symbol_text) : bool :=
  String.eqb (st_standard a) (st_standard b) && String.eqb (st_ascii a) (st_ascii b).
Lemma symbol_eqb_eq : forall a b, symbol_eqb a b = true -> a = b.
Proof.
  intros [a a'] [b b'] H. apply andb_true_iff in H as [H H']. simpl in *.
  apply String.eqb_eq in H, H'. now subst.
Qed.
Definition prefix_checked (p : prefix) : bool :=
  existsb (fun '(f, n, s, v) => String.eqb (p_family p) f && String.eqb (p_name p) n &&
     symbol_eqb (p_symbol p) s && Qeq_bool (rval (p_ratio p)) v) prefix_table.
Lemma full_prefixes : forallb prefix_checked (en_prefixes full) = true.
Proof. vm_compute. reflexivity. Qed.
Lemma full_prefixes_complete :
  forallb (fun '(f, n, s, v) => existsb (fun p => String.eqb (p_name p) n) (en_prefixes full)) prefix_table = true.
Proof. vm_compute. reflexivity. Qed.

#[local] Opaque full catalogue unit_table natural_table quantity_table isq_templates prefix_table.

(** ** Selections *)

Lemma selection_in_full : forall est mode prog e, incl prog catalogue ->
  elaborate est mode isq_templates empty_env prog = Ok e ->
  incl (en_prefixes e) (en_prefixes full) /\ incl (en_units e) (en_units full) /\ incl (en_dims e) (en_dims full).
Proof.
  intros est mode prog e I H.
  exact (included_units _ _ _ _ _ _ _ _ (full_elaborates est) I H).
Qed.

Lemma selection_named : forall est mode prog e, elaborate est mode isq_templates empty_env prog = Ok e ->
  forall u, In u (en_units e) -> u_name u = Some (named u).
Proof.
  intros est mode prog e H u Hu.
  destruct (elaborate_unique _ _ _ _ _ _ empty_unique H) as (_ & U & _).
  destruct (U u Hu) as (n & N & _). unfold named. now rewrite N.
Qed.

Lemma full_good : forall u x, In u (en_units full) -> In x (en_dims full) ->
  ratio_goodb (u_ratio u) = true /\ dim_goodb (snd x) = true.
Proof.
  intros u x Hu Hx. pose proof full_units_good as A. pose proof full_dims_good as B.
  exact (conj (proj1 (forallb_forall _ _) A u Hu) (proj1 (forallb_forall _ _) B x Hx)).
Qed.

Lemma full_unit_checked : forall u x, In u (en_units full) -> In x (en_dims full) -> unit_of u (snd x) = true ->
  unit_checked u x = true.
Proof.
  intros u x Hu Hx O. pose proof (proj1 (forallb_forall _ _) full_checked x Hx) as A.
  exact (proj1 (forallb_forall _ _) A u (proj2 (filter_In _ _ _) (conj Hu O))).
Qed.

Lemma sized_ext : forall est t m m', (m == m')%Q -> sized est t m -> sized est t m'.
Proof. intros est t m m' E (A & B & C & D). repeat split; auto; try apply A. eapply magnitude_ext; eauto. Qed.

Theorem units_sized : forall est mode prog e, incl prog catalogue ->
  elaborate est mode isq_templates empty_env prog = Ok e ->
  forall u x, In u (en_units e) -> In x (en_dims e) -> unit_of u (snd x) = true -> natural_dim x = false ->
  exists row, In row unit_table /\ u_name u = Some (ur_name row) /\ ur_quantity row = quantity_name x /\
    forall r, sized est (QType (snd x) u r)
      (deviation (ur_name row) * ur_value row * si_coherent (quantity_name x)).
Proof.
  intros est mode prog e I H u x Hu Hx O N.
  destruct (selection_in_full _ _ _ _ I H) as (_ & U & D). specialize (U u Hu). specialize (D x Hx).
  pose proof (full_unit_checked u x U D O) as C. unfold unit_checked in C. rewrite N in C.
  destruct (row_for (named u)) as [row|] eqn:R; [|discriminate].
  unfold row_for in R. apply find_some in R as [R1 R2]. apply String.eqb_eq in R2.
  apply andb_true_iff in C as [C1 C2]. apply String.eqb_eq in C1. apply Qeq_bool_iff in C2.
  exists row. split; [exact R1|]. split; [rewrite R2; exact (selection_named _ _ _ _ H u Hu)|]. split; [exact C1|].
  intros r. destruct (full_good u x U D) as [G1 G2]. rewrite R2.
  eapply sized_ext; [exact C2|]. now apply mag_sized.
Qed.

Theorem natural_sized : forall est mode prog e, incl prog catalogue ->
  elaborate est mode isq_templates empty_env prog = Ok e ->
  forall u x, In u (en_units e) -> In x (en_dims e) -> unit_of u (snd x) = true -> natural_dim x = true ->
  exists n k v row, In (n, k, v) natural_table /\ u_name u = Some n /\
    assoc quantity_table (quantity_name x) = Some row /\
    k = exponent_in row "dim_mass" - exponent_in row "dim_length" - exponent_in row "dim_time" /\
    forall r, sized est (QType (snd x) u r) (v * inject_Z (10 ^ 9) ^ exponent_in row "dim_mass").
Proof.
  intros est mode prog e I H u x Hu Hx O N.
  destruct (selection_in_full _ _ _ _ I H) as (_ & U & D). specialize (U u Hu). specialize (D x Hx).
  pose proof (full_unit_checked u x U D O) as C. unfold unit_checked in C. rewrite N in C.
  destruct (natural_row (named u)) as [[[n k] v]|] eqn:R; [|discriminate].
  unfold natural_row in R. apply find_some in R as [R1 R2]. apply String.eqb_eq in R2.
  destruct (assoc quantity_table (quantity_name x)) as [row|] eqn:Q; [|discriminate].
  apply andb_true_iff in C as [C1 C2]. apply Z.eqb_eq in C1. apply Qeq_bool_iff in C2.
  exists n, k, v, row. split; [exact R1|].
  split; [simpl in R2; rewrite R2; exact (selection_named _ _ _ _ H u Hu)|].
  split; [reflexivity|]. split; [exact C1|].
  intros r. destruct (full_good u x U D) as [G1 G2]. eapply sized_ext; [exact C2|]. now apply mag_sized.
Qed.


(** ** The whole catalogue in any mode *)

Lemma whole_in : forall est mode e, elaborate est mode isq_templates empty_env catalogue = Ok e ->
  incl (en_prefixes full) (en_prefixes e) /\ incl (en_units full) (en_units e) /\ incl (en_dims full) (en_dims e).
Proof.
  intros est mode e H.
  exact (included_units _ _ _ _ _ _ _ _ H (fun x Hx => Hx) (full_elaborates est)).
Qed.

Theorem prefixes_listed : forall est mode prog e, incl prog catalogue ->
  elaborate est mode isq_templates empty_env prog = Ok e ->
  forall p, In p (en_prefixes e) -> exists v, In (p_family p, p_name p, p_symbol p, v) prefix_table /\
    (rval (p_ratio p) == v)%Q.
Proof.
  intros est mode prog e I H p Hp. destruct (selection_in_full _ _ _ _ I H) as (P & _ & _).
  pose proof (proj1 (forallb_forall _ _) full_prefixes p (P p Hp)) as C. unfold prefix_checked in C.
  apply existsb_exists in C as ([[[f n] s] v] & R & C).
  apply andb_true_iff in C as [C C4]. apply andb_true_iff in C as [C C3]. apply andb_true_iff in C as [C1 C2].
  apply String.eqb_eq in C1, C2. apply symbol_eqb_eq in C3. apply Qeq_bool_iff in C4.
  exists v. rewrite C1, C2, C3. split; [exact R | exact C4].
Qed.

Theorem prefixes_complete : forall est mode e, elaborate est mode isq_templates empty_env catalogue = Ok e ->
  forall f n s v, In (f, n, s, v) prefix_table -> exists p, In p (en_prefixes e) /\ p_name p = n.
Proof.
  intros est mode e H f n s v R. destruct (whole_in _ _ _ H) as (P & _ & _).
  pose proof (proj1 (forallb_forall _ _) full_prefixes_complete _ R) as C. cbv beta iota in C.
  apply existsb_exists in C as (p & Hp & C). apply String.eqb_eq in C. exists p. split; [exact (P p Hp) | exact C].
Qed.

Theorem units_measured : forall est mode e, elaborate est mode isq_templates empty_env catalogue = Ok e ->
  forall u, In u (en_units e) -> exists x, In x (en_dims e) /\ unit_of u (snd x) = true.
Proof.
  intros est mode e H u Hu. destruct (whole_in _ _ _ H) as (_ & _ & D).
  destruct (selection_in_full _ _ _ _ (incl_refl _) H) as (_ & U & _).
  pose proof (proj1 (forallb_forall _ _) full_measured u (U u Hu)) as C.
  cbv beta in C. destruct (proj1 (existsb_exists _ _) C) as (x & Hx & O). exists x. split; [exact (D x Hx) | exact O].
Qed.

(** ** Worlds *)

Lemma entry_reachable : forall est mode ts e x e', elaborate_entry est mode ts e x = Ok e' ->
  reachable (en_world e) -> reachable (en_world e').
Proof.
  intros est mode ts e x e' H R. unfold elaborate_entry in H. step H as v0 T. clear v0 T.
  assert (U : forall ud, declare_unit_entry est mode e ud = Ok e' -> reachable (en_world e')).
  { intros ud D. unfold declare_unit_entry in D. step D as us D1. destruct us as [|u us]; [discriminate|].
    step D as w W. inversion D; subst e'. simpl. destruct (registers ud).
    - eapply reach_unit; eauto.
    - inversion W; subst; auto. }
  destruct x; try (step H as o O; destruct o as [ud|]; [exact (U ud H) | discriminate H]).
  - step H as r R1. step H as p P. step H as g G. inversion H; subst; auto.
  - unfold declare_base_entry in H. step H as cu C. step H as b B. inversion H; subst; auto.
  - step H as s S. unfold declare_base_entry in H. step H as cu C. step H as b B. inversion H; subst; auto.
  - step H as rec Rc. unfold declare_dim_entry in H. step H as cu C. step H as d D. step H as w W.
    inversion H; subst. simpl. eapply reach_dim; eauto.
  - step H as ds Ds. step H as r Rr. step H as rec Rc. unfold declare_dim_entry in H.
    step H as cu C. step H as d D. step H as w W.
    inversion H; subst. simpl. eapply reach_dim; eauto.
Qed.

Theorem elaborate_reachable : forall est mode ts l e e', elaborate est mode ts e l = Ok e' ->
  reachable (en_world e) -> reachable (en_world e').
Proof.
  intros est mode ts l; induction l as [|x l IH]; cbn [elaborate]; intros e e' H R.
  - inversion H; subst; auto.
  - step H as m M. exact (IH m e' H (entry_reachable _ _ _ _ _ _ M R)).
Qed.
