(** Proofs about the names of units: every literal, reference constant and alias of the
    headers is compared with what its name says. *)

From Coq Require Import ZArith QArith Qpower Lqa Lia String List Bool.
From Verif Require Import Outcome CInt Root Ratio Unit Downcast Dim DimOp DerivedUnit UnitDecl Rep QuantityCast Quantity Reference
  System Catalogue Names SpecDim SpecUnit SpecQuantity SpecCatalogue SpecNames MagnitudeProofs IntProofs QuantityProofs
  SystemProofs IsqProofs CatalogueProofs ChronoProofs KindProofs.
Import ListNotations.
Local Open Scope string_scope.
Local Open Scope Z_scope.
Local Open Scope res_scope.

Definition uname_dec : forall a b : uname, {a = b} + {a <> b}.
Proof. repeat decide equality. Defined.

(** All the names. *)
Definition all_names : list uname := (map l_name literals ++ references ++ aliases)%list.

(** The comparison. *)
Definition name_checked (n : uname) : bool :=
  match find_dim full (n_dim n), find_unit full (n_unit n) with
  | Ok x, Ok u =>
      unit_of u (snd x) &&
      if natural_dim x then
        match assoc natural_readings (n_name n), natural_row (n_unit n) with
        | Some k, Some (_, k', v) => (k =? k') && Qeq_bool v 1
        | _, _ => false
        end
      else
        match row_for (n_unit n) with
        | Some r =>
            match readings_as (quantity_name x) (n_ns n) (n_name n) with
            | [v] => Qeq_bool v (ur_value r) && String.eqb (ur_quantity r) (quantity_name x)
            | _ => false
            end
        | None => false
        end
  | _, _ => true
  end.
Lemma all_checked : forallb name_checked all_names = true.
Proof. vm_compute. reflexivity. Qed.

(** One literal, one constant, one alias per name and namespace. *)
Definition key_eqb (a b : string * string) : bool := String.eqb (fst a) (fst b) && String.eqb (snd a) (snd b).
Fixpoint no_repeat (l : list (string * string)) : bool :=
  match l with [] => true | k :: r => negb (existsb (key_eqb k) r) && no_repeat r end.
Lemma no_repeat_NoDup : forall l, no_repeat l = true -> NoDup l.
Proof.
  induction l as [|k l IH]; cbn [no_repeat]; intros H; constructor.
  - apply andb_true_iff in H as [H _]. apply negb_true_iff in H. intros I.
    assert (existsb (key_eqb k) l = true); [|congruence].
    apply existsb_exists. exists k. split; auto. unfold key_eqb. now rewrite !String.eqb_refl.
  - apply IH. now apply andb_true_iff in H.
Qed.
Definition not_natural (n : uname) : bool := negb (String.prefix "natural" (n_ns n)).
Definition literal_key (n : uname) : string * string := (n_ns n, n_name n).
Definition alias_key (n : uname) : string * string := (enclosing (n_ns n), n_name n).
Lemma names_unique : NoDup (map literal_key (map l_name literals)) /\
  NoDup (map literal_key (filter not_natural references)) /\ NoDup (map alias_key (filter not_natural aliases)).
Proof. split; [|split]; apply no_repeat_NoDup; vm_compute; reflexivity. Qed.
Lemma nodup_map_inj : forall {A B} (f : A -> B) l, NoDup (map f l) ->
  forall x y, In x l -> In y l -> f x = f y -> x = y.
Proof.
  intros A B f. induction l as [|a l IH]; cbn [map]; intros N x y Hx Hy E; [destruct Hx|].
  inversion N as [|? ? N1 N2]; subst. destruct Hx as [<-|Hx], Hy as [<-|Hy]; auto.
  - exfalso. apply N1. rewrite E. now apply in_map.
  - exfalso. apply N1. rewrite <- E. now apply in_map.
Qed.

(** The names that stand for something that is not there. *)
Definition in_full (n : uname) : bool :=
  match find_dim full (n_dim n), find_unit full (n_unit n) with Ok _, Ok _ => true | _, _ => false end.
Lemma present : forallb (fun n => in_full n || String.eqb (n_ns n) "si::radioactivity") all_names = true.
Proof. vm_compute. reflexivity. Qed.
Lemma absent : forallb (fun n => negb (String.eqb (n_ns n) "si::radioactivity") || negb (in_full n)) all_names = true.
Proof. vm_compute. reflexivity. Qed.

#[local] Opaque full catalogue unit_table natural_table quantity_table isq_templates prefix_table
  literals references aliases all_names.

Lemma named_type_outcome : forall e n r,
  named_type e n r <> Contract /\ named_type e n r <> Undef /\ named_type e n r <> Stuck.
Proof.
  intros e n r. unfold named_type, find_dim, find_unit, unit_lookup.
  destruct (find _ (en_dims e)) as [x|]; cbn [bind]; [|repeat split; discriminate].
  destruct (find _ (en_units e)) as [u|]; cbn [bind]; [|repeat split; discriminate].
  destruct (unit_of u (snd x)); cbn [bind constrained]; repeat split; discriminate.
Qed.

Section Program.
Variables (est : estimate) (mode : downcast_mode) (prog : list entry) (e : env).
Hypothesis (I : incl prog catalogue) (E : elaborate est mode isq_templates empty_env prog = Ok e).

Lemma program_agrees : agree e full.
Proof. exact (elaborate_included _ _ _ _ _ _ _ (full_elaborates est) I _ _ (agree_empty _) E). Qed.

Lemma named_parts : forall n r t, named_type e n r = Ok t ->
  exists x u, find_dim e (n_dim n) = Ok x /\ find_unit e (n_unit n) = Ok u /\ unit_of u (snd x) = true /\
    t = QType (snd x) u r /\ find_dim full (n_dim n) = Ok x /\ find_unit full (n_unit n) = Ok u.
Proof.
  intros n r t H. unfold named_type in H. step H as x X. step H as u U. step H as z Z.
  apply constrained_ok in Z. inversion H; subst t. destruct program_agrees as (_ & A2 & A3).
  exists x, u. repeat split; auto.
Qed.

Lemma names_sized : forall n r t, In n all_names -> named_type e n r = Ok t ->
  exists x u, find_dim e (n_dim n) = Ok x /\ find_unit e (n_unit n) = Ok u /\ t = QType (snd x) u r /\
   (natural_dim x = false ->
      exists v, readings_as (quantity_name x) (n_ns n) (n_name n) = [v] /\
        sized est t (deviation (n_unit n) * v * si_coherent (quantity_name x))) /\
   (natural_dim x = true ->
      exists k row, assoc natural_readings (n_name n) = Some k /\
        assoc quantity_table (quantity_name x) = Some row /\
        k = exponent_in row "dim_mass" - exponent_in row "dim_length" - exponent_in row "dim_time" /\
        sized est t (inject_Z (10 ^ 9) ^ exponent_in row "dim_mass")).
Proof.
  intros n r t Hn H. destruct (named_parts _ _ _ H) as (x & u & X & U & O & -> & Fx & Fu).
  exists x, u. split; [exact X|]. split; [exact U|]. split; [reflexivity|].
  pose proof (proj1 (forallb_forall _ _) all_checked n Hn) as C. unfold name_checked in C.
  rewrite Fx, Fu, O in C. cbn [andb] in C.
  pose proof (find_unit_name _ _ _ U) as Un.
  assert (Nu : named u = n_unit n) by (unfold named; now rewrite Un).
  pose proof (find_unit_in _ _ _ Fu) as Hu. pose proof (find_dim_in _ _ _ Fx) as Hx.
  pose proof (full_unit_checked u x Hu Hx O) as D. unfold unit_checked in D. rewrite Nu in D.
  destruct (full_good u x Hu Hx) as [G1 G2].
  split; intros N; rewrite N in C, D.
  - destruct (row_for (n_unit n)) as [r'|] eqn:R; [|discriminate].
    destruct (readings_as (quantity_name x) (n_ns n) (n_name n)) as [|v [|? ?]] eqn:V; try discriminate.
    apply andb_true_iff in C as [C _]. apply Qeq_bool_iff in C.
    apply andb_true_iff in D as [_ D]. apply Qeq_bool_iff in D.
    exists v. split; [reflexivity|]. eapply sized_ext; [|exact (mag_sized est _ _ r G2 G1 O)].
    rewrite D, C. reflexivity.
  - destruct (assoc natural_readings (n_name n)) as [k|] eqn:K; [|discriminate].
    destruct (natural_row (n_unit n)) as [[[m k'] v]|] eqn:R; [|discriminate].
    destruct (assoc quantity_table (quantity_name x)) as [row|] eqn:Q; [|discriminate].
    apply andb_true_iff in C as [C1 C2]. apply Z.eqb_eq in C1. apply Qeq_bool_iff in C2.
    apply andb_true_iff in D as [D1 D2]. apply Z.eqb_eq in D1. apply Qeq_bool_iff in D2.
    exists k, row. split; [reflexivity|]. split; [reflexivity|]. split; [congruence|].
    eapply sized_ext; [|exact (mag_sized est _ _ r G2 G1 O)]. rewrite D2, C2. ring.
Qed.

(** What a program can use. *)
Lemma dangling_ill : forall n r, In n all_names -> n_ns n = "si::radioactivity" -> named_type e n r = IllFormed.
Proof.
  intros n r Hn N. pose proof (proj1 (forallb_forall _ _) absent n Hn) as A. cbv beta in A. rewrite N in A. cbn [String.eqb negb orb] in A.
  destruct (named_type e n r) as [t| | | |] eqn:T.
  - exfalso. destruct (named_parts _ _ _ T) as (x & u & _ & _ & _ & _ & Fx & Fu).
    unfold in_full in A. rewrite Fx, Fu in A. discriminate.
  - exfalso. revert T. apply named_type_outcome.
  - exfalso. revert T. apply named_type_outcome.
  - reflexivity.
  - exfalso. revert T. apply named_type_outcome.
Qed.
End Program.

Lemma names_available : forall est mode e, elaborate est mode isq_templates empty_env catalogue = Ok e ->
  forall n r, In n all_names -> n_ns n <> "si::radioactivity" -> exists t, named_type e n r = Ok t.
Proof.
  intros est mode e E n r Hn N.
  pose proof (proj1 (forallb_forall _ _) present n Hn) as A. cbv beta in A.
  apply orb_true_iff in A as [A|A]; [|apply String.eqb_eq in A; contradiction].
  pose proof (proj1 (forallb_forall _ _) all_checked n Hn) as C. unfold name_checked in C. unfold in_full in A.
  destruct (find_dim full (n_dim n)) as [x| | | |] eqn:Fx; try discriminate A.
  destruct (find_unit full (n_unit n)) as [u| | | |] eqn:Fu; try discriminate A.
  apply andb_true_iff in C as [O _].
  destruct (elaborate_included _ _ _ _ _ _ _ E (fun y Hy => Hy) _ _ (agree_empty _) (full_elaborates est)) as (_ & A2 & A3).
  exists (QType (snd x) u r). unfold named_type. rewrite (A3 _ _ Fx), (A2 _ _ Fu). cbn [bind]. rewrite O. reflexivity.
Qed.
