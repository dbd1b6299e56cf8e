(** Property theorem C76: the concepts of the quantities ([Length], [Speed], ...), in any
    program that includes any of the headers of the library. *)

From Coq Require Import ZArith QArith Lqa Lia String List Bool.
From Verif Require Import Outcome CInt Root Ratio FixedString Unit Downcast Dim DimOp Equivalent Rep QuantityCast Quantity Reference
  System Catalogue Concepts SpecDim SpecCatalogue SpecSystems SpecConcepts DimProofs DimOpProofs SystemProofs
  IsqProofs CatalogueProofs KindProofs WorldProofs SystemsProofs ConceptsProofs Props_Catalogue Props_Systems.
Import ListNotations.
Local Open Scope string_scope.
Local Open Scope Z_scope.
Local Open Scope res_scope.

#[local] Opaque full catalogue unit_table natural_table quantity_table isq_templates prefix_table systems isq_systems.

(** * C76: the concept of a quantity accepts exactly the quantities of that kind *)

Definition concept (c : string) : Prop := In c (map fst isq_concepts).

Lemma find_dim_named : forall e n o d, find_dim e n = Ok (o, d) -> In (o, d) (en_dims e) /\ dim_name d = n.
Proof.
  intros e n o d H. unfold find_dim in H. destruct (find (fun d => String.eqb n (dim_name (snd d))) (en_dims e)) as [p|] eqn:F; [|discriminate H].
  apply find_some in F as [A B]. assert (p = (o, d)) by congruence. subst p. apply String.eqb_eq in B. auto.
Qed.

Lemma names_checked : forallb (fun x => String.eqb (snd x) (quantity_called (fst x)) && match assoc quantity_table (snd x) with Some _ => true | None => false end) isq_concepts &&
  forallb (fun y => existsb (fun x => String.eqb (quantity_called (fst x)) (fst y)) isq_concepts) quantity_table = true.
Proof. vm_compute. reflexivity. Qed.

Lemma satisfies_concept : forall mode e q c, concept c ->
  satisfies mode isq_templates e q c = dimension_of_t mode isq_templates e (q_dim q) (quantity_called c).
Proof.
  intros mode e q c H. unfold concept in H. unfold satisfies.
  destruct (find (fun x => String.eqb c (fst x)) isq_concepts) as [[c' t]|] eqn:F.
  - pose proof (find_some _ _ F) as [G A]. cbn [fst] in A. apply String.eqb_eq in A. subst c'.
    pose proof names_checked as N. apply andb_true_iff in N as [N _]. pose proof (proj1 (forallb_forall _ _) N _ G) as N1. cbn [fst snd] in N1.
    apply andb_true_iff in N1 as [N1 _]. apply String.eqb_eq in N1. subst t. reflexivity.
  - exfalso. apply in_map_iff in H as ([c' t] & <- & H). pose proof (find_none _ _ F _ H) as A. cbn [fst] in A. rewrite String.eqb_refl in A. discriminate A.
Qed.

(** There is one concept for each quantity of the ISQ, and it bears its name. *)
Theorem C76_names :
  (forall c, concept c -> exists row, assoc quantity_table (quantity_called c) = Some row) /\
  (forall t row, assoc quantity_table t = Some row -> exists c, concept c /\ quantity_called c = t).
Proof.
  pose proof names_checked as N. apply andb_true_iff in N as [N1 N2]. split.
  - intros c H. apply in_map_iff in H as ([c' t] & <- & H). pose proof (proj1 (forallb_forall _ _) N1 _ H) as A. cbn [fst snd] in A |- *.
    apply andb_true_iff in A as [A B]. apply String.eqb_eq in A. subst t. destruct (assoc quantity_table (quantity_called c')); [eauto|discriminate B].
  - intros t row R. apply assoc_in in R. pose proof (proj1 (forallb_forall _ _) N2 _ R) as A. cbv beta in A. apply existsb_exists in A as ([c t'] & Hc & A).
    apply String.eqb_eq in A. cbn [fst] in A. exists c. split; [exact (in_map fst _ _ Hc)|exact A].
Qed.
Print Assumptions C76_names.

(** A quantity of a declared dimension satisfies the concept of the quantity its dimension
    was declared for, and no other. *)
Theorem C76_declared : forall est mode prog e, compiles est mode prog e ->
  forall q o c, In (o, q_dim q) (en_dims e) -> concept c ->
  (o = Some (quantity_called c) /\ satisfies mode isq_templates e q c = Ok true) \/
  (o <> Some (quantity_called c) /\ satisfies mode isq_templates e q c = Ok false).
Proof.
  intros est mode prog e [I E] q o c O C. rewrite (satisfies_concept mode e q c C), (declared_of_t est mode prog e E o _ _ O).
  destruct o as [t|]; [|right; split; [discriminate|reflexivity]]. destruct (String.eqb (quantity_called c) t) eqn:A.
  - apply String.eqb_eq in A. subst t. now left.
  - right. split; [|reflexivity]. apply String.eqb_neq in A. congruence.
Qed.
Print Assumptions C76_declared.

(** Whatever satisfies a concept, in any mode of downcasting, has the dimension of that quantity
    in the ISQ. *)
Theorem C76_sound : forall est mode prog e, compiles est mode prog e ->
  forall q c, of_program e (q_dim q) -> concept c -> satisfies mode isq_templates e q c = Ok true ->
  exists row, assoc quantity_table (quantity_called c) = Some row /\ has_exponents e (q_dim q) row.
Proof.
  intros est mode prog e [I E] q c P C H. rewrite (satisfies_concept mode e q c C) in H.
  exact (of_t_sound est mode prog e E _ _ P H).
Qed.
Print Assumptions C76_sound.

(** What the operators make of declared quantities, in any number of steps, satisfies the
    concept of the quantity whose dimension it has, if that is declared (and with downcasting). *)
Theorem C76_operators : forall est mode prog e s, compiles est mode prog e -> In s isq_systems ->
  forall q c dc row, obtained e s (q_dim q) -> concept c ->
  In (Some (quantity_called c), dc) (en_dims e) -> of_system e mode s dc ->
  assoc quantity_table (quantity_called c) = Some row -> has_exponents e (q_dim q) row ->
  satisfies mode isq_templates e q c = Ok true.
Proof.
  intros est mode prog e s [I E] Hs q c dc row Oq C Hc (_ & B & K) R X.
  pose proof (found est prog e I mode E s Hs (q_dim q) _ dc row Oq Hc B K R X) as D. rewrite (satisfies_concept mode e q c C), D.
  rewrite (declared_of_t est mode prog e E _ _ _ Hc), String.eqb_refl. reflexivity.
Qed.
Print Assumptions C76_operators.

(** Without downcasting the product is none of the declared dimensions; the concepts of nine
    quantities recognise it by its exponents ... *)
Theorem C76_off : forall est prog e s, compiles est Off prog e -> In s isq_systems ->
  forall q c, obtained e s (q_dim q) -> (forall o, ~ In (o, q_dim q) (en_dims e)) -> In c plain_concepts ->
  exists row, assoc quantity_table (quantity_called c) = Some row /\
    (satisfies Off isq_templates e q c = Ok true <-> has_exponents e (q_dim q) row).
Proof.
  intros est prog e s [I E] Hs q c Oq N P.
  assert (C : concept c).
  { assert (T : forallb (fun c => existsb (String.eqb c) (map fst isq_concepts)) plain_concepts = true) by (vm_compute; reflexivity).
    pose proof (proj1 (forallb_forall _ _) T c P) as A. apply existsb_exists in A as (x & Hx & A). apply String.eqb_eq in A. now subst x. }
  destruct (proj1 C76_names c C) as (row & R). exists row. split; [exact R|].
  rewrite (satisfies_concept Off e q c C). split; intros H.
  - assert (Op : of_program e (q_dim q)).
    { right. destruct (obtained_shape est prog e I Off E s Hs _ Oq) as [[Nn No] [(o & O)|S]]; [exfalso; exact (N o O)|].
      destruct (made_shape est prog e Off E s (q_dim q) (conj Nn No) S) as [(o & O)|D]; [exfalso; exact (N o O)|].
      exists (exponents (q_dim q)). split; [rewrite (unknown_strict _ (proj1 Nn)); congruence|].
      exact (ndim_declared e s _ (conj Nn No)). }
    destruct (of_t_sound est Off prog e E (q_dim q) _ Op H) as (row' & R' & X). rewrite R in R'. injection R' as <-. exact X.
  - exact (unknown_accepted est prog e I Off E s Hs (q_dim q) c row eq_refl Oq P R H N).
Qed.
Print Assumptions C76_off.

(** ... and asking any other concept about it does not compile, even the concept of the quantity
    it is. *)
Theorem C76_off_refuted : forall est prog e s, compiles est Off prog e -> In s isq_systems ->
  forall q c, obtained e s (q_dim q) -> (forall o, ~ In (o, q_dim q) (en_dims e)) -> concept c -> ~ In c plain_concepts ->
  satisfies Off isq_templates e q c = IllFormed.
Proof.
  intros est prog e s [I E] Hs q c Oq N C P. rewrite (satisfies_concept Off e q c C).
  exact (unknown_refused est prog e I Off E s Hs (q_dim q) c eq_refl Oq P C N).
Qed.
Print Assumptions C76_off_refuted.

(** [Dimensionless] accepts what has no exponents. *)
Theorem C76_dimensionless : forall est mode prog e s, compiles est mode prog e -> In s isq_systems ->
  forall q d, obtained e s (q_dim q) -> find_dim e "dim_one" = Ok d ->
  exists b, satisfies mode isq_templates e q "Dimensionless" = Ok b /\
    (b = true <-> forall k, (quantity_expo (quantity_of e) k (exponents (q_dim q)) == 0)%Q).
Proof.
  intros est mode prog e s [I E] Hs q d Oq D.
  assert (F : exponents (snd d) = [] /\ match snd d with DBase _ => false | _ => true end = true).
  { destruct d as [o d]. apply find_dim_named in D as [Hd Nd]. apply (program_dims est mode prog e I E) in Hd.
    assert (T : forallb (fun x => negb (String.eqb (dim_name (snd x)) "dim_one") || match exponents (snd x) with [] => match snd x with DBase _ => false | _ => true end | _ => false end) (en_dims full) = true) by (vm_compute; reflexivity).
    pose proof (proj1 (forallb_forall _ _) T _ Hd) as A. cbn [snd] in A. rewrite Nd in A. cbn in A. cbn [snd].
    destruct (exponents d); [|discriminate A]. auto. }
  change (satisfies mode isq_templates e q "Dimensionless") with (d <- find_dim e "dim_one"; Ok (quantity_of_dim q (snd d))).
  rewrite D. cbn [bind]. eexists. split; [reflexivity|]. unfold quantity_of_dim.
  destruct (obtained_shape est prog e I mode E s Hs _ Oq) as [[N O] _]. destruct F as [F1 F2].
  assert (Q : dim_equivalent (q_dim q) (snd d) = true <-> exponents (q_dim q) = []).
  { unfold dim_equivalent. destruct (snd d) as [|n es u r|a es]; [discriminate F2| |]; cbn [exponents] in F1; subst es;
      (destruct (q_dim q) as [b|n' es' u' r'|a' es']; cbn [exponents]; [split; discriminate|destruct es'; cbn; split; congruence..]). }
  rewrite Q. split; [intros ->; reflexivity|]. intros Z.
  apply (normal_unique (base_of e s) (program_symbols est mode prog e I E s (isq_in_systems s Hs))); [exact N|split; constructor|exact O|intros x []|].
  intros b Ub. rewrite (expo_quantity est mode prog e I E s Hs _ b O Ub), (Z (quantity_of e b)). reflexivity.
Qed.
Print Assumptions C76_dimensionless.

Lemma information : forall est mode prog e, compiles est mode prog e ->
  forall q o c n d, In (o, q_dim q) (en_dims e) -> In (c, n) dim_concepts -> c <> "Dimensionless" -> find_dim e n = Ok d ->
  satisfies mode isq_templates e q c = Ok (String.eqb (dim_name (q_dim q)) n).
Proof.
  intros est mode prog e [I E] q o c n d O H C D.
  assert (S : satisfies mode isq_templates e q c = (d <- find_dim e n; Ok (quantity_of_dim q (snd d)))).
  { unfold dim_concepts in H. cbn [In] in H. repeat destruct H as [H|H]; try (injection H as <- <-; try reflexivity; exfalso; apply C; reflexivity). destruct H. }
  rewrite S, D. cbn [bind]. f_equal. unfold quantity_of_dim.
  apply (program_dims est mode prog e I E) in O. destruct d as [o' d]. apply find_dim_named in D as [Hd Nd]. apply (program_dims est mode prog e I E) in Hd.
  assert (T : forallb (fun x => forallb (fun y => negb (existsb (String.eqb (dim_name (snd y))) (tl (map snd dim_concepts))) ||
    Bool.eqb (dim_equivalent (snd x) (snd y)) (String.eqb (dim_name (snd x)) (dim_name (snd y)))) (en_dims full)) (en_dims full) = true) by (vm_compute; reflexivity).
  pose proof (proj1 (forallb_forall _ _) T _ O) as A. cbv beta in A. pose proof (proj1 (forallb_forall _ _) A _ Hd) as B. cbn [snd] in B |- *.
  rewrite Nd in B. apply orb_true_iff in B as [B|B]; [|now apply eqb_prop in B].
  exfalso. apply negb_true_iff in B. destruct H as [H|H]; [injection H as <- _; apply C; reflexivity|].
  assert (X : existsb (String.eqb n) (tl (map snd dim_concepts)) = true) by (apply existsb_exists; exists n; split; [exact (in_map snd _ _ H)|apply String.eqb_refl]).
  rewrite X in B. discriminate B.
Qed.

(** The concepts of the quantities of information accept the dimension they are named after alone. *)
Theorem C76_information : forall est mode prog e, compiles est mode prog e ->
  forall q o c d, In (o, q_dim q) (en_dims e) -> In c ["StorageCapacity"; "TrafficIntensity"; "TransferRate"] ->
  find_dim e ("iec80000::" ++ quantity_called c) = Ok d ->
  satisfies mode isq_templates e q c = Ok (String.eqb (dim_name (q_dim q)) ("iec80000::" ++ quantity_called c)).
Proof.
  intros est mode prog e C q o c d O H D. apply (information est mode prog e C q o c _ d O); [| |exact D].
  - cbn [In] in H. repeat destruct H as [<-|H]; try destruct H; vm_compute; tauto.
  - intros ->. cbn [In] in H. repeat destruct H as [H|H]; try discriminate H. destruct H.
Qed.
Print Assumptions C76_information.

(** With downcasting a force times a length is an energy; without, a length by a time is a speed,
    but asking whether a mass times an acceleration is a force does not compile. *)
Definition unaided : env := Eval vm_compute in result (elaborate no_estimate Off isq_templates empty_env mechanics).
Definition udim (n : string) : dimension := dim_or (find_dim unaided n).
Definition product (w : world) (a b : dimension) : dimension := match dimension_multiply w a b with Ok d => d | _ => a end.
Definition quotient (w : world) (a b : dimension) : dimension := match dimension_divide w a b with Ok d => d | _ => a end.
Example C76_ex : forall est u r, compiles est Automatic mechanics mechanical /\ compiles est Off mechanics unaided /\ In si isq_systems /\
  obtained mechanical si (product (en_world mechanical) (mdim "si::dim_force") (mdim "si::dim_length")) /\
  satisfies Automatic isq_templates mechanical (QType (product (en_world mechanical) (mdim "si::dim_force") (mdim "si::dim_length")) u r) "Energy" = Ok true /\
  obtained unaided si (quotient (en_world unaided) (udim "si::dim_length") (udim "si::dim_time")) /\
  satisfies Off isq_templates unaided (QType (quotient (en_world unaided) (udim "si::dim_length") (udim "si::dim_time")) u r) "Speed" = Ok true /\
  obtained unaided si (product (en_world unaided) (udim "si::dim_mass") (udim "si::dim_acceleration")) /\
  (forall o, ~ In (o, product (en_world unaided) (udim "si::dim_mass") (udim "si::dim_acceleration")) (en_dims unaided)) /\
  satisfies Off isq_templates unaided (QType (product (en_world unaided) (udim "si::dim_mass") (udim "si::dim_acceleration")) u r) "Force" = IllFormed.
Proof.
  intros est u r. assert (M := mechanical_compiles est).
  assert (Co : compiles est Off mechanics unaided) by (split; [exact (proj1 M)|vm_compute; reflexivity]).
  assert (D : forall e n, find_dim e n = Ok (fst (match find_dim e n with Ok d => d | _ => (None, dim_one) end), dim_or (find_dim e n)) ->
    builtb si (dim_or (find_dim e n)) = true -> obtained e si (dim_or (find_dim e n))).
  { intros e n F B. apply find_dim_in in F. exact (ob_declared e si _ _ F (builtb_built _ _ B)). }
  split; [exact M|]. split; [exact Co|]. split; [with_strategy transparent [isq_systems] now left|].
  split; [|split; [vm_compute; reflexivity|split; [|split; [vm_compute; reflexivity|split; [|split; [|vm_compute; reflexivity]]]]]].
  - apply (ob_multiply mechanical si (mdim "si::dim_force") (mdim "si::dim_length")); [apply D; vm_compute; reflexivity..|vm_compute; reflexivity].
  - apply (ob_divide unaided si (udim "si::dim_length") (udim "si::dim_time")); [apply D; vm_compute; reflexivity..|vm_compute; reflexivity].
  - apply (ob_multiply unaided si (udim "si::dim_mass") (udim "si::dim_acceleration")); [apply D; vm_compute; reflexivity..|vm_compute; reflexivity].
  - intros o H. apply (program_labelled _ _ _ _ (proj2 Co)) in H. vm_compute in H. exact H.
Qed.
