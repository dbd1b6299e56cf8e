(** C100: nothing of the units is left when a program runs. *)

From Coq Require Import ZArith String List Bool Lia.
From Verif Require Import Outcome CInt Root Ratio Unit Downcast Dim DimOp Equivalent Rep Reference QuantityCast CommonQuantity Quantity Point Affine Static SpecStatic
  StaticProofs Program SpecProgram ProgramProofs SpecNumbers KindEraseProofs LowerProofs LowerPrograms Samples Props_Dim Props_Quantity Props_Affine Props_Program.
Import ListNotations.
Local Open Scope res_scope.

(** * C100: zero overhead *)

(** An object holds its number and nothing else: the objects of given types are in bijection
    with the numbers of their representations. *)
Definition fits (t : atype) (n : number) : Prop := num_ok (q_rep (qtype_of t)) n = true.
Theorem C100_objects : forall d, (forall m, well_typed d m -> of_types d (numbers m) = m /\ Forall2 fits d (numbers m)) /\
  (forall l, Forall2 fits d l -> well_typed d (of_types d l) /\ numbers (of_types d l) = l).
Proof.
  intros d. split.
  - intros m W. split; [now apply retyped|]. induction W as [|t v g m [T S] F IH]; [constructor|]. cbn. constructor; [|exact IH]. subst t. destruct v; exact S.
  - intros l F. induction F as [|t n g l N F [IH1 IH2]]; [split; [constructor|reflexivity]|]. cbn. split.
    + constructor; [|exact IH1]. destruct t; now split.
    + unfold numbers in IH2. rewrite IH2. now destruct t.
Qed.
Print Assumptions C100_objects.

(** An expression that compiles is an expression of plain numbers, chosen before the values of
    the variables are known: it gives the number of the result, and it is undefined exactly when
    the expression of quantities is.  It takes at most 13 operations for each operator of the
    text, and where the types on the two sides of the operators agree not more than one. *)
Theorem C100_expressions : forall rb est w d e t, ptype_of rb est w d e = Ok t -> pexpr_sound e ->
  exists f : nexpr, nops f <= 13 * operators e /\ (direct rb est w d e -> nops f <= operators e) /\
    forall m, well_typed d m -> peval rb est w m e = (n <- neval (numbers m) f; Ok (of_type t n)).
Proof. intros rb est w d e t T S. exact (lower_expression rb est w d e t T S). Qed.
Print Assumptions C100_expressions.

(** A program that compiles is a program of plain numbers: from the numbers of the variables,
    step for step, to the numbers of the variables, undefined or unfinished in the same cases. *)
Theorem C100_programs : forall rb est w d s, compiles rb est w d s = Ok tt -> pstmt_sound s ->
  exists p : nstmt, nops_stmt p <= 13 * operators_stmt s /\ (direct_stmt rb est w d s -> nops_stmt p <= operators_stmt s) /\
    forall n m, well_typed d m -> run rb est w n s m = typed_as d (nrun n p (numbers m)).
Proof. intros rb est w d s H S. exact (lower_program rb est w d s H S). Qed.
Print Assumptions C100_programs.

(** ** Cases *)

Definition two_lengths : declared := [TQuantity (lengths metre I64); TQuantity (lengths metre I64)].
(** [while (way < 3000 m) { way += step; step = step + 500 m; }] *)
Definition hike_numbers : nstmt :=
  NWhile (NRel RLt (NVar 0) (NLit (NInt 3000)))
    (NSeq (NAssign 0 (NOp OpAdd (RInt I64) (NVar 0) (NVar 1))) (NAssign 1 (NOp OpAdd (RInt I64) (NVar 1) (NLit (NInt 500))))).
Lemma long_works : works_in (RInt I64) (RInt I64).
Proof. reflexivity. Qed.
Example C100_ex : forall est w, si_world = Ok w ->
  compiles no_rebinding est w two_lengths (hike metre 3000 metre 500) = Ok tt /\ pstmt_sound (hike metre 3000 metre 500) /\
  direct_stmt no_rebinding est w two_lengths (hike metre 3000 metre 500) /\ operators_stmt (hike metre 3000 metre 500) = 4 /\
  nops_stmt hike_numbers = 3 /\ well_typed two_lengths [long metre 0; long metre 1000] /\
  run no_rebinding est w 10 (hike metre 3000 metre 500) [long metre 0; long metre 1000] = Ok [long metre 4500; long metre 2500] /\
  typed_as two_lengths (nrun 10 hike_numbers [NInt 0; NInt 1000]) = Ok [long metre 4500; long metre 2500].
Proof.
  intros est w W. vm_compute in W. injection W as <-.
  split; [vm_compute; reflexivity|]. split; [repeat split|]. split.
  - split; [|split].
    + split; [exact I|]. split; [exact I|]. exists (lengths metre I64). split; eexists; split; reflexivity.
    + eexists. split; [reflexivity|]. split; [exact I|]. split; [eexists; split; reflexivity|reflexivity].
    + split.
      * split; [exact I|]. split; [exact I|]. exists (lengths metre I64), (lengths metre I64). split; [eexists; split; reflexivity|]. split; [eexists; split; reflexivity|].
        split; [reflexivity|]. split; reflexivity.
      * eexists. split; [reflexivity|]. eexists. split; [vm_compute; reflexivity|reflexivity].
  - split; [reflexivity|]. split; [reflexivity|]. split; [repeat constructor|]. split; vm_compute; reflexivity.
Qed.
(** With the limit written as 3 km the condition converts, at run time, the one side of the
    comparison: the program is not direct, but compiles as well. *)
Example C100_ex_units : forall est w, si_world = Ok w ->
  compiles no_rebinding est w two_lengths (hike kilometre 3 metre 500) = Ok tt /\ pstmt_sound (hike kilometre 3 metre 500) /\
  ~ direct_stmt no_rebinding est w two_lengths (hike kilometre 3 metre 500).
Proof.
  intros est w W. vm_compute in W. injection W as <-. split; [vm_compute; reflexivity|]. split; [repeat split|].
  intros [(_ & _ & t & (a & A1 & A2) & (b & B1 & B2)) _]. injection A1 as <-. injection B1 as <-. cbn [qtype_of] in *. subst t. vm_compute in B2. discriminate.
Qed.
(** Quantities of [short] are added in [int], as plain [short]s are: the operands are converted. *)
Example C100_ex_short : forall est w, si_world = Ok w -> let t := TQuantity (lengths metre (ITy W16 true)) in
  (exists u, ptype_of no_rebinding est w [t; t] (EBinary BAdd (EVar 0) (EVar 1)) = Ok u /\ qtype_of u = lengths metre I32) /\
  ~ direct no_rebinding est w [t; t] (EBinary BAdd (EVar 0) (EVar 1)).
Proof.
  intros est w W t. vm_compute in W. injection W as <-. split; [eexists; split; vm_compute; reflexivity|].
  intros (_ & _ & t1 & t2 & (a & A1 & A2) & (b & B1 & B2) & H & _). injection A1 as <-. injection B1 as <-. subst t1 t2. vm_compute in H. discriminate.
Qed.
