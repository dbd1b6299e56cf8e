(** C96: a whole program does the same whatever else is declared, and in every downcasting mode. *)

From Coq Require Import ZArith QArith String List Bool Lia.
From Verif Require Import Outcome CInt Root Ratio SpecRatio FixedString Unit Downcast Dim DimOp Equivalent SpecDim DimOpProofs SpecUnit MagnitudeProofs Rep Reference QuantityCast
  CommonQuantity Quantity SpecQuantity Point Kind PointKind Expr Affine Static SpecStatic StaticProofs Program SpecProgram ProgramProofs UnitDecl EquivalentTypes SpecModes ModeProofs ModeProofs2
  SpecProgramModes ProgramModeProofs Samples Props_Dim Props_Unit Props_Quantity Props_Expr Props_Affine Props_Modes.
Import ListNotations.
Local Open Scope string_scope.
Local Open Scope list_scope.
Local Open Scope Z_scope.
Local Open Scope res_scope.

Lemma agreeing : forall U m m', Forall2 same_value m m' -> Forall (plain_value U) m -> Forall (plain_value U) m' -> Forall2 (vagree U) m m'.
Proof.
  intros U m m' M. induction M as [|v v' m m' V M IH]; intros P P'; [constructor|]. inversion P; inversion P'; subst. constructor; [|now apply IH].
  destruct v as [q|p], v' as [q'|p']; try contradiction; destruct V as [S N]; (split; [assumption|split; [assumption|split; assumption]]).
Qed.
Lemma agreed : forall U m m', Forall2 (vagree U) m m' -> Forall2 same_value m m'.
Proof.
  intros U m m' M. induction M as [|v v' m m' V M IH]; constructor; [|exact IH].
  destruct v as [q|p], v' as [q'|p']; try contradiction; destruct V as (_ & _ & S & N); split; assumption.
Qed.

(** One text compiled in two programs, which may declare different dimensions and units or none,
    and from variables whose types differ only in names: it goes through the same steps, and ends
    with the same numbers in types that differ only in names, or is undefined in both. *)
Theorem C96_same_outcome : forall U rb est w w' g g' n s m m', symbols_identify U -> decimal U -> honest rb -> plain_program U w -> plain_program U w' ->
  well_typed g m -> well_typed g' m' -> Forall (plain_value U) m -> Forall (plain_value U) m' -> Forall2 same_value m m' ->
  plain_stmt U s -> pstmt_sound s -> compiles rb est w g s = Ok tt -> compiles rb est w' g' s = Ok tt ->
  same_outcome (run rb est w n s m) (run rb est w' n s m').
Proof.
  intros U rb est w w' g g' n s m m' HU HD R P P' W W' Q Q' M X S H H'.
  destruct (run_both U HU HD w w' (plain_ok U w P) (plain_ok U w' P') rb R est n s g g' m m' W W' (agreeing U m m' M Q Q') X S H H')
    as [(k & k' & E & E' & K & _)|[[E E']|[E E']]]; rewrite E, E'; cbn [same_outcome]; [|exact I|exact I]. exact (agreed U k k' K).
Qed.
Print Assumptions C96_same_outcome.

(** When the variables are declared with the same types the outcomes are equal. *)
Theorem C96_equal : forall U rb est w w' g n s m, symbols_identify U -> decimal U -> honest rb -> plain_program U w -> plain_program U w' ->
  well_typed g m -> Forall (plain_value U) m -> plain_stmt U s -> pstmt_sound s -> compiles rb est w g s = Ok tt -> compiles rb est w' g s = Ok tt ->
  run rb est w n s m = run rb est w' n s m.
Proof.
  intros U rb est w w' g n s m HU HD R P P' W Q X S H H'.
  assert (M : Forall2 same_value m m).
  { clear. induction m as [|[q|p] m IH]; constructor; auto; split; auto; apply same_refl_names. }
  destruct (run_both U HU HD w w' (plain_ok U w P) (plain_ok U w' P') rb R est n s g g m m W W (agreeing U m m M Q Q) X S H H')
    as [(k & k' & E & E' & K & V & V')|[[E E']|[E E']]]; rewrite E, E'; try reflexivity. f_equal.
  clear - K V V'. revert g V V'. induction K as [|v v' k k' A K IH]; intros [|t g] V V'; inversion V as [|? ? ? ? [T _] Vr]; inversion V' as [|? ? ? ? [T' _] Vr']; subst; [reflexivity|].
  f_equal; [|now apply (IH g)].
  destruct v as [[tq z]|[tq z]], v' as [[tq' z']|[tq' z']]; try contradiction; cbn [vtype q_type pt_type] in *;
    inversion T'; subst; destruct A as (_ & _ & _ & N); cbn in N; subst; reflexivity.
Qed.
Print Assumptions C96_equal.

(** With downcasting switched off. *)
Theorem C96_downcasting_off : forall U rb est w g n s m, symbols_identify U -> decimal U -> honest rb -> plain_program U w ->
  well_typed g m -> Forall (plain_value U) m -> plain_stmt U s -> pstmt_sound s -> compiles rb est w g s = Ok tt -> compiles rb est empty_world g s = Ok tt ->
  run rb est w n s m = run rb est empty_world n s m.
Proof.
  intros U rb est w g n s m HU HD R P. apply (C96_equal U rb est w empty_world g n s m HU HD R P). split; [constructor|]. intros es d I. destruct I.
Qed.
Print Assumptions C96_downcasting_off.

(** * Cases *)

(** [while (way < 1 km) { way += v * (10 s); v += 50 m / (5 s); }] with [auto v = 100 m / (2 s)],
    whose type is a speed in the one program and of unknown dimension in the other. *)
Definition start : aexpr := ABinary BDiv (len metre 100) (tim second 2).
Definition const_len (u : cunit) (n : Z) : pexpr := EConst (VQuantity (Quantity (QType (DBase dim_L) u (RInt I64)) (NInt n))).
Definition const_tim (u : cunit) (n : Z) : pexpr := EConst (VQuantity (Quantity (QType (DBase dim_T) u (RInt I64)) (NInt n))).
Definition speeding : pstmt :=
  SWhile (CRel RLt (EVar 0) (const_len kilometre 1))
    (SSeq (SChange 0 (HAdd (EBinary BMul (EVar 1) (const_tim second 10)))) (SChange 1 (HAdd (EBinary BDiv (const_len metre 50) (const_tim second 5))))).
Definition way (n : Z) : avalue := VQuantity (Quantity (QType (DBase dim_L) metre (RInt I64)) (NInt n)).

Lemma base_value : forall b u n, b = dim_L /\ (u = metre \/ u = kilometre) \/ b = dim_T /\ u = second -> plain_type si_base (QType (DBase b) u (RInt n)).
Proof.
  intros b u n [[-> [->| ->]]|[-> ->]]; (apply si_base_plain; [unfold si_base; auto|vm_compute; intuition congruence|reflexivity]).
Qed.
Lemma speeding_plain : plain_stmt si_base speeding.
Proof.
  cbn [speeding plain_stmt plain_cond plain_change plain_pexpr const_len const_tim plain_value q_type].
  repeat (match goal with |- _ /\ _ => split | |- True => exact I end || apply base_value; auto).
Qed.
Example C96_ex : forall est, exists w q q' r r', si_world = Ok w /\ plain_program si_base w /\ plain_program si_base empty_world /\
  aeval no_rebinding est w start = Ok (VQuantity q) /\ aeval no_rebinding est empty_world start = Ok (VQuantity q') /\ q_dim (q_type q) <> q_dim (q_type q') /\
  well_typed [vtype (way 0); vtype (VQuantity q)] [way 0; VQuantity q] /\ well_typed [vtype (way 0); vtype (VQuantity q')] [way 0; VQuantity q'] /\
  Forall (plain_value si_base) [way 0; VQuantity q] /\ Forall (plain_value si_base) [way 0; VQuantity q'] /\ Forall2 same_value [way 0; VQuantity q] [way 0; VQuantity q'] /\
  plain_stmt si_base speeding /\ pstmt_sound speeding /\
  compiles no_rebinding est w [vtype (way 0); vtype (VQuantity q)] speeding = Ok tt /\
  compiles no_rebinding est empty_world [vtype (way 0); vtype (VQuantity q')] speeding = Ok tt /\
  run no_rebinding est w 10 speeding [way 0; VQuantity q] = Ok [way 1100; VQuantity r] /\
  run no_rebinding est empty_world 10 speeding [way 0; VQuantity q'] = Ok [way 1100; VQuantity r'] /\
  q_num r = NInt 70 /\ q_num r' = NInt 70 /\ q_type r = q_type q /\ q_type r' = q_type q'.
Proof.
  intros est. destruct si_world_reachable as (w & H & R). exists w.
  assert (K : exists q r, aeval no_rebinding est w start = Ok (VQuantity q) /\ q_dim (q_type q) = dim_speed /\ q_sound q /\
    compiles no_rebinding est w [vtype (way 0); vtype (VQuantity q)] speeding = Ok tt /\
    run no_rebinding est w 10 speeding [way 0; VQuantity q] = Ok [way 1100; VQuantity r] /\ q_num r = NInt 70 /\ q_type r = q_type q).
  { vm_compute in H. injection H as <-. do 2 eexists. split; [vm_compute; reflexivity|]. split; [reflexivity|]. split; [reflexivity|].
    split; [vm_compute; reflexivity|]. split; [vm_compute; reflexivity|]. split; reflexivity. }
  assert (K' : exists q r, aeval no_rebinding est empty_world start = Ok (VQuantity q) /\ q_dim (q_type q) <> dim_speed /\ q_sound q /\
    compiles no_rebinding est empty_world [vtype (way 0); vtype (VQuantity q)] speeding = Ok tt /\
    run no_rebinding est empty_world 10 speeding [way 0; VQuantity q] = Ok [way 1100; VQuantity r] /\ q_num r = NInt 70 /\ q_type r = q_type q).
  { do 2 eexists. split; [vm_compute; reflexivity|]. split; [discriminate|]. split; [reflexivity|].
    split; [vm_compute; reflexivity|]. split; [vm_compute; reflexivity|]. split; reflexivity. }
  destruct K as (q & r & K1 & K2 & K3 & K4 & K5 & K6 & K7), K' as (q' & r' & L1 & L2 & L3 & L4 & L5 & L6 & L7). exists q, q', r, r'.
  assert (P : plain_program si_base w) by exact (si_plain_program w H).
  assert (P' : plain_program si_base empty_world) by (split; [constructor|intros es d []]).
  assert (V : vagree si_base (VQuantity q) (VQuantity q')).
  { apply (alike_same si_base si_identify si_decimal w empty_world (plain_ok si_base w P) (plain_ok si_base _ P') no_rebinding no_rebinding_honest est start start); auto.
    - assert (A : forall b u n, b = dim_L /\ (u = metre \/ u = kilometre) \/ b = dim_T /\ u = second ->
        alike si_base (AQuantity (Quantity (QType (DBase b) u (RInt I64)) (NInt n))) (AQuantity (Quantity (QType (DBase b) u (RInt I64)) (NInt n)))).
      { intros b u n B. constructor. split; [now apply base_value|]. split; [now apply base_value|]. split; [apply same_refl_names|reflexivity]. }
      constructor; apply A; auto.
    - split; reflexivity. }
  assert (Y : plain_value si_base (way 0)) by (apply base_value; auto).
  split; [exact H|]. split; [exact P|]. split; [exact P'|]. split; [exact K1|]. split; [exact L1|]. split; [congruence|].
  split; [repeat constructor; exact K3|]. split; [repeat constructor; exact L3|].
  split; [constructor; [exact Y|constructor; [apply V|constructor]]|]. split; [constructor; [exact Y|constructor; [apply V|constructor]]|].
  split; [constructor; [split; [apply same_refl_names|reflexivity]|constructor; [split; apply V|constructor]]|].
  split; [exact speeding_plain|]. split; [cbn; auto 10|]. split; [exact K4|]. split; [exact L4|]. split; [exact K5|]. split; [exact L5|]. split; [exact K6|]. split; [exact L6|]. split; assumption.
Qed.

(** From a speed near the largest 64-bit number the loop overflows, in both programs. *)
Example C96_undefined_ex : forall est, exists w, si_world = Ok w /\ Forall (plain_value si_base) [way 0; VQuantity (Quantity (QType dim_speed metre_per_second (RInt I64)) (NInt 9223372036854775807))] /\
  let g := [vtype (way 0); TQuantity (QType dim_speed metre_per_second (RInt I64))] in
  let m := [way 0; VQuantity (Quantity (QType dim_speed metre_per_second (RInt I64)) (NInt 9223372036854775807))] in
  well_typed g m /\ compiles no_rebinding est w g speeding = Ok tt /\ compiles no_rebinding est empty_world g speeding = Ok tt /\
  run no_rebinding est w 10 speeding m = Undef /\ run no_rebinding est empty_world 10 speeding m = Undef.
Proof.
  intros est. destruct si_world_reachable as (w & H & R). exists w. split; [exact H|]. split.
  { constructor; [apply base_value; auto|]. constructor; [|constructor]. split; [|split; [vm_compute; intuition congruence|reflexivity]]. split; [exact speed_ndim|]. split; [repeat constructor|reflexivity]. }
  cbv zeta. split; [repeat constructor|]. vm_compute in H. injection H as <-. repeat (split; [vm_compute; reflexivity|]). vm_compute; reflexivity.
Qed.
