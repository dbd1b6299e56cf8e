(** C85 and C86: programs with variables, conditions and loops. *)

From Coq Require Import ZArith QArith String List Bool Lia.
From Verif Require Import Outcome CInt Root Ratio SpecRatio Unit Downcast Dim DimOp Equivalent SpecDim SpecUnit Rep Reference QuantityCast CommonQuantity
  Quantity SpecQuantity MagnitudeProofs QuantityProofs2 QuantityProofs4 Point Expr SpecExpr Affine SpecAffine AffineProofs Static SpecStatic StaticProofs Program SpecProgram ProgramProofs
  SpecIdeal IdealProofs CatalogueProofs Samples Props_Dim Props_Quantity Props_Expr Props_Affine.
Import ListNotations.
Local Open Scope string_scope.
Local Open Scope list_scope.
Local Open Scope Z_scope.
Local Open Scope res_scope.

Lemma wider : forall i, exists j, arith_rep (RInt i) (RInt I32) = RInt j /\ (forall z, in_range i z = true -> in_range j z = true) /\ in_range j 1 = true.
Proof.
  intros i. assert (H : exists j, arith_rep (RInt i) (RInt I32) = RInt j /\ (imin j <=? imin i) = true /\ (imax i <=? imax j) = true /\ in_range j 1 = true).
  { destruct i as [[| | |] [|]]; (eexists; split; [reflexivity|]); repeat split; reflexivity. }
  destruct H as (j & E & L & U & O). exists j. split; [exact E|]. split; [|exact O]. intros z Z. apply in_range_spec in Z. apply in_range_spec. apply Z.leb_le in L, U. lia.
Qed.
Lemma one_up : forall i z, in_range i z = true -> in_range i (z + 1) = true -> n_assign OpAdd (RInt i) (RInt I32) (NInt z) (NInt 1) = Ok (NInt (z + 1)).
Proof.
  intros i z Z Y. unfold n_assign, n_op. destruct (wider i) as (j & -> & H & R1). pose proof (H z Z) as Rz. pose proof (H _ Y) as Ry.
  cbv zeta. cbn [n_convert bind]. rewrite (wrap_id j z Rz), (wrap_id j 1 R1). cbn [op_in int_op]. unfold cadd, arith. rewrite Ry.
  destruct (isigned j); cbn [bind]; rewrite ?(wrap_id j _ Ry); cbn [n_convert]; now rewrite (wrap_id i _ Y).
Qed.
Lemma one_down : forall i z, in_range i z = true -> in_range i (z + -1) = true -> n_assign OpSub (RInt i) (RInt I32) (NInt z) (NInt 1) = Ok (NInt (z + -1)).
Proof.
  intros i z Z Y. unfold n_assign, n_op. destruct (wider i) as (j & -> & H & R1). pose proof (H z Z) as Rz. pose proof (H _ Y) as Ry.
  cbv zeta. cbn [n_convert bind]. rewrite (wrap_id j z Rz), (wrap_id j 1 R1). cbn [op_in int_op]. unfold csub, arith. replace (z - 1) with (z + -1) by lia. rewrite Ry.
  destruct (isigned j); cbn [bind]; rewrite ?(wrap_id j _ Ry); cbn [n_convert]; now rewrite (wrap_id i _ Y).
Qed.
Lemma update_here : forall m x old v, nth_error m x = Some old -> nth_error (update m x v) x = Some v.
Proof. induction m as [|a m IH]; intros [|x] old v H; cbn in *; try discriminate; [reflexivity|eauto]. Qed.
Lemma update_other : forall m x y v, y <> x -> nth_error (update m x v) y = nth_error m y.
Proof. induction m as [|a m IH]; intros [|x] [|y] v H; cbn; try reflexivity; [congruence|]. apply IH. congruence. Qed.
Lemma compared : forall est w a b c e, q_compare est w a b = Ok c -> q_eqb est w a b = Ok e -> e = match c with Some Eq => true | _ => false end.
Proof.
  intros est w a b c e C E. unfold q_compare, q_eqb in *. step C as p P. rewrite P in E; cbn [bind] in E. destruct p as [[x|x] [y|y]]; cbn in C, E; try discriminate; inversion C; inversion E; subst.
  - apply Z.eqb_compare.
  - reflexivity.
Qed.

(** * C85: a program that compiles keeps its types *)

(** Whatever the representations, units, origins and numbers, and however long it runs: every
    variable keeps the type it was declared with, no operation is rejected, violates a
    contract or gets stuck; the program ends, goes on, or its arithmetic is undefined. *)
Theorem C85_safe : forall rb est w g s m n, compiles rb est w g s = Ok tt -> well_typed g m -> pstmt_sound s ->
  goes (well_typed g) (run rb est w n s m).
Proof. intros rb est w g s m n H W S. exact (run_goes rb est w n s g m W S H). Qed.
Print Assumptions C85_safe.

(** The compiler rejects no program that runs: what is executed without branches compiles. *)
Theorem C85_accepted : forall rb est w g s m m' n, straight s -> well_typed g m -> pstmt_sound s -> run rb est w n s m = Ok m' ->
  compiles rb est w g s = Ok tt.
Proof. intros rb est w g s m m' n St W S H. exact (straight_compiles rb est w n s g m m' St W S H). Qed.
Print Assumptions C85_accepted.

(** The outcome does not depend on the number of steps allowed. *)
Theorem C85_steps : forall rb est w s m n k r, run rb est w n s m = r -> r <> Stuck -> run rb est w (k + n) s m = r.
Proof. intros rb est w s m n k r H N. induction k as [|k IH]; [exact H|]. now apply run_more. Qed.
Print Assumptions C85_steps.

(** [++x] and [--x] step the number of the variable by one in its own unit and leave every other
    variable alone, whatever the unit, the integral type, and for points the origin. *)
Definition with_number (v : avalue) (n : number) : avalue :=
  match v with VQuantity q => VQuantity (Quantity (q_type q) n) | VPoint p => VPoint (Point (pt_type p) n) end.
Definition rep_of (v : avalue) : rep := match v with VQuantity q => q_rep (q_type q) | VPoint p => q_rep (p_qtype (pt_type p)) end.
Theorem C85_step : forall rb est w k m x v i z h d, h = HInc /\ d = 1 \/ h = HDec /\ d = -1 ->
  nth_error m x = Some v -> rep_of v = RInt i -> v_number v = NInt z -> in_range i z = true -> in_range i (z + d) = true ->
  exists m', run rb est w (S k) (SChange x h) m = Ok m' /\ nth_error m' x = Some (with_number v (NInt (z + d))) /\
    forall y, y <> x -> nth_error m' y = nth_error m y.
Proof.
  intros rb est w k m x v i z h d D V R N Z Y. exists (update m x (with_number v (NInt (z + d)))). split.
  - assert (A : n_assign OpAdd (RInt i) (RInt I32) (NInt z) (NInt 1) = Ok (NInt (z + 1)) \/ d <> 1).
    { destruct (Z.eq_dec d 1) as [->|]; [left; now apply one_up|now right]. }
    assert (B : n_assign OpSub (RInt i) (RInt I32) (NInt z) (NInt 1) = Ok (NInt (z + -1)) \/ d <> -1).
    { destruct (Z.eq_dec d (-1)) as [->|]; [left; now apply one_down|now right]. }
    cbn [run]. unfold lookup. rewrite V; cbn [bind].
    destruct D as [[-> ->]|[-> ->]]; cbn [action_of bind]; destruct v as [q|p]; cbn [rep_of v_number with_number changed point_action p_act p_action bind] in *;
      unfold p_act, q_act; cbv zeta; cbn [p_action relative q_type q_num]; rewrite R, N; (destruct A as [A|A]; [|congruence]) || (destruct B as [B|B]; [|congruence]);
      rewrite ?A, ?B; reflexivity.
  - split; [|intros y Hy; apply update_other; congruence]. apply (update_here _ _ v _ V).
Qed.
Print Assumptions C85_step.

(** The six relations of two objects fit together: [<=] is [<] or [==], [>=] is [>] or [==], [!=]
    is not [==], and no two of [<], [==], [>] hold at once.  All but [!=] are false when the
    numbers are unordered. *)
Theorem C85_relations : forall rb est w x y lt le gt ge eq ne,
  relation rb est w RLt x y = Ok lt -> relation rb est w RLe x y = Ok le -> relation rb est w RGt x y = Ok gt ->
  relation rb est w RGe x y = Ok ge -> relation rb est w REq x y = Ok eq -> relation rb est w RNe x y = Ok ne ->
  le = lt || eq /\ ge = gt || eq /\ ne = negb eq /\ lt && eq = false /\ gt && eq = false /\ lt && gt = false.
Proof.
  intros rb est w x y lt le gt ge eq ne L1 L2 G1 G2 E N. cbn [relation] in *. step L1 as c C. rewrite C in L2, G1, G2. rewrite E in N. cbn [bind] in *.
  assert (K : eq = match c with Some Eq => true | _ => false end).
  { destruct x as [a|a], y as [b|b]; cbn [v_compare v_eqb] in *; try discriminate.
    - exact (compared est w a b c eq C E).
    - unfold p_compare, p_eqb in *. step C as u O. rewrite O in E; cbn [bind] in E. exact (compared est w (relative a) (relative b) c eq C E). }
  inversion L1; inversion L2; inversion G1; inversion G2; inversion N; subst. destruct c as [[| |]|]; repeat split.
Qed.
Print Assumptions C85_relations.

(** * C86: a program computes the values of the ideal program *)

(** In one system of units, with signed 64-bit numbers, wherever the origins lie: if the library's run
    ends and its divisions came out even, the ideal program on rational numbers ends too, by
    the same branches, and the variables hold its values. *)
Theorem C86_follows : forall U w rb est at_ s n m m' vs, symbols_identify U -> good_system U w ->
  Forall (fun v => in_system U w (dim_of v)) m -> simple_stmt (in_system U w) est s -> even_run rb est w n s m ->
  represents est at_ m vs -> run rb est w n s m = Ok m' ->
  exists vs', ideal_run est at_ s vs vs' /\ represents est at_ m' vs'.
Proof.
  intros U w rb est at_ s n m m' vs HU G D S E R H. destruct (run_follows U w HU G rb est at_ n s m vs m' R D S E H) as (vs' & I & R' & _). eauto.
Qed.
Print Assumptions C86_follows.

(** Without divisions nothing is asked of the numbers. *)
Theorem C86_no_division : forall U w rb est at_ s n m m' vs, symbols_identify U -> good_system U w ->
  Forall (fun v => in_system U w (dim_of v)) m -> simple_stmt (in_system U w) est s -> no_division_stmt s ->
  represents est at_ m vs -> run rb est w n s m = Ok m' ->
  exists vs', ideal_run est at_ s vs vs' /\ represents est at_ m' vs'.
Proof.
  intros U w rb est at_ s n m m' vs HU G D S N R H. apply (C86_follows U w rb est at_ s n m m' vs HU G D S); auto. now apply no_division_run.
Qed.
Print Assumptions C86_no_division.

(** The ideal program has one outcome, and it is the same for the program written in other
    units. *)
Theorem C86_ideal : forall est at_ s s' vs vs' v1 v2, respelled est at_ s s' -> Forall2 Qeq vs vs' ->
  ideal_run est at_ s vs v1 -> ideal_run est at_ s' vs' v2 -> Forall2 Qeq v1 v2.
Proof. intros est at_ s s' vs vs' v1 v2 R S I I'. exact (run_one est at_ s vs v1 I s' vs' v2 R S I'). Qed.
Print Assumptions C86_ideal.

(** So the units in which variables are declared, objects are written and intermediate results
    are converted do not matter: two spellings of a program started from the same values end
    with the same values. *)
Theorem C86_units : forall U w rb est at_ s1 s2 n1 n2 m1 m2 r1 r2 vs, symbols_identify U -> good_system U w ->
  respelled est at_ s1 s2 ->
  Forall (fun v => in_system U w (dim_of v)) m1 -> simple_stmt (in_system U w) est s1 -> even_run rb est w n1 s1 m1 -> represents est at_ m1 vs ->
  Forall (fun v => in_system U w (dim_of v)) m2 -> simple_stmt (in_system U w) est s2 -> even_run rb est w n2 s2 m2 -> represents est at_ m2 vs ->
  run rb est w n1 s1 m1 = Ok r1 -> run rb est w n2 s2 m2 = Ok r2 ->
  exists vs', represents est at_ r1 vs' /\ represents est at_ r2 vs'.
Proof.
  intros U w rb est at_ s1 s2 n1 n2 m1 m2 r1 r2 vs HU G Rs D1 S1 E1 R1 D2 S2 E2 R2 H1 H2.
  destruct (C86_follows U w rb est at_ s1 n1 m1 r1 vs HU G D1 S1 E1 R1 H1) as (v1 & I1 & P1).
  destruct (C86_follows U w rb est at_ s2 n2 m2 r2 vs HU G D2 S2 E2 R2 H2) as (v2 & I2 & P2).
  assert (Sv : Forall2 Qeq vs vs) by (clear; induction vs; constructor; [reflexivity|assumption]).
  pose proof (C86_ideal est at_ s1 s2 vs vs v1 v2 Rs Sv I1 I2) as E. exists v1. split; [exact P1|].
  clear - E P2. revert v1 E. induction P2 as [|v u m vs V P IH]; intros v1 E; inversion E; subst; constructor; auto.
  - eapply at_ext; [|exact V]. now symmetry.
  - now apply IH.
Qed.
Print Assumptions C86_units.

(** * Cases *)

Definition long (u : cunit) (n : Z) : avalue := VQuantity (Quantity (lengths u I64) (NInt n)).
(** [while (way < 3 km) { way += step; step = step + 500 m; }], with the two lengths written in
    the units [a] and [b]. *)
Definition hike (a : cunit) (na : Z) (b : cunit) (nb : Z) : pstmt :=
  SWhile (CRel RLt (EVar 0) (EConst (long a na)))
    (SSeq (SChange 0 (HAdd (EVar 1))) (SAssign 1 (EBinary BAdd (EVar 1) (EConst (long b nb))))).
Definition known (u : cunit) : Prop := u = metre \/ u = kilometre \/ u = centimetre.

Lemma known_sized : forall est u, known u -> sized est (lengths u I64) (rval (u_ratio u)).
Proof. intros est u [->|[->| ->]]; (apply base_sized; [vm_compute; intuition congruence|vm_compute; intuition congruence|reflexivity]). Qed.
Lemma long_value : forall est at_ u n v, known u -> in_range I64 n = true -> (v == inject_Z n * rval (u_ratio u))%Q -> at_value est at_ (long u n) v.
Proof.
  intros est at_ u n v K R E. exists n, (rval (u_ratio u)). split; [split; [reflexivity|split; [reflexivity|exact R]]|].
  split; [now apply known_sized|exact E].
Qed.
Lemma hike_simple : forall est w a na b nb, known a -> known b -> in_range I64 na = true -> in_range I64 nb = true ->
  simple_stmt (in_system si_base w) est (hike a na b nb).
Proof.
  intros est w a na b nb A B Ra Rb. assert (L : in_system si_base w (DBase dim_L)) by (apply base_in_system; now left).
  assert (K : forall u n, known u -> in_range I64 n = true -> signed64 est (long u n)).
  { intros u n Ku R. exists (inject_Z n * rval (u_ratio u))%Q. apply (long_value est (fun _ => 0%Q)); auto. reflexivity. }
  cbn [hike simple_stmt simple_cond simple_change simple long dim_of q_dim q_type lengths]. auto 20.
Qed.

(** Both variables in metres and the lengths as written, or everything in centimetres: 4500 m and a
    step of 2500 m after three rounds.  The two programs satisfy the conditions. *)
Example C86_ex : forall est at_, exists w, si_world = Ok w /\ symbols_identify si_base /\ good_system si_base w /\
  simple_stmt (in_system si_base w) est (hike kilometre 3 metre 500) /\ simple_stmt (in_system si_base w) est (hike centimetre 300000 centimetre 50000) /\
  no_division_stmt (hike kilometre 3 metre 500) /\ respelled est at_ (hike kilometre 3 metre 500) (hike centimetre 300000 centimetre 50000) /\
  represents est at_ [long metre 0; long metre 1000] [0; 1000]%Q /\ represents est at_ [long centimetre 0; long centimetre 100000] [0; 1000]%Q /\
  run no_rebinding est w 10 (hike kilometre 3 metre 500) [long metre 0; long metre 1000] = Ok [long metre 4500; long metre 2500] /\
  run no_rebinding est w 10 (hike centimetre 300000 centimetre 50000) [long centimetre 0; long centimetre 100000] =
    Ok [long centimetre 450000; long centimetre 250000].
Proof.
  intros est at_. destruct si_world_reachable as (w & H & R). exists w. split; [exact H|]. split; [exact si_identify|]. split; [now apply si_good|].
  assert (M : known metre) by now left. assert (K : known kilometre) by (right; now left). assert (C : known centimetre) by (right; now right).
  split; [now apply hike_simple|]. split; [now apply hike_simple|]. split; [cbn; auto 10|].
  split.
  { apply rt_while; [apply rc_rel; [constructor|]|apply rt_seq; [apply rt_change, rh_add; constructor|apply rt_assign, rs_binary; [constructor|]]].
    - apply (rs_const est at_ _ _ 3000); apply long_value; auto; vm_compute; reflexivity.
    - apply (rs_const est at_ _ _ 500); apply long_value; auto; vm_compute; reflexivity. }
  split; [constructor; [apply long_value; auto; vm_compute; reflexivity|constructor; [apply long_value; auto; vm_compute; reflexivity|constructor]]|].
  split; [constructor; [apply long_value; auto; vm_compute; reflexivity|constructor; [apply long_value; auto; vm_compute; reflexivity|constructor]]|].
  vm_compute in H. injection H as <-. split; vm_compute; reflexivity.
Qed.

(** It compiles, the variables have their types; and from the largest length the sum overflows. *)
Example C85_ex : forall est, exists w, si_world = Ok w /\
  compiles no_rebinding est w [TQuantity (lengths metre I64); TQuantity (lengths metre I64)] (hike kilometre 3 metre 500) = Ok tt /\
  well_typed [TQuantity (lengths metre I64); TQuantity (lengths metre I64)] [long metre 1000; long metre 9223372036854775807] /\
  pstmt_sound (hike kilometre 3 metre 500) /\
  run no_rebinding est w 10 (hike kilometre 3 metre 500) [long metre 1000; long metre 9223372036854775807] = Undef /\
  compiles no_rebinding est w [TQuantity (lengths kilometre I64); TQuantity (lengths metre I64)] (hike kilometre 3 metre 500) <> Ok tt.
Proof.
  intros est. destruct si_world_reachable as (w & H & R). exists w. split; [exact H|]. vm_compute in H. injection H as <-.
  split; [vm_compute; reflexivity|]. split; [repeat constructor|]. split; [vm_compute; auto|]. split; [vm_compute; reflexivity|].
  vm_compute. discriminate.
Qed.

(** [--x] on 0 of an unsigned type leaves the range; on 200 km in 8 bits it leaves 199 km. *)
Example C85_step_ex : forall rb est w, let v n := VQuantity (Quantity (lengths kilometre (ITy W8 false)) (NInt n)) in
  in_range (ITy W8 false) 200 = true /\ in_range (ITy W8 false) (200 + -1) = true /\
  run rb est w 1 (SChange 1 HDec) [long metre 5; v 200] = Ok [long metre 5; v 199] /\ run rb est w 1 (SChange 1 HDec) [long metre 5; v 0] = Ok [long metre 5; v 255].
Proof. intros. repeat split; vm_compute; reflexivity. Qed.
(** 1000 m and 1 km; a number that is not a number. *)
Example C85_relations_ex : forall rb est w, w = empty_world ->
  let f x := VQuantity (Quantity (QType (DBase dim_L) metre (RFlt F64)) (NFlt x)) in
  (forall o, relation rb est w o (long metre 1000) (long kilometre 1) = Ok (match o with RLe | RGe | REq => true | _ => false end)) /\
  (forall o, relation rb est w o (f SpecFloat.S754_nan) (f (SpecFloat.S754_zero false)) = Ok (match o with RNe => true | _ => false end)).
Proof. intros rb est w ->. cbv zeta. split; intros []; vm_compute; reflexivity. Qed.

(** Divisions must come out even: half of 3 m is 1 m in metres and 150 cm in centimetres. *)
Definition halve : pstmt := SChange 0 (HDivV (RInt I64) (NInt 2)).
Theorem C86_even_refuted : ~ (forall est w s n1 n2 m1 m2 r1 r2 vs, si_world = Ok w -> respelled est (fun _ => 0%Q) s s ->
  represents est (fun _ => 0%Q) m1 vs -> represents est (fun _ => 0%Q) m2 vs ->
  run no_rebinding est w n1 s m1 = Ok r1 -> run no_rebinding est w n2 s m2 = Ok r2 ->
  exists vs', represents est (fun _ => 0%Q) r1 vs' /\ represents est (fun _ => 0%Q) r2 vs').
Proof.
  intros F. destruct si_world_reachable as (w & H & R).
  assert (M : known metre) by now left. assert (C : known centimetre) by (right; now right).
  assert (V1 : represents no_estimate (fun _ => 0%Q) [long metre 3] [3]%Q) by (constructor; [apply long_value; auto; vm_compute; reflexivity|constructor]).
  assert (V2 : represents no_estimate (fun _ => 0%Q) [long centimetre 300] [3]%Q) by (constructor; [apply long_value; auto; vm_compute; reflexivity|constructor]).
  assert (Rs : respelled no_estimate (fun _ => 0%Q) halve halve) by (apply rt_change, rh_divv).
  destruct (F no_estimate w halve 5%nat 5%nat _ _ [long metre 1] [long centimetre 150] _ H Rs V1 V2) as (vs & R1 & R2).
  - vm_compute in H. injection H as <-. vm_compute. reflexivity.
  - vm_compute in H. injection H as <-. vm_compute. reflexivity.
  - inversion R1 as [|? ? ? ? A1 B1]; subst. inversion R2 as [|? ? ? ? A2 B2]; subst.
    pose proof (valued_one _ _ _ _ A1 (long_value _ (fun _ => 0%Q) metre 1 1 M eq_refl eq_refl)) as E1.
    pose proof (valued_one _ _ _ _ A2 (long_value _ (fun _ => 0%Q) centimetre 150 (3#2) C eq_refl ltac:(vm_compute; reflexivity))) as E2.
    rewrite E1 in E2. discriminate E2.
Qed.
Print Assumptions C86_even_refuted.

(** Two points approach each other: [while (p < q) { p += (q - p) / 2; q -= 500 m; }] from 0 m and
    1000 m above the sea; the half comes out even. *)
Definition height (u : cunit) (n : Z) : avalue := VPoint (above "sea" u n).
Definition approach : pstmt :=
  SWhile (CRel RLt (EVar 0) (EVar 1))
    (SSeq (SChange 0 (HAdd (EUnary (UDivV (RInt I64) (NInt 2)) (EBinary BSub (EVar 1) (EVar 0)))))
       (SChange 1 (HSub (EConst (long metre 500))))).
Example C86_ex_point : forall est, exists w, si_world = Ok w /\ simple_stmt (in_system si_base w) est approach /\
  represents est map_of_places [height metre 0; height metre 1000] [0; 1000]%Q /\
  even_run no_rebinding est w 6 approach [height metre 0; height metre 1000] /\
  run no_rebinding est w 6 approach [height metre 0; height metre 1000] = Ok [height metre 500; height metre 500].
Proof.
  intros est. destruct si_world_reachable as (w & H & R). exists w. split; [exact H|].
  assert (L : in_system si_base w (DBase dim_L)) by (apply base_in_system; now left).
  assert (M : known metre) by now left.
  assert (K : signed64 est (long metre 500)) by (exists (500 * rval (u_ratio metre))%Q; apply (long_value est (fun _ => 0%Q)); auto; reflexivity).
  split. { cbn [approach simple_stmt simple_cond simple_change simple long dim_of q_dim q_type lengths]. 
   split; [auto|]. split; [|auto]. split; [|auto]. exists I64, 2. repeat split. discriminate. }
  split. { assert (V : forall n v, in_range I64 n = true -> (v == inject_Z n * rval (u_ratio metre))%Q -> at_value est map_of_places (height metre n) v).
    { intros n v Hn E. exists (inject_Z n * rval (u_ratio metre))%Q. split; [apply above_valued; auto|]. rewrite E. cbn [height above pt_type p_origin map_of_places]. ring. }
    constructor; [now apply V|constructor; [now apply V|constructor]]. }
  assert (H1 : forall v n, aeval no_rebinding est w (ABinary BSub (APoint (above "sea" metre 1000)) (APoint (above "sea" metre 0))) = Ok (VQuantity v) -> q_num v = NInt n -> n = 1000).
  { vm_compute in H. injection H as <-. intros v n E N. vm_compute in E. injection E as <-. now injection N as <-. }
  assert (H2 : forall m, run no_rebinding est w 5 (SSeq (SChange 0 (HAdd (EUnary (UDivV (RInt I64) (NInt 2)) (EBinary BSub (EVar 1) (EVar 0))))) (SChange 1 (HSub (EConst (long metre 500)))))
    [height metre 0; height metre 1000] = Ok m -> m = [height metre 500; height metre 500]).
  { vm_compute in H. injection H as <-. intros m E. vm_compute in E. now injection E as <-. }
  assert (H3 : holds no_rebinding est w [height metre 500; height metre 500] (CRel RLt (EVar 0) (EVar 1)) = Ok false).
  { vm_compute in H. injection H as <-. vm_compute. reflexivity. }
  split; [|vm_compute in H; injection H as <-; vm_compute; reflexivity].
  cbn [even_run approach even_cond even_change]. split; [split; intros x E; cbn in E; injection E as <-; exact I|]. intros _.
  split; [split|].
  - intros x E. cbn in E. injection E as <-. cbn [even]. split; [auto|]. intros n (v & E & N). rewrite (H1 v n E N). apply Z.mod_divide; [discriminate|reflexivity].
  - intros m _ x E. cbn in E. injection E as <-. exact I.
  - intros m E. rewrite (H2 m E). split; [split; intros x X; cbn in X; injection X as <-; exact I|]. intros X. rewrite H3 in X. discriminate X.
Qed.
