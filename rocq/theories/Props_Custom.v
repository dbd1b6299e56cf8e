(** Theorems about user-defined representations (C77). *)

From Coq Require Import ZArith QArith String List Bool Lia SpecFloat.
From Verif Require Import Outcome CInt Pow Root Ratio SpecRatio FixedString Unit Dim DimOp Equivalent SpecDim SpecUnit Rep QuantityCast
  CommonQuantity Quantity SpecQuantity MagnitudeProofs CastProofs Custom SpecCustom CustomProofs CustomProofs2 Samples Props_Quantity.
Import ListNotations.
Local Open Scope string_scope.
Local Open Scope list_scope.
Local Open Scope Z_scope.
Local Open Scope res_scope.

(** * C77: quantities of a class behave like the quantities of the numbers seen in it *)

Theorem C77_cast : forall cl D O, observation cl D O -> forall est from to v x v',
  cast_types cl D (q_rep from) (q_rep to) -> O (q_rep from) v x -> sign_kept cl (q_rep from) (q_rep to) x ->
  class_quantity_cast cl est from to v = Ok v' ->
  exists y, quantity_cast est from to x = Ok y /\ O (q_rep to) v' y.
Proof. exact cast_sim. Qed.
Print Assumptions C77_cast.

Theorem C77_convert : forall cl D O, observation cl D O -> forall est t q x c,
  cast_types cl D (q_rep (cq_type q)) (q_rep t) -> O (q_rep (cq_type q)) (cq_val q) x ->
  sign_kept cl (q_rep (cq_type q)) (q_rep t) x -> class_to cl est t q = Ok c ->
  exists y, q_to est t (Quantity (cq_type q) x) = Ok (Quantity (cq_type c) y) /\ O (q_rep (cq_type c)) (cq_val c) y.
Proof.
  intros cl D O ob est t q x c CT V S H. unfold class_to in H. unfold q_to. cbn [q_type q_num]. step H as v E.
  destruct (convert_sim cl D O ob est _ t _ x v CT V S E) as (y & Y & Oy). rewrite Y. cbn [bind]. inversion H; subst c. cbn [cq_type cq_val]. eauto.
Qed.
Print Assumptions C77_convert.

Theorem C77_sums : forall cl D O, observation cl D O -> forall o est w a b x y c,
  let ra := q_rep (cq_type a) in let rb := q_rep (cq_type b) in let r := arith_rep ra rb in
  D ra rb -> D r r -> cast_types cl D ra r -> cast_types cl D rb r ->
  O ra (cq_val a) x -> O rb (cq_val b) y -> sign_kept cl ra r x -> sign_kept cl rb r y ->
  class_addsub cl o est w a b = Ok c ->
  exists z, q_addsub o est w (Quantity (cq_type a) x) (Quantity (cq_type b) y) = Ok (Quantity (cq_type c) z) /\
    O (q_rep (cq_type c)) (cq_val c) z.
Proof. exact addsub_sim. Qed.
Print Assumptions C77_sums.

Theorem C77_products : forall cl D O, observation cl D O ->
  (forall o q r k x c, D (q_rep (cq_type q)) r -> O (q_rep (cq_type q)) (cq_val q) x -> num_ok r k = true ->
     class_scale cl o q r k = Ok c ->
     exists z, q_scale o false (Quantity (cq_type q) x) r k = Ok (Quantity (cq_type c) z) /\ O (q_rep (cq_type c)) (cq_val c) z) /\
  (forall q r k x c, D (q_rep (cq_type q)) r -> O (q_rep (cq_type q)) (cq_val q) x -> num_ok r k = true ->
     class_scale_left cl r k q = Ok c ->
     exists z, q_scale OpMul true (Quantity (cq_type q) x) r k = Ok (Quantity (cq_type c) z) /\ O (q_rep (cq_type c)) (cq_val c) z) /\
  (forall w a b x c, D (q_rep (cq_type a)) (q_rep (q_type b)) -> O (q_rep (cq_type a)) (cq_val a) x ->
     num_ok (q_rep (q_type b)) (q_num b) = true -> class_times cl w a b = Ok c ->
     exists z, q_times w (Quantity (cq_type a) x) b = Ok (Quantity (cq_type c) z) /\ O (q_rep (cq_type c)) (cq_val c) z) /\
  (forall w a b x c, D (q_rep (cq_type a)) (q_rep (q_type b)) -> O (q_rep (cq_type a)) (cq_val a) x ->
     num_ok (q_rep (q_type b)) (q_num b) = true -> class_over cl w a b = Ok c ->
     exists z, q_over w (Quantity (cq_type a) x) b = Ok (Quantity (cq_type c) z) /\ O (q_rep (cq_type c)) (cq_val c) z) /\
  (forall q x c, D (q_rep (cq_type q)) (q_rep (cq_type q)) -> O (q_rep (cq_type q)) (cq_val q) x -> class_neg cl q = Ok c ->
     exists z, q_neg (Quantity (cq_type q) x) = Ok (Quantity (cq_type c) z) /\ O (q_rep (cq_type c)) (cq_val c) z).
Proof.
  intros cl D O ob. split; [exact (scale_sim cl D O ob)|]. split; [exact (scale_left_sim cl D O ob)|].
  split; [exact (times_sim cl D O ob)|]. split; [exact (over_sim cl D O ob)|exact (neg_sim cl D O ob)].
Qed.
Print Assumptions C77_products.

Theorem C77_equality : forall cl D O, observation cl D O -> forall est w a b x y,
  let ra := q_rep (cq_type a) in let rb := q_rep (cq_type b) in let r := common_rep ra rb in
  cast_types cl D ra r -> cast_types cl D rb r -> O ra (cq_val a) x -> O rb (cq_val b) y ->
  sign_kept cl ra r x -> sign_kept cl rb r y -> class_eqb cl est w a b = Ok true ->
  q_eqb est w (Quantity (cq_type a) x) (Quantity (cq_type b) y) = Ok true.
Proof. exact eqb_sim. Qed.
Print Assumptions C77_equality.

(** The three classes meet the hypothesis: every component of a vector is seen for all
    operand types, the central value of a measurement for a floating-point type that is
    not widened, the number in [min_expl] for [std::intmax_t]. *)
Theorem C77_observed :
  (forall i, observation vector_class (fun _ _ => True) (component i)) /\
  (forall hyp, observation (measurement_class hyp) meas_types central) /\
  observation min_expl only_intmax wrapped.
Proof. split; [exact vector_observation|]. split; [exact measurement_observation|exact min_expl_observation]. Qed.
Print Assumptions C77_observed.

(** A vector is cast exactly if each of its elements is. *)
Theorem C77_vector : forall est from to l l', l <> [] ->
  Forall (fun x => num_ok (q_rep from) x = true) l -> Forall (sign_kept vector_class (q_rep from) (q_rep to)) l ->
  (class_quantity_cast vector_class est from to l = Ok l' <-> Forall2 (fun x y => quantity_cast est from to x = Ok y) l l').
Proof. exact vector_cast. Qed.
Print Assumptions C77_vector.

(** In terms of the sizes of the units: every element is truncated towards zero. *)
Theorem C77_vector_truncates : forall est from to a b m1 m2 l, sized est from m1 -> sized est to m2 ->
  references_ok from to -> q_rep from = RInt a -> q_rep to = RInt b -> sign_lost (q_rep from) (q_rep to) = false ->
  dim_equivalent (q_dim to) (q_dim from) = true -> l <> [] ->
  Forall (fun n => in_range a n = true /\ no_overflow est from to n /\ value_fits (RInt b) (inject_Z n * m1 / m2)) l ->
  exists l', class_quantity_cast vector_class est from to (map NInt l) = Ok (map NInt l') /\
    Forall2 (fun n z => trunc_of (inject_Z n * m1 / m2) z) l l'.
Proof.
  intros est from to a b m1 m2 l S1 S2 R Ra Rb SL De N F.
  assert (X : exists l', Forall2 (fun x y => quantity_cast est from to x = Ok y) (map NInt l) (map NInt l') /\
    Forall2 (fun n z => trunc_of (inject_Z n * m1 / m2) z) l l').
  { clear N. induction F as [|n l (Rn & NO & Fi) F (l' & H & T)]; [exists []; split; constructor|].
    assert (Fi' : value_fits (q_rep to) (inject_Z n * m1 / m2)) by now rewrite Rb.
    destruct (C17_value est from to a b m1 m2 n S1 S2 R Ra Rb De NO Fi') as (z & Hz & Tz & _).
    exists (z :: l'). split; cbn [map]; constructor; auto. }
  destruct X as (l' & H & T). exists l'. split; [|exact T]. apply C77_vector; auto.
  - destruct l; [congruence|discriminate].
  - rewrite Ra. clear - F. induction F as [|n l (Rn & _) F IH]; constructor; auto.
  - rewrite Forall_forall. intros x _. right. left. exact SL.
Qed.
Print Assumptions C77_vector_truncates.

(** The central value of a measurement is cast, added and scaled like a number. *)
Theorem C77_measurement : forall hyp est w f,
  (forall from to v v', q_rep from = RFlt f -> q_rep to = RFlt f -> num_ok (RFlt f) (fst v) = true ->
     class_quantity_cast (measurement_class hyp) est from to v = Ok v' ->
     quantity_cast est from to (fst v) = Ok (fst v')) /\
  (forall o (a b c : cquantity (measurement_class hyp)), q_rep (cq_type a) = RFlt f -> q_rep (cq_type b) = RFlt f ->
     num_ok (RFlt f) (fst (cq_val a)) = true -> num_ok (RFlt f) (fst (cq_val b)) = true ->
     class_addsub (measurement_class hyp) o est w a b = Ok c ->
     q_addsub o est w (Quantity (cq_type a) (fst (cq_val a))) (Quantity (cq_type b) (fst (cq_val b))) =
       Ok (Quantity (cq_type c) (fst (cq_val c)))).
Proof.
  intros hyp est w f. pose proof (measurement_observation hyp) as ob.
  assert (T : meas_types (RFlt f) (RFlt f)) by (split; destruct f; reflexivity).
  assert (CT : cast_types (measurement_class hyp) meas_types (RFlt f) (RFlt f)) by (destruct f; repeat split).
  assert (S : forall x, sign_kept (measurement_class hyp) (RFlt f) (RFlt f) x) by (intros x; right; left; reflexivity).
  split.
  - intros from to v v' Rf Rt N H.
    destruct (C77_cast _ _ _ ob est from to v (fst v) v') as (y & Y & C & _); rewrite ?Rf, ?Rt; auto; [now split|congruence].
  - intros o a b c Ra Rb Na Nb H. pose proof (C77_sums _ _ _ ob o est w a b (fst (cq_val a)) (fst (cq_val b)) c) as P. cbv zeta in P.
    rewrite Ra, Rb in P. assert (A : arith_rep (RFlt f) (RFlt f) = RFlt f) by now destruct f. rewrite A in P.
    destruct P as (z & Z & C & _); auto; try now split. congruence.
Qed.
Print Assumptions C77_measurement.

(** [min_expl] computes like [std::intmax_t]. *)
Theorem C77_min_expl : forall est from to v v', q_rep from = RInt I64 -> q_rep to = RInt I64 -> num_ok (RInt I64) v = true ->
  class_quantity_cast min_expl est from to v = Ok v' -> quantity_cast est from to v = Ok v'.
Proof.
  intros est from to v v' Rf Rt N H.
  destruct (C77_cast _ _ _ min_expl_observation est from to v v v') as (y & Y & -> & _); auto; rewrite ?Rf, ?Rt.
  - repeat split; try discriminate.
  - now split.
  - now left.
Qed.
Print Assumptions C77_min_expl.

(** The condition on signs is needed: -2000 m are -2 km, converted to [std::uint32_t];
    as an element of a vector they are first converted and then divided. *)
Theorem C77_sign_refuted : forall est,
  sign_lost (RInt I32) (RInt U32) = true /\
  quantity_cast est (lengths metre I32) (lengths kilometre U32) (NInt (-2000)) = Ok (NInt (2 ^ 32 - 2)) /\
  class_quantity_cast vector_class est (lengths metre I32) (lengths kilometre U32) [NInt (-2000)] = Ok [NInt 4294965].
Proof. intros est. vm_compute. auto. Qed.
Print Assumptions C77_sign_refuted.

(** A class whose operators take [const value_type&] and return the class, like
    [measurement], but over the integers: it meets the requirements of the library and yet
    does not behave like the numbers in it, because the ratio is narrowed to [int]. *)
Definition fixed_class : repclass := {|
  rc_val := number;
  rc_convert := fun _ to v => n_convert to v;
  rc_mixes := false;
  rc_inject := fun _ _ _ => IllFormed;
  rc_result := fun _ a _ => a;
  rc_scale := fun o a _ v k => k <- n_convert a k; x <- n_op o a a v k; n_convert a x;
  rc_scale_left := fun _ a k v => k <- n_convert a k; x <- n_op OpMul a a k v; n_convert a x;
  rc_op := fun o a b v w => if rep_eq_dec a b then x <- n_op o a a v w; n_convert a x else IllFormed;
  rc_neg := fun a v => n_neg a v;
  rc_eqb := fun _ => n_eqb |}.
Definition angstrom : cunit := CUnit (Some "angstrom") [] (Ratio 1 1 (-10)) "metre" true (Some (st_of_ascii "A")) no_prefix.
Theorem C77_narrowing_refuted : forall est,
  quantity_cast est (lengths angstrom I32) (lengths metre I32) (NInt 2000000000) = Ok (NInt 0) /\
  class_quantity_cast fixed_class est (lengths angstrom I32) (lengths metre I32) (NInt 2000000000) = Ok (NInt 1).
Proof. intros est. vm_compute. auto. Qed.
Print Assumptions C77_narrowing_refuted.

(** Only the central value follows: a cast of the measurement 0 ± 1 has no uncertainty. *)
Definition flengths (u : cunit) : qtype := QType (DBase dim_L) u (RFlt F64).
Definition fl (z : Z) : number := NFlt (float_of_int F64 z).
Theorem C77_uncertainty_refuted : forall est hyp,
  class_quantity_cast (measurement_class hyp) est (flengths kilometre) (flengths metre) (fl 3, fl 1) = Ok (fl 3000, fl 1000) /\
  class_quantity_cast (measurement_class hyp) est (flengths kilometre) (flengths metre) (fl 0, fl 1) = Ok (fl 0, NFlt S754_nan).
Proof. intros est hyp. vm_compute. auto. Qed.
Print Assumptions C77_uncertainty_refuted.

(** (7199, -7199) s are (119, -119) min; (2, 3) km + (500, -500) m = (2500, 2500) m;
    (1, -2) m times 3 s = (3, -6) m s; the hypotheses of the theorems hold for them. *)
Definition shown {cl : repclass} (r : res (cquantity cl)) : res (qtype * rc_val cl) := q <- r; Ok (cq_type q, cq_val q).
Definition vec (t : qtype) (l : list number) : cquantity vector_class := @CQuantity vector_class t l.
Example C77_ex : forall est,
  class_quantity_cast vector_class est (times second I32) (times minute I64) [NInt 7199; NInt (-7199)] = Ok [NInt 119; NInt (-119)] /\
  sign_lost (RInt I32) (RInt I64) = false /\
  (exists u, shown (class_addsub vector_class OpAdd est empty_world (vec (lengths kilometre I64) [NInt 2; NInt 3])
    (vec (lengths metre I32) [NInt 500; NInt (-500)])) = Ok (lengths u I64, [NInt 2500; NInt 2500]) /\ u_ratio u = u_ratio metre) /\
  component 1 (RInt I64) [NInt 2; NInt 3] (NInt 3).
Proof.
  intros est. split; [vm_compute; reflexivity|]. split; [reflexivity|].
  split; [eexists; split; vm_compute; reflexivity|repeat constructor].
Qed.
Example C77_ex_products : forall est,
  (exists ms, shown (class_times vector_class empty_world (vec (lengths metre I32) [NInt 1; NInt (-2)]) (Quantity (times second I32) (NInt 3))) =
    Ok (ms, [NInt 3; NInt (-6)])) /\
  class_eqb vector_class est empty_world (vec (lengths kilometre I32) [NInt 2; NInt 3]) (vec (lengths metre I32) [NInt 2000; NInt 3000]) = Ok true /\
  class_eqb min_expl est empty_world (@CQuantity min_expl (lengths kilometre I64) (NInt 2)) (@CQuantity min_expl (lengths metre I64) (NInt 2000)) = Ok true.
Proof.
  intros est. split; [eexists; vm_compute; reflexivity|]. split; vm_compute; reflexivity.
Qed.
Example C77_truncates_ex : forall est, exists l',
  class_quantity_cast vector_class est (times second I64) (times minute I64) (map NInt [-7199; 59]) = Ok (map NInt l') /\
  Forall2 (fun n z => trunc_of (inject_Z n * rval one_r / rval (Ratio 6 1 1)) z) [-7199; 59] l'.
Proof.
  intros est. destruct good_units as (_ & _ & _ & Gs & Gm & _).
  apply (C77_vector_truncates est (times second I64) (times minute I64) I64 I64); auto; try reflexivity; try discriminate.
  - now apply (sized_time est second).
  - now apply (sized_time est minute).
  - now apply references_ok_refl.
  - repeat constructor; try reflexivity;
      [exists (Ratio 1 6 (-1)), I64; vm_compute; repeat split; congruence|exists I64; split; [reflexivity|]; vm_compute; split; discriminate|
       exists (Ratio 1 6 (-1)), I64; vm_compute; repeat split; congruence|exists I64; split; [reflexivity|]; vm_compute; split; discriminate].
Qed.
