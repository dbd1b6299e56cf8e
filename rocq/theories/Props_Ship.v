(** C108: the ships of the foot-pound-second example. *)

From Coq Require Import ZArith String List Bool Lia Reals Lra SpecFloat QArith Qreals.
From Flocq Require Import Core IEEE754.BinarySingleNaN.
From Verif Require Import Props_Rounding Outcome CInt Root Ratio SpecRatio SpecUnit Unit Dim Equivalent Rep Reference QuantityCast Quantity Point Names Ship SpecReal SpecGlide SpecCapacitor SpecShip
  FloatProofs FloatCastProofs FloatOrderProofs RoundingProofs CancelProofs CatalogueProofs GlideProofs BoxProofs Props_ConversionFactor CapacitorProofs Props_Capacitor AvgSpeedProofs Props_AvgSpeed.
Import ListNotations.
Local Open Scope list_scope.
Local Open Scope R_scope.
Local Open Scope res_scope.

Definition ship_env_of (est : estimate) : senv :=
  ltac:(let x := eval vm_compute in (ship_setup est) in match x with Ok ?e => exact e end).
Lemma ship_setup_env : forall est, ship_setup est = Ok (ship_env_of est).
Proof. intros est. vm_compute. reflexivity. Qed.

(** The headers and the types compile. *)
Theorem C108_setup : forall est, exists e, ship_setup est = Ok e.
Proof. intros est. eexists. apply ship_setup_env. Qed.
Print Assumptions C108_setup.

(** ** Factors *)
Definition smallb (c : ratio) : bool :=
  ratio_goodb c && (1 <=? rnum c)%Z && (rnum c <=? 2 ^ 60)%Z && (1 <=? rden c)%Z && (rden c <=? 2 ^ 60)%Z && (-14 <=? rexp c)%Z && (rexp c <=? 14)%Z.
Lemma integer_medium : forall z n, (1 <= z <= 2 ^ n)%Z -> (0 <= n)%Z -> medium n (IZR z).
Proof.
  intros z n Z N. split.
  - apply Rle_trans with 1; [change 1 with (bpow radix2 0); apply bpow_le; lia|apply IZR_le; lia].
  - rewrite <- (IZR_Zpower radix2) by lia. apply IZR_le. change (Zpower radix2 n) with (2 ^ n)%Z. lia.
Qed.
Lemma power_medium : forall e, (-20 <= e <= 20)%Z -> medium 80 (powerRZ 10 e).
Proof.
  assert (P : forall e, (0 <= e <= 20)%Z -> medium 80 (powerRZ 10 e)).
  { intros e E. rewrite powerRZ_Z by lia. apply integer_medium; [|lia]. split; [pose proof (Z.pow_pos_nonneg 10 e); lia|].
    apply Z.le_trans with (10 ^ 20)%Z; [apply Z.pow_le_mono_r; lia|vm_compute; discriminate]. }
  intros e E. destruct (Z.leb_spec 0 e) as [L|L]; [apply P; lia|]. replace e with (- (- e))%Z by lia. rewrite powerRZ_neg'. apply medium_inv. apply P. lia.
Qed.
Lemma small_factor : forall c, smallb c = true -> ratio_good c /\ factor_in_range F64 c /\ medium 200 (Q2R (rval c)) /\ (Z.abs_nat (rexp c) <= 14)%nat.
Proof.
  intros c H. unfold smallb in H. rewrite !andb_true_iff in H. destruct H as ((((((G & A1) & A2) & B1) & B2) & E1) & E2). apply ratio_goodb_good in G.
  apply Z.leb_le in A1, A2, B1, B2, E1, E2. pose proof (integer_medium (rnum c) 60 ltac:(lia) ltac:(lia)) as MA. pose proof (integer_medium (rden c) 60 ltac:(lia) ltac:(lia)) as MB.
  pose proof (power_medium (rexp c) ltac:(lia)) as ME. pose proof (medium_mul _ _ _ _ MA ME) as M1. pose proof (medium_div _ _ _ _ M1 MB) as M2.
  split; [exact G|]. split; [|split; [|lia]].
  - unfold factor_in_range. split; [now apply (medium_mid 80)|]. split; [now apply (medium_mid (60 + 80))|now apply (medium_mid (60 + 80 + 60))].
  - rewrite Q2R_rval by lia. exact M2.
Qed.

(** A column. *)
Lemma column : forall est w from to c x r k, q_rep from = RFlt F64 -> q_rep to = RFlt F64 -> dim_equivalent (q_dim to) (q_dim from) = true ->
  cast_ratio est (q_dim from) (q_unit from) (q_dim to) (q_unit to) = Ok c -> smallb c = true -> is_number F64 x -> medium 200 r -> near F64 k (fval x) r -> (k <= 1)%nat ->
  exists y, q_cast est w (ToQuantity to) (Quantity from (NFlt x)) = Ok (Quantity to (NFlt y)) /\ is_number F64 y /\
    near F64 (k + Z.abs_nat (rexp c) + 5) (fval y) (r * Q2R (rval c)).
Proof.
  intros est w from to c x r k Rf Rt De Hc S N M A K. destruct (small_factor c S) as (G & F & Mc & L). destruct (factor_near F64 c G F) as [Nc Ac].
  destruct (mul_near F64 k _ x (cast_factor F64 c) r (Q2R (rval c)) N Nc A Ac) as [Ny Ay]; [change (2 ^ 23)%Z with 8388608%Z; lia|now apply (medium_mid (200 + 200)), medium_mul|].
  exists (x * cast_factor F64 c)%D. split; [|split; [exact Ny|eapply near_weaken; [|exact Ay]; lia]].
  assert (X : is_double x) by apply N. unfold q_cast, quantity_cast. cbn [q_type q_num]. rewrite De, Hc. cbn [bind constrained]. rewrite Rf, Rt.
  rewrite (cast_number_eq _ _ _ F64 _ x) by (try reflexivity; cbn [n_convert]; now rewrite conv). cbn [n_convert]. rewrite conv; [reflexivity|]. apply dbl_mul; [exact X|apply (factor_valid F64)].
Qed.

(** ** The table *)

Lemma near_shows : forall t x n k r, u_name (q_unit t) = Some n -> q_rep t = RFlt F64 -> is_number F64 x -> near F64 k (fval x) r -> (k <= 20)%nat -> shows k (n, r) (Quantity t (NFlt x)).
Proof.
  intros t x n k r U R N A K. split; [exact U|]. split; [exact R|]. exists x. split; [reflexivity|]. split; [exact N|]. apply near_within; [apply few; change (2 ^ 22)%Z with 4194304%Z; lia|exact A].
Qed.

Lemma line_of : forall e lab from t1 t2 c1 c2 p1 p2 n n1 n2 x r r1 r2 k,
  q_rep from = RFlt F64 -> q_rep t1 = RFlt F64 -> q_rep t2 = RFlt F64 ->
  dim_equivalent (q_dim t1) (q_dim from) = true -> dim_equivalent (q_dim t2) (q_dim from) = true ->
  cast_ratio (s_est e) (q_dim from) (q_unit from) (q_dim t1) (q_unit t1) = Ok c1 -> cast_ratio (s_est e) (q_dim from) (q_unit from) (q_dim t2) (q_unit t2) = Ok c2 ->
  smallb c1 = true -> smallb c2 = true ->
  u_name (q_unit from) = Some n -> u_name (q_unit t1) = Some n1 -> u_name (q_unit t2) = Some n2 ->
  is_number F64 x -> medium 200 r -> near F64 k (fval x) r -> (k <= 1)%nat ->
  (rval c1 == p1)%Q -> (rval c2 == p2)%Q -> r * Q2R p1 = r1 -> r * Q2R p2 = r2 ->
  exists y, fmt_line e [t1; t2] (Quantity from (NFlt x)) = Ok y /\ row_shown (lab, (n, r), [(n1, r1); (n2, r2)]) (lab, y).
Proof.
  intros e lab from t1 t2 c1 c2 p1 p2 n n1 n2 x r r1 r2 k R0 R1 R2 D1 D2 C1 C2 S1 S2 U U1 U2 N M A K Q1 Q2 <- <-.
  destruct (column (s_est e) (s_world e) from t1 c1 x r k R0 R1 D1 C1 S1 N M A K) as (y1 & H1 & N1 & A1).
  destruct (column (s_est e) (s_world e) from t2 c2 x r k R0 R2 D2 C2 S2 N M A K) as (y2 & H2 & N2 & A2).
  destruct (small_factor c1 S1) as (_ & _ & _ & L1). destruct (small_factor c2 S2) as (_ & _ & _ & L2).
  unfold fmt_line. cbn [map_res]. rewrite H1, H2. cbn [bind]. eexists. split; [reflexivity|]. split; [reflexivity|]. cbn [fst snd].
  rewrite (Qeq_eqR _ _ Q1) in A1. rewrite (Qeq_eqR _ _ Q2) in A2. split; [|constructor; [|constructor; [|constructor]]].
  - apply near_shows; auto; [|lia]. eapply near_weaken; [|exact A]. exact K.
  - apply near_shows; auto. eapply near_weaken; [|exact A1]. lia.
  - apply near_shows; auto. eapply near_weaken; [|exact A2]. lia.
Qed.

Lemma usual_parts : forall x, usual_size x -> is_number F64 x /\ medium 200 (fval x) /\ near F64 0 (fval x) (fval x).
Proof.
  intros x [N [A B]]. split; [exact N|]. split; [|apply near_refl]. split; [apply Rle_trans with (2 := A)|apply Rle_trans with (1 := B)]; apply bpow_le; lia.
Qed.

(** The unit of each type and the conversions along the lines. *)
Ltac facts := solve [vm_compute; reflexivity].
Ltac line_by xx kk pp qq := eapply (line_of _ _ _ _ _ _ _ pp qq) with (k := kk) (x := xx);
  [facts|facts|facts|facts|facts|facts|facts|facts|facts|facts|facts|facts|assumption|assumption|assumption|lia|facts|facts| |].

(** For every ship of usual numbers, each line shows the member in its own unit, and in the two
    other units the exact conversion of it, within twenty roundings. *)
Theorem C108_print : forall est e water s, ship_setup est = Ok e -> usual_size water ->
  usual_size (s_length s) -> usual_size (s_draft s) -> usual_size (s_beam s) -> usual_size (s_speed s) -> usual_size (s_mass s) ->
  usual_size (s_guns s) -> usual_size (s_shell_mass s) -> usual_size (s_shell_speed s) -> usual_size (s_power s) ->
  exists ls, print_details e water s = Ok ls /\ Forall2 row_shown (ship_table water s) ls.
Proof.
  intros est e water s S Uw Ul Ud Ub Us Um Ug Uk Uv Up. rewrite ship_setup_env in S. injection S as <-.
  assert (Vol : is_number F64 (s_mass s / water)%D /\ medium 200 (fval (s_mass s) / fval water) /\ near F64 1 (fval (s_mass s / water)%D) (fval (s_mass s) / fval water)).
  { destruct Um as [Nm Mm]. destruct Uw as [Nw Mw]. change (medium 60 (fval (s_mass s))) in Mm. change (medium 60 (fval water)) in Mw. pose proof (medium_pos _ _ Mw) as Pw. pose proof (medium_div _ _ _ _ Mm Mw) as Mq.
    destruct (div_near F64 0 0 _ _ _ _ Nm Nw (near_refl _ _) (near_refl _ _)) as [N A]; [lra|vm_compute; discriminate|now apply (medium_mid (60 + 60))|].
    split; [exact N|]. split; [|exact A]. destruct Mq as [A1 A2]. split; [apply Rle_trans with (2 := A1)|apply Rle_trans with (1 := A2)]; apply bpow_le; lia. }
  assert (Dw : is_double water) by apply (proj1 Uw). assert (Dm : is_double (s_mass s)) by apply (proj1 Um).
  destruct (usual_parts _ Ul) as (N1 & M1 & A1). destruct (usual_parts _ Ud) as (N2 & M2 & A2). destruct (usual_parts _ Ub) as (N3 & M3 & A3).
  destruct (usual_parts _ Um) as (N4 & M4 & A4). destruct (usual_parts _ Us) as (N5 & M5 & A5). destruct (usual_parts _ Up) as (N6 & M6 & A6).
  destruct (usual_parts _ Ug) as (N7 & M7 & A7). destruct (usual_parts _ Uk) as (N8 & M8 & A8). destruct (usual_parts _ Uv) as (N9 & M9 & A9). destruct Vol as (N0 & M0 & A0).
  clear Uw Ul Ud Ub Us Um Ug Uk Uv Up.
  set (e := ship_env_of est). unfold ship_table. cbv zeta.
  assert (W : exists dens vol, reference_divide (s_world e) (r_lb e) (r_ft3 e) = Ok dens /\ reference_divide (s_world e) (r_lb e) dens = Ok vol /\
    u_name (ref_unit vol) = Some "si::fps::cubic_foot"%string /\
    (exists c, cast_ratio est (ref_dim vol) (ref_unit vol) (q_dim (t_cubic_metre e)) (q_unit (t_cubic_metre e)) = Ok c /\ smallb c = true /\ (rval c == 55306341 # 1953125000)%Q) /\
    (exists c, cast_ratio est (ref_dim vol) (ref_unit vol) (q_dim (t_litre e)) (q_unit (t_litre e)) = Ok c /\ smallb c = true /\ (rval c == 55306341 # 1953125)%Q) /\
    dim_equivalent (q_dim (t_cubic_metre e)) (ref_dim vol) = true /\ dim_equivalent (q_dim (t_litre e)) (ref_dim vol) = true).
  { clear. unfold e. eexists. eexists. split; [vm_compute; reflexivity|]. split; [vm_compute; reflexivity|]. split; [vm_compute; reflexivity|].
    split; [eexists; split; [vm_compute; reflexivity|split; vm_compute; reflexivity]|]. split; [eexists; split; [vm_compute; reflexivity|split; vm_compute; reflexivity]|]. split; vm_compute; reflexivity. }
  destruct W as (dens & vol & W1 & W2 & W3 & (c1 & C1 & S1 & Q1) & (c2 & C2 & S2 & Q2) & E1 & E2).
  assert (L1 : forall lab x, is_number F64 x -> medium 200 (fval x) -> near F64 0 (fval x) (fval x) -> exists y, fmt_line e [t_yard e; t_metre e] (Quantity (t_foot e) (NFlt x)) = Ok y /\
    row_shown (lab, ("si::fps::foot"%string, fval x), [("si::fps::yard"%string, fval x / 3); ("si::metre"%string, fval x * 0.3048)]) (lab, y)).
  { clear. intros lab x N M A. line_by x 0%nat (1 # 3)%Q (381 # 1250)%Q; unfold Q2R; cbn [Qnum Qden]; lra. }
  destruct (L1 "length"%string _ N1 M1 A1) as (y1 & H1 & K1). destruct (L1 "draft"%string _ N2 M2 A2) as (y2 & H2 & K2). destruct (L1 "beam"%string _ N3 M3 A3) as (y3 & H3 & K3). clear L1.
  assert (L4 : exists y, fmt_line e [t_long_ton e; t_tonne e] (Quantity (t_pound e) (NFlt (s_mass s))) = Ok y /\
    row_shown ("mass"%string, ("si::fps::pound"%string, fval (s_mass s)), [("si::fps::long_ton"%string, fval (s_mass s) / 2240); ("si::tonne"%string, fval (s_mass s) * 0.45359237 / 1000)]) ("mass"%string, y)).
  { clear - N4 M4 A4. line_by (s_mass s) 0%nat (1 # 2240)%Q (45359237 # 100000000000)%Q; unfold Q2R; cbn [Qnum Qden]; lra. }
  destruct L4 as (y4 & H4 & K4).
  assert (L5 : exists y, fmt_line e [t_knot e; t_kmph e] (Quantity (t_fps e) (NFlt (s_speed s))) = Ok y /\
    row_shown ("speed"%string, ("si::fps::foot_per_second"%string, fval (s_speed s)), [("si::fps::knot"%string, fval (s_speed s) * 3600 / 6000); ("si::kilometre_per_hour"%string, fval (s_speed s) * 0.3048 * 3600 / 1000)]) ("speed"%string, y)).
  { clear - N5 M5 A5. line_by (s_speed s) 0%nat (6 # 10)%Q (13716 # 12500)%Q; unfold Q2R; cbn [Qnum Qden]; lra. }
  destruct L5 as (y5 & H5 & K5).
  assert (L6 : exists y, fmt_line e [t_horse e; t_kilowatt e] (Quantity (t_poundal e) (NFlt (s_power s))) = Ok y /\
    row_shown ("power"%string, ("si::fps::foot_poundal_per_second"%string, fval (s_power s)), [("si::fps::horse_power"%string, fval (s_power s) / 32.174049 / 550); ("si::kilowatt"%string, fval (s_power s) * 0.3048 * (0.45359237 * 0.3048) / 1000)]) ("power"%string, y)).
  { clear - N6 M6 A6. line_by (s_power s) 0%nat (100000 # 1769572695)%Q (6584392202157 # 156250000000000000)%Q; unfold Q2R; cbn [Qnum Qden];
      [replace 32.174049 with (32174049 / 1000000) by lra; field|lra]. }
  destruct L6 as (y6 & H6 & K6).
  assert (L7 : exists y, fmt_line e [t_inch e; t_millimetre e] (Quantity (t_inch e) (NFlt (s_guns s))) = Ok y /\
    row_shown ("main guns"%string, ("si::fps::inch"%string, fval (s_guns s)), [("si::fps::inch"%string, fval (s_guns s)); ("si::millimetre"%string, fval (s_guns s) / 12 * 304.8)]) ("main guns"%string, y)).
  { clear - N7 M7 A7. line_by (s_guns s) 0%nat (1 # 1)%Q (127 # 5)%Q; unfold Q2R; cbn [Qnum Qden]; lra. }
  destruct L7 as (y7 & H7 & K7).
  assert (L8 : exists y, fmt_line e [t_long_ton e; t_kilogram e] (Quantity (t_pound e) (NFlt (s_shell_mass s))) = Ok y /\
    row_shown ("fire shells weighing"%string, ("si::fps::pound"%string, fval (s_shell_mass s)), [("si::fps::long_ton"%string, fval (s_shell_mass s) / 2240); ("si::kilogram"%string, fval (s_shell_mass s) * 0.45359237)]) ("fire shells weighing"%string, y)).
  { clear - N8 M8 A8. line_by (s_shell_mass s) 0%nat (1 # 2240)%Q (45359237 # 100000000)%Q; unfold Q2R; cbn [Qnum Qden]; lra. }
  destruct L8 as (y8 & H8 & K8).
  assert (L9 : exists y, fmt_line e [t_mph e; t_kmph e] (Quantity (t_fps e) (NFlt (s_shell_speed s))) = Ok y /\
    row_shown ("fire shells at"%string, ("si::fps::foot_per_second"%string, fval (s_shell_speed s)), [("si::fps::mile_per_hour"%string, fval (s_shell_speed s) * 3600 / 5280); ("si::kilometre_per_hour"%string, fval (s_shell_speed s) * 0.3048 * 3600 / 1000)]) ("fire shells at"%string, y)).
  { clear - N9 M9 A9. line_by (s_shell_speed s) 0%nat (30 # 44)%Q (13716 # 12500)%Q; unfold Q2R; cbn [Qnum Qden]; lra. }
  destruct L9 as (y9 & H9 & K9).
  assert (L0 : exists y, fmt_line e [t_cubic_metre e; t_litre e] (qf vol (s_mass s / water)%D) = Ok y /\
    row_shown ("volume underwater"%string, ("si::fps::cubic_foot"%string, fval (s_mass s) / fval water), [("si::cubic_metre"%string, fval (s_mass s) / fval water * (0.3048 * 0.3048 * 0.3048)); ("si::litre"%string, fval (s_mass s) / fval water * (0.3048 * 0.3048 * 0.3048) * 1000)]) ("volume underwater"%string, y)).
  { clear - N0 M0 A0 W3 C1 C2 S1 S2 Q1 Q2 E1 E2. eapply (line_of e _ (QType (ref_dim vol) (ref_unit vol) (RFlt F64)) _ _ c1 c2 _ _) with (k := 1%nat); cbn [q_rep q_dim q_unit]; try eassumption; try reflexivity; try lia; unfold Q2R; cbn [Qnum Qden]; lra. }
  destruct L0 as (y0 & H0 & K0).
  assert (V : q_over (s_world e) (Quantity (t_pound e) (NFlt (s_mass s))) (qf dens water) = Ok (qf vol (s_mass s / water)%D)) by exact (quotient_dbl _ (r_lb e) dens vol _ _ W2 Dm Dw).
  unfold print_details. rewrite W1. cbn [bind]. rewrite make_flt by exact Dw. cbn [bind]. cbv zeta.
  rewrite H1, H2, H3, H4, H5, H6, H7, H8, H9, V. cbn [bind]. rewrite H0. cbn [bind].
  eexists. split; [reflexivity|]. repeat (constructor; [assumption|]). constructor.
Qed.
Print Assumptions C108_print.

(** USS Iowa, as given in feet, pounds and inches, in water of 62.4 pounds per cubic foot: a
    ship of usual numbers. *)
Definition iowa : ship := Ship (int 860) (int 37) (int 108) (int 55) (int 128889600) (int 16) (int 2700) (int 2690) (int 1000000).
Example C108_ex_iowa : forall est, exists e ls, ship_setup est = Ok e /\ print_details e (int 624 / int 10)%D iowa = Ok ls /\ Forall2 row_shown (ship_table (int 624 / int 10)%D iowa) ls.
Proof.
  intros est. destruct (C108_setup est) as [e S]. exists e.
  assert (U : forall z, (1 <= z <= 2 ^ 50)%Z -> usual_size (int z)) by (intros z Z; destruct (constant_medium z 60) as (A & B & C); [lia..|]; split; [exact A|rewrite B; exact C]).
  destruct (C108_print est e (int 624 / int 10)%D iowa S) as (ls & P & F); try (apply U; cbn; lia); [|exists ls; auto].
  exact (proj1 (usual_quotient 624 10 ltac:(lia) ltac:(lia))).
Qed.
