(** Theorems about the texts of units and the output of quantities (C59, C60, C61). *)

From Coq Require Import ZArith QArith Ascii String List Bool Lia Lqa.
From Verif Require Import Outcome CInt RatioMaths Ratio SpecRatio FixedString StringProofs TextTools DerivedSymbol
  Unit UnitDecl Downcast Dim DimOp UnitText SpecDim SpecUnit SpecText TextProofs SymbolProofs RatioProofs2 MagnitudeProofs
  DimOpProofs DimOpProofs2 SpecUnitText UnitTextProofs Rep QuantityCast Quantity QuantityIo Samples Props_Dim Props_Text.
Import ListNotations.
Local Open Scope string_scope.
Local Open Scope Z_scope.
Local Open Scope res_scope.

(** * C59: dimensions with unnamed units *)

(** Replacing the dimensions with unnamed units by their recipes, to any depth, does not change
    the dimension: every base dimension has the same exponent as in the product of the
    constituents. *)
Theorem C59_expansion : forall U, symbols_identify U -> forall d, built U d -> (forall b, d <> DBase b) ->
  forall b, (dim_expo d b == total (constituents 1 d) b)%Q.
Proof.
  intros U SI d B N b. pose proof (total_constituents U SI d B 1 b) as T. destruct d; [now elim (N b0)| |]; rewrite T; lra.
Qed.
Print Assumptions C59_expansion.

(** The text of such a dimension lists exactly these constituents in order, each with the
    exponent of the innermost recipe (up to C58's condition on negative fractions). *)
Theorem C59_text : forall d t, derived_dimension_unit_text d = Ok t ->
  (constituents 1 d = [] -> t = st_of_ascii "") /\
  (constituents 1 d <> [] ->
   let l := map (fun c => (snd (fst c), symbol_of (fst (fst c)))) (constituents 1 d) in
   Forall writable l -> (length (negatives l) <= 1)%nat \/ (forall c, In c (negatives l) -> snd (fst c) = 1) ->
   read_symbol (st_ascii t) = Some (map (fun c => (st_ascii (symbol_of (fst (fst c))), snd (fst c))) (constituents 1 d)) /\
   read_symbol (st_standard t) = Some (map (fun c => (st_standard (symbol_of (fst (fst c))), snd (fst c))) (constituents 1 d))).
Proof.
  intros d t H. pose proof (derived_text_is d t H) as T. cbn zeta in T. split.
  - intros E. rewrite E in T. exact T.
  - intros N l W C. fold l in T. assert (Nl : l <> []) by (unfold l; destruct (constituents 1 d); [contradiction|discriminate]).
    destruct l as [|x r] eqn:El; [contradiction|]. rewrite <- El in *. unfold constituent in *.
    destruct (C58_reads_back l Nl W) as (t' & E & S & A). rewrite T in E. inversion E; subst t'.
    apply (proj1 S) in C as Rs. apply (proj1 A) in C as Ra. rewrite Rs, Ra. unfold l. rewrite !map_map. split; reflexivity.
Qed.
Print Assumptions C59_text.

(** So every exponent in the text is the true one exactly when the exponents around it
    multiply to one; in particular when every dimension with an unnamed unit has the exponent one. *)
Theorem C59_faithful : forall d,
  Forall (fun c => fst (snd (fst c)) <> 0 /\ snd (snd (fst c)) <> 0) (constituents 1 d) ->
  (Forall (fun c => (snd c * exponent_value (snd (fst c)) == exponent_value (snd (fst c)))%Q) (constituents 1 d) <->
   Forall (fun c => (snd c == 1)%Q) (constituents 1 d)).
Proof.
  intros d N. rewrite !Forall_forall in *. split; intros H c I; specialize (H c I); specialize (N c I) as [N1 N2]; unfold exponent_value in *.
  - pose proof (inject_div_nz _ _ N1 N2) as Z. set (q := (inject_Z (fst (snd (fst c))) / inject_Z (snd (snd (fst c))))%Q) in *.
    apply (Qmult_inj_r _ _ q Z). rewrite H. lra.
  - rewrite H. lra.
Qed.
Print Assumptions C59_faithful.
Theorem C59_exponent_one : forall d, plainly_nested d -> Forall (fun c => (snd c == 1)%Q) (constituents 1 d).
Proof. intros d P. apply plainly_one; [exact P|reflexivity]. Qed.
Print Assumptions C59_exponent_one.

(** Momentum: mass times speed, whose unit is unnamed. *)
Definition kg_mps : cunit := CUnit (Some "kilogram_metre_per_second") [] one_r "kilogram_metre_per_second" false None "no_prefix".
Definition momentum_recipe : list (dimension * (Z * Z)) := [(DBase dim_M, (1, 1)); (dim_speed, (1, 1))].
Definition dim_momentum : dimension := DDerived "dim_momentum" [BExp dim_L 1 1; BExp dim_M 1 1; BExp dim_T (-1) 1] kg_mps momentum_recipe.
Example C59_case : derived_dimension_unit_text dim_momentum = Ok (SymbolText "kg ⋅ m/s" "kg m/s") /\ plainly_nested dim_momentum /\
  make_dimension momentum_recipe = Ok [BExp dim_L 1 1; BExp dim_M 1 1; BExp dim_T (-1) 1].
Proof.
  split; [vm_compute; reflexivity|]. split; [|vm_compute; reflexivity].
  constructor. constructor; [left; reflexivity|]. constructor; [right; split; [reflexivity|]|constructor].
  constructor. constructor; [left; reflexivity|]. constructor; [left; reflexivity|constructor].
Qed.
Example C59_case_built : built si_base dim_speed.
Proof.
  constructor.
  - constructor; [constructor; reflexivity|]. constructor; [constructor; reflexivity|constructor].
  - constructor; [|constructor; [|constructor]]; (split; [unfold si_base; auto|]);
      (split; [discriminate|split; [reflexivity|split; [reflexivity|split; discriminate]]]).
  - vm_compute. reflexivity.
Qed.

(** The exponent of a nested dimension is lost: the unit of a squared speed prints as a speed. *)
Definition sq_speed_unit : cunit := CUnit (Some "metre_sq_per_second_sq") [] one_r "metre_sq_per_second_sq" false None "no_prefix".
Definition dim_sq_speed : dimension := DDerived "dim_sq_speed" [BExp dim_L 2 1; BExp dim_T (-2) 1] sq_speed_unit [(dim_speed, (2, 1))].
Theorem C59_outer_exponent_refuted : make_dimension [(dim_speed, (2, 1))] = Ok (exponents dim_sq_speed) /\
  unit_text empty_registry [sq_speed_unit] dim_sq_speed sq_speed_unit = Ok (st_of_ascii "m/s") /\
  (dim_expo dim_sq_speed dim_L == 2)%Q.
Proof. split; [vm_compute; reflexivity|]. split; vm_compute; reflexivity. Qed.
Print Assumptions C59_outer_exponent_refuted.

(** * C60: ratios in front of units *)

(** The text of a ratio reads back as its numerator, denominator and exponent. *)
Theorem C60_ratio : forall r, 0 <= rnum r <= INTMAX_MAX -> 0 < rden r <= INTMAX_MAX -> INTMAX_MIN < rexp r <= INTMAX_MAX ->
  exists t, ratio_text r = Ok t /\ read_ratio (st_ascii t) = Some (rnum r, rden r, rexp r) /\
    read_ratio_unicode (st_standard t) = Some (rnum r, rden r, rexp r) /\
    (st_standard t = "" <-> r = Ratio 1 1 0) /\ (st_ascii t = "" <-> r = Ratio 1 1 0).
Proof. exact ratio_text_reads. Qed.
Print Assumptions C60_ratio.
Example C60_ratio_case : ratio_text (Ratio 127 3 (-4)) = Ok (SymbolText "[127/3 × 10⁻⁴]" "[127/3 x 10^-4]") /\
  ratio_text (Ratio 1 1 6) = Ok (SymbolText "× 10⁶" "x 10^6") /\ ratio_text (Ratio 6 1 1) = Ok (SymbolText "[6 × 10¹]" "[6 x 10^1]").
Proof. repeat split; reflexivity. Qed.

(** A unit without symbol is written as the text of the coherent unit with, in front of it,
    nothing, the symbol of a prefix, or a ratio; what stands in front is its size relative to
    the coherent unit. *)
Theorem C60_unit : forall l g env d u t, declare_prefixes l = Ok g -> unit_of u d = true -> unit_good u ->
  unit_good (dimension_unit d) -> rexp (u_ratio (dimension_unit d)) <> INTMAX_MIN ->
  u_symbol u = None -> unit_text g env d u = Ok t ->
  exists c p f, unit_text g env d (dimension_unit d) = Ok c /\ t = st_add p c /\
    (forall mu mc, magnitude d u mu -> magnitude d (dimension_unit d) mc -> (mu == rval f * mc)%Q) /\
    ((p = st_of_ascii "" /\ f = Ratio 1 1 0) \/
     (exists x, In x l /\ p = p_symbol x /\ f = p_ratio x) \/
     (exists x, read_ratio (st_ascii x) = Some (rnum f, rden f, rexp f) /\
        read_ratio_unicode (st_standard x) = Some (rnum f, rden f, rexp f) /\
        p = if String.eqb (st_standard c) "" then x else st_add x (st_of_ascii " "))).
Proof.
  intros l g env d u t D Uo Gu Gc Ne S H.
  destruct (unit_text_parts l g env d u t D S H Uo Gc Ne) as (c & r & p & f & Hc & Hr & _ & Hp & ->).
  exists c, p, r. split; [exact Hc|]. split; [reflexivity|]. split.
  - intros mu mc Mu Mc. exact (relative_magnitude d u r mu mc Gu Gc Hr Mu Mc).
  - destruct (rdiv_good _ _ _ Gu Gc Hr) as [_ Gr]. destruct Hp as [E|x N I F R|x N T].
    + left. auto.
    + right. left. exists x. auto.
    + right. right. exists x. destruct (ratio_text_ok r x Gr T) as (A & B & C & _). split; [exact A|]. split; [exact B|].
      rewrite spaced_text by (intros Y; apply C in Y; contradiction). destruct (st_standard c); reflexivity.
Qed.
Print Assumptions C60_unit.

(** Units without symbol of one dimension with different sizes have different texts, if the
    symbols of the prefixes are different and contain neither a space nor a bracket. *)
Theorem C60_distinct : forall l g env d u v t s, declare_prefixes l = Ok g ->
  unit_of u d = true -> unit_of v d = true -> unit_good u -> unit_good v -> unit_good (dimension_unit d) ->
  rexp (u_ratio (dimension_unit d)) <> INTMAX_MIN ->
  u_symbol u = None -> u_symbol v = None -> unit_text g env d u = Ok t -> unit_text g env d v = Ok s ->
  (forall p q, In p l -> In q l -> p_family p = p_family q -> p_ratio p <> p_ratio q ->
     st_ascii (p_symbol p) <> st_ascii (p_symbol q) /\ st_standard (p_symbol p) <> st_standard (p_symbol q)) ->
  (forall p, In p l -> plain_prefix (st_ascii (p_symbol p)) /\ plain_prefix (st_standard (p_symbol p))) ->
  (exists mu mv, magnitude d u mu /\ magnitude d v mv /\ ~ (mu == mv)%Q) ->
  st_ascii t <> st_ascii s /\ st_standard t <> st_standard s.
Proof.
  intros l g env d u v t s D Uu Uv Gu Gv Gc Ne Su Sv Ht Hs Di Pl (mu & mv & Mu & Mv & N).
  destruct (unit_text_parts l g env d u t D Su Ht Uu Gc Ne) as (c & r1 & p1 & f1 & Hc & Hr1 & Hf1 & Hp1 & ->).
  destruct (unit_text_parts l g env d v s D Sv Hs Uv Gc Ne) as (c' & r2 & p2 & f2 & Hc' & Hr2 & Hf2 & Hp2 & ->).
  rewrite Hc in Hc'. inversion Hc'; subst c'.
  assert (Ef : f1 = f2).
  { unfold reference_of, unit_of in *. apply String.eqb_eq in Uu, Uv. rewrite Uu in Hf1. rewrite Uv in Hf2. congruence. }
  subst f2. destruct (rdiv_good _ _ _ Gu Gc Hr1) as [_ G1]. destruct (rdiv_good _ _ _ Gv Gc Hr2) as [_ G2].
  assert (X : r1 <> r2).
  { intros ->. apply N. destruct Mu as (b & B & V), Mv as (b' & B' & V'). 
    destruct (rdiv_good _ _ _ Gu Gc Hr1) as [E1 _]. destruct (rdiv_good _ _ _ Gv Gc Hr2) as [E2 _].
    rewrite V, V', (coherent_unique _ _ _ B B'), <- E1, E2. reflexivity. }
  rewrite !st_add_append. cbn [st_standard st_ascii]. split; intros E; apply append_cancel in E; apply X.
  - refine (prefix_text_inj st_ascii "x 10^" read_int l (u_prefixes f1) _ r1 r2 p1 p2 _ eq_refl eq_refl eq_refl _ _ _ G1 G2 Hp1 Hp2 E).
    + intros a b. now rewrite st_add_append.
    + intros r x G H. destruct (ratio_text_ok r x G H) as (A & _ & _ & B). split; [exact A|exact B].
    + intros p q I J F Q. destruct (ratio_eq_dec (p_ratio p) (p_ratio q)) as [|Nr]; auto. destruct (Di p q I J F Nr). contradiction.
    + intros p I. apply (Pl p I).
  - refine (prefix_text_inj st_standard "× 10" read_superscript l (u_prefixes f1) _ r1 r2 p1 p2 _ eq_refl eq_refl eq_refl _ _ _ G1 G2 Hp1 Hp2 E).
    + intros a b. now rewrite st_add_append.
    + intros r x G H. destruct (ratio_text_ok r x G H) as (_ & A & B & _). split; [exact A|exact B].
    + intros p q I J F Q. destruct (ratio_eq_dec (p_ratio p) (p_ratio q)) as [|Nr]; auto. destruct (Di p q I J F Nr). contradiction.
    + intros p I. apply (Pl p I).
Qed.
Print Assumptions C60_distinct.

(** Prefixes of the SI, and the units of mass: the text of a unit of 10^9 g that has no symbol. *)
Definition si_family : string := "prefix".
Definition kilo : prefix := Prefix "kilo" si_family (st_of_ascii "k") (Ratio 1 1 3).
Definition mega : prefix := Prefix "mega" si_family (st_of_ascii "M") (Ratio 1 1 6).
Definition micro : prefix := Prefix "micro" si_family (SymbolText "µ" "u") (Ratio 1 1 (-6)).
Definition gram_si : cunit := CUnit (Some "gram") [] (Ratio 1 1 0) "gram" true (Some (st_of_ascii "g")) si_family.
Definition metre_si : cunit := CUnit (Some "metre") [] (Ratio 1 1 0) "metre" true (Some (st_of_ascii "m")) si_family.
Definition anonymous (r : ratio) (ref : string) : cunit := CUnit None [] r ref false None "no_prefix".
Example C60_unit_case : exists g, declare_prefixes [kilo; mega; micro] = Ok g /\
  unit_text g [metre_si] (DBase dim_L) (anonymous (Ratio 1 1 6) "metre") = Ok (st_of_ascii "Mm") /\
  unit_text g [metre_si] (DBase dim_L) (anonymous (Ratio 1 1 7) "metre") = Ok (SymbolText "× 10⁷ m" "x 10^7 m") /\
  unit_text g [metre_si] (DBase dim_L) (anonymous (Ratio 127 5 (-3)) "metre") = Ok (SymbolText "[127/5 × 10⁻³] m" "[127/5 x 10^-3] m").
Proof. eexists. split; [vm_compute; reflexivity|]. repeat split; vm_compute; reflexivity. Qed.

Example C60_distinct_case : let l := [kilo; mega; micro] in
  (forall p q, In p l -> In q l -> p_family p = p_family q -> p_ratio p <> p_ratio q ->
     st_ascii (p_symbol p) <> st_ascii (p_symbol q) /\ st_standard (p_symbol p) <> st_standard (p_symbol q)) /\
  (forall p, In p l -> plain_prefix (st_ascii (p_symbol p)) /\ plain_prefix (st_standard (p_symbol p))).
Proof.
  split.
  - intros p q [<-|[<-|[<-|[]]]] [<-|[<-|[<-|[]]]] _ N; try (now elim N); split; discriminate.
  - intros p [<-|[<-|[<-|[]]]]; repeat split; discriminate.
Qed.

(** The prefix is chosen by the ratio to the coherent unit but from the family of the reference
    unit: the unit of 10^6 g is written ["kkg"], a double prefix. *)
Theorem C60_double_prefix_refuted : exists g, declare_prefixes [kilo; mega; micro] = Ok g /\
  unit_text g [gram_si] (DBase dim_M) (anonymous (Ratio 1 1 6) "gram") = Ok (st_of_ascii "kkg").
Proof. eexists. split; [vm_compute; reflexivity|]. vm_compute. reflexivity. Qed.
Print Assumptions C60_double_prefix_refuted.

(** * C61: output *)

(** The number, and unless it is empty a space and the text of the unit. *)
Definition quantity_text (number symbol : string) : string :=
  if String.eqb symbol "" then number else number ++ " " ++ symbol.

Lemma padded_zero : forall c left s, padded 0 c left s = s.
Proof.
  intros c left s. unfold padded. replace (Z.to_nat (0 - Z.of_nat (String.length s))) with O by lia. cbn [fill_chars].
  destruct left; [apply append_nil_r|reflexivity].
Qed.
Lemma to_stream_zero : forall F (put : F -> number -> string) os x s, os_width os = 0 ->
  to_stream put os x s = Stream 0 (os_fill os) (os_left os) (os_format os) (os_out os ++ quantity_text (put (os_format os) x) (st_standard s)).
Proof.
  intros F put os x s W. unfold to_stream, insert_number, insert_text, quantity_text. cbn [os_width os_fill os_left os_format os_out]. rewrite W, !padded_zero.
  destruct (String.eqb (st_standard s) ""); cbn [negb]; [reflexivity|]. f_equal. now rewrite !append_assoc.
Qed.

(** Without a width: the text is appended, with the number in the format of the stream; the
    state of the stream does not change. *)
Theorem C61_output : forall F (put : F -> number -> string) default g env os q os', os_width os = 0 ->
  output put default g env os q = Ok os' ->
  exists s, unit_text g env (q_dim (q_type q)) (q_unit (q_type q)) = Ok s /\
    os' = Stream 0 (os_fill os) (os_left os) (os_format os)
            (os_out os ++ quantity_text (put (os_format os) (q_num q)) (st_standard s)).
Proof.
  intros F put default g env os q os' W H. unfold output in H. step H as s Hs. inv_ok. exists s. split; auto.
  unfold put_quantity. rewrite W. cbn [Z.eqb negb]. now apply to_stream_zero.
Qed.
Print Assumptions C61_output.

(** With a width the whole text is padded to it, and the width is used up. *)
Theorem C61_width : forall F (put : F -> number -> string) default g env os q os', os_width os <> 0 ->
  output put default g env os q = Ok os' ->
  exists s, unit_text g env (q_dim (q_type q)) (q_unit (q_type q)) = Ok s /\
    os' = Stream 0 (os_fill os) (os_left os) (os_format os)
            (os_out os ++ padded (os_width os) (os_fill os) (os_left os) (quantity_text (put default (q_num q)) (st_standard s))).
Proof.
  intros F put default g env os q os' W H. unfold output in H. step H as s Hs. inv_ok. exists s. split; auto.
  unfold put_quantity. destruct (Z.eqb_spec (os_width os) 0); [contradiction|]. cbn [negb]. rewrite to_stream_zero by reflexivity.
  cbn [os_out new_stream os_format append]. reflexivity.
Qed.
Print Assumptions C61_width.
Theorem C61_padding : forall w c left s, String.length (padded w c left s) = Nat.max (Z.to_nat w) (String.length s) /\
  exists f, padded w c left s = (if left then s ++ f else f ++ s) /\ all_chars (Ascii.eqb c) f = true.
Proof.
  assert (L : forall a b : string, String.length (a ++ b) = (String.length a + String.length b)%nat).
  { induction a as [|x a IH]; intros b; cbn; [reflexivity|]. now rewrite IH. }
  assert (K : forall n c, String.length (fill_chars n c) = n) by (induction n; intros c; cbn; [reflexivity|now rewrite IHn]).
  assert (A : forall n c, all_chars (Ascii.eqb c) (fill_chars n c) = true) by (induction n; intros c; cbn; [reflexivity|now rewrite Ascii.eqb_refl, IHn]).
  intros w c left s. unfold padded. split.
  - destruct left; rewrite L, K; lia.
  - eexists. split; [reflexivity|apply A].
Qed.
Print Assumptions C61_padding.

(** Any sequence of outputs to a stream without a width writes the texts one after the other. *)
Theorem C61_sequence : forall F (put : F -> number -> string) default g env l os os', os_width os = 0 ->
  outputs put default g env os l = Ok os' ->
  exists ss, Forall2 (fun q s => unit_text g env (q_dim (q_type q)) (q_unit (q_type q)) = Ok s) l ss /\
    os_out os' = os_out os ++ String.concat "" (map (fun x => quantity_text (put (os_format os) (q_num (fst x))) (st_standard (snd x))) (combine l ss)).
Proof.
  assert (CC : forall (a : string) l, String.concat "" (a :: l) = a ++ String.concat "" l).
  { intros a [|b l]; cbn; [now rewrite append_nil_r|reflexivity]. }
  intros F put default g env. induction l as [|q l IH]; intros os os' W H.
  - cbn in H. inversion H; subst. exists []. split; [constructor|]. cbn. now rewrite append_nil_r.
  - cbn [outputs] in H. step H as o Ho. destruct (C61_output F put default g env os q o W Ho) as (s & Hs & ->).
    apply IH in H; [|reflexivity]. destruct H as (ss & Fs & E). exists (s :: ss). split; [constructor; auto|].
    cbn [os_out os_format] in E. rewrite E. cbn [combine map fst snd]. rewrite CC. now rewrite append_assoc.
Qed.
Print Assumptions C61_sequence.

(** Decimal or hexadecimal, a stand-in for the format state. *)
Definition put_example (hex : bool) (x : number) : string :=
  match x with NInt 255 => if hex then "ff" else "255" | NInt 7 => "7" | _ => "?" end.
Definition q_255 : quantity := Quantity (QType (DBase dim_L) kilometre (RInt I32)) (NInt 255).
Example C61_case : output put_example false empty_registry [] (Stream 0 "*" false true "d = ") q_255 =
    Ok (Stream 0 "*" false true "d = ff km") /\
  output put_example false empty_registry [] (Stream 8 "*" false false "d = ") q_255 = Ok (Stream 0 "*" false false "d = **255 km").
Proof. split; vm_compute; reflexivity. Qed.

(** With a width the format of the stream is not applied to the number: it is written by a new
    stream with the default format. *)
Theorem C61_width_format_refuted : exists (F : Type) (put : F -> number -> string) default os q os',
  put (os_format os) (q_num q) = "ff" /\ output put default empty_registry [] os q = Ok os' /\ os_out os' = "**255 km".
Proof.
  exists bool, put_example, false, (Stream 8 "*" false true ""), q_255, (Stream 0 "*" false true "**255 km").
  repeat split; vm_compute; reflexivity.
Qed.
Print Assumptions C61_width_format_refuted.
