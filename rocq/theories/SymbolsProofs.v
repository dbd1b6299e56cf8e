(** Proofs about the printed symbols of the catalogue: the factor in front of a symbol is
    read for any ratio, the symbols are read once for the whole catalogue. *)

From Coq Require Import ZArith QArith Qpower Qreduction Lqa Lia String Ascii List Bool.
From Verif Require Import Outcome CInt Root Ratio FixedString Unit Downcast Dim DimOp DerivedUnit UnitDecl TextTools DerivedSymbol UnitText
  QuantityCast Equivalent System Catalogue SpecRatio SpecDim SpecUnit SpecQuantity SpecCatalogue SpecText SpecNames SpecSymbols MagnitudeProofs StringProofs TextProofs SymbolProofs UnitTextProofs
  SystemProofs IsqProofs CatalogueProofs.
Import ListNotations.
Local Open Scope string_scope.
Local Open Scope Z_scope.
Local Open Scope res_scope.

(** ** The factor in front *)

Lemma super_space : forall ds, Forall (fun d => 0 <= d <= 9) ds -> has_char " " (write superscript_of_digit ds) = false.
Proof.
  induction ds as [|d ds IH]; intros F; [reflexivity|]. inversion F as [|? ? D R]; subst. rewrite write_cons, has_char_app, (IH R), orb_false_r.
  clear - D. assert (C : In d [0; 1; 2; 3; 4; 5; 6; 7; 8; 9]) by (cbn; lia). cbn in C. repeat (destruct C as [<-|C]; [reflexivity|]). destruct C.
Qed.
Lemma power_chars : forall e x, INTMAX_MIN < e <= INTMAX_MAX -> superscript e = Ok x ->
  has_char " " (st_standard x) = false /\ has_char " " (st_ascii x) = false /\
  has_char "]" (st_standard x) = false /\ has_char "]" (st_ascii x) = false /\ exists a, st_ascii x = "^" ++ a.
Proof.
  intros e x H E. destruct (superscript_digits e H) as (ds & D & E'). rewrite E' in E.
  pose proof (super_space ds (proj1 D)) as S. pose proof (number_chars ds " " (proj1 D) eq_refl) as N.
  pose proof (super_chars ds (proj1 D)) as S'. pose proof (number_chars ds "]" (proj1 D) eq_refl) as N'.
  destruct (e <? 0); inversion E; subst x; cbn [st_standard st_ascii append has_char]; rewrite ?S, ?N, ?S', ?N';
    (split; [reflexivity|split; [reflexivity|split; [reflexivity|split; [reflexivity|eexists; reflexivity]]]]).
Qed.

(** The two forms. *)
Definition fronted (mult s : string) : Prop :=
  (exists body, s = "[" ++ body ++ "]" /\ has_char "]" body = false) \/ (exists e, s = mult ++ e /\ has_char " " e = false).
Lemma closed : forall mult b, has_char "]" b = false -> fronted mult (String "[" (b ++ "]")).
Proof. intros mult b B. left. exists b. auto. Qed.

Lemma ratio_fronted : forall r x, ratio_good r -> r <> Ratio 1 1 0 -> ratio_text r = Ok x ->
  fronted "× 10" (st_standard x) /\ fronted "x 10^" (st_ascii x).
Proof.
  intros [n d e] x ((D & _) & (A & B & C) & N) Ne H. cbn [rnum rden rexp] in *.
  assert (He : INTMAX_MIN < e).
  { destruct (Z.eq_dec e INTMAX_MIN) as [->|]; [exfalso|lia]. unfold ratio_text in H. cbn [rnum rden rexp] in H. rewrite min_power in H.
    change (INTMAX_MIN =? 0) with false in H. cbn [negb orb andb bind] in H. rewrite !andb_true_r, !orb_true_r in H.
    destruct ((n =? 1) && (d =? 1)); [discriminate|]. step H as a Ha. destruct (d =? 1); [discriminate|]. step H as b Hb. discriminate. }
  pose proof (conj He (proj2 C)) as Hr. unfold ratio_text in H. cbn [rnum rden rexp] in H.
  destruct (superscript e) as [p| | | |] eqn:Ep.
  2-5: destruct (power_text e Hr) as (s & a & E & _); congruence.
  destruct (power_chars e p Hr Ep) as (P1 & P2 & P3 & P4 & a & Pa).
  destruct (plain_text n ltac:(lia)) as (xn & En & _ & N1 & N2 & N3). rewrite En in H.
  destruct (plain_text d ltac:(lia)) as (xd & Ed & _ & D1 & D2 & D3). rewrite Ed in H. cbn [bind] in H.
  destruct (Z.eqb_spec n 1) as [X1|X1], (Z.eqb_spec d 1) as [X2|X2], (Z.eqb_spec e 0) as [X3|X3]; cbn [andb negb orb] in H; subst; try congruence;
    rewrite ?st_add_append in H; cbn [st_standard st_ascii st_of_ascii base_multiplier] in H; inversion H; subst x; clear H; cbn [st_standard st_ascii].
  all: try (split; [right; eexists; split; [reflexivity|exact P1]|]; right; exists a; rewrite Pa in *; split; [reflexivity|];
    rewrite has_char_app in P2; apply orb_false_iff in P2; apply P2).
  all: split; apply closed; rewrite ?has_char_app, ?N1, ?D1, ?P3, ?P4; reflexivity.
Qed.

Lemma cut_end : forall c x, has_char c x = false -> cut_at c x = (x, "").
Proof.
  intros c x. induction x as [|a x IH]; cbn [has_char cut_at]; intros H; [reflexivity|].
  apply orb_false_iff in H as [H1 H2]. now rewrite H1, (IH H2).
Qed.
(** The multiplication sign does not begin with a bracket. *)
Definition no_bracket (mult : string) : Prop := match mult with String c _ => Ascii.eqb c "[" = false | "" => False end.
Lemma front_plain : forall mult s, no_bracket mult -> fronted mult s -> front mult s = (s, "").
Proof.
  intros mult s M [(b & -> & B)|(e & -> & E)].
  - cbn [append front]. rewrite (cut_none _ _ B). reflexivity.
  - destruct mult as [|m mult]; [destruct M|]. unfold no_bracket in M. unfold front. cbn [append]. rewrite M.
    change (String m (mult ++ e)) with (String m mult ++ e). rewrite strip_app, (cut_end _ _ E). reflexivity.
Qed.
Lemma front_spaced : forall mult s c, no_bracket mult -> fronted mult s -> front mult (s ++ " " ++ c) = (s, c).
Proof.
  intros mult s c M [(b & -> & B)|(e & -> & E)].
  - rewrite !append_assoc. cbn [append front]. rewrite (cut_first _ _ _ B). reflexivity.
  - destruct mult as [|m mult]; [destruct M|]. unfold no_bracket in M. unfold front. rewrite append_assoc. cbn [append]. rewrite M.
    change (String m (mult ++ e ++ String " " c)) with (String m mult ++ (e ++ String " " c)). rewrite strip_app, (cut_first _ _ _ E). reflexivity.
Qed.

(** A text behind a ratio is read with that factor. *)
Definition ratio_factor (r : ratio) : Q := (inject_Z (rnum r) / inject_Z (rden r) * ten_to (rexp r))%Q.
Lemma ratio_readings : forall sym r x c, ratio_good r -> r <> Ratio 1 1 0 -> ratio_text r = Ok x ->
  (forall t, t = (if String.eqb c "" then st_standard x else st_standard x ++ " " ++ c) ->
     text_readings sym "× 10" read_superscript t = map (scaled_by (ratio_factor r)) (unit_readings sym c)) /\
  (forall t, t = (if String.eqb c "" then st_ascii x else st_ascii x ++ " " ++ c) ->
     text_readings sym "x 10^" read_int t = map (scaled_by (ratio_factor r)) (unit_readings sym c)).
Proof.
  intros sym r x c G N H. destruct (ratio_fronted r x G N H) as [F1 F2]. destruct (ratio_text_ok r x G H) as (R1 & R2 & _).
  split; intros t ->; unfold text_readings.
  - destruct (String.eqb_spec c "") as [->|Nc].
    + rewrite (front_plain "× 10" _ eq_refl F1). unfold read_ratio_unicode in R2. rewrite R2. reflexivity.
    + rewrite (front_spaced "× 10" _ _ eq_refl F1). unfold read_ratio_unicode in R2. rewrite R2. reflexivity.
  - destruct (String.eqb_spec c "") as [->|Nc].
    + rewrite (front_plain "x 10^" _ eq_refl F2). unfold read_ratio in R1. rewrite R1. reflexivity.
    + rewrite (front_spaced "x 10^" _ _ eq_refl F2). unfold read_ratio in R1. rewrite R1. reflexivity.
Qed.
Lemma ratio_factor_val : forall r, ratio_good r -> (ratio_factor r == rval r)%Q.
Proof. intros r G. unfold ratio_factor, rval, ten_to. reflexivity. Qed.
Lemma values_scaled : forall q f l, values_as q (map (scaled_by f) l) = map (Qmult f) (values_as q l).
Proof.
  intros q f l. unfold values_as. induction l as [|a l IH]; [reflexivity|]. cbn [map filter].
  change (fst (scaled_by f a)) with (fst a). destruct (same_row (fst a) (printed_row q)); cbn [map]; [rewrite IH|]; auto.
Qed.

(** ** The prefixes of a program *)

Lemma declare_all_snoc : forall l (g : prefix_registry) k (p : prefix), declare_all prefix_key_eq_dec On (l ++ [(k, p)]) g =
  (g' <- declare_all prefix_key_eq_dec On l g; declare prefix_key_eq_dec On k p g').
Proof.
  induction l as [|[k0 p0] l IH]; intros g k p; cbn [app declare_all bind].
  - destruct (declare prefix_key_eq_dec On k p g); reflexivity.
  - destruct (declare prefix_key_eq_dec On k0 p0 g); cbn [bind]; auto.
Qed.
Lemma guides_declared : forall est mode ts prog e e', elaborate est mode ts e prog = Ok e' ->
  declare_prefixes (rev (en_prefixes e)) = Ok (en_guides e) -> declare_prefixes (rev (en_prefixes e')) = Ok (en_guides e').
Proof.
  intros est mode ts prog. induction prog as [|x prog IH]; cbn [elaborate]; intros e e' H W.
  - inversion H; subst; exact W.
  - step H as m M. apply (IH m e' H). clear IH H. unfold elaborate_entry in M. step M as v0 T. clear v0 T.
    assert (U : forall ud, declare_unit_entry est mode e ud = Ok m -> declare_prefixes (rev (en_prefixes m)) = Ok (en_guides m)).
    { intros ud D. unfold declare_unit_entry in D. step D as us D1. destruct us as [|u us]; [discriminate D|]. step D as w Ww.
      inversion D; subst m. exact W. }
    assert (D : forall o n u rec, declare_dim_entry mode e o n u rec = Ok m -> declare_prefixes (rev (en_prefixes m)) = Ok (en_guides m)).
    { intros o n u rec D. unfold declare_dim_entry in D. step D as cu C. step D as d Dd. step D as w Ww. inversion D; subst m. exact W. }
    destruct x; try (step M as o O; destruct o as [ud|]; [exact (U ud M)|discriminate M]).
    + step M as r R. step M as p P. step M as g G. inversion M; subst m. cbn [en_prefixes en_guides rev].
      unfold declare_prefixes in *. rewrite map_app. cbn [map]. rewrite declare_all_snoc, W. cbn [bind]. exact G.
    + unfold declare_base_entry in M. step M as cu C. step M as b B. inversion M; subst m. exact W.
    + step M as s S. unfold declare_base_entry in M. step M as cu C. step M as b B. inversion M; subst m. exact W.
    + step M as rec R. exact (D _ _ _ _ M).
    + step M as ds Ds. step M as r R. step M as rec Rec. exact (D _ _ _ _ M).
Qed.

(** ** The whole catalogue *)

Definition coherent_text (d : dimension) : res symbol_text :=
  match u_symbol (dimension_unit d) with Some s => Ok s | None => derived_dimension_unit_text d end.
Definition misprintedb (n : string) : bool := match assoc misprinted n with Some _ => true | None => false end.
Definition doubledb (n : string) : bool := existsb (String.eqb n) prefixed_coherent.
(** Exactly one reading of each text, both of the value [v]. *)
Definition reads_asb (q : string) (t : symbol_text) (v : Q) : bool :=
  match values_as q (unicode_readings (st_standard t)), values_as q (ascii_readings (st_ascii t)) with
  | [a], [b] => Qeq_bool a v && Qeq_bool b v
  | _, _ => false
  end.
Lemma reads_asb_spec : forall q t v, reads_asb q t v = true -> reads_as q t v.
Proof.
  intros q t v H. unfold reads_asb in H.
  destruct (values_as q (unicode_readings (st_standard t))) as [|a [|? ?]] eqn:A; try discriminate H.
  destruct (values_as q (ascii_readings (st_ascii t))) as [|b [|? ?]] eqn:B; try discriminate H.
  apply andb_true_iff in H as [Ha Hb]. exists a, b. auto using Qeq_bool_eq.
Qed.

(** Units with a symbol. *)
Definition symbol_checked (u : cunit) (x : option string * dimension) : bool :=
  match u_symbol u with
  | Some s => reads_asb (quantity_name x) s (mag (snd x) u / (deviation (named u) * si_coherent (quantity_name x)))
  | None => Qeq_bool (deviation (named u)) 1 && negb (misprintedb (named (dimension_unit (snd x)))) &&
      negb (doubledb (named (dimension_unit (snd x))))
  end || misprintedb (named u).
Lemma symbols_read : forallb (fun x => natural_dim x || forallb (fun u => symbol_checked u x) (units_for full (snd x))) (en_dims full) = true.
Proof. vm_compute. reflexivity. Qed.

(** The coherent unit of a dimension: its text without factor. *)
Definition coherent_checked (x : option string * dimension) : bool :=
  misprintedb (named (dimension_unit (snd x))) ||
  match coherent_text (snd x) with
  | Ok c =>
      let q := quantity_name x in
      let m := (mag (snd x) (dimension_unit (snd x)) / si_coherent q)%Q in
      match values_as q (unit_readings one_symbol (st_standard c)), values_as q (unit_readings one_symbol (st_ascii c)) with
      | [a], [b] => Qeq_bool a m && Qeq_bool b m
      | _, _ => false
      end && reads_asb q c m && Bool.eqb (String.eqb (st_standard c) "") (String.eqb (st_ascii c) "")
  | _ => true
  end.
Lemma coherent_read : forallb (fun x => natural_dim x || coherent_checked x) (en_dims full) = true.
Proof. vm_compute. reflexivity. Qed.

(** A prefix in front of the coherent unit. *)
Definition prefixes_checked (x : option string * dimension) : bool :=
  let d := snd x in let q := quantity_name x in
  let m := (mag d (dimension_unit d) / si_coherent q)%Q in
  match coherent_text d with
  | Ok c =>
      forallb (fun f => forallb (fun p => reads_asb q (st_add (p_symbol p) c) (rval (p_ratio p) * m))
                          (filter (fun p => String.eqb (p_family p) (u_prefixes f)) (en_prefixes full)))
        (filter (fun f => String.eqb (named f) (u_ref (dimension_unit d))) (en_units full))
  | _ => true
  end.
Lemma prefixes_read : forallb (fun x => natural_dim x || misprintedb (named (dimension_unit (snd x))) ||
    doubledb (named (dimension_unit (snd x))) || prefixes_checked x) (en_dims full) = true.
Proof. vm_compute. reflexivity. Qed.

Lemma families_known : forallb (fun p => negb (String.eqb (p_family p) (u_prefixes unknown_coherent_unit))) (en_prefixes full) = true.
Proof. vm_compute. reflexivity. Qed.

(** The misprinted units. *)
Definition misprint_checked (u : cunit) (x : option string * dimension) : bool :=
  match assoc misprinted (named u) with
  | Some s =>
      match u_symbol u with
      | Some t => symbol_eqb t s
      | None =>
          match rdiv (u_ratio u) (u_ratio (dimension_unit (snd x))), coherent_text (snd x) with
          | Ok r, Ok c => (rnum r =? 1) && (rden r =? 1) && (rexp r =? 0) && symbol_eqb c s
          | _, _ => false
          end
      end &&
      match values_as (quantity_name x) (unicode_readings (st_standard s)), values_as (quantity_name x) (ascii_readings (st_ascii s)) with
      | [], [] => true
      | _, _ => false
      end
  | None => true
  end.
Lemma misprints_read : forallb (fun x => forallb (fun u => misprint_checked u x) (units_for full (snd x))) (en_dims full) = true.
Proof. vm_compute. reflexivity. Qed.

(** The natural system. *)
Definition natural_checked (u : cunit) (x : option string * dimension) : bool :=
  match u_symbol u, natural_row (named u) with
  | Some s, Some (_, k, v) =>
      match text_readings natural_symbol "× 10" read_superscript (st_standard s), text_readings natural_symbol "x 10^" read_int (st_ascii s) with
      | [a], [b] => (total (fst a) "energy" =? k) && (total (fst b) "energy" =? k) && Qeq_bool (snd a) v && Qeq_bool (snd b) v
      | _, _ => false
      end
  | _, _ => false
  end.
Lemma natural_read : forallb (fun x => negb (natural_dim x) || forallb (fun u => natural_checked u x) (units_for full (snd x))) (en_dims full) = true.
Proof. vm_compute. reflexivity. Qed.

(** Every unit has a text. *)
Definition text_checked (u : cunit) (x : option string * dimension) : bool :=
  match u_symbol u with
  | Some _ => true
  | None =>
      String.eqb (u_ref u) (named u) && negb (String.eqb (u_ref u) "unknown_coherent_unit") &&
      match rdiv (u_ratio u) (u_ratio (dimension_unit (snd x))), coherent_text (snd x) with
      | Ok r, Ok _ => match ratio_text r with Ok _ => true | _ => false end
      | _, _ => false
      end
  end.
Lemma texts_checked : forallb (fun x => forallb (fun u => text_checked u x) (units_for full (snd x))) (en_dims full) = true.
Proof. vm_compute. reflexivity. Qed.

#[local] Opaque full catalogue unit_table natural_table quantity_table isq_templates prefix_table one_symbol misprinted.

(** ** Programs *)

Lemma text_parts : forall g env d u t, u_symbol u = None -> unit_text g env d u = Ok t ->
  exists c r f p, coherent_text d = Ok c /\ rdiv (u_ratio u) (u_ratio (dimension_unit d)) = Ok r /\
    reference_of env u = Ok f /\ prefix_or_ratio_text g r (u_prefixes f) (fs_size (st_standard c)) = Ok p /\ t = st_add p c.
Proof.
  intros g env d u t S H. unfold unit_text in H. rewrite S in H. step H as c Hc. step H as r Hr. step H as f Hf. step H as p Hp.
  inversion H. exists c, r, f, p. auto.
Qed.

Lemma mag_sized_good : forall est d u r, dim_goodb d = true -> ratio_good (u_ratio u) -> unit_of u d = true ->
  sized est (QType d u r) (mag d u).
Proof.
  intros est d u r D U O. unfold dim_goodb in D. apply andb_true_iff in D as [D1 D2].
  destruct (coherent_spec _ D1) as (C & G & W). apply ratio_goodb_good in D2.
  split; [split; simpl; auto; split; auto|]. split; [exact O|]. split.
  - simpl. eapply Forall_impl; [|exact W]. intros e E N. rewrite E in N. discriminate.
  - exists (coherent (exponents d)). split; [exact C|]. unfold mag. cbn [q_dim q_unit]. apply Qred_correct.
Qed.
Lemma si_coherent_pos : forall q, (0 < si_coherent q)%Q.
Proof. intros q. unfold si_coherent. destruct (assoc quantity_table q); [apply Qpower_0_lt|]; reflexivity. Qed.
Lemma assoc_in : forall (A : Type) (l : list (string * A)) k x, assoc l k = Some x -> exists k', In (k', x) l.
Proof.
  intros A l k x. induction l as [|[k' y] l IH]; cbn [assoc]; [discriminate|].
  destruct (String.eqb k k'); [intros E; inversion E; subst; exists k'; now left|]. intros E. destruct (IH E) as (k2 & I). exists k2. now right.
Qed.
Lemma deviation_pos : forall n, (0 < deviation n)%Q.
Proof.
  intros n. unfold deviation. destruct (assoc (rounded_units ++ wrong_units)%list n) as [f|] eqn:E; [|reflexivity].
  apply assoc_in in E as (k & I). assert (C : forallb (fun x => Qle_bool (1 # 1000000000000000000000) (snd x)) (rounded_units ++ wrong_units)%list = true) by (vm_compute; reflexivity).
  pose proof (proj1 (forallb_forall _ _) C _ I) as L. cbn [snd] in L. apply Qle_bool_iff in L. eapply Qlt_le_trans; [|exact L]. reflexivity.
Qed.
Lemma mag_relative : forall d u r, dim_goodb d = true -> ratio_good (u_ratio u) ->
  rdiv (u_ratio u) (u_ratio (dimension_unit d)) = Ok r -> (mag d u == rval r * mag d (dimension_unit d))%Q /\ ratio_good r.
Proof.
  intros d u r D U R. unfold dim_goodb in D. apply andb_true_iff in D as [_ D2]. apply ratio_goodb_good in D2.
  destruct (rdiv_good _ _ _ U D2 R) as [V G]. split; [|exact G]. unfold mag. rewrite !Qred_correct, V.
  pose proof (good_pos _ D2). field. intros Z. rewrite Z in H. now apply Qlt_irrefl in H.
Qed.

Lemma reads_as_ext : forall q t v w, (v == w)%Q -> reads_as q t v -> reads_as q t w.
Proof. intros q t v w E (a & b & A & B & V & W). exists a, b. rewrite <- E. auto. Qed.
Lemma st_empty : forall c, st_add (st_of_ascii "") c = c.
Proof. intros [s a]. rewrite st_add_append. reflexivity. Qed.
Lemma size_zero : forall s : fixed_string, Nat.ltb 0 (fs_size s) = negb (String.eqb s "").
Proof. intros [|c s]; reflexivity. Qed.

(** A unit without symbol, declared or not. *)
Theorem computed_read : forall est mode prog e, incl prog catalogue ->
  elaborate est mode isq_templates empty_env prog = Ok e ->
  forall u x t, In x (en_dims e) -> unit_of u (snd x) = true -> natural_dim x = false ->
  ratio_good (u_ratio u) -> u_symbol u = None ->
  assoc misprinted (named (dimension_unit (snd x))) = None ->
  (In (named (dimension_unit (snd x))) prefixed_coherent ->
     forall p, In p (en_prefixes e) -> ~ (rval (u_ratio u) == rval (p_ratio p) * rval (u_ratio (dimension_unit (snd x))))%Q) ->
  unit_text (en_guides e) (en_units e) (snd x) u = Ok t ->
  exists v, reads_as (quantity_name x) t v /\ forall r, sized est (QType (snd x) u r) (v * si_coherent (quantity_name x)).
Proof.
  intros est mode prog e I H u x t Hx O N G S M Dp T.
  destruct (selection_in_full _ _ _ _ I H) as (P & U & D). pose proof (D x Hx) as Fx.
  pose proof (proj1 (forallb_forall _ _) full_dims_good x Fx) as Gx. cbv beta in Gx.
  destruct (text_parts _ _ _ _ _ S T) as (c & r & f & p & Hc & Hr & Hf & Hp & ->).
  destruct (mag_relative _ _ _ Gx G Hr) as [Mr Gr].
  assert (Mb : misprintedb (named (dimension_unit (snd x))) = false) by (unfold misprintedb; now rewrite M).
  set (q := quantity_name x) in *. set (m := (mag (snd x) (dimension_unit (snd x)) / si_coherent q)%Q).
  pose proof (si_coherent_pos q) as Sp.
  assert (Sz : forall k v, (v == rval r * m)%Q -> sized est (QType (snd x) u k) (v * si_coherent q)).
  { intros k v V. eapply sized_ext; [|apply (mag_sized_good est (snd x) u k Gx G O)]. rewrite Mr, V. unfold m.
    field. intros Z. rewrite Z in Sp. now apply Qlt_irrefl in Sp. }
  pose proof (proj1 (forallb_forall _ _) coherent_read x Fx) as C. cbv beta in C. rewrite N in C. cbn [orb] in C.
  unfold coherent_checked in C. rewrite Mb, Hc in C. cbn [orb] in C. fold q m in C.
  apply andb_true_iff in C as [C Ce]. apply andb_true_iff in C as [C Cr].
  pose proof (guides_declared _ _ _ _ _ _ H eq_refl) as Gd.
  apply (prefix_text_spec _ _ _ _ _ _ Gd) in Hp. destruct Hp as [R1|y R1 Hy Fy Ry|y R1 Hy].
  - exists m. rewrite st_empty. split; [now apply reads_asb_spec|]. intros k. apply Sz. rewrite R1.
    change (rval (Ratio 1 1 0)) with (frac 1 1 0). unfold frac. change ((10 # 1) ^ 0)%Q with 1%Q. field.
  - apply in_rev in Hy. exists (rval r * m)%Q. split; [|intros k; apply Sz; reflexivity]. rewrite <- Ry.
    apply reads_asb_spec. pose proof (proj1 (forallb_forall _ _) prefixes_read x Fx) as Q. cbv beta in Q. rewrite N, Mb in Q. cbn [orb] in Q.
    destruct (doubledb (named (dimension_unit (snd x)))) eqn:Db.
    + exfalso. unfold doubledb in Db. apply existsb_exists in Db as (n & In1 & En). apply String.eqb_eq in En. rewrite <- En in In1.
      apply (Dp In1 y Hy). rewrite Ry. unfold dim_goodb in Gx. apply andb_true_iff in Gx as [_ G2]. apply ratio_goodb_good in G2.
      destruct (rdiv_good _ _ _ G G2 Hr) as [V _]. rewrite V. pose proof (good_pos _ G2) as Pz. field. intros Z. rewrite Z in Pz. now apply Qlt_irrefl in Pz.
    + cbn [orb] in Q. unfold prefixes_checked in Q. rewrite Hc in Q. fold q m in Q.
      assert (Ff : In f (filter (fun f => String.eqb (named f) (u_ref (dimension_unit (snd x)))) (en_units full))).
      { unfold reference_of in Hf. unfold unit_of in O. apply String.eqb_eq in O.
        destruct (String.eqb_spec (u_ref u) "unknown_coherent_unit") as [Un|Un].
        - inversion Hf; subst f. exfalso. pose proof (proj1 (forallb_forall _ _) families_known y (P y Hy)) as K. cbv beta in K.
          rewrite Fy, String.eqb_refl in K. discriminate K.
        - unfold unit_lookup in Hf. destruct (find (has_name (u_ref u)) (en_units e)) as [f'|] eqn:E; [|discriminate Hf]. inversion Hf; subst f'.
          apply find_some in E as [E1 E2]. apply filter_In. split; [exact (U f E1)|]. rewrite <- O. unfold has_name in E2. unfold named.
          destruct (u_name f); [|discriminate E2]. rewrite String.eqb_sym. exact E2. }
      pose proof (proj1 (forallb_forall _ _) Q f Ff) as Q1. cbv beta in Q1.
      apply (proj1 (forallb_forall _ _) Q1 y). apply filter_In. split; [exact (P y Hy)|]. apply String.eqb_eq. exact Fy.
  - exists (rval r * m)%Q. split; [|intros k; apply Sz; reflexivity].
    destruct (values_as q (unit_readings one_symbol (st_standard c))) as [|a [|? ?]] eqn:A; try discriminate C.
    destruct (values_as q (unit_readings one_symbol (st_ascii c))) as [|b [|? ?]] eqn:B; try discriminate C.
    apply andb_true_iff in C as [Ca Cb]. apply Qeq_bool_eq in Ca, Cb. apply Bool.eqb_prop in Ce.
    destruct (ratio_text_ok r y Gr Hy) as (_ & _ & Zs & _).
    assert (Ny : st_standard y <> "") by (intros Z; apply Zs in Z; contradiction).
    destruct (ratio_readings one_symbol r y (st_standard c) Gr R1 Hy) as [R _].
    destruct (ratio_readings one_symbol r y (st_ascii c) Gr R1 Hy) as [_ R'].
    exists (ratio_factor r * a)%Q, (ratio_factor r * b)%Q. unfold unicode_readings, ascii_readings.
    rewrite (spaced_text y _ Ny), size_zero, R, R', !values_scaled, A, B.
    + split; [reflexivity|]. split; [reflexivity|]. rewrite (ratio_factor_val r Gr), Ca, Cb. split; reflexivity.
    + rewrite <- Ce. destruct (String.eqb_spec (st_standard c) "") as [Ec|Ec]; cbn [negb]; rewrite !st_add_append; cbn [st_ascii st_of_ascii].
      * symmetry in Ce. apply String.eqb_eq in Ce. rewrite Ce. apply append_nil_r.
      * apply append_assoc.
    + destruct (String.eqb_spec (st_standard c) "") as [Ec|Ec]; cbn [negb]; rewrite !st_add_append; cbn [st_standard st_of_ascii].
      * rewrite Ec. apply append_nil_r.
      * apply append_assoc.
Qed.

(** A unit of the catalogue. *)
Theorem declared_read : forall est mode prog e, incl prog catalogue ->
  elaborate est mode isq_templates empty_env prog = Ok e ->
  forall u x t, In u (en_units e) -> In x (en_dims e) -> unit_of u (snd x) = true -> natural_dim x = false ->
  assoc misprinted (named u) = None -> unit_text (en_guides e) (en_units e) (snd x) u = Ok t ->
  exists v, reads_as (quantity_name x) t v /\
    forall r, sized est (QType (snd x) u r) (deviation (named u) * v * si_coherent (quantity_name x)).
Proof.
  intros est mode prog e I H u x t Hu Hx O N M T.
  destruct (selection_in_full _ _ _ _ I H) as (P & U & D). pose proof (D x Hx) as Fx. pose proof (U u Hu) as Fu.
  destruct (full_good u x Fu Fx) as [Gu Gx].
  pose proof (proj1 (forallb_forall _ _) symbols_read x Fx) as C. cbv beta in C. rewrite N in C. cbn [orb] in C.
  pose proof (proj1 (forallb_forall _ _) C u (proj2 (filter_In _ _ _) (conj Fu O))) as C1. cbv beta in C1. unfold symbol_checked in C1.
  assert (Mb : misprintedb (named u) = false) by (unfold misprintedb; now rewrite M). rewrite Mb, orb_false_r in C1.
  destruct (u_symbol u) as [s|] eqn:S.
  - unfold unit_text in T. rewrite S in T. inversion T; subst t. apply reads_asb_spec in C1. eexists. split; [exact C1|].
    intros r. eapply sized_ext; [|apply (mag_sized est (snd x) u r Gx Gu O)].
    pose proof (si_coherent_pos (quantity_name x)) as Sp. pose proof (deviation_pos (named u)) as Dp.
    field. split; intros Z; [rewrite Z in Sp; now apply Qlt_irrefl in Sp|rewrite Z in Dp; now apply Qlt_irrefl in Dp].
  - apply andb_true_iff in C1 as [C1 C3]. apply andb_true_iff in C1 as [C1 C2]. apply Qeq_bool_eq in C1. apply negb_true_iff in C2, C3.
    assert (Mx : assoc misprinted (named (dimension_unit (snd x))) = None).
    { unfold misprintedb in C2. destruct (assoc misprinted (named (dimension_unit (snd x)))); [discriminate C2|reflexivity]. }
    destruct (computed_read est mode prog e I H u x t Hx O N (ratio_goodb_good _ Gu) S Mx) as (v & R & Sz).
    + intros In1. exfalso. unfold doubledb in C3. enough (existsb (String.eqb (named (dimension_unit (snd x)))) prefixed_coherent = true) by congruence.
      apply existsb_exists. eexists. split; [exact In1|apply String.eqb_refl].
    + exact T.
    + exists v. split; [exact R|]. intros r. eapply sized_ext; [|exact (Sz r)]. rewrite C1. ring.
Qed.

Theorem misprints : forall est mode prog e, incl prog catalogue ->
  elaborate est mode isq_templates empty_env prog = Ok e ->
  forall u x t s, In u (en_units e) -> In x (en_dims e) -> unit_of u (snd x) = true ->
  assoc misprinted (named u) = Some s -> unit_text (en_guides e) (en_units e) (snd x) u = Ok t ->
  t = s /\ values_as (quantity_name x) (unicode_readings (st_standard t)) = [] /\
  values_as (quantity_name x) (ascii_readings (st_ascii t)) = [].
Proof.
  intros est mode prog e I H u x t s Hu Hx O M T.
  destruct (selection_in_full _ _ _ _ I H) as (P & U & D). pose proof (D x Hx) as Fx. pose proof (U u Hu) as Fu.
  pose proof (proj1 (forallb_forall _ _) misprints_read x Fx) as C. cbv beta in C.
  pose proof (proj1 (forallb_forall _ _) C u (proj2 (filter_In _ _ _) (conj Fu O))) as C1. cbv beta in C1. unfold misprint_checked in C1.
  rewrite M in C1. apply andb_true_iff in C1 as [C1 C2].
  assert (E : t = s).
  { destruct (u_symbol u) as [s'|] eqn:S.
    - unfold unit_text in T. rewrite S in T. inversion T; subst t. now apply symbol_eqb_eq.
    - destruct (text_parts _ _ _ _ _ S T) as (c & r & f & p & Hc & Hr & Hf & Hp & ->). rewrite Hc, Hr in C1.
      apply andb_true_iff in C1 as [C1 C3]. apply symbol_eqb_eq in C3. unfold prefix_or_ratio_text in Hp. rewrite C1 in Hp.
      inversion Hp. rewrite st_empty. exact C3. }
  split; [exact E|]. rewrite E. clear - C2.
  destruct (values_as _ (unicode_readings (st_standard s))); [|discriminate C2].
  destruct (values_as _ (ascii_readings (st_ascii s))); [|discriminate C2]. split; reflexivity.
Qed.

Theorem natural_printed : forall est mode prog e, incl prog catalogue ->
  elaborate est mode isq_templates empty_env prog = Ok e ->
  forall u x t, In u (en_units e) -> In x (en_dims e) -> unit_of u (snd x) = true -> natural_dim x = true ->
  unit_text (en_guides e) (en_units e) (snd x) u = Ok t ->
  exists k v, natural_reads t k v /\ exists row, assoc quantity_table (quantity_name x) = Some row /\
    k = exponent_in row "dim_mass" - exponent_in row "dim_length" - exponent_in row "dim_time" /\
    forall r, sized est (QType (snd x) u r) (v * inject_Z (10 ^ 9) ^ exponent_in row "dim_mass").
Proof.
  intros est mode prog e I H u x t Hu Hx O N T.
  destruct (natural_sized est mode prog e I H u x Hu Hx O N) as (n & k & v & row & R & Nm & Q & K & Sz).
  destruct (selection_in_full _ _ _ _ I H) as (P & U & D). pose proof (D x Hx) as Fx. pose proof (U u Hu) as Fu.
  pose proof (proj1 (forallb_forall _ _) natural_read x Fx) as C. cbv beta in C. rewrite N in C. cbn [orb negb] in C.
  pose proof (proj1 (forallb_forall _ _) C u (proj2 (filter_In _ _ _) (conj Fu O))) as C1. cbv beta in C1. unfold natural_checked in C1.
  pose proof (full_unit_checked u x Fu Fx O) as C2. unfold unit_checked in C2. rewrite N, Q in C2.
  destruct (u_symbol u) as [s|] eqn:S; [|discriminate C1].
  destruct (natural_row (named u)) as [[[n' k'] v']|]; [|discriminate C1].
  unfold unit_text in T. rewrite S in T. inversion T; subst t. apply andb_true_iff in C2 as [K' V']. apply Z.eqb_eq in K'. apply Qeq_bool_eq in V'.
  destruct (text_readings natural_symbol "× 10" read_superscript (st_standard s)) as [|a [|? ?]] eqn:A; try discriminate C1.
  destruct (text_readings natural_symbol "x 10^" read_int (st_ascii s)) as [|b [|? ?]] eqn:B; try discriminate C1.
  apply andb_true_iff in C1 as [C1 C6]. apply andb_true_iff in C1 as [C1 C5]. apply andb_true_iff in C1 as [C3 C4].
  apply Z.eqb_eq in C3, C4. apply Qeq_bool_eq in C5, C6.
  exists k', v'. split; [exists a, b; auto 8|]. exists row. split; [exact Q|]. split; [exact K'|].
  intros r. destruct (full_good u x Fu Fx) as [G1 G2]. eapply sized_ext; [exact V'|]. now apply mag_sized.
Qed.

(** ** One text, one size *)

Lemma reads_as_unique : forall q s t v w, reads_as q s v -> reads_as q t w ->
  st_standard s = st_standard t \/ st_ascii s = st_ascii t -> (v == w)%Q.
Proof.
  intros q s t v w (a & b & A & B & V & W) (a' & b' & A' & B' & V' & W') [E|E].
  - rewrite E in A. rewrite A in A'. inversion A'; subst a'. rewrite <- V, V'. reflexivity.
  - rewrite E in B. rewrite B in B'. inversion B'; subst b'. rewrite <- W, W'. reflexivity.
Qed.

Theorem texts_exist : forall est mode prog e, incl prog catalogue ->
  elaborate est mode isq_templates empty_env prog = Ok e ->
  forall u x, In u (en_units e) -> In x (en_dims e) -> unit_of u (snd x) = true ->
  exists t, unit_text (en_guides e) (en_units e) (snd x) u = Ok t.
Proof.
  intros est mode prog e I H u x Hu Hx O.
  destruct (selection_in_full _ _ _ _ I H) as (_ & U & D). pose proof (D x Hx) as Fx. pose proof (U u Hu) as Fu.
  pose proof (proj1 (forallb_forall _ _) texts_checked x Fx) as C. cbv beta in C.
  pose proof (proj1 (forallb_forall _ _) C u (proj2 (filter_In _ _ _) (conj Fu O))) as C1. cbv beta in C1. unfold text_checked in C1.
  unfold unit_text. destruct (u_symbol u) as [s|] eqn:S; [now exists s|].
  apply andb_true_iff in C1 as [C1 C2]. apply andb_true_iff in C1 as [C1 C3]. apply String.eqb_eq in C1. apply negb_true_iff in C3.
  fold (coherent_text (snd x)).
  destruct (rdiv (u_ratio u) (u_ratio (dimension_unit (snd x)))) as [r| | | |]; try discriminate C2.
  destruct (coherent_text (snd x)) as [c| | | |]; try discriminate C2. cbn [bind].
  destruct (ratio_text r) as [y| | | |] eqn:Ry; try discriminate C2.
  unfold reference_of. rewrite C3.
  destruct (elaborate_unique _ _ _ _ _ _ empty_unique H) as (_ & L & _). destruct (L u Hu) as (n & N & F).
  assert (En : u_ref u = n) by (rewrite C1; unfold named; now rewrite N). rewrite En. unfold find_unit in F. rewrite F. cbn [bind].
  unfold prefix_or_ratio_text. rewrite Ry. cbn [bind].
  destruct ((rnum r =? 1) && (rden r =? 1) && (rexp r =? 0)); cbn [bind]; [eexists; reflexivity|].
  destruct (negb (String.eqb (u_prefixes u) no_prefix)); cbn [bind]; [|eexists; reflexivity].
  destruct (downcast prefix_key_eq_dec (en_guides e) (u_prefixes u, r)); cbn [bind]; eexists; reflexivity.
Qed.
