(** Proofs about the texts of units. *)

From Coq Require Import ZArith QArith Ascii String List Bool Lia Lqa.
From Verif Require Import RatioMathsProofs Outcome CInt RatioMaths Ratio SpecRatio FixedString StringProofs TextTools DerivedSymbol
  Unit UnitDecl Downcast Dim DimOp UnitText SpecDim SpecUnit SpecText TextProofs SymbolProofs RatioProofs2 MagnitudeProofs DimOpProofs DimOpProofs2 DimOpProofs3 EquivProofs SpecUnitText.
Import ListNotations.
Local Open Scope string_scope.
Local Open Scope Z_scope.
Local Open Scope res_scope.

(** * Ratios *)

Lemma cut_none : forall c x, has_char c x = false -> cut_at c (x ++ String c "") = (x, "").
Proof.
  intros c x H. apply cut_at_spec. rewrite has_char_all in H. now apply negb_false_iff.
Qed.
Lemma cut_first : forall c x y, has_char c x = false -> cut_at c (x ++ String c y) = (x, y).
Proof. intros c x y H. apply cut_at_spec. rewrite has_char_all in H. now apply negb_false_iff. Qed.
Lemma strip_app : forall p s, strip p (p ++ s) = Some s.
Proof. induction p as [|a p IH]; intros s; [reflexivity|]. cbn [append strip]. now rewrite Ascii.eqb_refl. Qed.

Lemma number_chars : forall ds c, Forall (fun d => 0 <= d <= 9) ds -> digit_of c = None -> has_char c (write char_of_digit ds) = false.
Proof.
  intros ds c F N. rewrite has_char_all, negb_false_iff. eapply all_chars_impl; [|exact (digits_chars ds F)].
  intros a H. now rewrite (digit_no a).
Qed.
Lemma super_chars : forall ds, Forall (fun d => 0 <= d <= 9) ds -> has_char "]" (write superscript_of_digit ds) = false.
Proof.
  induction ds as [|d ds IH]; intros F; [reflexivity|]. inversion F as [|? ? D F']; subst. rewrite write_cons, has_char_app, (IH F').
  digits10 D.
Qed.

(** The pieces of a ratio text. *)
Lemma power_text : forall e, INTMAX_MIN < e <= INTMAX_MAX -> exists s a,
  superscript e = Ok (SymbolText s ("^" ++ a)) /\ read_superscript s = Some e /\ read_int a = Some e /\
  has_char "]" s = false /\ has_char "]" a = false.
Proof.
  intros v H. destruct (superscript_digits v H) as (ds & D & E). rewrite E. pose proof (super_chars ds (proj1 D)) as S.
  pose proof (number_chars ds "]" (proj1 D) eq_refl) as N. destruct (Z.ltb_spec v 0) as [L|L].
  - rewrite Z.abs_neq in D by lia. destruct (decimal_reads ds (- v) D) as [R1 R2].
    exists ("⁻" ++ write superscript_of_digit ds), ("-" ++ write char_of_digit ds). split; [reflexivity|].
    rewrite !has_char_app, S, N. cbn [append read_int]. rewrite R1.
    split; [|split; [cbn [option_map]; f_equal; lia|split; reflexivity]].
    cbn [read_superscript]. change (byte _ =? 226) with true at 1. change (byte _ =? 129) with true at 1. change (byte _ =? 187) with true at 1.
    cbn [andb]. rewrite R2. cbn [option_map]. f_equal. lia.
  - rewrite Z.abs_eq in D by lia. destruct (decimal_reads_int ds v D) as [R1 R2].
    exists (write superscript_of_digit ds), (write char_of_digit ds). auto.
Qed.
Lemma plain_text : forall v, 0 <= v <= INTMAX_MAX -> exists a, regular v = Ok (SymbolText a a) /\ read_nat a = Some v /\
  has_char "]" a = false /\ has_char " " a = false /\ has_char "/" a = false.
Proof.
  intros v H. destruct (regular_pos v H) as (ds & D & E). exists (write char_of_digit ds). split; [exact E|].
  split; [apply (decimal_reads ds v D)|]. destruct D as [F _]. repeat split; now apply number_chars.
Qed.

Definition fraction_text (n d : Z) (f : string) : Prop :=
  read_fraction f = Some (n, d) /\ has_char "]" f = false /\ has_char " " f = false.
Lemma fraction_whole : forall n a, read_nat a = Some n -> has_char "]" a = false -> has_char " " a = false -> has_char "/" a = false ->
  fraction_text n 1 a.
Proof. intros n a R A B C. split; auto. unfold read_fraction. now rewrite C, R. Qed.
Lemma fraction_slash : forall n d a b, read_nat a = Some n -> read_nat b = Some d ->
  has_char "]" a = false -> has_char " " a = false -> has_char "/" a = false ->
  has_char "]" b = false -> has_char " " b = false -> fraction_text n d (a ++ "/" ++ b).
Proof.
  intros n d a b Ra Rb A1 A2 A3 B1 B2. split.
  - unfold read_fraction. rewrite has_char_app. change (has_char "/" ("/" ++ b)) with true. rewrite orb_true_r.
    change ("/" ++ b) with (String "/" b). now rewrite cut_first, Ra, Rb.
  - rewrite !has_char_app, A1, A2, B1, B2. split; reflexivity.
Qed.

Lemma bracket_plain : forall mult read n d f, fraction_text n d f -> read_ratio_with mult read ("[" ++ f ++ "]") = Some (n, d, 0).
Proof.
  intros mult read n d f (R & A & B). cbn [append read_ratio_with]. change (Ascii.eqb "[" "[") with true. cbn iota.
  change (f ++ "]") with (f ++ String "]" ""). rewrite cut_none by auto. cbn [String.eqb negb]. now rewrite B, R.
Qed.
Lemma bracket_power : forall mult read n d f p e, fraction_text n d f -> read p = Some e -> has_char "]" p = false -> has_char "]" mult = false ->
  read_ratio_with mult read ("[" ++ f ++ " " ++ mult ++ p ++ "]") = Some (n, d, e).
Proof.
  intros mult read n d f p e (R & A & B) Rp Bp Bm. cbn [append read_ratio_with]. change (Ascii.eqb "[" "[") with true. cbn iota.
  replace (f ++ String " " (mult ++ p ++ "]")) with ((f ++ " " ++ mult ++ p) ++ String "]" "") by flat.
  rewrite cut_none by (rewrite !has_char_app, A, Bp, Bm; reflexivity). cbn [String.eqb negb].
  rewrite !has_char_app. change (has_char " " " ") with true. rewrite orb_true_r.
  change (" " ++ mult ++ p) with (String " " (mult ++ p)). rewrite cut_first by auto. rewrite R. unfold read_power. now rewrite strip_app, Rp.
Qed.

Lemma ratio_text_reads : forall r, 0 <= rnum r <= INTMAX_MAX -> 0 < rden r <= INTMAX_MAX -> INTMAX_MIN < rexp r <= INTMAX_MAX ->
  exists t, ratio_text r = Ok t /\ read_ratio (st_ascii t) = Some (rnum r, rden r, rexp r) /\
    read_ratio_unicode (st_standard t) = Some (rnum r, rden r, rexp r) /\
    (st_standard t = "" <-> r = Ratio 1 1 0) /\ (st_ascii t = "" <-> r = Ratio 1 1 0).
Proof.
  intros [n d e] Hn Hd He. cbn [rnum rden rexp] in *. unfold ratio_text. cbn [rnum rden rexp].
  destruct (power_text e He) as (s & a & E & Rs & Ra & Bs & Ba). rewrite E.
  destruct (plain_text n Hn) as (xn & En & Rn & N1 & N2 & N3). rewrite En.
  destruct (plain_text d ltac:(lia)) as (xd & Ed & Rd & D1 & D2 & D3). rewrite Ed. cbn [bind].
  pose proof (fraction_whole n xn Rn N1 N2 N3) as Fw. pose proof (fraction_slash n d xn xd Rn Rd N1 N2 N3 D1 D2) as Fs.
  destruct (Z.eqb_spec n 1) as [X1|X1], (Z.eqb_spec d 1) as [X2|X2], (Z.eqb_spec e 0) as [X3|X3]; cbn [andb negb orb]; subst;
    rewrite ?st_add_append; cbn [st_standard st_ascii st_of_ascii base_multiplier];
    eexists; (split; [reflexivity|]); cbn [st_standard st_ascii st_of_ascii base_multiplier].
  - split; [reflexivity|split; [reflexivity|split; split; reflexivity]].
  - split; [|split; [|split; split; intros C; try discriminate C; inversion C; congruence]].
    + cbn. now rewrite Ra.
    + cbn. now rewrite Rs.
  - split; [|split; [|split; split; intros C; try discriminate C; inversion C; congruence]].
    + rewrite <- (bracket_plain "x 10^" read_int 1 d (xn ++ "/" ++ xd)) by auto. unfold read_ratio. f_equal; flat.
    + rewrite <- (bracket_plain "× 10" read_superscript 1 d (xn ++ "/" ++ xd)) by auto. unfold read_ratio_unicode. f_equal; flat.
  - split; [|split; [|split; split; intros C; try discriminate C; inversion C; congruence]].
    + rewrite <- (bracket_power "x 10^" read_int 1 d (xn ++ "/" ++ xd) a e) by auto. unfold read_ratio. f_equal; flat.
    + rewrite <- (bracket_power "× 10" read_superscript 1 d (xn ++ "/" ++ xd) s e) by auto. unfold read_ratio_unicode. f_equal; flat.
  - split; [|split; [|split; split; intros C; try discriminate C; inversion C; congruence]].
    + rewrite <- (bracket_plain "x 10^" read_int n 1 xn) by auto. unfold read_ratio. f_equal; flat.
    + rewrite <- (bracket_plain "× 10" read_superscript n 1 xn) by auto. unfold read_ratio_unicode. f_equal; flat.
  - split; [|split; [|split; split; intros C; try discriminate C; inversion C; congruence]].
    + rewrite <- (bracket_power "x 10^" read_int n 1 xn a e) by auto. unfold read_ratio. f_equal; flat.
    + rewrite <- (bracket_power "× 10" read_superscript n 1 xn s e) by auto. unfold read_ratio_unicode. f_equal; flat.
  - split; [|split; [|split; split; intros C; try discriminate C; inversion C; congruence]].
    + rewrite <- (bracket_plain "x 10^" read_int n d (xn ++ "/" ++ xd)) by auto. unfold read_ratio. f_equal; flat.
    + rewrite <- (bracket_plain "× 10" read_superscript n d (xn ++ "/" ++ xd)) by auto. unfold read_ratio_unicode. f_equal; flat.
  - split; [|split; [|split; split; intros C; try discriminate C; inversion C; congruence]].
    + rewrite <- (bracket_power "x 10^" read_int n d (xn ++ "/" ++ xd) a e) by auto. unfold read_ratio. f_equal; flat.
    + rewrite <- (bracket_power "× 10" read_superscript n d (xn ++ "/" ++ xd) s e) by auto. unfold read_ratio_unicode. f_equal; flat.
Qed.

(** * Prefixes *)

Lemma declared_prefix : forall l g k p, declare_prefixes l = Ok g ->
  (downcast prefix_key_eq_dec g k = Some p <-> In p l /\ prefix_key p = k).
Proof.
  intros l g k p H. unfold declare_prefixes in H.
  destruct (on_downcast prefix_key_eq_dec (map (fun p => (prefix_key p, p)) l)) as [(_ & g' & E & F)|[_ E]]; [|congruence].
  rewrite H in E. inversion E; subst g'. rewrite F. split.
  - intros I. apply in_map_iff in I as (q & Q & I). inversion Q; subst. auto.
  - intros [I <-]. apply in_map_iff. now exists p.
Qed.

Lemma one_cases : forall r, (rnum r =? 1) && (rden r =? 1) && (rexp r =? 0) = true <-> r = Ratio 1 1 0.
Proof.
  intros [n d e]. cbn [rnum rden rexp]. rewrite !andb_true_iff, !Z.eqb_eq. split; [intros [[-> ->] ->]; reflexivity|intros H; inversion H; auto].
Qed.

Inductive prefix_text (l : list prefix) (r : ratio) (pf : string) (len : nat) : symbol_text -> Prop :=
| PtNone : r = Ratio 1 1 0 -> prefix_text l r pf len (st_of_ascii "")
| PtPrefix : forall p, r <> Ratio 1 1 0 -> In p l -> p_family p = pf -> p_ratio p = r -> prefix_text l r pf len (p_symbol p)
| PtRatio : forall x, r <> Ratio 1 1 0 -> ratio_text r = Ok x -> prefix_text l r pf len (spaced x len).

Lemma prefix_text_spec : forall l g r pf len t, declare_prefixes l = Ok g ->
  prefix_or_ratio_text g r pf len = Ok t -> prefix_text l r pf len t.
Proof.
  intros l g r pf len t D H. unfold prefix_or_ratio_text in H.
  destruct ((rnum r =? 1) && (rden r =? 1) && (rexp r =? 0)) eqn:E.
  - apply one_cases in E. inversion H; subst. now constructor.
  - assert (N : r <> Ratio 1 1 0) by (intros X; apply one_cases in X; congruence).
    destruct (String.eqb pf no_prefix); cbn [negb] in H.
    + step H as x Hx. inv_ok. now constructor.
    + destruct (downcast prefix_key_eq_dec g (pf, r)) as [p|] eqn:F.
      * apply (declared_prefix l g) in F as [I K]; auto. inversion K. inversion H; subst. now apply PtPrefix.
      * step H as x Hx. inv_ok. now constructor.
Qed.

Lemma spaced_text : forall x len, st_standard x <> "" ->
  spaced x len = if Nat.ltb 0 len then st_add x (st_of_ascii " ") else x.
Proof.
  intros x len N. unfold spaced. destruct (Nat.ltb 0 len); [|reflexivity]. cbn [andb].
  destruct (st_standard x) as [|c s]; [contradiction|]. reflexivity.
Qed.

Lemma min_power : superscript INTMAX_MIN = Undef.
Proof. reflexivity. Qed.
(** If there is a text, it reads back. *)
Lemma ratio_text_ok : forall r x, ratio_good r -> ratio_text r = Ok x ->
  read_ratio (st_ascii x) = Some (rnum r, rden r, rexp r) /\ read_ratio_unicode (st_standard x) = Some (rnum r, rden r, rexp r) /\
  (st_standard x = "" <-> r = Ratio 1 1 0) /\ (st_ascii x = "" <-> r = Ratio 1 1 0).
Proof.
  intros r x ((D & _) & (A & B & C) & N) H.
  destruct (Z.eq_dec (rexp r) INTMAX_MIN) as [E|E].
  - exfalso. unfold ratio_text in H. rewrite E in H. rewrite min_power in H. change (INTMAX_MIN =? 0) with false in H.
    cbn [negb orb andb bind] in H. rewrite !andb_true_r, !orb_true_r in H.
    destruct ((rnum r =? 1) && (rden r =? 1)); [discriminate|]. step H as n Hn. destruct (rden r =? 1); [discriminate|].
    step H as d Hd. discriminate.
  - destruct (ratio_text_reads r) as (t & E' & R); [lia|lia|lia|]. rewrite E' in H. inversion H; subst. exact R.
Qed.

(** ** The text of a unit without symbol *)
Lemma unit_text_parts : forall l g env d u t, declare_prefixes l = Ok g ->
  u_symbol u = None -> unit_text g env d u = Ok t -> unit_of u d = true ->
  unit_good (dimension_unit d) -> rexp (u_ratio (dimension_unit d)) <> INTMAX_MIN ->
  exists c r p f, unit_text g env d (dimension_unit d) = Ok c /\ rdiv (u_ratio u) (u_ratio (dimension_unit d)) = Ok r /\
    reference_of env u = Ok f /\ prefix_text l r (u_prefixes f) (fs_size (st_standard c)) p /\ t = st_add p c.
Proof.
  intros l g env d u t D S H Uo (Lc & Sc & Nc) Ne. unfold unit_text in H. rewrite S in H.
  step H as c Hc. step H as r Hr. step H as f Hf. step H as p Hp. inv_ok.
  exists c, r, p, f. split; [|split; [auto|split; [auto|split; [now apply (prefix_text_spec l g)|auto]]]].
  unfold unit_text. destruct (u_symbol (dimension_unit d)) as [s|] eqn:Es; [exact Hc|]. rewrite Hc. cbn [bind].
  rewrite rdiv_same by (auto; lia). cbn [bind].
  assert (Ef : reference_of env (dimension_unit d) = Ok f).
  { unfold reference_of in *. unfold unit_of in Uo. apply String.eqb_eq in Uo. now rewrite <- Uo. }
  rewrite Ef. cbn [bind]. unfold prefix_or_ratio_text. change ((rnum rone =? 1) && (rden rone =? 1) && (rexp rone =? 0)) with true.
  cbn iota. cbn [bind]. rewrite st_add_append. cbn [st_standard st_ascii st_of_ascii append]. now destruct c.
Qed.

(** The relative ratio is the relative magnitude. *)
Lemma relative_magnitude : forall d u r mu mc, unit_good u -> unit_good (dimension_unit d) ->
  rdiv (u_ratio u) (u_ratio (dimension_unit d)) = Ok r -> magnitude d u mu -> magnitude d (dimension_unit d) mc -> (mu == rval r * mc)%Q.
Proof.
  intros d u r mu mc Gu Gc H (b & B & V) (b' & B' & V'). destruct (rdiv_good _ _ _ Gu Gc H) as [E _].
  rewrite V, V', E, (coherent_unique _ _ _ B B'). pose proof (good_nz _ Gc) as N. field. exact N.
Qed.

(** ** Distinct ratios, distinct texts *)
Lemma append_cancel : forall a b c : string, a ++ c = b ++ c -> a = b.
Proof.
  assert (L : forall a b : string, String.length (a ++ b) = (String.length a + String.length b)%nat).
  { induction a as [|x a IH]; intros b; cbn; [reflexivity|]. now rewrite IH. }
  induction a as [|x a IH]; intros b c H; destruct b as [|y b]; cbn [append] in H.
  - reflexivity.
  - apply (f_equal String.length) in H. cbn in H. rewrite L in H. lia.
  - apply (f_equal String.length) in H. cbn in H. rewrite L in H. lia.
  - inversion H as [[X Y]]. f_equal. now apply (IH b c).
Qed.

Lemma strip_prefix : forall p s e, strip p s = Some e -> s = p ++ e.
Proof.
  induction p as [|a p IH]; intros s e H; cbn [strip] in H; [now inversion H|]. destruct s as [|b s]; [discriminate|].
  destruct (Ascii.eqb_spec a b) as [->|]; [|discriminate]. cbn [append]. f_equal. now apply IH.
Qed.
Lemma read_marks : forall mult read s x, has_char " " mult = true -> read_ratio_with mult read s = Some x -> s <> "" ->
  has_char " " s = true \/ has_char "[" s = true.
Proof.
  intros mult read [|c s] x M H N; [contradiction|]. cbn [read_ratio_with] in H. destruct (Ascii.eqb c "[") eqn:E.
  - right. cbn [has_char]. now rewrite E.
  - left. unfold read_power in H. destruct (strip mult (String c s)) as [e|] eqn:Es; [|discriminate]. apply strip_prefix in Es.
    now rewrite Es, has_char_app, M.
Qed.

(** A prefix symbol that cannot be confused with a ratio. *)
Definition plain_prefix (s : string) : Prop := s <> "" /\ has_char " " s = false /\ has_char "[" s = false.

Lemma prefix_text_inj : forall (part : symbol_text -> string) mult read l pf len r1 r2 p1 p2,
  (forall a b, part (st_add a b) = part a ++ part b) -> part (st_of_ascii "") = "" -> part (st_of_ascii " ") = " " ->
  has_char " " mult = true ->
  (forall r x, ratio_good r -> ratio_text r = Ok x -> read_ratio_with mult read (part x) = Some (rnum r, rden r, rexp r) /\ (part x = "" <-> r = Ratio 1 1 0)) ->
  (forall p q, In p l -> In q l -> p_family p = p_family q -> part (p_symbol p) = part (p_symbol q) -> p_ratio p = p_ratio q) ->
  (forall p, In p l -> plain_prefix (part (p_symbol p))) ->
  ratio_good r1 -> ratio_good r2 -> prefix_text l r1 pf len p1 -> prefix_text l r2 pf len p2 -> part p1 = part p2 -> r1 = r2.
Proof.
  intros part mult read l pf len r1 r2 p1 p2 Pa P0 Ps Mm Rr Di Pl G1 G2 H1 H2 E.
  assert (X : forall r x, ratio_good r -> r <> Ratio 1 1 0 -> ratio_text r = Ok x ->
    part (spaced x len) <> "" /\ (has_char " " (part (spaced x len)) = true \/ has_char "[" (part (spaced x len)) = true) /\
    part (spaced x len) = (if Nat.ltb 0 len then part x ++ " " else part x)).
  { intros r x G N H. destruct (Rr r x G H) as [R Z]. pose proof (ratio_text_ok r x G H) as (_ & _ & Zs & _).
    assert (Ns : st_standard x <> "") by (intros Y; apply Zs in Y; contradiction).
    assert (Nx : part x <> "") by (intros Y; apply Z in Y; contradiction).
    rewrite (spaced_text x len Ns). pose proof (read_marks _ _ _ _ Mm R Nx) as M.
    destruct (Nat.ltb 0 len); [rewrite Pa, Ps; split; [|split; [|reflexivity]]|auto].
    - destruct (part x); [contradiction|discriminate].
    - left. rewrite has_char_app. apply orb_true_r. }
  destruct H1 as [E1|p N1 I1 F1 R1|x1 N1 T1]; destruct H2 as [E2|q N2 I2 F2 R2|x2 N2 T2].
  - congruence.
  - destruct (Pl q I2) as (N & _). rewrite P0 in E. congruence.
  - destruct (X r2 x2 G2 N2 T2) as (N & _). rewrite P0 in E. congruence.
  - destruct (Pl p I1) as (N & _). rewrite P0 in E. congruence.
  - subst r1 r2. apply Di; auto. congruence.
  - exfalso. destruct (X r2 x2 G2 N2 T2) as (_ & M & _). destruct (Pl p I1) as (_ & A & B). rewrite E in A, B. destruct M; congruence.
  - destruct (X r1 x1 G1 N1 T1) as (N & _). rewrite P0 in E. congruence.
  - exfalso. destruct (X r1 x1 G1 N1 T1) as (_ & M & _). destruct (Pl q I2) as (_ & A & B). rewrite <- E in A, B. destruct M; congruence.
  - destruct (X r1 x1 G1 N1 T1) as (_ & _ & A). destruct (X r2 x2 G2 N2 T2) as (_ & _ & B). rewrite A, B in E.
    assert (Y : part x1 = part x2) by (destruct (Nat.ltb 0 len); [now apply append_cancel in E|exact E]).
    destruct (Rr r1 x1 G1 T1) as [Q1 _]. destruct (Rr r2 x2 G2 T2) as [Q2 _]. rewrite Y in Q1. rewrite Q1 in Q2. inversion Q2.
    destruct r1, r2; cbn in *; congruence.
Qed.

(** * Constituents *)

Definition dim_ind (P : dimension -> Prop) (Hb : forall b, P (DBase b))
    (Hd : forall name es cu recipe, Forall (fun x => P (fst x)) recipe -> P (DDerived name es cu recipe))
    (Hu : forall args es, P (DUnknown args es)) : forall d, P d :=
  fix go (d : dimension) : P d :=
  match d with
  | DBase b => Hb b
  | DDerived name es cu recipe => Hd name es cu recipe
      ((fix all (l : list (dimension * (Z * Z))) : Forall (fun x => P (fst x)) l :=
         match l with [] => Forall_nil _ | x :: r => Forall_cons x (go (fst x)) (all r) end) recipe)
  | DUnknown args es => Hu args es
  end.

Lemma expand_constituents : forall d l q, expand_named d = Ok l -> l = map fst (constituents q d).
Proof.
  induction d as [b|name es cu recipe IH|args es] using dim_ind; intros l q H.
  - discriminate.
  - cbn [expand_named constituents] in *. revert l H. induction IH as [|[x e] r Hx F IHr]; intros l H; [inversion H; reflexivity|].
    step H as a Ha. step H as b Hb. inv_ok. cbn [flat_map]. rewrite map_app. f_equal; [|now apply IHr].
    destruct (u_named (dimension_unit x)); [inversion Ha; reflexivity|]. now apply Hx.
  - cbn [expand_named constituents] in *. step H as u Hc. inv_ok. rewrite map_map. reflexivity.
Qed.

Lemma total_app : forall a b x, (total (a ++ b) x == total a x + total b x)%Q.
Proof. induction a as [|[[d e] p] a IH]; intros b x; cbn [total app]; [lra|]. rewrite IH. lra. Qed.

Lemma total_constituents : forall U, symbols_identify U -> forall d, built U d -> forall q b,
  match d with DBase _ => True | _ => (total (constituents q d) b == q * dim_expo d b)%Q end.
Proof.
  intros U SI. induction d as [x|name es cu recipe IH|args es] using dim_ind; intros B q b; [exact I| |].
  - inversion B as [|? ? ? ? Bn Ok Mk|]; subst. destruct (make_dimension_ok U SI recipe es Ok Mk) as (_ & _ & V).
    unfold dim_expo. cbn [exponents]. rewrite V. clear V Mk B Ok. cbn [constituents].
    induction recipe as [|[y [n m]] r IHr]; [cbn; lra|]. inversion IH as [|? ? Iy Ir]; subst. inversion Bn as [|? ? By Br]; subst.
    cbn [flat_map recipe_expo]. rewrite total_app, IHr by auto. cbn [fst snd] in *.
    destruct (u_named (dimension_unit y)) eqn:En.
    + cbn [total]. unfold exponent_value. cbn [fst snd]. lra.
    + specialize (Iy By (q * exponent_value (n, m))%Q b). destruct y as [z|ny ey cy ry|ay ey].
      * exfalso. inversion By; subst. cbn [dimension_unit] in En. congruence.
      * rewrite Iy. unfold exponent_value. cbn [fst snd]. lra.
      * rewrite Iy. unfold exponent_value. cbn [fst snd]. lra.
  - inversion B as [| |? ? Ok Mk]; subst. destruct (make_dimension_ok U SI _ es Ok Mk) as (_ & _ & V).
    unfold dim_expo. cbn [exponents]. rewrite V. clear. cbn [constituents].
    induction args as [|e r IHr]; [cbn; lra|]. cbn [map total recipe_expo]. rewrite IHr. unfold exponent_value. cbn [fst snd]. lra.
Qed.

Lemma constituents_scale : forall d q, Forall2 (fun x y => fst x = fst y /\ (snd y == q * snd x)%Q) (constituents 1 d) (constituents q d).
Proof.
  assert (G : forall d p q k, (q == k * p)%Q -> Forall2 (fun x y => fst x = fst y /\ (snd y == k * snd x)%Q) (constituents p d) (constituents q d)).
  { induction d as [b|name es cu recipe IH|args es] using dim_ind; intros p q k E; cbn [constituents]; [constructor| |].
    - induction IH as [|[x e] r Hx F IHr]; cbn [flat_map]; [constructor|]. apply Forall2_app; [|exact IHr]. cbn [fst] in Hx.
      destruct (u_named (dimension_unit x)); [constructor; [cbn; auto|constructor]|]. apply Hx. rewrite E. lra.
    - induction args as [|e r IHr]; cbn [map]; constructor; auto. }
  intros d q. apply G. lra.
Qed.
Lemma plainly_one : forall d q, plainly_nested d -> (q == 1)%Q -> Forall (fun c => (snd c == 1)%Q) (constituents q d).
Proof.
  induction d as [b|name es cu recipe IH|args es] using dim_ind; intros q P Q; cbn [constituents]; [constructor| |].
  - inversion P as [| |? ? ? ? F]; subst. clear P. induction IH as [|[x e] r Hx Fr IHr]; cbn [flat_map]; [constructor|].
    inversion F as [|? ? Fx F']; subst. cbn [fst snd] in *. apply Forall_app. split; [|now apply IHr].
    destruct (u_named (dimension_unit x)) eqn:E; [constructor; [exact Q|constructor]|].
    destruct Fx as [Fx|[Fe Fx]]; [congruence|]. apply Hx; auto. rewrite Q, Fe. lra.
  - clear P. induction args as [|e r IHr]; cbn [map]; constructor; auto.
Qed.

(** * The text of a list of constituents *)

Definition symbol_of (d : dimension) : symbol_text :=
  match u_symbol (dimension_unit d) with Some s => s | None => st_of_ascii "" end.
Lemma with_symbols_ok : forall l s, with_symbols l = Ok s -> s = map (fun x => (snd x, symbol_of (fst x))) l.
Proof.
  induction l as [|[x e] l IH]; intros s H; cbn [with_symbols] in H; [inversion H; reflexivity|].
  destruct (u_symbol (dimension_unit x)) as [t|] eqn:E; [|discriminate]. step H as r Hr. inv_ok. cbn [map fst snd].
  unfold symbol_of at 1. rewrite E. f_equal. now apply IH.
Qed.
Lemma unit_texts_exp : forall neg l idx, l <> [] -> unit_texts neg idx l = exp_texts neg idx l.
Proof.
  intros neg. induction l as [|[[n d] s] l IH]; intros idx N; [contradiction|]. destruct l as [|y l].
  - cbn [unit_texts exp_texts]. destruct (exp_text n d s neg idx); try reflexivity. cbn [bind]. rewrite st_add_append.
    cbn [st_standard st_ascii st_of_ascii]. rewrite !append_nil_r. now destruct a.
  - change (exp_texts neg idx (((n, d), s) :: y :: l)) with (a <- exp_text n d s neg idx; b <- exp_texts neg (S idx) (y :: l); Ok (st_add a b)).
    rewrite <- IH by discriminate. reflexivity.
Qed.
Lemma derived_text_is : forall d t, derived_dimension_unit_text d = Ok t ->
  let l := map (fun c => (snd (fst c), symbol_of (fst (fst c)))) (constituents 1 d) in
  match l with [] => t = st_of_ascii "" | _ => derived_symbol_text l = Ok t end.
Proof.
  intros d t H. unfold derived_dimension_unit_text in H. step H as l Hl. step H as s Hs.
  apply (expand_constituents d l 1) in Hl. apply with_symbols_ok in Hs. rewrite Hl, map_map in Hs. cbn zeta. rewrite <- Hs.
  destruct s as [|x s]; [now inversion H|]. unfold derived_symbol_text. rewrite unit_texts_exp in H by discriminate. exact H.
Qed.
