(** Proofs about [format.h]. *)

From Coq Require Import ZArith Ascii String List Bool Lia DecimalString Arith.
From Verif Require Import Outcome FixedString StringProofs SpecText SymbolProofs Unit Dim Rep QuantityCast Quantity UnitText QuantityIo Format SpecFormat.
Import ListNotations.
Local Open Scope string_scope.
Local Open Scope Z_scope.
Local Open Scope fres_scope.

Notation len s := (Z.of_nat (String.length s)).

Lemma len_app : forall a b, len (a ++ b) = len a + len b.
Proof. intros. rewrite append_length. lia. Qed.
Lemma len_cons : forall c a, len (String c a) = len a + 1.
Proof. intros. cbn [String.length]. lia. Qed.

(** ** Digits *)
Lemma digit_char : forall c, is_digit_char c = match digit_of c with Some _ => true | None => false end.
Proof.
  intros c. unfold is_digit_char, digit_of. set (n := nat_of_ascii c). clearbody n.
  destruct (Nat.leb_spec 48 n), (Nat.leb_spec n 57), (Z.leb_spec 48 (Z.of_nat n)), (Z.leb_spec (Z.of_nat n) 57); cbn; reflexivity || lia.
Qed.
Lemma digit_value : forall c d, digit_of c = Some d -> d = Z.of_nat (nat_of_ascii c) - 48 /\ 0 <= d <= 9.
Proof.
  intros c d. unfold digit_of. set (n := nat_of_ascii c). clearbody n.
  destruct (Z.leb_spec 48 (Z.of_nat n)), (Z.leb_spec (Z.of_nat n) 57); cbn; intros E; inversion E; lia.
Qed.
Lemma read_digits_le : forall s acc n, 0 <= acc -> read_digits acc s = Some n -> acc <= n.
Proof.
  induction s as [|c s IH]; intros acc n P H; cbn in H; [inversion H; lia|].
  destruct (digit_of c) as [d|] eqn:D; [|discriminate]. apply digit_value in D as [_ D]. specialize (IH (10 * acc + d) n). assert (0 <= 10 * acc + d) by lia. specialize (IH ltac:(assumption) H). lia.
Qed.
Definition ends (t : string) (k : Z) : Prop := k = 0 \/ exists c r, t = String c r /\ is_digit_char c = false.
Lemma parse_int_digits : forall d acc n t k, 0 <= acc -> read_digits acc d = Some n -> n <= int_max -> 0 <= k -> ends t k ->
  parse_int acc (d ++ t) (k + len d) = FOk (n, t, k).
Proof.
  induction d as [|c d IH]; intros acc n t k P H M K E.
  - cbn in H. inversion H; subst n. cbn [String.length]. rewrite Z.add_0_r. change ("" ++ t) with t. destruct E as [->|(c & r & -> & N)].
    + destruct t; reflexivity.
    + cbn [parse_int]. destruct (k =? 0); [reflexivity|]. now rewrite N.
  - cbn [read_digits] in H. destruct (digit_of c) as [v|] eqn:D; [|discriminate].
    assert (Dc : is_digit_char c = true) by (rewrite digit_char, D; reflexivity).
    apply digit_value in D as [Ev D]. cbn [append parse_int]. rewrite len_cons.
    destruct (Z.eqb_spec (k + (len d + 1)) 0); [lia|]. rewrite Dc, <- Ev.
    assert (0 <= 10 * acc + v) by lia. pose proof (read_digits_le _ _ _ ltac:(eassumption) H). destruct (Z.ltb_spec int_max (10 * acc + v)); [lia|].
    replace (k + (len d + 1) - 1) with (k + len d) by lia. apply IH; auto; lia.
Qed.
Lemma read_nat_first : forall d n, read_nat d = Some n -> exists c r, d = String c r /\ is_digit_char c = true /\ read_digits 0 d = Some n.
Proof.
  intros [|c r] n H; [discriminate|]. exists c, r. split; [reflexivity|]. split; [|exact H].
  rewrite digit_char. cbn in H. destruct (digit_of c); [reflexivity|discriminate].
Qed.

(** ** The modifiers of a value *)
Definition t_type (ty : option ascii) (t : string) : string := (match ty with Some c => one c | None => "" end) ++ String "Q" t.
Definition t_locale (lo : bool) ty t := (if lo then "L" else "") ++ t_type ty t.
Definition t_dot (p : option string) lo ty t := (match p with Some d => "." ++ d | None => "" end) ++ t_locale lo ty t.
Definition t_alt (al : bool) p lo ty t := (if al then "#" else "") ++ t_dot p lo ty t.
Definition n_type (ty : option ascii) : Z := match ty with Some _ => 1 | None => 0 end.
Definition n_locale (lo : bool) ty := (if lo then 1 else 0) + n_type ty.
Definition n_dot (p : option string) lo ty := (match p with Some d => 1 + len d | None => 0 end) + n_locale lo ty.
Definition n_alt (al : bool) p lo ty := (if al then 1 else 0) + n_dot p lo ty.

Definition o_type (ty : option ascii) (sp : rep_specs) := match ty with Some c => RepSpecs (s_sign sp) (s_precision sp) c (s_alt sp) (s_locale sp) | None => sp end.
Definition o_locale (lo : bool) ty sp := o_type ty (if lo then with_locale sp else sp).
Definition o_dot (p : option string) lo ty sp := o_locale lo ty (match p with Some d => with_precision sp (number_of d) | None => sp end).
Definition o_alt (al : bool) p lo ty sp := o_dot p lo ty (if al then with_alt sp else sp).
Definition o_sign (s : option sign_mod) (sp : rep_specs) :=
  match s with None => sp | Some Plus => with_sign sp SPlus | Some Minus => with_sign sp SMinus | Some Space => with_sign sp SSpace end.
Definition overlay (sp : rep_specs) (m : rep_mod) : rep_specs :=
  o_alt (m_alt m) (m_precision m) (m_locale m) (m_type m) (o_sign (m_sign m) sp).

Definition type_ok (ty : option ascii) : Prop := forall c, ty = Some c -> rep_type c.
Definition dot_ok (floating : bool) (p : option string) : Prop := forall d, p = Some d -> floating = true /\ int_digits d.

Ltac types H := let T := fresh in
  match type of H with type_ok ?ty => destruct ty as [?c|]; [pose proof (H _ eq_refl) as T; cbn in T;
    repeat (destruct T as [T|T]; [subst|]); [..|contradiction]|] end.

Lemma type_doc : forall ty sp t, type_ok ty -> parse_type sp (t_type ty t) (n_type ty) = FOk (o_type ty sp).
Proof. intros ty sp t H. types H; reflexivity. Qed.
Lemma locale_doc : forall lo ty sp t, type_ok ty -> parse_locale sp (t_locale lo ty t) (n_locale lo ty) = FOk (o_locale lo ty sp).
Proof. intros lo ty sp t H. destruct lo; types H; reflexivity. Qed.
Lemma locale_first : forall lo ty t, type_ok ty -> exists c r, t_locale lo ty t = String c r /\ is_digit_char c = false /\
  c <> "."%char /\ c <> "#"%char /\ c <> "+"%char /\ c <> "-"%char /\ c <> " "%char.
Proof. intros lo ty t H. destruct lo; types H; (eexists _, _; split; [reflexivity|]; split; [reflexivity|]; repeat (split; [discriminate|]); discriminate). Qed.
Lemma eqb_neq : forall a b : ascii, a <> b -> Ascii.eqb a b = false.
Proof. intros a b. apply Ascii.eqb_neq. Qed.

Lemma dot_doc : forall fl p lo ty sp t, type_ok ty -> dot_ok fl p ->
  parse_dot fl sp (t_dot p lo ty t) (n_dot p lo ty) = FOk (o_dot p lo ty sp).
Proof.
  intros fl p lo ty sp t H D. unfold t_dot, n_dot, o_dot. destruct p as [d|].
  - destruct (D d eq_refl) as (-> & n & R & M). destruct (read_nat_first _ _ R) as (c & r & -> & Dc & Rd).
    cbn [append parse_dot]. unfold parse_dot. cbn [deref fbind Ascii.eqb eqb]. unfold parse_precision. cbn [tail append].
    replace (1 + len (String c r) + n_locale lo ty - 1) with (n_locale lo ty + len (String c r)) by lia.
    assert (0 <= n_locale lo ty) by (destruct lo, ty; cbn; lia).
    destruct (Z.eqb_spec (n_locale lo ty + len (String c r)) 0); [rewrite len_cons in *; lia|]. cbn [deref fbind]. rewrite Dc.
    change (String c (r ++ t_locale lo ty t)) with (String c r ++ t_locale lo ty t).
    rewrite (parse_int_digits _ _ n); auto; try lia.
    + cbn [fbind fst snd]. rewrite locale_doc by exact H. unfold number_of. now rewrite R.
    + destruct (locale_first lo ty t H) as (x & y & E & N & _). right. eauto.
  - cbn [append]. rewrite Z.add_0_l. unfold parse_dot. destruct (locale_first lo ty t H) as (x & y & E & _ & N & _).
    rewrite E. cbn [deref fbind]. rewrite eqb_neq by exact N. rewrite <- E. now apply locale_doc.
Qed.
Lemma dot_first : forall p lo ty t, type_ok ty -> exists c r, t_dot p lo ty t = String c r /\
  c <> "#"%char /\ c <> "+"%char /\ c <> "-"%char /\ c <> " "%char.
Proof.
  intros p lo ty t H. destruct p as [d|].
  - eexists _, _. split; [reflexivity|]. repeat (split; [discriminate|]); discriminate.
  - destruct (locale_first lo ty t H) as (x & y & E & _ & _ & N). eauto.
Qed.
Lemma n_dot_zero : forall p lo ty, 0 <= n_dot p lo ty /\ (n_dot p lo ty = 0 -> p = None /\ lo = false /\ ty = None).
Proof. intros p lo ty. unfold n_dot, n_locale, n_type. destruct p, lo, ty; split; try lia; auto. Qed.

Lemma alt_doc : forall fl al p lo ty sp t, type_ok ty -> dot_ok fl p ->
  parse_alt fl sp (t_alt al p lo ty t) (n_alt al p lo ty) = FOk (o_alt al p lo ty sp).
Proof.
  intros fl al p lo ty sp t H D. destruct (n_dot_zero p lo ty) as [Np Nz]. unfold parse_alt, t_alt, n_alt, o_alt. destruct al.
  - destruct (Z.eqb_spec (1 + n_dot p lo ty) 0); [lia|]. cbn [append deref fbind Ascii.eqb eqb tail].
    replace (1 + n_dot p lo ty - 1) with (n_dot p lo ty) by lia. destruct (Z.eqb_spec (n_dot p lo ty) 0) as [E|E].
    + apply Nz in E as (-> & -> & ->). reflexivity.
    + now apply dot_doc.
  - rewrite Z.add_0_l. cbn [append]. destruct (Z.eqb_spec (n_dot p lo ty) 0) as [E|E].
    + apply Nz in E as (-> & -> & ->). reflexivity.
    + destruct (dot_first p lo ty t H) as (c & r & Ec & N & _). rewrite Ec. cbn [deref fbind]. rewrite eqb_neq by exact N.
      rewrite <- Ec. now apply dot_doc.
Qed.
Lemma alt_first : forall al p lo ty t, type_ok ty -> exists c r, t_alt al p lo ty t = String c r /\ c <> "+"%char /\ c <> "-"%char /\ c <> " "%char.
Proof.
  intros al p lo ty t H. destruct al.
  - eexists _, _. split; [reflexivity|]. repeat (split; [discriminate|]); discriminate.
  - destruct (dot_first p lo ty t H) as (x & y & E & _ & N). eauto.
Qed.

Lemma spell_rep_parts : forall m t, spell_rep m ++ String "Q" t = spell_sign (m_sign m) ++ t_alt (m_alt m) (m_precision m) (m_locale m) (m_type m) t.
Proof. intros m t. unfold spell_rep, t_alt, t_dot, t_locale, t_type. rewrite !append_assoc. reflexivity. Qed.
Lemma spell_rep_len : forall m, len (spell_rep m) = len (spell_sign (m_sign m)) + n_alt (m_alt m) (m_precision m) (m_locale m) (m_type m).
Proof.
  intros m. unfold spell_rep, n_alt, n_dot, n_locale, n_type. rewrite !len_app.
  destruct (m_alt m), (m_locale m), (m_type m), (m_precision m); rewrite ?len_app; cbn [String.length one]; lia.
Qed.
Lemma rep_doc : forall fl sp m t, documented_rep fl m ->
  parse_units_rep fl sp (spell_rep m ++ String "Q" t) (len (spell_rep m)) = FOk (overlay sp m).
Proof.
  intros fl sp m t [D H]. rewrite spell_rep_parts, spell_rep_len. unfold parse_units_rep, overlay.
  destruct (m_sign m) as [[]|]; cbn [spell_sign append deref fbind Ascii.eqb eqb tail String.length o_sign];
    try (replace (Z.of_nat 1 + n_alt (m_alt m) (m_precision m) (m_locale m) (m_type m) - 1) with (n_alt (m_alt m) (m_precision m) (m_locale m) (m_type m)) by lia; now apply alt_doc).
  destruct (alt_first (m_alt m) (m_precision m) (m_locale m) (m_type m) t H) as (c & r & E & N1 & N2 & N3). rewrite E. cbn [deref fbind].
  rewrite !eqb_neq by assumption. rewrite <- E, Z.add_0_l. now apply alt_doc.
Qed.

(** ** The search for the type *)
Definition no_q (s : string) : Prop := forall c, In c (list_ascii_of_string s) -> c <> "Q"%char /\ c <> "q"%char.
Lemma find_first_app : forall s c t, no_q s -> c = "Q"%char \/ c = "q"%char -> find_first (s ++ String c t) = Some (len s, String c t).
Proof.
  induction s as [|a s IH]; intros c t N C; cbn [append find_first].
  - destruct C as [->| ->]; reflexivity.
  - destruct (N a (or_introl eq_refl)) as [N1 N2]. rewrite !eqb_neq by assumption. cbn [orb].
    rewrite IH; [|intros x I; apply N; now right|exact C]. rewrite len_cons. reflexivity.
Qed.
Lemma no_q_app : forall a b, no_q a -> no_q b -> no_q (a ++ b).
Proof. intros a b A B c I. rewrite list_ascii_app in I. apply in_app_or in I as [I|I]; [now apply A|now apply B]. Qed.
Lemma no_q_digits : forall d acc n, read_digits acc d = Some n -> no_q d.
Proof.
  induction d as [|c d IH]; intros acc n H x I; [contradiction|]. cbn in H. destruct (digit_of c) as [v|] eqn:D; [|discriminate].
  destruct I as [<-|I]; [|now apply (IH _ _ H)]. split; intros ->; discriminate.
Qed.
Ltac small_no_q := intros ?c ?I; cbn in *; repeat match goal with H : _ \/ _ |- _ => destruct H as [H|H] end; subst; try contradiction; split; discriminate.
Lemma no_q_rep : forall fl m, documented_rep fl m -> no_q (spell_rep m).
Proof.
  intros fl m [D H]. unfold spell_rep. apply no_q_app; [destruct (m_sign m) as [[]|]; small_no_q|].
  apply no_q_app; [destruct (m_alt m); small_no_q|]. apply no_q_app; [|apply no_q_app; [destruct (m_locale m); small_no_q|]].
  - destruct (m_precision m) as [d|] eqn:E; [|small_no_q]. destruct (D d eq_refl) as (_ & n & R & _). apply read_nat_first in R as (_ & _ & _ & _ & R).
    apply no_q_app; [small_no_q|]. now apply (no_q_digits d 0 n).
  - change (type_ok (m_type m)) in H. types H; small_no_q.
Qed.

(** ** The loop on documented items *)
Fixpoint calls_of (pending : string) (l : list item) (t : string) : list call :=
  match l with
  | [] => flush pending []
  | Literal c :: r => calls_of (pending ++ String c "") r t
  | Percent :: r => (flush pending [OnText "%"] ++ calls_of "" r t)%list
  | Newline :: r => (flush pending [OnText newline] ++ calls_of "" r t)%list
  | Tab :: r => (flush pending [OnText tab] ++ calls_of "" r t)%list
  | Value m :: r => (flush pending [OnValue (spell_rep m ++ String "Q" (spell r ++ t)) (len (spell_rep m))] ++ calls_of "" r t)%list
  | Symbol a :: r => (flush pending [OnUnit (if a then "A" else "q")] ++ calls_of "" r t)%list
  end.
Definition closed (t : string) : Prop := t = "" \/ exists r, t = String "}" r.
Lemma spell_rep_first : forall fl m t, documented_rep fl m -> exists c r, spell_rep m ++ String "Q" t = String c r /\ is_align c = false /\ c <> "%"%char /\ c <> "n"%char /\ c <> "t"%char.
Proof.
  intros fl m t [D H]. rewrite spell_rep_parts. destruct (m_sign m) as [[]|]; cbn [spell_sign append];
    try (eexists _, _; split; [reflexivity|]; split; [reflexivity|]; repeat (split; [discriminate|]); discriminate).
  unfold t_alt, t_dot, t_locale, t_type. change (type_ok (m_type m)) in H.
  destruct (m_alt m); [eexists _, _; split; [reflexivity|]; split; [reflexivity|]; repeat (split; [discriminate|]); discriminate|].
  destruct (m_precision m); [eexists _, _; split; [reflexivity|]; split; [reflexivity|]; repeat (split; [discriminate|]); discriminate|].
  destruct (m_locale m); [eexists _, _; split; [reflexivity|]; split; [reflexivity|]; repeat (split; [discriminate|]); discriminate|].
  types H; (eexists _, _; split; [reflexivity|]; split; [reflexivity|]; repeat (split; [discriminate|]); discriminate).
Qed.
Lemma loop_items : forall fl l pending t k, Forall (documented_item fl) l -> closed t -> (String.length (spell l ++ t) < k)%nat ->
  parse_loop k pending (spell l ++ t) = FOk (calls_of pending l t, t).
Proof.
  induction l as [|i l IH]; intros pending t k D C K; (destruct k as [|k]; [lia|]).
  - cbn [spell append calls_of]. destruct C as [->|(r & ->)]; reflexivity.
  - inversion D as [|? ? Di Dl]; subst. destruct i as [c| | | |m|a]; cbn [spell spell_item] in *.
    + destruct Di as (N1 & N2 & N3). unfold one in *. cbn [append] in *. cbn [parse_loop]. rewrite (eqb_neq c "}") by assumption. rewrite (eqb_neq c "%") by assumption.
      cbn [negb calls_of]. apply IH; auto. cbn [String.length] in K. lia.
    + cbn [append String.length] in *. cbn [parse_loop Ascii.eqb eqb negb calls_of]. rewrite IH by (auto; lia). reflexivity.
    + cbn [append String.length] in *. cbn [parse_loop Ascii.eqb eqb negb calls_of]. rewrite IH by (auto; lia). reflexivity.
    + cbn [append String.length] in *. cbn [parse_loop Ascii.eqb eqb negb calls_of]. rewrite IH by (auto; lia). reflexivity.
    + assert (E : (("%" ++ spell_rep m ++ "Q") ++ spell l) ++ t = String "%" (spell_rep m ++ String "Q" (spell l ++ t))) by flat.
      rewrite E in *. destruct (spell_rep_first fl m (spell l ++ t) Di) as (c & r & Ec & _ & N1 & N2 & N3).
      cbn [parse_loop]. rewrite Ec. change (Ascii.eqb "%" "}") with false. change (negb (Ascii.eqb "%" "%")) with false. cbv iota.
      rewrite (eqb_neq c "%"), (eqb_neq c "n"), (eqb_neq c "t") by assumption. rewrite <- Ec.
      rewrite (find_first_app (spell_rep m) "Q") by (try (now apply (no_q_rep fl)); now left).
      cbn [deref fbind tail]. change (Ascii.eqb "Q" "Q") with true. cbv iota. cbn [calls_of].
      rewrite IH; [reflexivity|exact Dl|exact C|]. cbn [String.length] in K. rewrite append_length in K. cbn [String.length] in K. lia.
    + destruct a; cbn [append String.length] in *; cbn [parse_loop Ascii.eqb eqb negb calls_of find_first orb deref fbind tail];
        (rewrite IH by (auto; lia)); reflexivity.
Qed.

(** ** The handlers on documented items *)
Definition after (f : fspecs) (i : item) : fspecs :=
  match i with
  | Value m => FSpecs (f_fill f) (f_align f) (f_width f) (overlay (f_rep f) m) (f_modifier f) true (f_unit f)
  | Symbol a => FSpecs (f_fill f) (f_align f) (f_width f) (f_rep f) (if a then "A"%char else f_modifier f) (f_value f) true
  | _ => f
  end.
Lemma overlay_empty : forall sp m, spell_rep m = "" -> overlay sp m = sp.
Proof.
  intros sp m E. pose proof (f_equal String.length E) as L. unfold spell_rep in L. rewrite !append_length in L. cbn [String.length] in L.
  unfold overlay, o_alt, o_dot, o_locale, o_type, o_sign.
  destruct (m_alt m); [cbn in L; lia|]. destruct (m_locale m); [cbn in L; lia|]. destruct (m_precision m); [cbn in L; lia|].
  destruct (m_type m); [cbn in L; lia|]. destruct (m_sign m) as [[]|]; cbn in L; try lia. reflexivity.
Qed.
Lemma handle_app : forall fl a b f, handle_all fl f (a ++ b) = (g <-- handle_all fl f a; handle_all fl g b).
Proof.
  induction a as [|x a IH]; intros b f; [reflexivity|]. cbn [app handle_all]. destruct (handle fl f x); cbn [fbind]; try reflexivity. apply IH.
Qed.
Lemma handle_flush : forall fl p l f, handle_all fl f (flush p l) = handle_all fl f l.
Proof. intros fl [|c p] l f; reflexivity. Qed.
Lemma handle_items : forall fl l pending t f, Forall (documented_item fl) l ->
  handle_all fl f (calls_of pending l t) = FOk (fold_left after l f).
Proof.
  induction l as [|i l IH]; intros pending t f D; cbn [calls_of fold_left].
  - now rewrite handle_flush.
  - inversion D as [|? ? Di Dl]; subst. destruct i as [c| | | |m|a]; rewrite ?handle_app, ?handle_flush; cbn [handle_all handle fbind after].
    + now apply IH.
    + now apply IH.
    + now apply IH.
    + now apply IH.
    + destruct (Z.eqb_spec (len (spell_rep m)) 0) as [E|E].
      * cbn [fbind]. rewrite IH by exact Dl. rewrite overlay_empty; [reflexivity|]. destruct (spell_rep m); [reflexivity|]. rewrite len_cons in E. lia.
      * rewrite rep_doc by exact Di. cbn [fbind]. now apply IH.
    + rewrite IH by exact Dl. destruct a; reflexivity.
Qed.

(** What is written for an item under given specifications. *)
Definition written (value : string -> string) (fl : bool) (f : fspecs) (sy : symbol_text) (i : item) : string :=
  match i with
  | Literal c => one c
  | Percent => "%"
  | Newline => newline
  | Tab => tab
  | Value _ => value (number_format fl (f_rep f))
  | Symbol _ => if Ascii.eqb (f_modifier f) "A" then st_ascii sy else st_standard sy
  end.
Lemma emit_app : forall put fl f x sy a b,
  emit_all put fl f x sy (a ++ b) = (s <-- emit_all put fl f x sy a; r <-- emit_all put fl f x sy b; FOk (s ++ r)).
Proof.
  induction a as [|c a IH]; intros b; cbn [app emit_all].
  - cbn [fbind]. destruct (emit_all put fl f x sy b); reflexivity.
  - destruct (emit put fl f x sy c); cbn [fbind]; try reflexivity. rewrite IH.
    destruct (emit_all put fl f x sy a); cbn [fbind]; try reflexivity. destruct (emit_all put fl f x sy b); cbn [fbind]; try reflexivity. now rewrite append_assoc.
Qed.
Lemma emit_flush : forall put fl f x sy p l, emit_all put fl f x sy (flush p l) = (r <-- emit_all put fl f x sy l; FOk (p ++ r)).
Proof. intros put fl f x sy [|c p] l; cbn [flush emit_all emit fbind]; destruct (emit_all put fl f x sy l); reflexivity. Qed.
Lemma concat_cons : forall a l, String.concat "" (a :: l) = a ++ String.concat "" l.
Proof. intros a [|b l]; [cbn; now rewrite append_nil_r|reflexivity]. Qed.
Lemma emit_items : forall put value fl f x sy, (forall s, put s x = FOk (value s)) -> forall l pending t,
  emit_all put fl f x sy (calls_of pending l t) = FOk (pending ++ String.concat "" (map (written value fl f sy) l)).
Proof.
  intros put value fl f x sy P. induction l as [|i l IH]; intros pending t.
  - cbn [calls_of map String.concat]. rewrite emit_flush. reflexivity.
  - cbn [map]. rewrite concat_cons. destruct i as [c| | | |m|a]; cbn [calls_of written].
    + rewrite IH. unfold one. now rewrite append_assoc.
    + rewrite emit_app, emit_flush, IH. cbn [emit_all emit fbind]. flat.
    + rewrite emit_app, emit_flush, IH. cbn [emit_all emit fbind]. flat.
    + rewrite emit_app, emit_flush, IH. cbn [emit_all emit fbind]. flat.
    + rewrite emit_app, emit_flush, IH. cbn [emit_all emit]. rewrite P. cbn [fbind]. flat.
    + rewrite emit_app, emit_flush, IH. cbn [emit_all emit fbind]. destruct (Ascii.eqb (f_modifier f) "A"); flat.
Qed.

(** ** The whole field *)
Definition align_mod (a : option alignment) : falign := match a with None => ANone | Some Left => ALeft | Some Right => ARight | Some Center => ACenter end.
(** What may follow a field: its end, or another conversion. *)
Definition quiet (r : string) : Prop := forall d r', r = String d r' -> is_align d = false.
Definition next_ok (t : string) : Prop := exists c r, t = String c r /\ (c = "}"%char \/ c = "%"%char /\ quiet r).
Definition more (l : list item) (t : string) : Prop := l <> [] \/ exists r, t = String "%" r.
Lemma items_first : forall fl l t, next_ok t -> Forall (documented_item fl) l -> (forall i r, l = i :: r -> conversion i) ->
  exists c r, spell l ++ t = String c r /\ is_align c = false /\ is_digit_char c = false /\ c <> "{"%char /\
    (more l t -> c = "%"%char /\ quiet r).
Proof.
  intros fl [|i l] t T D F.
  - destruct T as (c & r & -> & T). exists c, r. split; [reflexivity|].
    destruct T as [->|[-> Q]]; (split; [reflexivity|]; split; [reflexivity|]; split; [discriminate|]); intros [N|[y N]]; try contradiction; [discriminate|]. now split.
  - inversion D as [|? ? Di Dl]; subst. specialize (F i l eq_refl). destruct i as [c| | | |m|a]; [contradiction|..]; cbn [spell spell_item].
    + exists "%"%char, ("%" ++ spell l ++ t). split; [flat|]. split; [reflexivity|]. split; [reflexivity|]. split; [discriminate|].
      intros _. split; [reflexivity|]. intros d r' E. inversion E. reflexivity.
    + exists "%"%char, ("n" ++ spell l ++ t). split; [flat|]. split; [reflexivity|]. split; [reflexivity|]. split; [discriminate|].
      intros _. split; [reflexivity|]. intros d r' E. inversion E. reflexivity.
    + exists "%"%char, ("t" ++ spell l ++ t). split; [flat|]. split; [reflexivity|]. split; [reflexivity|]. split; [discriminate|].
      intros _. split; [reflexivity|]. intros d r' E. inversion E. reflexivity.
    + destruct (spell_rep_first fl m (spell l ++ t) Di) as (c & r & Ec & A & _).
      exists "%"%char, (String c r). split; [rewrite <- Ec; flat|]. split; [reflexivity|]. split; [reflexivity|]. split; [discriminate|].
      intros _. split; [reflexivity|]. intros d r' E. inversion E. now subst.
    + exists "%"%char, ((if a then "Aq" else "q") ++ spell l ++ t). split; [destruct a; flat|]. split; [reflexivity|]. split; [reflexivity|]. split; [discriminate|].
      intros _. split; [reflexivity|]. destruct a; intros d r' E; inversion E; reflexivity.
Qed.
Lemma digit_facts : forall c, is_digit_char c = true -> is_align c = false /\ code_point_length c = 1%nat /\ c <> "}"%char /\ c <> "{"%char.
Proof.
  intros c H. unfold is_digit_char in H. apply andb_true_iff in H as [H1 H2]. apply Nat.leb_le in H1, H2.
  assert (X : forall x : ascii, (nat_of_ascii x < 48 \/ 57 < nat_of_ascii x)%nat -> c <> x) by (intros x X ->; lia).
  split; [|split; [|split]].
  - unfold is_align, align_of. rewrite !eqb_neq by (apply X; cbn; lia). reflexivity.
  - unfold code_point_length. destruct (Nat.ltb_spec (nat_of_ascii c) 192); [reflexivity|lia].
  - apply X. cbn. lia.
  - apply X. cbn. lia.
Qed.
Definition width_ok (w : option string) : Prop := forall d, w = Some d -> int_digits d.
Lemma rest_first : forall fl w l t, next_ok t -> width_ok w -> Forall (documented_item fl) l -> (forall i r, l = i :: r -> conversion i) ->
  exists c r, optional w ++ spell l ++ t = String c r /\ is_align c = false /\
    (w <> None \/ more l t -> c <> "}"%char /\ code_point_length c = 1%nat /\ quiet r).
Proof.
  intros fl w l t T W D F. destruct (items_first fl l t T D F) as (c & r & E & A & _ & _ & N). destruct w as [d|]; cbn [optional].
  - destruct (W d eq_refl) as (n & R & _). destruct (read_nat_first _ _ R) as (x & y & -> & X & Rd). destruct (digit_facts x X) as (A1 & A2 & A3 & A4).
    eexists _, _. split; [cbn [append]; reflexivity|]. split; [exact A1|]. intros _. split; [exact A3|]. split; [exact A2|].
    destruct y as [|z y].
    + cbn [append]. rewrite E. intros d r' Er. inversion Er. now subst.
    + cbn [append]. intros d r' Er. inversion Er; subst. cbn in Rd. destruct (digit_of x); [|discriminate]. destruct (digit_of d) eqn:Z; [|discriminate].
      apply digit_facts. rewrite digit_char, Z. reflexivity.
  - cbn [append]. exists c, r. split; [exact E|]. split; [exact A|]. intros [H|H]; [contradiction|]. destruct (N H) as (-> & B).
    split; [discriminate|]. split; [reflexivity|]. exact B.
Qed.
Lemma drop_len : forall a b, drop (String.length a) (a ++ b) = b.
Proof. induction a; intros; [reflexivity|]. cbn. apply IHa. Qed.
Lemma take_len : forall a b, take (String.length a) (a ++ b) = a.
Proof. induction a; intros; [destruct b; reflexivity|]. cbn. now rewrite IHa. Qed.
Definition something (f : field) (t : string) : Prop := d_align f <> None \/ d_width f <> None \/ more (d_items f) t.
Lemma align_doc : forall fl f t, next_ok t -> documented fl f -> something f t ->
  let rest := optional (d_width f) ++ spell (d_items f) ++ t in
  parse_align (optional (d_fill f) ++ spell_align (d_align f) ++ rest) = FOk (field_fill f, align_mod (d_align f), rest).
Proof.
  intros fl f t T (Fi & W & D & C) NE rest. destruct (rest_first fl (d_width f) (d_items f) t T W D C) as (c & r & E & A & N). fold rest in E.
  unfold field_fill. destruct (d_fill f) as [s|] eqn:Ef; cbn [optional].
  - destruct (Fi s eq_refl) as [(x & y & -> & X1 & X2 & X) NA]. destruct (d_align f) as [a|] eqn:Ea; [|contradiction].
    cbn [append]. unfold parse_align.
    assert (L : code_point_length x = String.length (String x y)).
    { cbn [String.length]. unfold code_point_length. cbn zeta in X. set (b := nat_of_ascii x) in *. clearbody b.
      destruct X as [[X Y]|[[X Y]|[[X Y]|[X Y]]]]; [subst y; cbn [String.length]| | |];
        repeat match goal with |- context [Nat.ltb ?p ?q] => destruct (Nat.ltb_spec p q) end; lia. }
    rewrite L. change (String x (y ++ spell_align (Some a) ++ rest)) with (String x y ++ (spell_align (Some a) ++ rest)).
    rewrite drop_len, take_len. destruct a; cbn [spell_align append]; cbn [is_align align_of Ascii.eqb eqb];
      rewrite (eqb_neq x "{") by assumption; reflexivity.
  - cbn [append]. destruct (d_align f) as [a|] eqn:Ea.
    + rewrite E. destruct a; cbn [spell_align append parse_align]; unfold parse_align; cbn [code_point_length nat_of_ascii drop];
        match goal with |- context [drop ?k _] => change k with 1%nat end; cbn [drop]; rewrite A; reflexivity.
    + cbn [spell_align append]. destruct N as (N1 & N2 & B).
      { unfold something in NE. rewrite Ea in NE. destruct NE as [NE|[NE|NE]]; [contradiction|now left|now right]. }
      rewrite E. unfold parse_align. rewrite N2. cbn [drop]. rewrite A. destruct r as [|d r']; [reflexivity|]. rewrite (B d r' eq_refl). reflexivity.
Qed.
Lemma width_doc : forall fl w l t, next_ok t -> width_ok w -> Forall (documented_item fl) l -> (forall i r, l = i :: r -> conversion i) ->
  parse_width (optional w ++ spell l ++ t) = FOk (match w with Some d => number_of d | None => 0 end, spell l ++ t).
Proof.
  intros fl w l t T W D F. destruct (items_first fl l t T D F) as (c & r & E & A & Dg & B & _). unfold parse_width. destruct w as [d|]; cbn [optional].
  - destruct (W d eq_refl) as (n & R & M). destruct (read_nat_first _ _ R) as (x & y & -> & X & Rd).
    cbn [append deref fbind]. rewrite X. change (String x (y ++ spell l ++ t)) with (String x y ++ spell l ++ t).
    rewrite len_app, Z.add_comm. rewrite (parse_int_digits _ _ n); auto; try lia.
    + cbn [fbind fst snd]. unfold number_of. now rewrite R.
    + right. eauto.
  - cbn [append]. rewrite E. cbn [deref fbind]. rewrite Dg, eqb_neq by exact B. reflexivity.
Qed.

Definition base_specs (f : field) : fspecs := FSpecs (field_fill f) (align_mod (d_align f)) (field_width f) no_rep_specs zero false false.
Definition realign (g : fspecs) : fspecs :=
  FSpecs (f_fill g) (match f_align g with ANone => if negb (f_unit g) || f_value g then ARight else ANone | x => x end)
    (f_width g) (f_rep g) (f_modifier g) (f_value g) (f_unit g).
Definition field_specs (f : field) : fspecs := realign (fold_left after (d_items f) (base_specs f)).
Lemma not_empty : forall a t, t <> "" -> String.eqb (a ++ t) "" = false.
Proof. intros [|x a] [|c t] N; try reflexivity. now elim N. Qed.
Lemma consumed_app : forall a b, consumed (a ++ b) b = a.
Proof.
  intros. unfold consumed. rewrite append_length. replace (String.length a + String.length b - String.length b)%nat with (String.length a) by lia.
  apply take_len.
Qed.
(** Parsing comes down to the items and what follows. *)
Lemma parse_front : forall fl f t, next_ok t -> documented fl f -> something f t ->
  parse fl (spell_field f ++ t) =
    (p <-- parse_units_format (spell (d_items f) ++ t); g <-- handle_all fl (base_specs f) (fst p);
     FOk (realign g, consumed (spell (d_items f) ++ t) (snd p), snd p)).
Proof.
  intros fl f t T Df NE.
  pose proof Df as (Fi & W & D & C). pose proof (align_doc fl f t T Df NE) as Al. cbn zeta in Al.
  assert (Nt : t <> "") by (destruct T as (c & r & -> & _); discriminate).
  assert (E : spell_field f ++ t = optional (d_fill f) ++ spell_align (d_align f) ++ optional (d_width f) ++ spell (d_items f) ++ t)
    by (unfold spell_field; flat).
  rewrite E. clear E. set (s := optional (d_fill f) ++ _) in *.
  assert (S : exists c r, s = String c r /\ c <> "}"%char).
  { unfold s. destruct (d_fill f) as [x|] eqn:Ef; cbn [optional].
    - destruct (Fi x eq_refl) as [(y & z & -> & _ & Y & _) _]. cbn [append]. eauto.
    - unfold something in NE. destruct (d_align f) as [[]|] eqn:Ea; cbn [spell_align append]; try (eexists _, _; split; [reflexivity|discriminate]).
      destruct (rest_first fl (d_width f) (d_items f) t T W D C) as (c & r & Er & _ & N). destruct N as (N & _); [destruct NE as [NE|NE]; [contradiction|exact NE]|]. eauto. }
  destruct S as (c & r & Es & Nc). unfold parse. rewrite Es. rewrite eqb_neq by exact Nc. rewrite <- Es, Al. cbn [fbind].
  rewrite <- append_assoc, not_empty by exact Nt. rewrite append_assoc, (width_doc fl) by assumption. cbn [fbind fst snd]. rewrite not_empty by exact Nt.
  reflexivity.
Qed.
Definition empty_field (f : field) : Prop := d_align f = None /\ d_width f = None /\ d_items f = [].
Lemma not_empty_field : forall f t, ~ empty_field f -> something f t.
Proof.
  intros f t NE. unfold empty_field, something, more in *. destruct (d_align f); [left; discriminate|]. destruct (d_width f); [right; left; discriminate|].
  destruct (d_items f); [elim NE; auto|right; right; left; discriminate].
Qed.
Lemma parse_doc : forall fl f t, documented fl f -> ~ empty_field f ->
  parse fl (spell_field f ++ String "}" t) = FOk (field_specs f, spell (d_items f), String "}" t).
Proof.
  intros fl f t Df NE. rewrite parse_front; [|eexists _, _; eauto|exact Df|now apply not_empty_field]. destruct Df as (_ & _ & D & _).
  unfold parse_units_format. rewrite (loop_items fl) by (auto; right; eauto). cbn [fbind fst snd]. rewrite handle_items by exact D. cbn [fbind].
  rewrite consumed_app. reflexivity.
Qed.
Lemma parse_empty : forall fl f t, documented fl f -> empty_field f -> parse fl (spell_field f ++ String "}" t) = FOk (no_fspecs, "", String "}" t).
Proof.
  intros fl f t (Fi & _) (A & W & I). unfold spell_field. rewrite A, W, I. destruct (d_fill f) as [s|] eqn:E; [|reflexivity].
  destruct (Fi s eq_refl) as [_ N]. contradiction.
Qed.
