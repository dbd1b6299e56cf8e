(** Proofs about the format strings that [format.h] rejects. *)

From Coq Require Import ZArith Ascii String List Bool Lia DecimalString Arith.
From Verif Require Import Outcome FixedString StringProofs SpecText SymbolProofs Unit Dim Rep QuantityCast Quantity UnitText QuantityIo Format SpecFormat FormatProofs FormatProofs2.
Import ListNotations.
Local Open Scope string_scope.
Local Open Scope Z_scope.
Local Open Scope fres_scope.

Lemma mem_type : forall c, mem_char c valid_rep_types = true -> rep_type c.
Proof.
  intros c H. unfold valid_rep_types in H. cbn [mem_char] in H. unfold rep_type. cbn [In].
  repeat (apply orb_true_iff in H as [H|H]; [apply Ascii.eqb_eq in H; tauto|]). discriminate.
Qed.
Lemma not_special : forall c x, ~ special c -> In x ["Q"; "q"; "}"; "%"; "+"; "-"; " "; "#"; "."; "L"; "<"; ">"; "^"; "n"; "t"]%char -> c <> x.
Proof. intros c x N I ->. exact (N I). Qed.
Ltac ns := apply not_special; [assumption|cbn; tauto].
Lemma type_bad : forall sp c u n, 0 < n -> ~ rep_type c -> ~ special c -> parse_type sp (String c u) n = FError.
Proof.
  intros sp c u n P T S. unfold parse_type, on_type. destruct (Z.eqb_spec n 0); [lia|]. cbn [deref fbind]. rewrite (eqb_neq c "}"), (eqb_neq c "%") by ns. cbn [negb andb].
  destruct (mem_char c valid_rep_types) eqn:M; [|reflexivity]. elim T. now apply mem_type.
Qed.
Definition u_locale (lo : bool) (u : string) : string := (if lo then "L" else "") ++ u.
Definition u_dot (p : option string) (u : string) : string := (match p with Some d => "." ++ d | None => "" end) ++ u.
Definition u_alt (al : bool) (u : string) : string := (if al then "#" else "") ++ u.
Lemma locale_bad : forall sp lo c u n, 0 < n -> ~ rep_type c -> ~ special c -> parse_locale sp (u_locale lo (String c u)) ((if lo then 1 else 0) + n) = FError.
Proof.
  intros sp lo c u n P T S. unfold parse_locale, u_locale. destruct lo; cbn [append deref fbind tail].
  - change (Ascii.eqb "L" "L") with true. cbv iota. apply type_bad; auto. lia.
  - rewrite (eqb_neq c "L") by ns. now apply type_bad.
Qed.
Lemma dot_bad : forall fl sp p lo c u n, 0 < n -> ~ rep_type c -> ~ special c -> dot_ok fl p -> (digit_of c <> None -> p = None \/ lo = true) ->
  parse_dot fl sp (u_dot p (u_locale lo (String c u))) ((match p with Some d => 1 + len d | None => 0 end) + ((if lo then 1 else 0) + n)) = FError.
Proof.
  intros fl sp p lo c u n P T S D G. unfold parse_dot, u_dot. destruct p as [d|].
  - destruct (D d eq_refl) as (-> & v & R & M). destruct (read_nat_first _ _ R) as (y & r & -> & Dc & Rd).
    cbn [append deref fbind]. change (Ascii.eqb "." ".") with true. cbv iota. unfold parse_precision. cbn [tail].
    set (m := (if lo then 1 else 0) + n). assert (0 < m) by (unfold m; destruct lo; lia).
    replace (1 + len (String y r) + m - 1) with (m + len (String y r)) by lia. rewrite len_cons.
    destruct (Z.eqb_spec (m + (len r + 1)) 0); [lia|]. cbn [deref fbind]. rewrite Dc. rewrite <- (len_cons y r).
    change (String y (r ++ u_locale lo (String c u))) with (String y r ++ u_locale lo (String c u)).
    rewrite (parse_int_digits _ _ v); auto; try lia; [cbn [fbind fst snd]; unfold m; now apply locale_bad|].
    right. unfold u_locale. destruct lo; cbn [append]; [eexists _, _; split; reflexivity|]. eexists _, _. split; [reflexivity|].
    rewrite digit_char. destruct (digit_of c) eqn:Dg; [|reflexivity]. destruct G as [G|G]; discriminate.
  - cbn [append]. rewrite Z.add_0_l. assert (E : exists y r, u_locale lo (String c u) = String y r /\ y <> "."%char).
    { unfold u_locale. destruct lo; cbn [append]; eexists _, _; (split; [reflexivity|]); [discriminate|ns]. }
    destruct E as (y & r & E & N). rewrite E. cbn [deref fbind]. rewrite eqb_neq by exact N. rewrite <- E. now apply locale_bad.
Qed.
Lemma alt_bad : forall fl sp al w n, 0 < n -> (exists y r, w = String y r /\ y <> "#"%char) -> (forall sp', parse_dot fl sp' w n = FError) ->
  parse_alt fl sp (u_alt al w) ((if al then 1 else 0) + n) = FError.
Proof.
  intros fl sp al w n P (y & r & -> & N) H. unfold parse_alt, u_alt. destruct al.
  - destruct (Z.eqb_spec (1 + n) 0); [lia|]. cbn [append deref fbind tail]. change (Ascii.eqb "#" "#") with true. cbv iota.
    replace (1 + n - 1) with n by lia. destruct (Z.eqb_spec n 0); [lia|]. apply H.
  - rewrite Z.add_0_l. destruct (Z.eqb_spec n 0); [lia|]. cbn [append deref fbind]. rewrite eqb_neq by exact N. apply H.
Qed.
Lemma sign_bad : forall fl sp s w n, (exists y r, w = String y r /\ y <> "+"%char /\ y <> "-"%char /\ y <> " "%char) -> (forall sp', parse_alt fl sp' w n = FError) ->
  parse_units_rep fl sp (spell_sign s ++ w) (len (spell_sign s) + n) = FError.
Proof.
  intros fl sp s w n (y & r & -> & N1 & N2 & N3) H. unfold parse_units_rep. destruct s as [[]|]; cbn [spell_sign append deref fbind tail String.length];
    try (cbn [Ascii.eqb eqb]; replace (Z.of_nat 1 + n - 1) with n by lia; apply H).
  rewrite !eqb_neq by assumption. apply H.
Qed.
Lemma rep_bad_type : forall fl sp m c u n, documented_rep fl m -> m_type m = None -> ~ rep_type c -> ~ special c ->
  (digit_of c <> None -> m_precision m = None \/ m_locale m = true) -> 0 < n ->
  parse_units_rep fl sp (spell_rep m ++ String c u) (len (spell_rep m) + n) = FError.
Proof.
  intros fl sp m c u n [D _] Ty T S G P.
  assert (E : spell_rep m ++ String c u = spell_sign (m_sign m) ++ u_alt (m_alt m) (u_dot (m_precision m) (u_locale (m_locale m) (String c u)))).
  { unfold spell_rep, u_alt, u_dot, u_locale. rewrite Ty. rewrite !append_assoc. reflexivity. }
  assert (L : len (spell_rep m) + n = len (spell_sign (m_sign m)) + ((if m_alt m then 1 else 0) + ((match m_precision m with Some d => 1 + len d | None => 0 end) + ((if m_locale m then 1 else 0) + n)))).
  { rewrite spell_rep_len. unfold n_alt, n_dot, n_locale, n_type. rewrite Ty. lia. }
  rewrite E, L. apply sign_bad.
  - unfold u_alt, u_dot, u_locale. destruct (m_alt m); [eexists _, _; split; [reflexivity|]; repeat (split; [discriminate|]); discriminate|].
    destruct (m_precision m); [eexists _, _; split; [reflexivity|]; repeat (split; [discriminate|]); discriminate|].
    destruct (m_locale m); cbn [append]; [eexists _, _; split; [reflexivity|]; repeat (split; [discriminate|]); discriminate|].
    eexists _, _. split; [reflexivity|]. split; [ns|]. split; ns.
  - intros sp'. apply alt_bad.
    + destruct (m_precision m), (m_locale m); lia.
    + unfold u_dot, u_locale. destruct (m_precision m); [eexists _, _; split; [reflexivity|discriminate]|].
      destruct (m_locale m); cbn [append]; [eexists _, _; split; [reflexivity|discriminate]|]. eexists _, _. split; [reflexivity|ns].
    + intros sp''. now apply dot_bad.
Qed.
Lemma rep_bad_precision : forall sp m u n, m_precision m = None -> m_locale m = false -> m_type m = None -> 0 < n ->
  parse_units_rep false sp (spell_rep m ++ String "." u) (len (spell_rep m) + n) = FError.
Proof.
  intros sp m u n Pr Lo Ty P.
  assert (E : spell_rep m ++ String "." u = spell_sign (m_sign m) ++ u_alt (m_alt m) (String "." u)).
  { unfold spell_rep, u_alt. rewrite Ty, Lo, Pr. rewrite !append_assoc. reflexivity. }
  assert (L : len (spell_rep m) + n = len (spell_sign (m_sign m)) + ((if m_alt m then 1 else 0) + n)).
  { rewrite spell_rep_len. unfold n_alt, n_dot, n_locale, n_type. rewrite Ty, Lo, Pr. lia. }
  rewrite E, L. apply sign_bad.
  - unfold u_alt. destruct (m_alt m); (eexists _, _; split; [reflexivity|]; repeat (split; [discriminate|]); discriminate).
  - intros sp'. apply alt_bad; [lia|eexists _, _; split; [reflexivity|discriminate]|]. intros sp''. reflexivity.
Qed.

(** ** The loop *)
Definition run (fl : bool) (f : fspecs) (x : fres (list call * string)) : fres fspecs := p <-- x; handle_all fl f (fst p).
Lemma loop_front : forall fl l pending t k, Forall (documented_item fl) l -> (String.length (spell l ++ t) < k)%nat ->
  exists calls pending' k', (String.length t < k')%nat /\ parse_loop k pending (spell l ++ t) = prepend calls (parse_loop k' pending' t) /\
    forall f, handle_all fl f calls = FOk (fold_left after l f).
Proof.
  induction l as [|i l IH]; intros pending t k D K.
  - exists [], pending, k. split; [exact K|]. split; [|reflexivity]. cbn [spell append]. unfold prepend. destruct (parse_loop k pending t) as [[y r]| | | |]; reflexivity.
  - inversion D as [|? ? Di Dl]; subst. destruct k as [|k]; [lia|].
    assert (PP : forall a b x, prepend a (prepend b x) = prepend (a ++ b) x).
    { intros a b x. unfold prepend. destruct x as [[y r]| | | |]; cbn [fbind fst snd]; try reflexivity. now rewrite app_assoc. }
    assert (Step : forall head p, (String.length (spell l ++ t) < k)%nat -> parse_loop (S k) pending (spell (i :: l) ++ t) = prepend head (parse_loop k p (spell l ++ t)) ->
      (forall f, handle_all fl f head = FOk (after f i)) ->
      exists calls pending' k', (String.length t < k')%nat /\ parse_loop (S k) pending (spell (i :: l) ++ t) = prepend calls (parse_loop k' pending' t) /\
        forall f, handle_all fl f calls = FOk (fold_left after (i :: l) f)).
    { intros head p K2 E H. destruct (IH p t k Dl K2) as (calls & p' & k' & Kt & E2 & H2). exists (head ++ calls)%list, p', k'. split; [exact Kt|].
      split; [rewrite E, E2; apply PP|]. intros f. rewrite handle_app, H. cbn [fbind fold_left]. apply H2. }
    cbn [spell] in K, Step |- *. rewrite append_assoc in K, Step |- *. rewrite append_length in K.
    destruct i as [c| | | |m|a]; cbn [spell_item] in K, Step |- *.
    + destruct Di as (N1 & N2 & N3). apply (Step [] (pending ++ String c "")); [cbn [String.length one] in K; lia| |reflexivity].
      unfold one. cbn [append parse_loop]. rewrite (eqb_neq c "}"), (eqb_neq c "%") by assumption. cbn [negb]. unfold prepend.
      destruct (parse_loop k _ _) as [[y r]| | | |]; reflexivity.
    + apply (Step (flush pending [OnText "%"]) ""); [cbn [String.length] in K; lia|reflexivity|]. intros f. now rewrite handle_flush.
    + apply (Step (flush pending [OnText newline]) ""); [cbn [String.length] in K; lia|reflexivity|]. intros f. now rewrite handle_flush.
    + apply (Step (flush pending [OnText tab]) ""); [cbn [String.length] in K; lia|reflexivity|]. intros f. now rewrite handle_flush.
    + set (w := spell l ++ t) in *. assert (E : ("%" ++ spell_rep m ++ "Q") ++ w = String "%" (spell_rep m ++ String "Q" w)) by flat.
      rewrite E in *. destruct (spell_rep_first fl m w Di) as (c & r & Ec & _ & N1 & N2 & N3).
      apply (Step (flush pending [OnValue (spell_rep m ++ String "Q" w) (len (spell_rep m))]) "").
      * rewrite append_length in K. cbn [String.length] in K. lia.
      * cbn [parse_loop]. rewrite Ec. change (Ascii.eqb "%" "}") with false. change (negb (Ascii.eqb "%" "%")) with false. cbv iota.
        rewrite (eqb_neq c "%"), (eqb_neq c "n"), (eqb_neq c "t") by assumption. rewrite <- Ec.
        rewrite (find_first_app (spell_rep m) "Q") by (try (now apply (no_q_rep fl)); now left). reflexivity.
      * intros f. rewrite handle_flush. cbn [handle_all handle]. destruct (Z.eqb_spec (len (spell_rep m)) 0) as [Z|Z].
        -- cbn [fbind after]. rewrite overlay_empty; [reflexivity|]. destruct (spell_rep m); [reflexivity|]. rewrite len_cons in Z. lia.
        -- rewrite rep_doc by exact Di. reflexivity.
    + apply (Step (flush pending [OnUnit (if a then "A" else "q")]) ""); [destruct a; cbn [String.length] in K; lia|destruct a; reflexivity|].
      intros f. rewrite handle_flush. destruct a; reflexivity.
Qed.
Lemma no_contains : forall s, ~ contains_q s -> no_q s.
Proof. intros s N c I. split; intros ->; apply N; [now left|now right]. Qed.
Lemma find_first_none : forall s, no_q s -> find_first s = None.
Proof.
  induction s as [|c s IH]; intros N; [reflexivity|]. cbn [find_first]. destruct (N c (or_introl eq_refl)). rewrite !eqb_neq by assumption. cbn [orb].
  rewrite IH; [reflexivity|]. intros x I. apply N. now right.
Qed.
Lemma loop_value : forall k pending p w, (exists y r, p ++ String "Q" w = String y r /\ y <> "%"%char /\ y <> "n"%char /\ y <> "t"%char) -> no_q p ->
  parse_loop (S k) pending (String "%" (p ++ String "Q" w)) = prepend (flush pending [OnValue (p ++ String "Q" w) (len p)]) (parse_loop k "" w).
Proof.
  intros k pending p w (y & r & E & N1 & N2 & N3) Q. cbn [parse_loop]. rewrite E. change (Ascii.eqb "%" "}") with false. change (negb (Ascii.eqb "%" "%")) with false. cbv iota.
  rewrite !eqb_neq by assumption. rewrite <- E. rewrite (find_first_app p "Q") by auto. reflexivity.
Qed.
Lemma value_error : forall fl k pending p w, (String.length w < k)%nat -> (exists y r, p ++ String "Q" w = String y r /\ y <> "%"%char /\ y <> "n"%char /\ y <> "t"%char) -> no_q p ->
  (forall sp, parse_units_rep fl sp (p ++ String "Q" w) (len p) = FError) -> p <> "" ->
  forall f, run fl f (parse_loop (S k) pending (String "%" (p ++ String "Q" w))) = FError.
Proof.
  intros fl k pending p w K Y Q B N f. rewrite loop_value by assumption. unfold run, prepend.
  destruct (loop_general k "" w K) as [E|(l & pre & r & E & _)]; rewrite E; cbn [fbind fst snd]; [reflexivity|].
  rewrite handle_app, handle_flush. cbn [handle_all handle]. destruct (Z.eqb_spec (len p) 0) as [Z|Z]; [destruct p; [contradiction|rewrite len_cons in Z; lia]|].
  rewrite B. reflexivity.
Qed.
Lemma erroneous_loop : forall fl t, erroneous fl t -> forall k pending f, (String.length t < k)%nat -> run fl f (parse_loop k pending t) = FError.
Proof.
  intros fl t [m c x w D Ty T S G Cq|m x w -> Pr Lo Ty Cq|x Cq X] k pending f K; (destruct k as [|k]; [lia|]).
  - assert (E : "%" ++ spell_rep m ++ String c (x ++ "Q" ++ w) = String "%" ((spell_rep m ++ String c x) ++ String "Q" w)) by flat.
    rewrite E in *. apply value_error.
    + cbn [String.length] in K. rewrite append_length in K. cbn [String.length] in K. lia.
    + destruct (spell_rep_first fl m "" D) as (y & r & Ey & _ & N). destruct (spell_rep m) as [|a s].
      * cbn [append]. eexists _, _. split; [reflexivity|]. split; [ns|]. split; ns.
      * cbn [append] in Ey. inversion Ey; subst. eexists _, _. split; [reflexivity|exact N].
    + apply no_q_app; [now apply (no_q_rep fl)|]. intros y [<-|I]; [split; ns|]. now apply (no_contains x Cq).
    + intros sp. rewrite len_app, append_assoc, len_cons. apply rep_bad_type; auto. lia.
    + destruct (spell_rep m); discriminate.
  - assert (E : "%" ++ spell_rep m ++ "." ++ x ++ "Q" ++ w = String "%" ((spell_rep m ++ String "." x) ++ String "Q" w)) by flat.
    rewrite E in *. assert (D : documented_rep true m) by (split; intros d Z; congruence). apply value_error.
    + cbn [String.length] in K. rewrite append_length in K. cbn [String.length] in K. lia.
    + destruct (spell_rep_first true m "" D) as (y & r & Ey & _ & N). destruct (spell_rep m) as [|a s].
      * cbn [append]. eexists _, _. split; [reflexivity|]. split; [discriminate|]. split; discriminate.
      * cbn [append] in Ey. inversion Ey; subst. eexists _, _. split; [reflexivity|exact N].
    + apply no_q_app; [now apply (no_q_rep true)|]. intros y [<-|I]; [split; discriminate|]. now apply (no_contains x Cq).
    + intros sp. rewrite len_app, append_assoc, len_cons. apply rep_bad_precision; auto. lia.
    + destruct (spell_rep m); discriminate.
  - cbn [append parse_loop]. change (Ascii.eqb "%" "}") with false. change (negb (Ascii.eqb "%" "%")) with false. cbv iota.
    destruct x as [|c r]; [reflexivity|]. specialize (X c r eq_refl). rewrite (eqb_neq c "%"), (eqb_neq c "n"), (eqb_neq c "t") by ns.
    rewrite find_first_none by (now apply no_contains). reflexivity.
Qed.
Lemma erroneous_next : forall fl t, erroneous fl t -> next_ok t /\ exists r, t = String "%" r.
Proof.
  intros fl t E. assert (Q : exists r, t = String "%" r /\ quiet r).
  { destruct E as [m c x w D Ty T S G Cq|m x w -> Pr Lo Ty Cq|x Cq X]; (eexists; split; [reflexivity|]); intros d r' E.
    - destruct (spell_rep_first fl m "" D) as (y & r & Ey & A & _). destruct (spell_rep m) as [|a s]; cbn [append] in E; inversion E; subst.
      + unfold is_align, align_of. rewrite (eqb_neq d "<"), (eqb_neq d ">"), (eqb_neq d "^") by ns. reflexivity.
      + cbn [append] in Ey. inversion Ey; subst. exact A.
    - assert (D : documented_rep true m) by (split; intros z Z; congruence). destruct (spell_rep_first true m "" D) as (y & r & Ey & A & _).
      destruct (spell_rep m) as [|a s]; cbn [append] in E; inversion E; subst; [reflexivity|]. cbn [append] in Ey. inversion Ey; subst. exact A.
    - cbn [append] in E. specialize (X d r' E). unfold is_align, align_of. rewrite (eqb_neq d "<"), (eqb_neq d ">"), (eqb_neq d "^") by ns. reflexivity. }
  destruct Q as (r & -> & Q). split; [|eauto]. eexists _, _. split; [reflexivity|]. now right.
Qed.
Lemma parse_erroneous : forall fl f t, documented fl f -> erroneous fl t -> parse fl (spell_field f ++ t) = FError.
Proof.
  intros fl f t D E. destruct (erroneous_next fl t E) as [N (r & Er)]. rewrite parse_front; [|exact N|exact D|right; right; right; eauto].
  destruct D as (_ & _ & D & _). unfold parse_units_format.
  destruct (loop_front fl (d_items f) "" t (S (String.length (spell (d_items f) ++ t))) D ltac:(lia)) as (calls & p & k & K & L & H). rewrite L.
  pose proof (erroneous_loop fl t E k p (fold_left after (d_items f) (base_specs f)) K) as R. unfold run in R. unfold prepend.
  destruct (parse_loop k p t) as [[y z]| | | |]; cbn [fbind fst snd] in *; try discriminate; [|reflexivity]. rewrite handle_app, H. cbn [fbind]. rewrite R. reflexivity.
Qed.
