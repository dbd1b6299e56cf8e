(** Proofs about [#include]: which headers can be included together, and that the order of
    the [#include] lines does not matter. *)

From Coq Require Import ZArith Lia String List Bool Permutation.
From Verif Require Import Outcome Root Ratio Unit Downcast Dim DimOp DerivedUnit UnitDecl UnitText System Catalogue Includes SpecIncludes
  SystemProofs EquivProofs CatalogueProofs IncludesProofs IncludesProofs2.
Import ListNotations.
Local Open Scope string_scope.
Local Open Scope res_scope.
Local Open Scope list_scope.

(** ** Units with one ratio and one reference unit, dimensions with one recipe *)

Definition ukey (u : cunit) : ratio * string := (u_ratio u, u_ref u).
Definition ukey_eqb (u v : cunit) : bool :=
  let a := u_ratio u in let b := u_ratio v in
  if Z.eqb (rexp a) (rexp b) then
    if Z.eqb (rnum a) (rnum b) then
      if Z.eqb (rden a) (rden b) then String.eqb (u_ref u) (u_ref v) else false else false else false.
Lemma ukey_eqb_true : forall u v, ukey u = ukey v -> ukey_eqb u v = true.
Proof.
  intros u v E. unfold ukey in E. injection E as E1 E2. unfold ukey_eqb. rewrite E1, E2, !Z.eqb_refl. apply String.eqb_refl.
Qed.
Definition dkey_eqb (d e : dimension) : bool := if bexps_eq_dec (exponents d) (exponents e) then true else false.

Fixpoint pairs {A : Type} (f : A -> A -> bool) (l : list A) : list (A * A) :=
  match l with
  | [] => []
  | x :: r => map (pair x) (filter (f x) r) ++ pairs f r
  end.
Lemma pairs_in : forall (A : Type) (f : A -> A -> bool) l x y, (forall a b, f a b = f b a) -> In x l -> In y l -> x <> y -> f x y = true ->
  In (x, y) (pairs f l) \/ In (y, x) (pairs f l).
Proof.
  intros A f l x y Sym. induction l as [|z l IH]; [intros []|]. intros [->|X] [->|Y] N F; cbn [pairs].
  - contradiction.
  - left. apply in_or_app. left. apply in_map, filter_In. auto.
  - right. apply in_or_app. left. apply in_map, filter_In. rewrite Sym. auto.
  - destruct (IH X Y N F) as [H|H]; [left|right]; apply in_or_app; now right.
Qed.

(** The header with a declaration of that name, if the declaration registers. *)
Definition registrant (n : string) : option string :=
  match find (fun h => existsb (fun x => String.eqb n (entry_name x)) (h_entries h)) headers with
  | Some h =>
      match find (fun x => String.eqb n (entry_name x)) (h_entries h) with
      | Some x => if is_alias x then None else Some (h_path h)
      | None => None
      end
  | None => None
  end.
Definition clashing (a b : string) : bool :=
  existsb (fun p => (String.eqb a (fst p) && String.eqb b (snd p)) || (String.eqb b (fst p) && String.eqb a (snd p))) clashes.
Definition accounted (m n : option string) : bool :=
  match m, n with
  | Some m, Some n => match registrant m, registrant n with Some a, Some b => clashing a b | _, _ => true end
  | _, _ => true
  end.
Lemma units_accounted : forallb (fun p => accounted (u_name (fst p)) (u_name (snd p))) (pairs ukey_eqb (en_units full)) = true.
Proof. vm_compute. reflexivity. Qed.
Lemma dims_accounted : forallb (fun p => accounted (Some (dim_name (fst p))) (Some (dim_name (snd p))))
  (pairs dkey_eqb (filter derived (map snd (en_dims full)))) = true.
Proof. vm_compute. reflexivity. Qed.

(** Each pair of [clashes] does share a key. *)
Definition share (h k : header) : bool :=
  let a := flat_map unit_guides (h_entries h) in
  let b := flat_map unit_guides (h_entries k) in
  let c := flat_map dim_guides (h_entries h) in
  let d := flat_map dim_guides (h_entries k) in
  existsb (fun x => existsb (fun y => if ukey_eq_dec (fst x) (fst y) then true else false) b) a ||
  existsb (fun x => existsb (fun y => if bexps_eq_dec (fst x) (fst y) then true else false) d) c.
Lemma clashes_share : forallb (fun p => match find_header (fst p), find_header (snd p) with
  | Ok h, Ok k => negb (String.eqb (fst p) (snd p)) && share h k | _, _ => false end) clashes = true.
Proof. vm_compute. reflexivity. Qed.

#[local] Opaque full catalogue headers isq_templates clashes.

Lemma clashing_in : forall a b, clashing a b = true -> In (a, b) clashes \/ In (b, a) clashes.
Proof.
  intros a b H. apply existsb_exists in H as ([p q] & I & H). cbn [fst snd] in H.
  apply orb_true_iff in H as [H|H]; apply andb_true_iff in H as [H1 H2]; apply String.eqb_eq in H1; apply String.eqb_eq in H2; subst; auto.
Qed.

(** The declaration of a name is found. *)
Lemma name_unique : forall x y, In x catalogue -> In y catalogue -> entry_name x = entry_name y -> x = y.
Proof.
  assert (G : forall l x y, NoDup (map entry_name l) -> In x l -> In y l -> entry_name x = entry_name y -> x = y).
  { induction l as [|z l IH]; intros x y ND; [intros []|]. cbn [map] in ND. inversion ND as [|? ? N ND']; subst.
    intros [->|X] [->|Y] E; auto.
    - exfalso. apply N. rewrite E. now apply in_map.
    - exfalso. apply N. rewrite <- E. now apply in_map. }
  intros x y. apply G, catalogue_names.
Qed.
Lemma in_header : forall h x, In h headers -> In x (h_entries h) -> In x catalogue.
Proof. intros h x H X. rewrite catalogue_is. apply in_flat_map. eauto. Qed.

Lemma header_unique : forall h k x, In h headers -> In k headers -> In x (h_entries h) -> In x (h_entries k) -> h = k.
Proof.
  intros h k x H K X Y. destruct (string_dec (h_path h) (h_path k)) as [E|E]; [now apply path_unique|]. exfalso.
  assert (N : NoDup (map entry_name (flat_map h_entries [h; k]))).
  { apply entries_names; [|intros z [<-|[<-|[]]]; auto]. constructor; [|constructor; [intros []|constructor]].
    intros [<-|[]]. contradiction. }
  cbn [flat_map] in N. rewrite app_nil_r, map_app in N.
  apply (in_map entry_name) in X. apply (in_map entry_name) in Y.
  apply in_split in X as (l1 & l2 & EX). rewrite EX in N. rewrite <- app_assoc in N. cbn [app] in N.
  apply NoDup_remove_2 in N. apply N. rewrite !in_app_iff. auto.
Qed.

Lemma registrant_of : forall h x, In h headers -> In x (h_entries h) -> is_alias x = false -> registrant (entry_name x) = Some (h_path h).
Proof.
  intros h x H X A. unfold registrant.
  destruct (find (fun h => existsb (fun y => String.eqb (entry_name x) (entry_name y)) (h_entries h)) headers) as [k|] eqn:F.
  - apply find_some in F as [K E]. apply existsb_exists in E as (y & Y & E). apply String.eqb_eq in E.
    assert (x = y) by (apply name_unique; eauto using in_header). subst y.
    assert (h = k) by (eapply header_unique; eauto). subst k. clear Y E.
    destruct (find (fun y => String.eqb (entry_name x) (entry_name y)) (h_entries h)) as [y|] eqn:F.
    + apply find_some in F as [Y E]. apply String.eqb_eq in E.
      assert (x = y) by (apply name_unique; eauto using in_header). subst y. now rewrite A.
    + exfalso. pose proof (find_none _ _ F x X) as E. cbn beta in E. rewrite String.eqb_refl in E. discriminate E.
  - exfalso. pose proof (find_none _ _ F h H) as E. cbn beta in E.
    assert (existsb (fun y => String.eqb (entry_name x) (entry_name y)) (h_entries h) = true); [|congruence].
    apply existsb_exists. exists x. split; auto. apply String.eqb_refl.
Qed.

Lemma accounted_clash : forall h k x y, In h headers -> In k headers -> In x (h_entries h) -> In y (h_entries k) ->
  is_alias x = false -> is_alias y = false -> accounted (Some (entry_name x)) (Some (entry_name y)) = true ->
  In (h_path h, h_path k) clashes \/ In (h_path k, h_path h) clashes.
Proof.
  intros h k x y H K X Y A B C. cbn [accounted] in C. rewrite (registrant_of h x), (registrant_of k y) in C by auto.
  now apply clashing_in.
Qed.

(** ** Registering entries with one key *)

Lemma unit_guides_unit : forall x k u, In x catalogue -> In (k, u) (unit_guides x) ->
  is_alias x = false /\ k = ukey u /\ In u (en_units full) /\ u_name u = Some (entry_name x) /\ unit_guides x = [(k, u)].
Proof.
  intros x k u I H. destruct (catalogue_means no_estimate x I) as (t & m & Mn & _ & _ & F & N).
  unfold unit_guides, units_of in *. destruct (is_alias x); [destruct H|]. rewrite Mn in *.
  destruct t as [p|v|o d]; cbn [map] in H |- *; try contradiction. destruct H as [H|[]]. injection H as <- <-.
  cbn [finds thing_name] in F, N. destruct F as (n & E & F). repeat split; auto. eapply find_unit_in; eauto.
Qed.
Lemma dim_guides_dim : forall x k d, In x catalogue -> In (k, d) (dim_guides x) ->
  is_alias x = false /\ k = exponents d /\ In d (filter derived (map snd (en_dims full))) /\ dim_name d = entry_name x /\ dim_guides x = [(k, d)].
Proof.
  intros x k d I H. destruct (catalogue_means no_estimate x I) as (t & m & Mn & _ & _ & F & N).
  pose proof (thing_kind _ _ Mn) as Kn. unfold dim_guides, dims_of in *. rewrite Mn in *.
  destruct t as [p|v|o e]; cbn [map filter snd] in H; try contradiction.
  cbn [map snd filter]. destruct (derived e) eqn:D; [|destruct H]. cbn [map] in H |- *. destruct H as [H|[]].
  injection H as <- <-. cbn [finds thing_name] in F, N. apply some_inj in N. repeat split; auto.
  - destruct x; try discriminate Kn; reflexivity.
  - apply filter_In. split; auto. apply in_map_iff. exists (o, e). split; auto. eapply find_dim_in; eauto.
Qed.

Lemma ukey_sym : forall u v, ukey_eqb u v = ukey_eqb v u.
Proof.
  intros u v. unfold ukey_eqb. rewrite (Z.eqb_sym (rexp (u_ratio v))), (Z.eqb_sym (rnum (u_ratio v))), (Z.eqb_sym (rden (u_ratio v))), (String.eqb_sym (u_ref v)). reflexivity.
Qed.
Lemma dkey_sym : forall u v, dkey_eqb u v = dkey_eqb v u.
Proof. intros u v. unfold dkey_eqb. destruct (bexps_eq_dec (exponents u) (exponents v)), (bexps_eq_dec (exponents v) (exponents u)); congruence. Qed.

Lemma unit_clash : forall h k x y key u v, In h headers -> In k headers -> In x (h_entries h) -> In y (h_entries k) -> x <> y ->
  In (key, u) (unit_guides x) -> In (key, v) (unit_guides y) -> In (h_path h, h_path k) clashes \/ In (h_path k, h_path h) clashes.
Proof.
  intros h k x y key u v H K X Y N U V.
  destruct (unit_guides_unit x key u (in_header _ _ H X) U) as (Ax & Ku & Iu & Nu & _).
  destruct (unit_guides_unit y key v (in_header _ _ K Y) V) as (Ay & Kv & Iv & Nv & _).
  assert (D : u <> v).
  { intros E. apply N. apply name_unique; eauto using in_header. apply some_inj. rewrite <- Nu, <- Nv. now rewrite E. }
  assert (E : ukey_eqb u v = true) by (apply ukey_eqb_true; congruence).
  pose proof (proj1 (forallb_forall _ _) units_accounted) as C.
  destruct (pairs_in _ ukey_eqb (en_units full) u v ukey_sym Iu Iv D E) as [P|P]; apply C in P; cbn [fst snd] in P; rewrite Nu, Nv in P.
  - exact (accounted_clash _ _ _ _ H K X Y Ax Ay P).
  - apply or_comm. exact (accounted_clash _ _ _ _ K H Y X Ay Ax P).
Qed.
Lemma dim_clash : forall h k x y key u v, In h headers -> In k headers -> In x (h_entries h) -> In y (h_entries k) -> x <> y ->
  In (key, u) (dim_guides x) -> In (key, v) (dim_guides y) -> In (h_path h, h_path k) clashes \/ In (h_path k, h_path h) clashes.
Proof.
  intros h k x y key u v H K X Y N U V.
  destruct (dim_guides_dim x key u (in_header _ _ H X) U) as (Ax & Ku & Iu & Nu & _).
  destruct (dim_guides_dim y key v (in_header _ _ K Y) V) as (Ay & Kv & Iv & Nv & _).
  assert (D : u <> v).
  { intros E. apply N. apply name_unique; eauto using in_header. congruence. }
  assert (E : dkey_eqb u v = true) by (unfold dkey_eqb; destruct (bexps_eq_dec _ _); congruence).
  pose proof (proj1 (forallb_forall _ _) dims_accounted) as C.
  destruct (pairs_in _ dkey_eqb _ u v dkey_sym Iu Iv D E) as [P|P]; apply C in P; cbn [fst snd] in P; rewrite Nu, Nv in P.
  - exact (accounted_clash _ _ _ _ H K X Y Ax Ay P).
  - apply or_comm. exact (accounted_clash _ _ _ _ K H Y X Ay Ax P).
Qed.

(** Keys without repetition. *)
Lemma nodup_keys : forall (K T : Type) (g : entry -> list (K * T)) l, NoDup l -> (forall x k t, In x l -> In (k, t) (g x) -> g x = [(k, t)]) ->
  (NoDup (map fst (flat_map g l)) <-> (forall x y k t t', In x l -> In y l -> In (k, t) (g x) -> In (k, t') (g y) -> x = y)).
Proof.
  intros K T g l ND. induction ND as [|z l N ND IH]; intros One.
  - cbn. split; [intros _ x y k t t' []|constructor].
  - cbn [flat_map]. rewrite map_app. specialize (IH (fun x k t X => One x k t (or_intror X))).
    assert (Lift : forall x k t, In x l -> In (k, t) (g x) -> In k (map fst (flat_map g l))).
    { intros x k t X G. apply in_map_iff. exists (k, t). split; auto. apply in_flat_map. eauto. }
    destruct (g z) as [|[k t] r] eqn:Gz.
    + cbn [map app]. rewrite IH. split.
      * intros H x y k t t' [->|X] [->|Y] U V; auto; try (rewrite Gz in U; destruct U); try (rewrite Gz in V; destruct V). eauto.
      * intros H x y k t t' X Y. apply H; now right.
    + assert (E : g z = [(k, t)]) by (apply One; [now left|rewrite Gz; now left]). rewrite Gz in E. injection E as ->.
      cbn [map app fst]. split.
      * intros H. inversion H as [|? ? Nk H']; subst. rewrite IH in H'.
        intros x y k' s s' [->|X] [->|Y] U V; auto.
        -- rewrite Gz in U. destruct U as [U|[]]. injection U as -> ->. exfalso. apply Nk. eauto.
        -- rewrite Gz in V. destruct V as [V|[]]. injection V as -> ->. exfalso. apply Nk. eauto.
        -- eauto.
      * intros H. constructor.
        -- intros X. apply in_map_iff in X as ([k' s] & E & X). cbn [fst] in E. subst k'. apply in_flat_map in X as (x & X & G).
           assert (z = x); [|subst x; contradiction]. apply (H z x k t s); [now left|now right|rewrite Gz; now left|exact G].
        -- apply IH. intros x y k' s s' X Y. apply H; now right.
Qed.

(** ** All headers together *)

Lemma headers_are_ordered : ordered headers.
Proof.
  assert (G : forall l done, ordered done -> incl (done ++ l) headers -> paths_fresh (rev (map h_path done)) l = true -> ordered (done ++ l)).
  { induction l as [|h l IH]; intros done O I F; [now rewrite app_nil_r|].
    replace (done ++ h :: l) with ((done ++ [h]) ++ l) by (rewrite <- app_assoc; reflexivity).
    cbn [paths_fresh] in F. apply andb_true_iff in F as [F F3]. apply andb_true_iff in F as [F1 F2]. apply IH.
    - constructor; auto.
      + apply I, in_or_app. right. now left.
      + intros q Q. rewrite forallb_forall in F2. specialize (F2 q Q). apply existsb_eqb in F2. now rewrite <- in_rev in F2.
      + intros X. apply negb_true_iff in F1. rewrite in_rev in X. apply existsb_eqb in X. congruence.
    - rewrite <- app_assoc. exact I.
    - rewrite map_app, rev_app_distr. exact F3. }
  exact (G headers [] ordered_nil (incl_refl _) headers_ordered).
Qed.

Lemma prefix_guides_nodup : forall hs, NoDup hs -> incl hs headers -> NoDup (map fst (flat_map prefix_guides (flat_map h_entries hs))).
Proof.
  intros hs ND I.
  assert (C : NoDup (map fst (flat_map prefix_guides catalogue))).
  { pose proof (outcome_of_headers no_estimate Off headers headers_are_ordered) as O. rewrite <- catalogue_is, full_elaborates in O.
    unfold outcome in O. destruct (on_downcast prefix_key_eq_dec (flat_map prefix_guides catalogue)) as [[N _]|[_ F]]; auto.
    cbn [empty_env en_guides] in O. rewrite F in O. discriminate O. }
  pose proof (headers_split hs ND I) as P. apply (flat_map_perm _ _ h_entries) in P. rewrite flat_map_app, <- catalogue_is in P.
  apply (flat_map_perm _ _ prefix_guides) in P. rewrite flat_map_app in P. apply (Permutation_map fst) in P. rewrite map_app in P.
  apply (nodup_app_left _ _ _ (Permutation_NoDup P C)).
Qed.

Lemma names_nodup : forall l, NoDup (map entry_name l) -> NoDup l.
Proof. induction l as [|x l IH]; cbn [map]; intros H; inversion H; subst; constructor; auto. intros X. apply H2. now apply in_map. Qed.

(** ** Which programs compile *)

Lemma compile_outcome : forall est mode paths, known paths ->
  exists hs, preprocess paths = Ok hs /\ ordered hs /\ (forall p, In p (map h_path hs) <-> included paths p) /\
    compile est mode paths = outcome mode empty_env (flat_map h_entries hs).
Proof.
  intros est mode paths K. destruct (preprocess_spec paths K) as (hs & P & O & I). exists hs. split; [exact P|]. split; [exact O|]. split; [exact I|].
  unfold compile, declarations. rewrite P. cbn [bind]. now apply outcome_of_headers.
Qed.
Lemma compile_unknown : forall est mode paths, ~ known paths -> compile est mode paths = IllFormed.
Proof. intros est mode paths N. unfold compile, declarations. now rewrite (preprocess_unknown paths N). Qed.

Lemma compile_open : forall est mode paths, mode <> On -> known paths -> exists e, compile est mode paths = Ok e.
Proof.
  intros est mode paths M K. destruct (compile_outcome est mode paths K) as (hs & _ & O & _ & ->).
  set (l := flat_map h_entries hs). unfold outcome. cbn [empty_env en_guides en_world empty_world w_units w_dims].
  destruct (on_downcast prefix_key_eq_dec (flat_map prefix_guides l)) as [(_ & g & -> & _)|[N _]].
  2:{ exfalso. apply N, prefix_guides_nodup; [now apply ordered_nodup|now apply ordered_headers]. }
  cbn [bind]. destruct mode; [|contradiction|].
  - rewrite (proj1 (off_downcast ukey_eq_dec _)), (proj1 (off_downcast bexps_eq_dec _)). cbn [bind]. eauto.
  - destruct (auto_downcast ukey_eq_dec (flat_map unit_guides l)) as (a & -> & _).
    destruct (auto_downcast bexps_eq_dec (flat_map dim_guides l)) as (b & -> & _). cbn [bind]. eauto.
Qed.

Lemma compile_on : forall est paths, known paths ->
  (clash_free paths -> exists e, compile est On paths = Ok e) /\ (~ clash_free paths -> compile est On paths = IllFormed).
Proof.
  intros est paths K. destruct (compile_outcome est On paths K) as (hs & _ & O & I & ->).
  pose proof (ordered_nodup _ O) as ND. pose proof (ordered_headers _ O) as Hd.
  assert (NE : NoDup (flat_map h_entries hs)) by (apply names_nodup, entries_names; auto).
  assert (OneU : forall x k t, In x (flat_map h_entries hs) -> In (k, t) (unit_guides x) -> unit_guides x = [(k, t)]).
  { intros x k t X G. apply (unit_guides_unit x k t); auto. eapply entries_in_catalogue; eauto. }
  assert (OneD : forall x k t, In x (flat_map h_entries hs) -> In (k, t) (dim_guides x) -> dim_guides x = [(k, t)]).
  { intros x k t X G. apply (dim_guides_dim x k t); auto. eapply entries_in_catalogue; eauto. }
  unfold outcome. cbn [empty_env en_guides en_world empty_world w_units w_dims].
  destruct (on_downcast prefix_key_eq_dec (flat_map prefix_guides (flat_map h_entries hs))) as [(_ & g & -> & _)|[N _]].
  2:{ exfalso. apply N, prefix_guides_nodup; auto. }
  cbn [bind]. split.
  - intros C. assert (C' : forall h k, In h hs -> In k hs -> ~ (In (h_path h, h_path k) clashes \/ In (h_path k, h_path h) clashes)).
    { intros h k H H' [X|X]; apply (C _ _ X); split; apply I; now apply in_map. }
    destruct (on_downcast ukey_eq_dec (flat_map unit_guides (flat_map h_entries hs))) as [(_ & a & -> & _)|[N _]].
    2:{ exfalso. apply N, nodup_keys; auto. intros x y k t t' X Y U V.
        destruct (string_dec (entry_name x) (entry_name y)) as [E|E].
        - apply name_unique; auto; eapply entries_in_catalogue; eauto.
        - exfalso. apply in_flat_map in X as (h & H & X). apply in_flat_map in Y as (h' & H' & Y). apply (C' h h' H H').
          apply (unit_clash h h' x y k t t'); auto. congruence. }
    cbn [bind].
    destruct (on_downcast bexps_eq_dec (flat_map dim_guides (flat_map h_entries hs))) as [(_ & b & -> & _)|[N _]].
    2:{ exfalso. apply N, nodup_keys; auto. intros x y k t t' X Y U V.
        destruct (string_dec (entry_name x) (entry_name y)) as [E|E].
        - apply name_unique; auto; eapply entries_in_catalogue; eauto.
        - exfalso. apply in_flat_map in X as (h & H & X). apply in_flat_map in Y as (h' & H' & Y). apply (C' h h' H H').
          apply (dim_clash h h' x y k t t'); auto. congruence. }
    cbn [bind]. eauto.
  - intros C.
    destruct (on_downcast ukey_eq_dec (flat_map unit_guides (flat_map h_entries hs))) as [(Nu & a & -> & _)|[_ ->]]; [|reflexivity]. cbn [bind].
    destruct (on_downcast bexps_eq_dec (flat_map dim_guides (flat_map h_entries hs))) as [(Nd & b & -> & _)|[_ ->]]; [|reflexivity].
    exfalso. apply C. intros p q PQ [Ip Iq].
    pose proof (proj1 (forallb_forall _ _) clashes_share _ PQ) as S. cbn [fst snd] in S.
    destruct (find_header p) as [h| | | |] eqn:Fh; try discriminate S. destruct (find_header q) as [k| | | |] eqn:Fk; try discriminate S.
    apply find_header_some in Fh as [Hh Ph]. apply find_header_some in Fk as [Hk Pk].
    apply I in Ip. apply I in Iq. apply in_map_iff in Ip as (h' & Eh & Hh'). apply in_map_iff in Iq as (k' & Ek & Hk').
    assert (h' = h) by (apply path_unique; auto; congruence). assert (k' = k) by (apply path_unique; auto; congruence). subst h' k'.
    apply andb_true_iff in S as [D S]. apply negb_true_iff, String.eqb_neq in D.
    assert (Same : forall x, In x (h_entries h) -> In x (h_entries k) -> False).
    { intros x X Y. apply D. rewrite <- Ph, <- Pk. f_equal. eapply header_unique; eauto. }
    apply orb_true_iff in S as [S|S]; apply existsb_exists in S as ([kx tx] & X & S); apply existsb_exists in S as ([ky ty] & Y & S); cbn [fst] in S;
      apply in_flat_map in X as (x & X & Gx); apply in_flat_map in Y as (y & Y & Gy).
    + destruct (ukey_eq_dec kx ky) as [->|]; [|discriminate S].
      assert (x = y); [|subst y; eauto]. refine (proj1 (nodup_keys _ _ unit_guides _ NE OneU) Nu x y ky tx ty _ _ Gx Gy); apply in_flat_map; eauto.
    + destruct (bexps_eq_dec kx ky) as [->|]; [|discriminate S].
      assert (x = y); [|subst y; eauto]. refine (proj1 (nodup_keys _ _ dim_guides _ NE OneD) Nd x y ky tx ty _ _ Gx Gy); apply in_flat_map; eauto.
Qed.

(** ** Order *)

Lemma ok_inj : forall (A : Type) (a b : A), Ok a = Ok b -> a = b.
Proof. congruence. Qed.
Lemma permuted_finds : forall e e', lookups_unique e -> lookups_unique e' ->
  same_set (en_prefixes e) (en_prefixes e') -> same_set (en_units e) (en_units e') -> same_set (en_dims e) (en_dims e') ->
  (forall n, find_prefix e n = find_prefix e' n) /\ (forall n, find_unit e n = find_unit e' n) /\ (forall n, find_dim e n = find_dim e' n).
Proof.
  assert (Half : forall e e', lookups_unique e' ->
    same_set (en_prefixes e) (en_prefixes e') -> same_set (en_units e) (en_units e') -> same_set (en_dims e) (en_dims e') ->
    agree e e').
  { intros e e' (U1 & U2 & U3) S1 S2 S3. repeat split; intros n v H.
    - pose proof (find_prefix_in _ _ _ H) as I. apply S1, U1 in I. unfold find_prefix in H.
      destruct (find _ (en_prefixes e)) as [w|] eqn:F; [|discriminate]. apply find_some in F as [_ F]. apply String.eqb_eq in F. injection H as ->. now subst n.
    - pose proof (find_unit_in _ _ _ H) as I. apply S2, U2 in I as (m & N & F). rewrite (find_unit_name _ _ _ H) in N. apply some_inj in N. now subst m.
    - pose proof (find_dim_in _ _ _ H) as I. destruct v as [o d]. apply S3, U3 in I. unfold find_dim in H.
      destruct (find _ (en_dims e)) as [w|] eqn:F; [|discriminate]. apply find_some in F as [_ F]. apply String.eqb_eq in F. apply ok_inj in H. subst w n. exact I. }
  intros e e' U U' S1 S2 S3.
  destruct (Half e e' U' S1 S2 S3) as (A1 & A2 & A3).
  destruct (Half e' e U) as (B1 & B2 & B3); try (intros x; symmetry; auto).
  assert (G : forall (A : Type) (r r' : res A), (forall v, r = Ok v -> r' = Ok v) -> (forall v, r' = Ok v -> r = Ok v) ->
    (exists v, r = Ok v) \/ r = IllFormed -> (exists v, r' = Ok v) \/ r' = IllFormed -> r = r').
  { intros A r r' H H' [[v ->]| ->] [[w ->]| ->]; auto. symmetry; auto. }
  repeat split; intros n; apply G; auto;
    (unfold find_prefix, find_unit, unit_lookup, find_dim; destruct (find _ _); eauto).
Qed.

Lemma compile_unique : forall est mode paths e, compile est mode paths = Ok e -> lookups_unique e.
Proof.
  intros est mode paths e H. unfold compile in H. step H as l L. exact (elaborate_unique _ _ _ _ _ _ empty_unique H).
Qed.

Lemma perm_same : forall (A : Type) (l l' : list A), Permutation l l' -> same_set (rev l ++ []) (rev l' ++ []).
Proof.
  intros A l l' P x. rewrite !app_nil_r, <- !in_rev. split; apply Permutation_in; auto. now apply Permutation_sym.
Qed.

Lemma compile_order : forall est mode paths paths', (forall p, included paths p <-> included paths' p) ->
  match compile est mode paths, compile est mode paths' with
  | Ok e, Ok e' => interchangeable e e'
  | IllFormed, IllFormed => True
  | _, _ => False
  end.
Proof.
  intros est mode paths paths' S.
  assert (Kn : forall a b, (forall p, included a p <-> included b p) -> known a -> known b).
  { intros a b Sab Ka p P. assert (X : included a p) by (apply Sab; now apply included_directly).
    induction X as [p X|h q X IH Hh Q]; [exact (Ka p X)|]. exact (proj1 (includes_lower _ _ Hh Q)). }
  destruct (Forall_dec (fun p => In p (map h_path headers)) (fun p => in_dec string_dec p (map h_path headers)) paths) as [F|F].
  2:{ assert (N : ~ known paths) by (intros K; apply F, Forall_forall; exact K).
      assert (N' : ~ known paths') by (intros K; apply N; apply (Kn paths' paths); auto; intros p; symmetry; auto).
      now rewrite !compile_unknown. }
  assert (K : known paths) by (intros p P; rewrite Forall_forall in F; auto).
  assert (K' : known paths') by (apply (Kn paths paths'); auto).
  pose proof (compile_unique est mode paths) as U. pose proof (compile_unique est mode paths') as U'.
  destruct (compile_outcome est mode paths K) as (hs & _ & O & I & E).
  destruct (compile_outcome est mode paths' K') as (hs' & _ & O' & I' & E').
  rewrite E in U |- *. rewrite E' in U' |- *. clear E E'.
  assert (P : Permutation hs hs').
  { assert (G : forall a b, ordered a -> ordered b -> (forall p, In p (map h_path a) -> In p (map h_path b)) -> incl a b).
    { intros a b Oa Ob Sab x X. pose proof (Sab _ (in_map h_path _ _ X)) as H. apply in_map_iff in H as (y & Ey & Y).
      rewrite (path_unique x y); auto; [exact (ordered_headers _ Oa _ X)|exact (ordered_headers _ Ob _ Y)]. }
    apply NoDup_Permutation; [now apply ordered_nodup|now apply ordered_nodup|].
    intros x. split; apply G; auto; intros p H; [apply I', S, I|apply I, S, I']; auto. }
  apply (flat_map_perm _ _ h_entries) in P. unfold outcome in *.
  cbn [empty_env en_guides en_world empty_world w_units w_dims en_prefixes en_units en_dims] in *.
  pose proof (downcast_order prefix_key_eq_dec On _ _ (flat_map_perm _ _ prefix_guides _ _ P)) as Dp.
  pose proof (downcast_order ukey_eq_dec mode _ _ (flat_map_perm _ _ unit_guides _ _ P)) as Du.
  pose proof (downcast_order bexps_eq_dec mode _ _ (flat_map_perm _ _ dim_guides _ _ P)) as Dd.
  destruct (declare_all prefix_key_eq_dec On (flat_map prefix_guides (flat_map h_entries hs)) empty_registry) as [g| | | |];
    destruct (declare_all prefix_key_eq_dec On (flat_map prefix_guides (flat_map h_entries hs')) empty_registry) as [g'| | | |]; try contradiction; cbn [bind] in *; auto.
  destruct (declare_all ukey_eq_dec mode (flat_map unit_guides (flat_map h_entries hs)) empty_registry) as [a| | | |];
    destruct (declare_all ukey_eq_dec mode (flat_map unit_guides (flat_map h_entries hs')) empty_registry) as [a'| | | |]; try contradiction; cbn [bind] in *; auto.
  destruct (declare_all bexps_eq_dec mode (flat_map dim_guides (flat_map h_entries hs)) empty_registry) as [b| | | |];
    destruct (declare_all bexps_eq_dec mode (flat_map dim_guides (flat_map h_entries hs')) empty_registry) as [b'| | | |]; try contradiction; cbn [bind] in *; auto.
  specialize (U _ eq_refl). specialize (U' _ eq_refl).
  pose proof (perm_same _ _ _ (flat_map_perm _ _ prefixes_of _ _ P)) as S1.
  pose proof (perm_same _ _ _ (flat_map_perm _ _ units_of _ _ P)) as S2.
  pose proof (perm_same _ _ _ (flat_map_perm _ _ dims_of _ _ P)) as S3.
  destruct (permuted_finds _ _ U U' S1 S2 S3) as (F1 & F2 & F3).
  split; [exact S1|]. split; [exact S2|]. split; [exact S3|]. split; [exact F1|]. split; [exact F2|]. split; [exact F3|].
  split; [exact Dp|]. split; [exact Du|exact Dd].
Qed.

(** What the lines bring in is part of the catalogue. *)
Lemma compile_catalogue : forall est mode paths e, compile est mode paths = Ok e ->
  exists prog, incl prog catalogue /\ elaborate est mode isq_templates empty_env prog = Ok e.
Proof.
  intros est mode paths e H.
  destruct (Forall_dec (fun p => In p (map h_path headers)) (fun p => in_dec string_dec p (map h_path headers)) paths) as [F|F].
  2:{ rewrite compile_unknown in H; [discriminate H|]. intros K. apply F, Forall_forall. exact K. }
  assert (K : known paths) by (intros p P; rewrite Forall_forall in F; auto).
  destruct (preprocess_spec paths K) as (hs & P & O & _). unfold compile, declarations in H. rewrite P in H. cbn [bind] in H.
  exists (flat_map h_entries hs). split; auto. apply entries_in_catalogue, ordered_headers, O.
Qed.

(** ** Reading the lists *)

Lemma ordered_split : forall hs l1 h l2, ordered hs -> hs = l1 ++ h :: l2 -> forall q, In q (h_includes h) -> In q (map h_path l1).
Proof.
  intros hs l1 h l2 Or. revert l1 h l2. induction Or as [|l k Or IH Hk Il Nk]; intros l1 h l2 E q Q.
  - destruct l1; discriminate E.
  - destruct l2 as [|z l2] using rev_ind.
    + apply app_inj_tail in E as [-> ->]. apply Il, Q.
    + clear IHl2. replace (l1 ++ h :: l2 ++ [z]) with ((l1 ++ h :: l2) ++ [z]) in E by (rewrite <- app_assoc; reflexivity).
      apply app_inj_tail in E as [-> ->]. exact (IH l1 h l2 eq_refl q Q).
Qed.

Lemma preprocess_lists : forall paths, known paths ->
  exists hs, preprocess paths = Ok hs /\ NoDup hs /\ (forall h, In h hs <-> In h headers /\ included paths (h_path h)) /\
    (forall l1 h l2, hs = l1 ++ h :: l2 -> forall q, In q (h_includes h) -> In q (map h_path l1)).
Proof.
  intros paths K. destruct (preprocess_spec paths K) as (hs & P & O & I). exists hs. split; [exact P|]. split; [now apply ordered_nodup|].
  split; [|intros l1 h l2 E; now apply (ordered_split hs l1 h l2)].
  intros h. split.
  - intros H. split; [exact (ordered_headers _ O _ H)|]. apply I. now apply in_map.
  - intros [H X]. apply I, in_map_iff in X as (k & E & X). rewrite (path_unique h k); auto. exact (ordered_headers _ O _ X).
Qed.

Lemma elaborate_taken : forall est mode ts l e e' n, elaborate est mode ts e l = Ok e' ->
  (taken e' n = true <-> In n (map entry_name l) \/ taken e n = true).
Proof.
  intros est mode ts l. induction l as [|x l IH]; intros e e' n H; cbn [elaborate] in H.
  - inversion H; subst. cbn [map In]. tauto.
  - step H as m M. destruct (elaborate_yields _ _ _ _ _ _ M) as (T & t & _ & A & N). rewrite (IH _ _ n H). cbn [map In].
    assert (Back : taken m n = true <-> entry_name x = n \/ taken e n = true); [|rewrite Back; tauto].
    split; [intros X; destruct (taken_adds _ _ _ _ _ A N X); auto|].
    unfold taken. destruct t as [p|u|o d]; cbn [adds thing_name] in A, N; destruct A as (A1 & A2 & A3); rewrite A1, A2, A3; cbn [existsb snd].
    + apply some_inj in N. rewrite N. intros [<-|X]; [now rewrite String.eqb_refl|].
      apply orb_true_iff in X as [X|X]; [apply orb_true_iff in X as [X|X]|]; rewrite X, ?orb_true_r; reflexivity.
    + assert (Hn : has_name n u = String.eqb n (entry_name x)) by (unfold has_name; now rewrite N). rewrite Hn. intros [<-|X]; [rewrite String.eqb_refl; cbn [orb]; now rewrite orb_true_r|].
      apply orb_true_iff in X as [X|X]; [apply orb_true_iff in X as [X|X]|]; rewrite X, ?orb_true_r; reflexivity.
    + apply some_inj in N. rewrite N. intros [<-|X]; [rewrite String.eqb_refl; cbn [orb]; now rewrite !orb_true_r|].
      apply orb_true_iff in X as [X|X]; rewrite X, ?orb_true_r; reflexivity.
Qed.

Lemma known_dec : forall paths, {known paths} + {~ known paths}.
Proof.
  intros paths. destruct (Forall_dec (fun p => In p (map h_path headers)) (fun p => in_dec string_dec p (map h_path headers)) paths) as [F|F].
  - left. intros p P. rewrite Forall_forall in F. auto.
  - right. intros K. apply F, Forall_forall. exact K.
Qed.

Lemma compile_declares : forall est mode paths e, compile est mode paths = Ok e ->
  forall n, taken e n = true <-> exists h x, In h headers /\ included paths (h_path h) /\ In x (h_entries h) /\ entry_name x = n.
Proof.
  intros est mode paths e H n. destruct (known_dec paths) as [K|K]; [|rewrite compile_unknown in H by exact K; discriminate H].
  destruct (preprocess_lists paths K) as (hs & P & _ & I & _). unfold compile, declarations in H. rewrite P in H. cbn [bind] in H.
  rewrite (elaborate_taken _ _ _ _ _ _ n H). split.
  - intros [X|X]; [|discriminate X]. apply in_map_iff in X as (x & E & X). apply in_flat_map in X as (h & Hh & X). apply I in Hh as [Hh Ih].
    exists h, x. auto.
  - intros (h & x & Hh & Ih & X & E). left. apply in_map_iff. exists x. split; auto. apply in_flat_map. exists h. split; auto. apply I. auto.
Qed.

(** ** One header *)

#[local] Transparent clashes.
Definition alone_free (h : header) : bool :=
  match preprocess [h_path h] with
  | Ok hs => forallb (fun p => if existsb (fun k => String.eqb (fst p) (h_path k)) hs then negb (existsb (fun k => String.eqb (snd p) (h_path k)) hs) else true) clashes
  | _ => false
  end.
Lemma headers_alone_free : forallb alone_free headers = true.
Proof. vm_compute. reflexivity. Qed.
#[local] Opaque clashes.

Lemma compile_alone : forall est mode h, In h headers -> exists e, compile est mode [h_path h] = Ok e.
Proof.
  intros est mode h H. assert (K : known [h_path h]) by (intros p [<-|[]]; now apply in_map).
  destruct mode; [apply compile_open; [discriminate|exact K]| |apply compile_open; [discriminate|exact K]].
  apply (compile_on est _ K). intros a b AB [Ia Ib].
  pose proof (proj1 (forallb_forall _ _) headers_alone_free h H) as F. unfold alone_free in F.
  destruct (preprocess_spec _ K) as (hs & P & _ & I). rewrite P in F.
  apply I, in_map_iff in Ia as (x & Ex & X). apply I, in_map_iff in Ib as (y & Ey & Y).
  pose proof (proj1 (forallb_forall _ _) F _ AB) as G. cbn [fst snd] in G.
  assert (A : existsb (fun k => String.eqb a (h_path k)) hs = true).
  { apply existsb_exists. exists x. split; auto. rewrite Ex. apply String.eqb_refl. }
  assert (B : existsb (fun k => String.eqb b (h_path k)) hs = true).
  { apply existsb_exists. exists y. split; auto. rewrite Ey. apply String.eqb_refl. }
  rewrite A, B in G. discriminate G.
Qed.
