(** Proofs: every dimension declared with a class template of the ISQ has the exponents
    of its quantity, in any program. *)

From Coq Require Import ZArith QArith Qreduction Lqa Lia String List Bool Permutation Sorted.
From Verif Require Import Outcome CInt Ratio Root FixedString TypeList Unit Downcast Dim DimOp DerivedUnit UnitDecl
  UnitText System Catalogue SpecDim SpecRatio SpecCatalogue TypeListProofs DimProofs DimOpProofs SystemProofs.
Import ListNotations.
Local Open Scope string_scope.
Local Open Scope Z_scope.
Local Open Scope res_scope.

(** The sum of the absolute exponents of a quantity. *)
Fixpoint norm (K : bdim -> string) (k : string) (es : list bexp) : Z :=
  match es with
  | [] => 0
  | e :: r => (if String.eqb (K (e_dim e)) k then Z.abs (e_num e) else 0) + norm K k r
  end.

Lemma norm_app : forall K k l1 l2, norm K k (l1 ++ l2) = norm K k l1 + norm K k l2.
Proof. intros K; induction l1; simpl; intros; [lia|]. rewrite IHl1; lia. Qed.
Lemma norm_nonneg : forall K k l, 0 <= norm K k l.
Proof. intros K; induction l; simpl; [lia|]. destruct (String.eqb _ _); lia. Qed.
Lemma norm_perm : forall K k l1 l2, Permutation l1 l2 -> norm K k l1 = norm K k l2.
Proof. intros K; induction 1; simpl; lia. Qed.
Lemma norm_in : forall K e l, In e l -> Z.abs (e_num e) <= norm K (K (e_dim e)) l.
Proof.
  intros K e l; induction l as [|f l IH]; simpl; [contradiction|].
  intros [->|H].
  - rewrite String.eqb_refl. pose proof (norm_nonneg K (K (e_dim e)) l); lia.
  - specialize (IH H). destruct (String.eqb _ _); lia.
Qed.

Lemma qexpo_app : forall K k l1 l2,
  (quantity_expo K k (l1 ++ l2) == quantity_expo K k l1 + quantity_expo K k l2)%Q.
Proof. intros K; induction l1; intros; simpl; [ring|]. rewrite IHl1; ring. Qed.
Lemma qexpo_perm : forall K k l1 l2, Permutation l1 l2 -> (quantity_expo K k l1 == quantity_expo K k l2)%Q.
Proof.
  intros K; induction 1; simpl; try lra.
Qed.

Definition whole (e : bexp) : Prop := e_den e = 1.

Lemma equot_whole : forall e, whole e -> (equot e == inject_Z (e_num e))%Q.
Proof. intros e H; unfold equot; rewrite H. change (inject_Z 1) with 1%Q. field. Qed.

(** ** Consolidation *)

Lemma whole_sum : forall (a b : bexp) r1 r2 r, whole a -> whole b ->
  std_ratio (e_num a) (e_den a) = Ok r1 -> std_ratio (e_num b) (e_den b) = Ok r2 -> std_ratio_add r1 r2 = Ok r ->
  fst r = e_num a + e_num b /\ snd r = 1.
Proof.
  intros a b r1 r2 r Ha Hb S1 S2 S.
  apply std_ratio_spec in S1 as (_ & P1 & _ & _ & _ & V1).
  apply std_ratio_spec in S2 as (_ & P2 & _ & _ & _ & V2).
  apply std_ratio_add_spec in S as (P & G & _ & _ & V); auto.
  rewrite V1, V2, Ha, Hb in V. change (inject_Z 1) with 1%Q in V.
  apply (lowest_unique (fst r) (snd r) (e_num a + e_num b) 1); auto; try lia.
  - apply Z.gcd_1_r.
  - rewrite V, inject_Z_plus. change (inject_Z 1) with 1%Q. field.
Qed.

Lemma consolidate_from_whole : forall K e l r, consolidate_from e l = Ok r -> Forall whole (e :: l) ->
  Forall whole r /\
  (forall k, (quantity_expo K k r == quantity_expo K k (e :: l))%Q) /\
  (forall k, norm K k r <= norm K k (e :: l)).
Proof.
  intros K e l; pattern e, l; apply consolidate_ind; clear e l.
  intros e [|f rest] IH r H W.
  - simpl in H. inversion H; subst. split; [auto|]. split; intros; [reflexivity|lia].
  - inversion W as [|? ? We W1]; subst. inversion W1 as [|? ? Wf Wr]; subst.
    cbn [consolidate_from] in H. destruct (bdim_eq_dec (e_dim e) (e_dim f)) as [D|D].
    + step H as r1 R1. step H as r2 R2. step H as s S.
      destruct (whole_sum e f r1 r2 s We Wf R1 R2 S) as [Hn Hd].
      destruct (fst s =? 0) eqn:Z0.
      * apply Z.eqb_eq in Z0.
        assert (QE : forall k, (quantity_expo K k (e :: f :: rest) == quantity_expo K k rest)%Q).
        { intros k. simpl. rewrite D. destruct (String.eqb (K (e_dim f)) k); [|ring].
          rewrite (equot_whole e We), (equot_whole f Wf).
          setoid_replace (inject_Z (e_num e) + (inject_Z (e_num f) + quantity_expo K k rest))%Q
            with (inject_Z (e_num e + e_num f) + quantity_expo K k rest)%Q by (rewrite inject_Z_plus; ring).
          replace (e_num e + e_num f) with 0 by lia. change (inject_Z 0) with 0%Q. ring. }
        assert (NE : forall k, norm K k rest <= norm K k (e :: f :: rest)).
        { intros k; simpl. destruct (String.eqb _ _), (String.eqb _ _); lia. }
        destruct rest as [|g rest'].
        -- inversion H; subst. split; [constructor|]. split; intros k; [now rewrite QE | apply NE].
        -- destruct (IH g rest' ltac:(simpl; lia) r H Wr) as (A & B & C).
           split; auto. split; intros k; [now rewrite B, QE|]. specialize (C k); specialize (NE k); lia.
      * destruct (IH (BExp (e_dim e) (fst s) (snd s)) rest ltac:(simpl; lia) r H) as (A & B & C).
        { constructor; auto. }
        split; auto. split; intros k.
        -- rewrite B. simpl. rewrite D. destruct (String.eqb (K (e_dim f)) k); [|ring].
           rewrite (equot_whole e We), (equot_whole f Wf), (equot_whole (BExp _ _ _)) by exact Hd.
           simpl. rewrite Hn, inject_Z_plus. ring.
        -- specialize (C k). simpl in *. rewrite D in *. destruct (String.eqb (K (e_dim f)) k); lia.
    + step H as t T. inversion H; subst r. clear H.
      destruct (IH f rest ltac:(simpl; lia) t T W1) as (A & B & C).
      unfold push_front. simpl. split; [constructor; auto|]. split; intros k.
      * now rewrite B.
      * specialize (C k); simpl in C; lia.
Qed.

Lemma consolidate_whole : forall K l r, dim_consolidate l = Ok r -> Forall whole l ->
  Forall whole r /\
  (forall k, (quantity_expo K k r == quantity_expo K k l)%Q) /\
  (forall k, norm K k r <= norm K k l).
Proof.
  intros K [|e l] r H W; simpl in H.
  - inversion H; subst. split; auto. split; intros; [reflexivity|lia].
  - eapply consolidate_from_whole; eauto.
Qed.

(** ** Unpacking a recipe with small whole exponents *)

Lemma small_ten_free : forall z, Z.abs z <= 9 -> ten_free (inject_Z z).
Proof.
  intros z H. unfold ten_free.
  destruct (Qred_lowest z 1 ltac:(lia) (Z.gcd_1_r z)) as [A B].
  assert (E : Qred (inject_Z z / inject_Z 1) = Qred (inject_Z z)).
  { apply Qred_complete. change (inject_Z 1) with 1%Q. field. }
  rewrite E in A, B. rewrite A, B. split; [|easy].
  intros N M. apply Z.mod_divide in M; [|lia]. destruct M as [q Q]. lia.
Qed.

Lemma Qeq_ten_free : forall p q, (p == q)%Q -> ten_free p -> ten_free q.
Proof. intros p q E [A B]. unfold ten_free. rewrite <- (Qred_complete _ _ E). auto. Qed.

Lemma multiply_whole : forall n e e', whole e -> Z.abs n <= 9 -> Z.abs (e_num e) <= 9 -> Z.abs (e_num e * n) <= 9 ->
  exponent_multiply n 1 e = Ok e' -> e_dim e' = e_dim e /\ e_num e' = e_num e * n /\ whole e'.
Proof.
  intros n e e' W N A P H.
  assert (Q1 : (inject_Z n / inject_Z 1 == inject_Z n)%Q) by (change (inject_Z 1) with 1%Q; field).
  assert (Q2 : (equot e * (inject_Z n / inject_Z 1) == inject_Z (e_num e * n))%Q).
  { rewrite Q1, (equot_whole e W), inject_Z_mult. reflexivity. }
  apply exponent_multiply_exact in H.
  - subst e'. unfold red_exp. cbn [e_dim e_num e_den]. rewrite (Qred_complete _ _ Q2).
    destruct (Qred_lowest (e_num e * n) 1 ltac:(lia) (Z.gcd_1_r _)) as [X Y].
    assert (E : Qred (inject_Z (e_num e * n) / inject_Z 1) = Qred (inject_Z (e_num e * n))).
    { apply Qred_complete. change (inject_Z 1) with 1%Q. field. }
    rewrite E in X, Y. unfold whole; simpl. auto.
  - lia.
  - rewrite W; lia.
  - eapply Qeq_ten_free; [symmetry; apply (equot_whole e W)|]. now apply small_ten_free.
  - eapply Qeq_ten_free; [symmetry; exact Q1|]. now apply small_ten_free.
  - eapply Qeq_ten_free; [symmetry; exact Q2|]. now apply small_ten_free.
Qed.

Lemma multiply_all : forall K n es r, Z.abs n <= 9 ->
  Forall (fun e => whole e /\ Z.abs (e_num e) <= 9 /\ Z.abs (e_num e * n) <= 9) es ->
  map_res (exponent_multiply n 1) es = Ok r ->
  map e_dim r = map e_dim es /\ Forall whole r /\
  (forall k, (quantity_expo K k r == inject_Z n * quantity_expo K k es)%Q) /\
  (forall k, norm K k r = Z.abs n * norm K k es).
Proof.
  intros K n es; induction es as [|e es IH]; simpl; intros r N F H.
  - inversion H; subst. repeat split; simpl; intros; auto; [ring|lia].
  - inversion F as [|? ? (W & A & P) F']; subst. step H as e' E. step H as s S. inversion H; subst r.
    destruct (multiply_whole _ _ _ W N A P E) as (D1 & D2 & D3).
    destruct (IH s N F' S) as (M & W' & Q & Nm).
    repeat split.
    + simpl. now rewrite M, D1.
    + constructor; auto.
    + intros k. cbn [quantity_expo]. rewrite Q, D1. destruct (String.eqb _ _); [|ring].
      rewrite (equot_whole e' D3), (equot_whole e W), D2, inject_Z_mult. ring.
    + intros k. simpl. rewrite Nm, D1, D2, Z.abs_mul. destruct (String.eqb _ _); lia.
Qed.

(** The sums over a recipe. *)
Fixpoint recipe_q (K : bdim -> string) (k : string) (l : list (dimension * Z)) : Q :=
  match l with [] => 0%Q | (d, n) :: r => (inject_Z n * quantity_expo K k (exponents d) + recipe_q K k r)%Q end.
Fixpoint recipe_n (K : bdim -> string) (k : string) (l : list (dimension * Z)) : Z :=
  match l with [] => 0 | (d, n) :: r => Z.abs n * norm K k (exponents d) + recipe_n K k r end.

Lemma recipe_n_nonneg : forall K k l, 0 <= recipe_n K k l.
Proof.
  intros K k; induction l as [|[d n] l IH]; simpl; [lia|].
  pose proof (norm_nonneg K k (exponents d)). nia.
Qed.

Definition item_ok (x : dimension * Z) : Prop :=
  Z.abs (snd x) <= 9 /\
  Forall (fun e => whole e /\ Z.abs (e_num e) <= 9 /\ Z.abs (e_num e * snd x) <= 9) (exponents (fst x)).

Definition with_den (l : list (dimension * Z)) : list (dimension * (Z * Z)) :=
  map (fun x => (fst x, (snd x, 1))) l.

Lemma unpack_whole : forall K l es, Forall item_ok l -> dim_unpack (with_den l) = Ok es ->
  Forall whole es /\
  (forall e, In e es -> exists d n f, In (d, n) l /\ In f (exponents d) /\ e_dim e = e_dim f) /\
  (forall k, (quantity_expo K k es == recipe_q K k l)%Q) /\
  (forall k, norm K k es = recipe_n K k l).
Proof.
  intros K; induction l as [|[d n] l IH]; simpl; intros es F H.
  - inversion H; subst. repeat split; simpl; intros; auto; try reflexivity. contradiction.
  - inversion F as [|? ? [N Ok1] F']; subst. cbn [fst snd] in *.
    assert (G : exists m t, dim_unpack (with_den l) = Ok t /\ es = push_front t m /\
      map e_dim m = map e_dim (exponents d) /\ Forall whole m /\
      (forall k, (quantity_expo K k m == inject_Z n * quantity_expo K k (exponents d))%Q) /\
      (forall k, norm K k m = Z.abs n * norm K k (exponents d))).
    { destruct d as [b|nm es0 cu rc|ar es0].
      - step H as t T. inversion H; subst es. exists [BExp b n 1], t. split; [auto|]. split; [auto|].
        split; [reflexivity|]. split; [constructor; [reflexivity|constructor]|]. split; intros k.
        + cbn [exponents quantity_expo e_dim]. destruct (String.eqb _ _); [|ring].
          rewrite (equot_whole (BExp b n 1)), (equot_whole (BExp b 1 1)) by reflexivity. cbn [e_num].
          change (inject_Z 1) with 1%Q. ring.
        + simpl. destruct (String.eqb _ _); lia.
      - step H as m M. step H as t T. inversion H; subst es. exists m, t. split; auto. split; auto.
        apply (multiply_all K n es0 m N Ok1 M).
      - step H as m M. step H as t T. inversion H; subst es. exists m, t. split; auto. split; auto.
        apply (multiply_all K n es0 m N Ok1 M). }
    destruct G as (m & t & T & -> & Md & Mw & Mq & Mn).
    destruct (IH t F' T) as (A & B & C & D).
    unfold push_front. split; [apply Forall_app; auto|]. split; [|split].
    + intros e He. apply in_app_or in He as [He|He].
      * assert (Hin : In (e_dim e) (map e_dim (exponents d))) by (rewrite <- Md; now apply in_map).
        apply in_map_iff in Hin as (f & Hf & Hin). exists d, n, f. simpl; auto.
      * destruct (B e He) as (d' & n' & f & X & Y & Z). exists d', n', f. simpl; auto.
    + intros k. rewrite qexpo_app, Mq, C. reflexivity.
    + intros k. rewrite norm_app, Mn, D. reflexivity.
Qed.

Lemma make_dimension_whole : forall K l es, Forall item_ok l -> make_dimension (with_den l) = Ok es ->
  Forall whole es /\
  (forall e, In e es -> exists d n f, In (d, n) l /\ In f (exponents d) /\ e_dim e = e_dim f) /\
  (forall k, (quantity_expo K k es == recipe_q K k l)%Q) /\
  (forall k, norm K k es <= recipe_n K k l).
Proof.
  intros K l es F H. unfold make_dimension in H. step H as u U.
  destruct (unpack_whole K l u F U) as (A & B & C & D).
  destruct (type_list_sort_spec exponent_less less_ntrans less_asym u) as [P _].
  destruct (consolidate_whole K _ _ H) as (W & Q & N).
  { eapply Permutation_Forall; [apply Permutation_sym; exact P | exact A]. }
  split; auto. split; [|split].
  - intros e He. destruct (dim_consolidate_dims _ _ H e He) as (g & G & E).
    apply (Permutation_in _ P) in G. destruct (B g G) as (d & n & f & X & Y & Z).
    exists d, n, f. repeat split; auto. congruence.
  - intros k. rewrite Q, (qexpo_perm K k _ _ P). apply C.
  - intros k. specialize (N k). rewrite (norm_perm K k _ _ P), D in N. exact N.
Qed.

(** ** Templates *)

Definition kinds : list string :=
  ["dim_length"; "dim_mass"; "dim_time"; "dim_electric_current"; "dim_thermodynamic_temperature";
   "dim_amount_of_substance"; "dim_luminous_intensity"; "dim_angle"].

Definition row_of (t : string) : list (string * Z) :=
  match assoc quantity_table t with Some r => r | None => [] end.

(** A bound for the norm, following the templates. *)
Fixpoint bound (fuel : nat) (ts : list template) (t k : string) : Z :=
  match fuel with
  | O => 0
  | S f =>
      fold_right Z.max 0
        (map (fun x => match x with
           | TBase t' _ => if String.eqb t t' && String.eqb t k then 1 else 0
           | TDerived t' ps r =>
               if String.eqb t t' then
                 fold_right Z.add 0 (map (fun y => Z.abs (snd y) * bound f ts (nth (fst y) ps "") k) r)
               else 0
           end) ts)
  end.
Definition limit (t k : string) : Z := bound 10 isq_templates t k.

Definition row_sum (ps : list string) (r : list (nat * Z)) (k : string) : Z :=
  fold_right Z.add 0 (map (fun y => snd y * exponent_in (row_of (nth (fst y) ps "")) k) r).
Definition limit_sum (ps : list string) (r : list (nat * Z)) (k : string) : Z :=
  fold_right Z.add 0 (map (fun y => Z.abs (snd y) * limit (nth (fst y) ps "") k) r).

Definition template_ok (x : template) : bool :=
  match x with
  | TBase t _ =>
      existsb (String.eqb t) kinds &&
      match assoc quantity_table t with Some _ => true | None => false end &&
      forallb (fun k => (exponent_in (row_of t) k =? (if String.eqb t k then 1 else 0)) &&
                        (limit t k =? (if String.eqb t k then 1 else 0))) kinds
  | TDerived t ps r =>
      match assoc quantity_table t with Some _ => true | None => false end &&
      forallb (fun k => (exponent_in (row_of t) k =? row_sum ps r k) && (limit_sum ps r k <=? limit t k) &&
                        (limit t k <=? 9)) kinds &&
      forallb (fun y => negb (snd y =? 0) && (Z.abs (snd y) <=? 9)) r
  end.
Definition row_ok (x : string * list (string * Z)) : bool :=
  forallb (fun y => existsb (String.eqb (fst y)) kinds) (snd x).

Lemma templates_ok : forallb template_ok isq_templates = true.
Proof. vm_compute. reflexivity. Qed.
Lemma rows_ok : forallb row_ok quantity_table = true.
Proof. vm_compute. reflexivity. Qed.

(** The invariant for a dimension declared with the template [t]. *)
Definition sound (K : bdim -> string) (t : string) (d : dimension) : Prop :=
  (exists row, assoc quantity_table t = Some row) /\
  Forall (fun e => whole e /\ In (K (e_dim e)) kinds) (exponents d) /\
  (forall k, In k kinds -> (quantity_expo K k (exponents d) == inject_Z (exponent_in (row_of t) k))%Q /\
     norm K k (exponents d) <= limit t k).

Lemma base_sound : forall K t s b, In (TBase t s) isq_templates -> K b = t -> sound K t (DBase b).
Proof.
  intros K t s b I E. pose proof templates_ok as T. rewrite forallb_forall in T. specialize (T _ I). cbn [template_ok] in T.
  apply andb_true_iff in T as [T T3]. apply andb_true_iff in T as [T1 T2].
  apply existsb_exists in T1 as (t' & Hin & Et). apply String.eqb_eq in Et; subst t'.
  rewrite forallb_forall in T3. unfold sound.
  split; [destruct (assoc quantity_table t); [eauto|discriminate]|].
  split; [constructor; [split; [reflexivity | cbn [e_dim]; rewrite E; exact Hin] | constructor]|].
  intros k Hk. specialize (T3 k Hk). apply andb_true_iff in T3 as [A B]. apply Z.eqb_eq in A, B.
  rewrite A, B. cbn [exponents quantity_expo norm e_dim e_num]. rewrite E.
  destruct (String.eqb t k); split; try lia.
  - rewrite (equot_whole (BExp b 1 1)) by reflexivity. cbn [e_num]. ring.
  - reflexivity.
Qed.

Lemma params_match_nth : forall ps ks, params_match ps ks = true -> ks = map Some ps.
Proof.
  induction ps as [|p ps IH]; intros [|[k|] ks] H; simpl in *; try discriminate; auto.
  apply andb_true_iff in H as [E H]. apply String.eqb_eq in E; subst. now rewrite (IH ks H).
Qed.

Lemma specialisation_in : forall ts t ks r, specialisation ts t ks = Ok r ->
  exists ps, In (TDerived t ps r) ts /\ ks = map Some ps.
Proof.
  intros ts t ks r H. unfold specialisation in H.
  destruct (filter (matches t ks) ts) as [|x [|y l]] eqn:E; try discriminate.
  - destruct x as [|t' ps r']; [discriminate|]. inversion H; subst r'.
    assert (I : In (TDerived t' ps r) (filter (matches t ks) ts)) by (rewrite E; simpl; auto).
    apply filter_In in I as [I M]. simpl in M. apply andb_true_iff in M as [M1 M2].
    apply String.eqb_eq in M1; subst t'. exists ps; split; auto. now apply params_match_nth.
  - destruct x; discriminate.
Qed.

(** Substitution: the recipe with, for each item, the template of its dimension. *)
Lemma substitute_spec : forall ds r rec ps, map fst ds = map Some ps -> substitute (map snd ds) r = Ok rec ->
  exists l, rec = with_den (map (fun x => (snd (fst x), snd x)) l) /\
    map (fun x => (fst (fst x), snd x)) l = map (fun y => (Some (nth (fst y) ps ""), snd y)) r /\
    (forall x, In x l -> In (fst x) ds).
Proof.
  intros ds r rec ps M. unfold substitute. revert rec. induction r as [|[i n] r IH]; simpl; intros rec H.
  - inversion H; subst. exists []. simpl. repeat split; auto; contradiction.
  - step H as y Y. step H as s S. inversion H; subst rec. clear H.
    destruct (IH s S) as (l & -> & L1 & L2).
    destruct (nth_error (map snd ds) i) as [d|] eqn:E; [|discriminate]. inversion Y; subst y.
    rewrite nth_error_map in E. destruct (nth_error ds i) as [[o d']|] eqn:E'; [|discriminate].
    simpl in E. inversion E; subst d'.
    assert (Ho : o = Some (nth i ps "")).
    { pose proof (nth_error_map fst i ds) as X. rewrite M, E' in X. simpl in X.
      rewrite nth_error_map in X. destruct (nth_error ps i) as [p|] eqn:Ep; [|discriminate].
      simpl in X. inversion X. f_equal. symmetry. apply (nth_error_nth ps i "" Ep). }
    exists ((o, d, n) :: l). simpl. split; [reflexivity|]. split.
    + now rewrite L1, Ho.
    + intros x [<-|Hx]; auto. simpl. eapply nth_error_In; eauto.
Qed.

Lemma derived_sound : forall K t ps r ds rec n cu d,
  In (TDerived t ps r) isq_templates -> map fst ds = map Some ps ->
  (forall q x, In (Some q, x) ds -> sound K q x) ->
  substitute (map snd ds) r = Ok rec -> mk_derived_dimension n cu rec = Ok d -> sound K t d.
Proof.
  intros K t ps r ds rec nm cu d I M S Sub H.
  pose proof templates_ok as T. rewrite forallb_forall in T. specialize (T _ I). cbn [template_ok] in T.
  apply andb_true_iff in T as [T T3]. apply andb_true_iff in T as [T1 T2].
  rewrite forallb_forall in T2, T3.
  destruct (substitute_spec _ _ _ _ M Sub) as (l & -> & L1 & L2).
  unfold mk_derived_dimension in H. step H as es E. inversion H; subst d. clear H.
  (* every item is sound for its template *)
  assert (G : Forall (fun x => exists q, fst (fst x) = Some q /\ sound K q (snd (fst x))) l).
  { apply Forall_forall. intros x Hx.
    assert (Hin : In (fst (fst x), snd x) (map (fun y => (Some (nth (fst y) ps ""), snd y)) r)).
    { rewrite <- L1. apply (in_map (fun x => (fst (fst x), snd x)) l x Hx). }
    apply in_map_iff in Hin as (y & Ey & Hy). inversion Ey as [[E1 E2]].
    exists (nth (fst y) ps ""). split; auto. apply S.
    pose proof (L2 x Hx) as Hd. destruct (fst x) as [o z]; simpl in *. now rewrite E1. }
  assert (R : Forall (fun x => Z.abs (snd x) <= 9 /\ snd x <> 0) l).
  { apply Forall_forall. intros x Hx.
    assert (Hin : In (fst (fst x), snd x) (map (fun y => (Some (nth (fst y) ps ""), snd y)) r)).
    { rewrite <- L1. apply (in_map (fun x => (fst (fst x), snd x)) l x Hx). }
    apply in_map_iff in Hin as (y & Ey & Hy). inversion Ey as [[E1 E2]].
    specialize (T3 y Hy). apply andb_true_iff in T3 as [A B]. apply Z.leb_le in B.
    apply negb_true_iff, Z.eqb_neq in A. lia. }
  (* the sums over the recipe *)
  assert (Sums : forall k, In k kinds ->
    (recipe_q K k (map (fun x => (snd (fst x), snd x)) l) == inject_Z (row_sum ps r k))%Q /\
    recipe_n K k (map (fun x => (snd (fst x), snd x)) l) <= limit_sum ps r k /\
    forall x, In x l -> Z.abs (snd x) * norm K k (exponents (snd (fst x))) <= limit_sum ps r k).
  { intros k Hk. unfold row_sum, limit_sum. clear - Hk L1 G. revert r L1 G.
    induction l as [|x l IH]; intros r L1 G.
    - destruct r; [|discriminate]. split; [reflexivity|]. split; [simpl; lia|]. contradiction.
    - destruct r as [|y r]; [discriminate|]. simpl in L1. inversion L1 as [[E1 E2 E3]].
      inversion G as [|? ? (q & Eq & Sq) G']; subst. rewrite E1 in Eq. inversion Eq; subst q.
      destruct Sq as (_ & _ & Sq). destruct (Sq k Hk) as [Qk Nk].
      destruct (IH r E3 G') as (A & B & C).
      assert (P : 0 <= limit_sum ps r k).
      { unfold limit_sum. pose proof (recipe_n_nonneg K k (map (fun x => (snd (fst x), snd x)) l)). lia. }
      unfold limit_sum in P. cbn [map fold_right recipe_q recipe_n fst snd]. rewrite E2.
      assert (NN := norm_nonneg K k (exponents (snd (fst x)))).
      assert (X : Z.abs (snd y) * norm K k (exponents (snd (fst x))) <=
                  Z.abs (snd y) * limit (nth (fst y) ps "") k) by (apply Z.mul_le_mono_nonneg_l; lia).
      split; [|split].
      + rewrite Qk, A, inject_Z_plus, inject_Z_mult. reflexivity.
      + lia.
      + intros z [<-|Hz]; [rewrite E2; lia|]. specialize (C z Hz). lia. }
  assert (Lim : forall k, In k kinds -> limit_sum ps r k <= limit t k /\ limit t k <= 9 /\
    exponent_in (row_of t) k = row_sum ps r k).
  { intros k Hk. specialize (T2 k Hk). apply andb_true_iff in T2 as [X Y]. apply andb_true_iff in X as [X Z].
    apply Z.eqb_eq in X. apply Z.leb_le in Y, Z. auto. }
  destruct (make_dimension_whole K (map (fun x => (snd (fst x), snd x)) l) es) as (W & D & Q & N); auto.
  { apply Forall_forall. intros x' Hx'. apply in_map_iff in Hx' as (x & <- & Hx).
    rewrite Forall_forall in R, G. destruct (R x Hx) as [R1 R2]. destruct (G x Hx) as (q & _ & (_ & F & _)).
    split; simpl; auto. apply Forall_forall. intros e He. rewrite Forall_forall in F. destruct (F e He) as [We Ke].
    pose proof (norm_in K e _ He) as Ne. destruct (Sums _ Ke) as (_ & _ & B). specialize (B x Hx).
    destruct (Lim _ Ke) as (L3 & L4 & _). rewrite Z.abs_mul.
    clear - R1 R2 Ne B L3 L4 We. split; auto. nia. }
  assert (D' : forall e, In e es -> In (K (e_dim e)) kinds).
  { intros e He. destruct (D e He) as (d & n & f & X & Y & Z). rewrite Z.
    apply in_map_iff in X as (x & Ex & Hx). inversion Ex; subst d n.
    rewrite Forall_forall in G. destruct (G x Hx) as (q & _ & (_ & F & _)).
    rewrite Forall_forall in F. now apply F. }
  split; [destruct (assoc quantity_table t); [eauto|discriminate]|]. simpl. split.
  - apply Forall_forall. intros e He. split; [exact (proj1 (Forall_forall _ _) W e He) | exact (D' e He)].
  - intros k Hk. destruct (Sums k Hk) as (A & B & _). destruct (Lim k Hk) as (L3 & _ & L5).
    specialize (N k). rewrite Q, A, L5. split; [reflexivity|lia].
Qed.

(** ** Programs *)

Lemma base_symbol_in : forall ts t s, base_symbol ts t = Ok s -> In (TBase t s) ts.
Proof.
  intros ts t s H. unfold base_symbol in H. destruct (find _ ts) as [[t' s'|]|] eqn:E; try discriminate.
  inversion H; subst. apply find_some in E as [I E]. apply String.eqb_eq in E. now subst.
Qed.

Lemma adds_dims : forall e e' t, adds e e' t -> incl (en_dims e) (en_dims e').
Proof. intros e e' [p|u|o d] A x Hx; simpl in A; destruct A as (_ & _ & ->); simpl; auto. Qed.

Lemma elaborate_dims : forall est mode ts l e e', elaborate est mode ts e l = Ok e' -> incl (en_dims e) (en_dims e').
Proof.
  intros est mode ts l; induction l as [|x l IH]; simpl; intros e e' H.
  - inversion H; apply incl_refl.
  - step H as m M. destruct (elaborate_yields _ _ _ _ _ _ M) as (_ & t & _ & A & _).
    eapply incl_tran; [eapply adds_dims; eauto | eauto].
Qed.

Lemma map_res_in : forall (A B : Type) (f : A -> res B) l r, map_res f l = Ok r ->
  forall y, In y r -> exists x, In x l /\ f x = Ok y.
Proof.
  intros A B f l; induction l as [|x l IH]; simpl; intros r H y Hy.
  - inversion H; subst; contradiction.
  - step H as z Z. step H as s S. inversion H; subst r. destruct Hy as [<-|Hy]; eauto.
    destruct (IH s S y Hy) as (w & W & F); eauto.
Qed.

Definition labels (K : bdim -> string) (e : env) : Prop :=
  forall t b, In (Some t, DBase b) (en_dims e) -> K b = t.
Definition all_sound (K : bdim -> string) (e : env) : Prop :=
  forall t d, In (Some t, d) (en_dims e) -> sound K t d.

Lemma elaborate_sound : forall K est mode l e e', elaborate est mode isq_templates e l = Ok e' ->
  labels K e' -> all_sound K e -> all_sound K e'.
Proof.
  intros K est mode l; induction l as [|x l IH]; simpl; intros e e' H L S.
  - inversion H; subst; auto.
  - step H as m M. apply (IH m e' H L). clear IH.
    pose proof (elaborate_dims _ _ _ _ _ _ H) as I.
    destruct (elaborate_yields _ _ _ _ _ _ M) as (_ & t & Y & A & _).
    intros q d Hd. destruct t as [p|u|o d']; simpl in A; destruct A as (_ & _ & A); rewrite A in *; auto.
    destruct Hd as [E|Hd]; auto. inversion E; subst o d'. clear E.
    destruct x; simpl in Y;
      try (destruct Y as (? & ? & _ & _ & Y); discriminate).
    + destruct Y as (s & cu & b & B & _ & _ & Y). inversion Y; subst.
      apply (base_sound K _ s); [now apply base_symbol_in|]. apply L, I. simpl; auto.
    + destruct Y as (? & ? & ? & _ & _ & _ & Y); discriminate.
    + destruct Y as (ds & r & rec & cu & d' & Ds & R & Rec & _ & D & Y). inversion Y; subst.
      destruct (specialisation_in _ _ _ _ R) as (ps & Ip & Eps).
      apply (derived_sound K t ps r ds rec name cu d'); auto.
      intros q z Hz. apply S. destruct (map_res_in _ _ _ _ _ Ds _ Hz) as (n & _ & F). eapply find_dim_in; eauto.
Qed.

Lemma quantity_of_labels : forall e, lookups_unique e -> labels (quantity_of e) e.
Proof.
  intros e (_ & _ & U) t b H. apply U in H. unfold quantity_of. unfold find_dim in H. simpl in H.
  destruct (find _ (en_dims e)) as [d|]; [|discriminate]. inversion H; subst. reflexivity.
Qed.

Lemma exponent_in_other : forall row k, forallb (fun y => existsb (String.eqb (fst y)) kinds) row = true ->
  ~ In k kinds -> exponent_in row k = 0.
Proof.
  intros row k; unfold exponent_in; induction row as [|[q z] row IH]; cbn [forallb assoc fst]; intros H N; auto.
  apply andb_true_iff in H as [A B]. destruct (String.eqb k q) eqn:E; [|now apply IH].
  apply String.eqb_eq in E; subst q. exfalso. apply N.
  apply existsb_exists in A as (q & Q & E). apply String.eqb_eq in E; now subst.
Qed.

Lemma assoc_in : forall (A : Type) (l : list (string * A)) k x, assoc l k = Some x -> In (k, x) l.
Proof.
  intros A l; induction l as [|[q y] l IH]; simpl; intros k x H; [discriminate|].
  destruct (String.eqb k q) eqn:E; [|auto]. apply String.eqb_eq in E; subst. inversion H; auto.
Qed.

Lemma qexpo_other : forall K k es, (forall e, In e es -> In (K (e_dim e)) kinds) -> ~ In k kinds ->
  (quantity_expo K k es == 0)%Q.
Proof.
  intros K k es; induction es as [|e es IH]; cbn [quantity_expo]; intros F N; [reflexivity|].
  rewrite IH; [|intros f Hf; apply F; simpl; auto|exact N]. destruct (String.eqb _ k) eqn:E; [|ring].
  apply String.eqb_eq in E; subst. exfalso. apply N, F. simpl; auto.
Qed.

Theorem isq_exponents : forall est mode prog e t d,
  elaborate est mode isq_templates empty_env prog = Ok e -> In (Some t, d) (en_dims e) ->
  exists row, assoc quantity_table t = Some row /\
    (forall k, (quantity_expo (quantity_of e) k (exponents d) == inject_Z (exponent_in row k))%Q) /\
    (forall x, In x (exponents d) -> e_den x = 1 /\ In (quantity_of e (e_dim x)) kinds).
Proof.
  intros est mode prog e t d H I.
  pose proof (elaborate_unique _ _ _ _ _ _ empty_unique H) as U.
  pose proof (elaborate_sound _ _ _ _ _ _ H (quantity_of_labels e U)) as S.
  destruct (S ltac:(intros q z Hz; destruct Hz) t d I) as ((row & R) & F & Q).
  exists row. split; auto. rewrite Forall_forall in F. split; [|exact F].
  intros k. destruct (in_dec string_dec k kinds) as [Hk|Hk].
  - destruct (Q k Hk) as [E _]. unfold row_of in E. rewrite R in E. exact E.
  - rewrite (qexpo_other _ _ _ (fun e He => proj2 (F e He)) Hk).
    rewrite exponent_in_other; auto; [reflexivity|].
    pose proof rows_ok as T. rewrite forallb_forall in T. apply (T _ (assoc_in _ _ _ _ R)).
Qed.
