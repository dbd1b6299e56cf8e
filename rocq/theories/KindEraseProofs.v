(** Proofs: a program of kinds does what the program without the kinds does. *)

From Coq Require Import ZArith QArith String List Bool Lia.
From Verif Require Import Outcome CInt Ratio SpecRatio Root Unit Downcast Dim DimOp Equivalent SpecDim SpecUnit
  DimProofs DimOpProofs DimOpProofs3 EquivProofs MagnitudeProofs Rep IntProofs Reference QuantityCast CommonQuantity Quantity
  SpecQuantity CastProofs QuantityProofs QuantityProofs2 QuantityProofs3 Point Kind PointKind SpecPoint PointProofs KindProofs
  Affine KindExpr SpecKindExpr KindExprProofs Static SpecStatic StaticProofs StaticKind SpecStaticKind StaticKindProofs
  Program SpecProgram ProgramProofs KindProgram SpecKindProgram KindProgramProofs.
Import ListNotations.
Local Open Scope res_scope.

(** An outcome with the result mapped. *)
Definition rmap {A B : Type} (f : A -> B) (r : res A) : res B := x <- r; Ok (f x).
Lemma rmap_bind : forall A B C (f : B -> C) (r : res A) (h : A -> res B), rmap f (x <- r; h x) = (x <- r; rmap f (h x)).
Proof. now intros A B C f [x| | | |] h. Qed.
Lemma bind_rmap : forall A B C (f : A -> B) (r : res A) (h : B -> res C), (y <- rmap f r; h y) = (x <- r; h (f x)).
Proof. now intros A B C f [x| | | |] h. Qed.
Lemma rmap_rmap : forall A B C (f : A -> B) (h : B -> C) (r : res A), rmap h (rmap f r) = rmap (fun x => h (f x)) r.
Proof. now intros A B C f h [x| | | |]. Qed.
Lemma runs_formed : forall A (Q : A -> Prop) r, runs Q r -> r <> IllFormed.
Proof. intros A Q r [(x & -> & _)| ->]; discriminate. Qed.
Lemma formed_bind : forall A B (r : res A) (h : A -> res B), (x <- r; h x) <> IllFormed -> r <> IllFormed.
Proof. intros A B r h H ->. now apply H. Qed.
Lemma formed_constrained : forall A c (r : res A), (_ <- constrained c; r) <> IllFormed -> c = true /\ (_ <- constrained c; r) = r.
Proof. intros A [|] r H; [split; reflexivity|now destruct H]. Qed.

Lemma act_quantity : forall est q a s, q_act est q a = Ok s -> q_type s = q_type q.
Proof. intros est q a s H. unfold q_act in H. cbv zeta in H. step H as n N. now inversion H. Qed.

Section Erase.
Variables (U : bdim -> Prop) (rb : rebinding) (est : estimate) (w : world) (g : kinds) (gp : pkinds).
Hypothesis (HU : symbols_identify U) (C : consistent w) (G : kinds_declared g) (GP : pkinds_declared gp).

Notation P := (of_system U w).
Notation good := (good U w).
Notation kgood := (kgood U w).
Notation pgood := (pgood U w).
Notation vgood := (vgood U w).

(** ** The operators *)

Lemma same_make : forall k m, (forall q, m = Ok q -> q_dim (q_type q) = k_dim k /\ unit_of (q_unit (q_type q)) (q_dim (q_type q)) = true) ->
  rmap common (q <- m; k_make est k q) = m.
Proof.
  intros k m H. destruct m as [q| | | |]; try reflexivity. destruct (H q eq_refl) as [D Hu]. cbn [bind]. rewrite k_make_eq by auto.
  cbn [rmap bind]. now rewrite with_kind_common.
Qed.
Lemma same_downcasted : forall x m, (forall q, m = Ok q -> unit_of (q_unit (q_type q)) (q_dim (q_type q)) = true) ->
  rmap common (q <- m; k_downcasted est g x q) = m.
Proof.
  intros x m H. destruct m as [q| | | |]; try reflexivity. destruct (k_downcasted_eq est g x q G (H q eq_refl)) as (k & K & D & _).
  cbn [bind]. rewrite K. cbn [rmap bind]. now rewrite with_kind_common.
Qed.
Lemma scale_same : forall o x, (match o with UPos | UConv _ | UCast _ => False | _ => True end) -> kgood x ->
  rmap common (unary_kind est w g o x) = unary_quantity est w o (common x).
Proof.
  intros o x S X. assert (K : forall q, unary_quantity est w o (common x) = Ok q -> good q).
  { intros q Q. apply (unary_good U est w C o (common x) q); auto. destruct o; try exact I; destruct S. }
  destruct o; try destruct S; cbn [unary_kind unary_quantity] in *.
  - apply same_make. intros q Q. split; [|apply (K q Q)]. unfold q_neg in Q. cbv zeta in Q. unbind. reflexivity.
  - apply same_make. intros q Q. split; [|apply (K q Q)]. unfold q_mul_value, value_mul_q, q_div_value, q_scale in Q. cbv zeta in Q. unbind. reflexivity.
  - apply same_make. intros q Q. split; [|apply (K q Q)]. unfold q_mul_value, value_mul_q, q_div_value, q_scale in Q. cbv zeta in Q. unbind. reflexivity.
  - apply same_make. intros q Q. split; [|apply (K q Q)]. unfold q_mul_value, value_mul_q, q_div_value, q_scale in Q. cbv zeta in Q. unbind. reflexivity.
  - apply same_downcasted. intros q Q. apply (K q Q).
  - apply same_make. intros q Q. split; [|apply (K q Q)]. unfold q_rem_value, q_scale in Q. cbv zeta in Q. unbind. reflexivity.
Qed.
(** What the unary operator leaves when the kind is taken away. *)
Definition unary_left (o : unary) (v : kvalue) : res quantity :=
  match o, v with UPos, WKind x => Ok (common x) | _, _ => unary_quantity est w o (under v) end.
Lemma unary_same : forall o v, vgood v -> kunary est w g o v <> IllFormed -> rmap under (kunary est w g o v) = unary_left o v.
Proof.
  intros o [q|x|x] V F; cbn [kunary] in *; try (now destruct F).
  - rewrite rmap_bind. unfold unary_left. replace (match o with UPos => unary_quantity est w o (under (WQuantity q)) | _ => unary_quantity est w o (under (WQuantity q)) end)
      with (unary_quantity est w o q) by (now destruct o). cbn [under]. destruct o; destruct (unary_quantity est w _ q); reflexivity.
  - rewrite rmap_bind. transitivity (rmap common (unary_kind est w g o x)); [reflexivity|].
    assert (D : o = UPos \/ match o with UPos | UConv _ | UCast _ => False | _ => True end).
    { destruct o; auto; cbn [unary_kind bind] in F; now destruct F. }
    destruct D as [->|D]; [reflexivity|]. rewrite scale_same by auto. destruct o; try reflexivity. destruct D.
Qed.

Lemma sum_same : forall o a b, kgood a -> kgood b -> k_addsub o est w a b <> IllFormed ->
  rmap common (k_addsub o est w a b) = q_addsub o est w (common a) (common b).
Proof.
  intros o a b Ka Kb F. unfold k_addsub in *. apply formed_constrained in F as [_ ->]. apply same_make.
  intros q Q. destruct (sum_good U est w HU _ (common a) (common b) _ Ka Kb Q) as ([_ Hu] & D & _). auto.
Qed.
Lemma deduced_same : forall r, rmap (fun p => common (pk_relative p)) (s <- r; pk_deduced gp s) = rmap common r.
Proof.
  intros [x| | | |]; try reflexivity. cbn [bind rmap]. destruct (deduced_eq gp GP x) as (p & -> & <- & _). reflexivity.
Qed.
Lemma binary_same : forall o x y, vgood x -> vgood y -> kbinary rb est w g gp o x y <> IllFormed ->
  rmap under (kbinary rb est w g gp o x y) = binary_quantity est w o (under x) (under y).
Proof.
  intros o x y X Y F.
  assert (K : forall q, binary_quantity est w o (under x) (under y) = Ok q -> good q)
    by (intros q; apply (binary_good U est w HU C); now apply vgood_under).
  assert (WQ : forall r, rmap under (s <- r; Ok (WQuantity s)) = r) by now intros [q| | | |].
  assert (WK : forall r, rmap under (s <- r; Ok (WKind s)) = rmap common r) by now intros [q| | | |].
  assert (WP : forall r, rmap under (s <- r; Ok (WPoint s)) = rmap (fun p => common (pk_relative p)) r) by now intros [q| | | |].
  destruct x as [a|a|a], y as [b|b|b]; destruct o; cbn [kbinary] in *; try (now destruct F); try (rewrite WQ; reflexivity);
    try rewrite WK; try rewrite WP; apply formed_bind in F; cbn [under binary_quantity] in *.
  - apply same_downcasted. intros q Q. apply (K q Q).
  - apply same_downcasted. intros q Q. apply (K q Q).
  - apply same_downcasted. intros q Q. apply (K q Q).
  - apply same_downcasted. intros q Q. apply (K q Q).
  - unfold k_rem_q in *. apply formed_constrained in F as [_ ->]. apply same_make. intros q Q.
    destruct (rem_good U w (common a) _ _ X Q) as [[_ Hu] D]. auto.
  - apply sum_same; auto.
  - apply sum_same; auto.
  - unfold k_times_k in *. apply formed_constrained in F as [_ ->]. apply same_downcasted. intros q Q. apply (K q Q).
  - unfold k_over_k in *. apply formed_constrained in F as [_ ->]. apply same_downcasted. intros q Q. apply (K q Q).
  - unfold k_rem in *. apply formed_constrained in F as [_ ->]. apply same_make. intros q Q.
    destruct (rem_good U w (common a) _ _ X Q) as [[_ Hu] D]. auto.
  - unfold k_plus_pk in *. rewrite deduced_same. apply formed_bind in F. apply sum_same; auto. apply Y.
  - unfold pk_add, pk_addsub in *. rewrite deduced_same. apply formed_bind in F. apply sum_same; auto. apply X.
  - unfold pk_sub, pk_addsub in *. rewrite deduced_same. apply formed_bind in F. apply sum_same; auto. apply X.
  - unfold pk_diff in *. apply formed_constrained in F as H. destruct H as [_ H]. rewrite H in *. apply sum_same; auto; [apply X|apply Y].
Qed.

Lemma construct_same : forall t q, rmap common (k_construct est t q) = q_to est (kt_qtype t) q.
Proof. intros t q. unfold k_construct, q_to. now destruct (q_convert est (q_type q) (kt_qtype t) (q_num q)). Qed.
Lemma k_to_same : forall t x, k_to est t x <> IllFormed -> rmap common (k_to est t x) = q_to est (kt_qtype t) (common x).
Proof. intros t x F. unfold k_to in *. apply formed_constrained in F as [_ ->]. apply construct_same. Qed.
Lemma pk_construct_same : forall t x, pk_construct est t x <> IllFormed ->
  rmap (fun p => common (pk_relative p)) (pk_construct est t x) = q_to est (kt_qtype (pkt_ktype t)) (common x).
Proof.
  intros t x F. unfold pk_construct in *. apply formed_bind in F. rewrite <- k_to_same by exact F.
  destruct (k_to est (pkt_ktype t) x) as [y| | | |] eqn:E; try reflexivity. cbn [bind rmap]. unfold k_to in E. step E as c D.
  unfold k_construct in E. step E as n N. inversion E. reflexivity.
Qed.
Lemma pk_to_same : forall t x, pk_to rb est t x <> IllFormed ->
  rmap (fun p => common (pk_relative p)) (pk_to rb est t x) = q_to est (kt_qtype (pkt_ktype t)) (common (pk_relative x)).
Proof. intros t x F. unfold pk_to in *. apply formed_constrained in F as H. destruct H as [_ H]. rewrite H in *. now apply pk_construct_same. Qed.

Definition cast_left (c : kcastspec) (q : quantity) : res quantity :=
  match c with KToType t => q_cast est w (ToQuantity (kt_qtype t)) q | KToKind _ => Ok q | KTo c => q_cast est w c q end.
Lemma t_convert_equivalent : forall a b, t_convert est a b = Ok tt -> dim_equivalent (q_dim b) (q_dim a) = true.
Proof.
  intros a b H. unfold t_convert in H. destruct (qtype_eq_dec a b) as [->|_]; [apply dim_equivalent_equivalence|].
  step H as s S. step H as c D. unfold t_cast in H. step H as c' D'. now apply constrained_ok in D'.
Qed.
Lemma cast_same : forall c x t, kgood x -> SpecKindProgram.legal_kcast P c -> t_kcast est w c (qk_type x) = Ok t ->
  rmap common (kind_cast est w c x) = cast_left c (common x).
Proof.
  intros c x t X L T. destruct c as [t'|k|c]; cbn [SpecKindProgram.legal_kcast cast_left] in *.
  - cbn [kind_cast q_cast]. unfold kind_cast_to. cbn [common q_type q_num]. now destruct (quantity_cast est _ _ _).
  - cbn [t_kcast] in T. step T as t1 T1. assert (Et : kt_kind t1 = k) by (unfold mk_ktype in T1; step T1 as q Q; now inversion T1).
    unfold t_k_construct in T. step T as u V. destruct u. apply t_convert_equivalent in V. cbn in V. rewrite Et in V.
    assert (E : k_dim k = k_dim (qk_kind x)) by (apply (one_equivalent U w HU); [exact L|apply X|exact V]).
    rewrite (cast_kind_around U est w k x X E). cbn [rmap bind]. now rewrite with_kind_common.
  - cbn [kind_cast]. apply same_make. intros q Q. split; [exact (KindExprProofs.cast_same U est w HU C c (common x) q X L Q)|].
    apply (cast_good U est w c (common x) q X L Q).
Qed.

(** ** Expressions *)

Notation vev := (veval rb est w g gp).
Notation vty := (vtype_of rb est w g gp).
Notation pev := (peval rb est w).
Notation bare_value := (fun v => VQuantity (under v)).

Lemma kobject_legal : forall v, vgood v -> legal P (kobject v).
Proof. intros [q|x|x] H; exact H. Qed.
Lemma vclose_legal : forall m e a, Forall vgood m -> vlegal P e -> vclose m e = Some a -> legal P a.
Proof.
  intros m e. induction e as [x|v|o e IH|o e IHa f IHb|t e IH|t e IH|e IH|c e IH|t e IH|e IH|t e IH|e IH|c e IH|t e IH]; intros a M L H; cbn [vclose vlegal] in *;
    try (destruct (vclose m e) as [e'|] eqn:E; [|discriminate]; inversion H; subst a; cbn [legal];
      first [exact (IH _ M L eq_refl)|exact (conj (proj1 L) (IH _ M (proj2 L) eq_refl))]; fail).
  - destruct (nth_error m x) as [v|] eqn:E; [|discriminate]. inversion H. apply kobject_legal. rewrite Forall_forall in M. apply M. now apply nth_error_In in E.
  - inversion H. apply kobject_legal. now destruct v.
  - destruct (vclose m e) as [e'|]; [|discriminate]. destruct (vclose m f) as [f'|]; [|discriminate]. inversion H. cbn [legal].
    exact (conj (IHa _ M (proj1 L) eq_refl) (IHb _ M (proj2 L) eq_refl)).
Qed.
Lemma veval_good : forall m e v, Forall vgood m -> vlegal P e -> vev m e = Ok v -> vgood v.
Proof.
  intros m e v M L H. unfold veval in H. destruct (vclose m e) as [a|] eqn:E; [|discriminate].
  apply (keval_sound U rb est w g gp HU C G GP a v H). now apply (vclose_legal m e).
Qed.

Lemma plain_type : forall d e t, vty d e = Ok t -> plain_quantity (map is_quantity d) e = is_quantity t.
Proof.
  intros d e. induction e as [x|v|o e IH|o e IHa f IHb|t' e IH|t' e IH|e IH|c e IH|t' e IH|e IH|t' e IH|e IH|c e IH|t' e IH]; intros t H; cbn [vtype_of plain_quantity] in *.
  - destruct (nth_error d x) as [t0|] eqn:E; [|discriminate]. inversion H. subst t0.
    apply nth_error_nth. now rewrite nth_error_map, E.
  - inversion H. now destruct v.
  - step H as a A. rewrite (IH a A). destruct a; cbn [t_kunary] in H; try discriminate; step H as s S; now inversion H.
  - step H as a A. step H as b B. rewrite (IHa a A), (IHb b B).
    destruct o, a, b; cbn [t_kbinary] in H; try discriminate; step H as s S; try (step H as s2 S2); now inversion H.
  - step H as a A. step H as q Q. step H as s S. now inversion H.
  - step H as a A. step H as q Q. step H as s S. now inversion H.
  - step H as a A. step H as q Q. now inversion H.
  - step H as a A. step H as q Q. step H as s S. now inversion H.
  - step H as a A. step H as q Q. step H as s S. now inversion H.
  - step H as a A. step H as q Q. step H as s S. now inversion H.
  - step H as a A. step H as q Q. step H as s S. now inversion H.
  - step H as a A. step H as q Q. now inversion H.
  - step H as a A. step H as q Q. step H as s S. now inversion H.
  - step H as a A. step H as q Q. step H as s S. now inversion H.
Qed.

(** The values of expressions by those of their parts. *)
Lemma pev_unary : forall m o x r, pev m x = rmap VQuantity r -> pev m (EUnary o x) = rmap VQuantity (q <- r; unary_quantity est w o q).
Proof.
  intros m o x r H. unfold peval in *. cbn [close]. destruct (close m x) as [a|]; cbn [option_map].
  - cbn [aeval]. rewrite H, bind_rmap. cbn [want_quantity bind]. destruct r as [q| | | |]; reflexivity.
  - destruct r as [q| | | |]; try discriminate. reflexivity.
Qed.
Lemma pev_binary : forall m o x y r s, pev m x = rmap VQuantity r -> pev m y = rmap VQuantity s -> s <> IllFormed ->
  pev m (EBinary o x y) = rmap VQuantity (a <- r; b <- s; binary_quantity est w o a b).
Proof.
  intros m o x y r s H K F. unfold peval in *. cbn [close]. destruct (close m x) as [a|].
  - destruct (close m y) as [b|]; [|destruct s; try discriminate; now destruct F]. cbn [aeval]. rewrite H, K.
    destruct r as [q| | | |]; try reflexivity. destruct s as [p| | | |]; try reflexivity. cbn [bind rmap]. now destruct o.
  - destruct r as [q| | | |]; try discriminate. reflexivity.
Qed.
Lemma vev_one : forall m e e' (k : kexpr -> kexpr) (f : kvalue -> res kvalue), vclose m e' = option_map k (vclose m e) ->
  (forall a, keval rb est w g gp (k a) = (v <- keval rb est w g gp a; f v)) -> vev m e' = (v <- vev m e; f v).
Proof. intros m e e' k f H K. unfold veval. rewrite H. destruct (vclose m e) as [a|]; [apply K|reflexivity]. Qed.
Lemma vev_binary : forall m o e e', vev m e' <> IllFormed -> vev m (VBinary o e e') = (x <- vev m e; y <- vev m e'; kbinary rb est w g gp o x y).
Proof.
  intros m o e e' F. unfold veval in *. cbn [vclose]. destruct (vclose m e) as [a|]; [|reflexivity].
  destruct (vclose m e') as [b|]; [reflexivity|now destruct F].
Qed.

(** The value of the stripped expression: that of the expression without its kind. *)
Lemma strip_eval : forall d m e t, kwell_typed d m -> Forall vgood m -> vexpr_sound e -> vlegal P e -> vty d e = Ok t ->
  pev (bare m) (strip (map is_quantity d) e) = rmap VQuantity (rmap under (vev m e)).
Proof.
  intros d m e t W M. revert t.
  induction e as [x|v|o e IH|o e IHa f IHb|t' e IH|t' e IH|e IH|c e IH|t' e IH|e IH|t' e IH|e IH|c e IH|t' e IH]; intros t S L T;
    cbn [strip vexpr_sound vlegal vtype_of] in *.
  - unfold peval, veval. cbn [close vclose]. unfold bare. rewrite nth_error_map. destruct (nth_error m x) as [[q|k|k]|]; reflexivity.
  - unfold peval, veval. cbn [close vclose]. now destruct v.
  - destruct S as [So S], L as [Lo L]. step T as a A. specialize (IH a S L A). pose proof (veval_runs rb est w g gp d m e a W S A) as R.
    pose proof (veval_good m e) as VG.
    rewrite (vev_one m e (VUnary o e) (KUnary o) (kunary est w g o)) by reflexivity.
    assert (R2 : forall v, vev m e = Ok v -> rmap under (kunary est w g o v) = unary_left o v).
    { intros v V. apply unary_same; [now apply VG|]. destruct R as [(v' & E & [Tv Sv])|E]; rewrite E in V; inversion V; subst v'.
      apply (runs_formed _ (w_has t)). apply kunary_runs; [exact Sv|now rewrite Tv]. }
    rewrite rmap_bind. destruct o as [| | | | | | | | ]; try (rewrite (pev_unary _ _ _ _ IH), bind_rmap; f_equal;
      destruct (vev m e) as [y| | | |] eqn:EV; [|reflexivity..]; cbn [bind]; rewrite (R2 y eq_refl); reflexivity).
    rewrite (plain_type d e a A). destruct (is_quantity a) eqn:Q.
    + rewrite (pev_unary _ _ _ _ IH), bind_rmap; f_equal. destruct R as [(v & E & [Tv _])|E]; rewrite E; [|reflexivity]. cbn [bind].
      rewrite (R2 v E). destruct v; [reflexivity|now subst a..].
    + rewrite IH. f_equal. destruct R as [(v & E & [Tv _])|E]; rewrite E; [|reflexivity]. cbn [bind rmap]. rewrite (R2 v E).
      destruct v as [q|k|k]; [now subst a|reflexivity|]. subst a. discriminate T.
  - destruct S as [Sa Sb], L as [La Lb]. step T as a A. step T as b B. specialize (IHa a Sa La A). specialize (IHb b Sb Lb B).
    pose proof (veval_runs rb est w g gp d m e a W Sa A) as RA. pose proof (veval_runs rb est w g gp d m f b W Sb B) as RB.
    rewrite (vev_binary m o e f (runs_formed _ _ _ RB)). rewrite (pev_binary _ _ _ _ _ _ IHa IHb).
    2:{ destruct RB as [(y & -> & _)| ->]; discriminate. }
    rewrite bind_rmap, rmap_bind. f_equal. destruct RA as [(x & EA & [TA SA])| ->]; [|reflexivity]. rewrite EA. cbn [bind].
    rewrite bind_rmap, rmap_bind. destruct RB as [(y & EB & [TB SB])| ->]; [|reflexivity]. rewrite EB. cbn [bind].
    symmetry. f_equal. apply binary_same; [exact (veval_good m e x M La EA)|exact (veval_good m f y M Lb EB)|].
    apply (runs_formed _ (w_has t)). apply kbinary_runs; auto. now rewrite TA, TB.
  - destruct L as [Lt L]. step T as a A. step T as q Q. step T as s E. specialize (IH a S L A). pose proof (veval_runs rb est w g gp d m e a W S A) as R.
    rewrite (vev_one m e (VMake t' e) (KMake t') (fun v => q <- as_quantity v; s <- k_construct est t' q; Ok (WKind s))) by reflexivity.
    rewrite (pev_unary _ _ _ _ IH), bind_rmap. f_equal. rewrite rmap_bind. destruct R as [(v & -> & [Tv Sv])| ->]; [|reflexivity]. cbn [bind].
    destruct v as [p|x|x]; subst a; try discriminate Q. cbn [as_quantity bind under unary_quantity]. rewrite rmap_bind.
    symmetry. exact (construct_same t' p).
  - destruct L as [Lt L]. step T as a A. step T as q Q. step T as s E. specialize (IH a S L A). pose proof (veval_runs rb est w g gp d m e a W S A) as R.
    rewrite (vev_one m e (VConvert t' e) (KConvert t') (fun v => x <- as_kind v; s <- k_to est t' x; Ok (WKind s))) by reflexivity.
    rewrite (pev_unary _ _ _ _ IH), bind_rmap. f_equal. rewrite rmap_bind. destruct R as [(v & -> & [Tv Sv])| ->]; [|reflexivity]. cbn [bind].
    destruct v as [p|x|x]; subst a; try discriminate Q. inversion Q. subst q. cbn [as_kind bind under unary_quantity]. rewrite rmap_bind.
    symmetry. apply (k_to_same t' x). exact (runs_formed _ _ _ (k_to_runs est t' x s Sv E)).
  - step T as a A. step T as q Q. specialize (IH a S L A). pose proof (veval_runs rb est w g gp d m e a W S A) as R.
    rewrite (vev_one m e (VCommon e) KCommon (fun v => x <- as_kind v; Ok (WQuantity (common x)))) by reflexivity.
    rewrite IH. f_equal. destruct R as [(v & -> & [Tv Sv])| ->]; [|reflexivity]. destruct v as [p|x|x]; subst a; try discriminate Q. reflexivity.
  - destruct L as [Lt L]. step T as a A. step T as q Q. step T as s E. specialize (IH a S L A). pose proof (veval_runs rb est w g gp d m e a W S A) as R.
    pose proof (veval_good m e) as VG.
    rewrite (vev_one m e (VCast c e) (KCast c) (fun v => x <- as_kind v; s <- kind_cast est w c x; Ok (WKind s))) by reflexivity.
    transitivity (rmap VQuantity (q <- rmap under (vev m e); cast_left c q)).
    { destruct c as [t1|k|c]; cbn [strip_cast cast_left]; [now rewrite (pev_unary _ _ _ _ IH)| |now rewrite (pev_unary _ _ _ _ IH)].
      rewrite IH. now destruct (rmap under (vev m e)). }
    rewrite bind_rmap. f_equal. rewrite rmap_bind. destruct R as [(v & EV & [Tv Sv])| ->]; [|reflexivity]. rewrite EV. cbn [bind].
    pose proof (VG v M L EV) as X. destruct v as [p|x|x]; subst a; try discriminate Q. inversion Q. subst q. cbn [as_kind bind under]. rewrite rmap_bind.
    symmetry. exact (cast_same c x s X Lt E).
  - destruct L as [Lt L]. step T as a A. step T as q Q. step T as s E. specialize (IH a S L A). pose proof (veval_runs rb est w g gp d m e a W S A) as R.
    rewrite (vev_one m e (VPMake t' e) (KPMake t') (fun v => x <- as_kind v; s <- pk_construct est t' x; Ok (WPoint s))) by reflexivity.
    rewrite (pev_unary _ _ _ _ IH), bind_rmap. f_equal. rewrite rmap_bind. destruct R as [(v & -> & [Tv Sv])| ->]; [|reflexivity]. cbn [bind].
    destruct v as [p|x|x]; subst a; try discriminate Q. inversion Q. subst q. cbn [as_kind bind under unary_quantity]. rewrite rmap_bind.
    symmetry. apply (pk_construct_same t' x). exact (runs_formed _ _ _ (pk_construct_runs est t' x s Sv E)).
  - step T as a A. step T as q Q. step T as s E. specialize (IH a S L A). pose proof (veval_runs rb est w g gp d m e a W S A) as R.
    rewrite (vev_one m e (VPDeduce e) KPDeduce (fun v => x <- as_kind v; s <- pk_deduced gp x; Ok (WPoint s))) by reflexivity.
    rewrite IH. f_equal. destruct R as [(v & -> & [Tv Sv])| ->]; [|reflexivity]. destruct v as [p|x|x]; subst a; try discriminate Q.
    cbn [as_kind bind rmap]. destruct (deduced_eq gp GP x) as (p & -> & <- & _). reflexivity.
  - destruct L as [Lt L]. step T as a A. step T as q Q. step T as s E. specialize (IH a S L A). pose proof (veval_runs rb est w g gp d m e a W S A) as R.
    rewrite (vev_one m e (VPConvert t' e) (KPConvert t') (fun v => x <- as_point v; s <- pk_to rb est t' x; Ok (WPoint s))) by reflexivity.
    rewrite (pev_unary _ _ _ _ IH), bind_rmap. f_equal. rewrite rmap_bind. destruct R as [(v & -> & [Tv Sv])| ->]; [|reflexivity]. cbn [bind].
    destruct v as [p|x|x]; subst a; try discriminate Q. inversion Q. subst q. cbn [as_point bind under unary_quantity]. rewrite rmap_bind.
    symmetry. apply (pk_to_same t' x). exact (runs_formed _ _ _ (pk_to_runs rb est t' x s Sv E)).
  - step T as a A. step T as q Q. specialize (IH a S L A). pose proof (veval_runs rb est w g gp d m e a W S A) as R.
    rewrite (vev_one m e (VRelative e) KRelative (fun v => x <- as_point v; Ok (WKind (pk_relative x)))) by reflexivity.
    rewrite IH. f_equal. destruct R as [(v & -> & [Tv Sv])| ->]; [|reflexivity]. destruct v as [p|x|x]; subst a; try discriminate Q. reflexivity.
  - destruct L as [Lt L]. step T as a A. step T as q Q. step T as s E. specialize (IH a S L A). pose proof (veval_runs rb est w g gp d m e a W S A) as R.
    pose proof (veval_good m e) as VG.
    rewrite (vev_one m e (VPCast c e) (KPCast c) (fun v => x <- as_point v; s <- pk_cast est w gp c x; Ok (WPoint s))) by reflexivity.
    transitivity (rmap VQuantity (q <- rmap under (vev m e); cast_left c q)).
    { destruct c as [t1|k|c]; cbn [strip_cast cast_left]; [now rewrite (pev_unary _ _ _ _ IH)| |now rewrite (pev_unary _ _ _ _ IH)].
      rewrite IH. now destruct (rmap under (vev m e)). }
    rewrite bind_rmap. f_equal. rewrite rmap_bind. destruct R as [(v & EV & [Tv Sv])| ->]; [|reflexivity]. rewrite EV. cbn [bind].
    pose proof (VG v M L EV) as X. destruct v as [p|x|x]; subst a; try discriminate Q. inversion Q. subst q. cbn [as_point bind under]. rewrite rmap_bind.
    symmetry. unfold t_pk_cast in E. step E as t1 T1. transitivity (rmap (fun p => common (pk_relative p)) (pk_cast est w gp c x)); [reflexivity|].
    unfold pk_cast. rewrite deduced_same. exact (cast_same c (pk_relative x) t1 (proj1 X) Lt T1).
  - destruct L as [Lt L]. step T as a A. step T as q Q. step T as s E. specialize (IH a S L A). pose proof (veval_runs rb est w g gp d m e a W S A) as R.
    rewrite (vev_one m e (VPCastTo t' e) (KPCastTo t') (fun v => x <- as_point v; s <- pk_cast_to rb est t' x; Ok (WPoint s))) by reflexivity.
    rewrite (pev_unary _ _ _ _ IH), bind_rmap. f_equal. rewrite rmap_bind. destruct R as [(v & -> & [Tv Sv])| ->]; [|reflexivity]. cbn [bind].
    destruct v as [p|x|x]; subst a; try discriminate Q. inversion Q. subst q. cbn [as_point bind under unary_quantity]. rewrite rmap_bind.
    symmetry. pose proof (runs_formed _ _ _ (pk_cast_to_runs rb est t' x s E)) as F. unfold pk_cast_to in *. apply formed_constrained in F as [_ ->].
    unfold kind_cast_to, q_cast. cbn [pk_relative common q_type q_num qk_type qk_num]. now destruct (quantity_cast est _ _ _).
Qed.

(** ** Conditions *)

Lemma compare_same : forall x y, w_compare rb est w x y <> IllFormed -> w_compare rb est w x y = q_compare est w (under x) (under y).
Proof.
  intros [a|a|a] [b|b|b] F; cbn [w_compare] in *; try (now destruct F); [reflexivity|..].
  - unfold k_compare in *. now apply formed_constrained in F as [_ ->].
  - unfold pk_compare, k_compare in *. apply formed_constrained in F as H. destruct H as [_ H]. rewrite H in *. now apply formed_constrained in F as [_ ->].
Qed.
Lemma eqb_same : forall x y, w_eqb rb est w x y <> IllFormed -> w_eqb rb est w x y = q_eqb est w (under x) (under y).
Proof.
  intros [a|a|a] [b|b|b] F; cbn [w_eqb] in *; try (now destruct F); [reflexivity|..].
  - unfold k_eqb in *. now apply formed_constrained in F as [_ ->].
  - unfold pk_eqb, k_eqb in *. apply formed_constrained in F as H. destruct H as [_ H]. rewrite H in *. now apply formed_constrained in F as [_ ->].
Qed.
Lemma relation_same : forall o x y, w_relation rb est w o x y <> IllFormed ->
  relation rb est w o (bare_value x) (bare_value y) = w_relation rb est w o x y.
Proof.
  intros o x y F. destruct o; cbn [w_relation relation v_compare v_eqb] in *; try (rewrite <- compare_same; [reflexivity|exact (formed_bind _ _ _ _ F)]).
  - now rewrite <- eqb_same.
  - rewrite <- eqb_same; [reflexivity|exact (formed_bind _ _ _ _ F)].
Qed.
Lemma strip_holds : forall d m c, kwell_typed d m -> Forall vgood m -> vcond_sound c -> vlegal_cond P c -> vcompiles_cond rb est w g gp d c = Ok tt ->
  holds rb est w (bare m) (strip_cond (map is_quantity d) c) = vholds rb est w g gp m c.
Proof.
  intros d m c W M. induction c as [o a b|c IH|c IHc e IHe|c IHc e IHe]; intros S L H; cbn [vholds strip_cond holds vcompiles_cond vcond_sound vlegal_cond] in *.
  - destruct S as [Sa Sb], L as [La Lb]. step H as x X. step H as y Y. rewrite (strip_eval d m a x W M Sa La X), (strip_eval d m b y W M Sb Lb Y).
    destruct (veval_runs rb est w g gp d m a x W Sa X) as [(u & -> & [TU SU])| ->]; [|reflexivity]. cbn [rmap bind].
    destruct (veval_runs rb est w g gp d m b y W Sb Y) as [(v & -> & [TV SV])| ->]; [|reflexivity]. cbn [rmap bind].
    apply relation_same. apply (runs_formed _ (fun _ => True)). apply w_relation_runs; auto. now rewrite TU, TV.
  - now rewrite IH.
  - destruct S as [Sa Sb], L as [La Lb]. step H as u V. destruct u. rewrite (IHc Sa La V). destruct (vholds rb est w g gp m c) as [[|]| | | |]; try reflexivity.
    cbn [bind]. auto.
  - destruct S as [Sa Sb], L as [La Lb]. step H as u V. destruct u. rewrite (IHc Sa La V). destruct (vholds rb est w g gp m c) as [[|]| | | |]; try reflexivity.
    cbn [bind]. auto.
Qed.

(** ** Changes *)

Lemma assigned_same : forall old new, kassigned rb est old new <> IllFormed ->
  assigned rb est (bare_value old) (bare_value new) = rmap bare_value (kassigned rb est old new).
Proof.
  intros [a|a|a] [b|b|b] F; cbn [kassigned] in *; try (now destruct F); cbn [assigned under]; rewrite rmap_bind; apply formed_bind in F.
  - now destruct (q_to est (q_type a) b).
  - pose proof (k_to_same _ _ F) as E. change (q_type (common a)) with (kt_qtype (qk_type a)). rewrite <- E. now destruct (k_to est (qk_type a) b).
  - pose proof (pk_to_same _ _ F) as E. change (q_type (common (pk_relative a))) with (kt_qtype (pkt_ktype (qpk_type a))). rewrite <- E.
    now destruct (pk_to rb est (qpk_type a) b).
Qed.
Lemma add_converted : forall (f : quantity -> action) q b, (f = AAdd \/ f = ASub) ->
  (b' <- q_to est (q_type q) b; q_act est q (f b')) = q_act est q (f b).
Proof.
  intros f q b [->| ->]; unfold q_to, q_act; cbv zeta; destruct (q_convert est (q_type b) (q_type q) (q_num b)) as [n| | | |]; try reflexivity;
    cbn [bind q_type q_num]; rewrite q_convert_same; reflexivity.
Qed.
Definition left_action (a : kaction) : action :=
  match a with
  | KInc => AInc | KDec => ADec | KAdd b => AAdd (common b) | KSub b => ASub (common b) | KRem b => ARem (common b)
  | KMulV r v => AMulV r v | KDivV r v => ADivV r v | KRemV r v => ARemV r v
  | KMulK _ | KDivK _ | KRemOne _ => AInc
  end.
Lemma k_act_same : forall x a, kaction_fits est (qk_type x) a -> rmap common (k_act est g x a) = q_act est (common x) (left_action a).
Proof.
  intros x a F. unfold k_act. cbv zeta. rewrite rmap_bind.
  assert (E : forall r, (forall q, r = Ok q -> q_type q = kt_qtype (qk_type x)) -> (q <- r; rmap common (Ok (QKind (qk_type x) (q_num q)))) = r).
  { intros [q| | | |] H; try reflexivity. specialize (H q eq_refl). destruct q as [t n]. cbn in *. now subst t. }
  rewrite E.
  - assert (T : forall b, k_sound b -> t_k_to est (qk_type x) (qk_type b) = Ok (qk_type x) -> forall f, f = AAdd \/ f = ASub ->
      (y' <- k_to est (qk_type x) b; q_act est (common x) (f (common y'))) = q_act est (common x) (f (common b))).
    { intros b B H f Hf. pose proof (k_to_same _ _ (runs_formed _ _ _ (k_to_runs est _ b _ B H))) as K.
      rewrite <- (add_converted f (common x) (common b) Hf). change (q_type (common x)) with (kt_qtype (qk_type x)). rewrite <- K. now rewrite bind_rmap. }
    destruct a as [| |b|b|b|r v|r v|r v|b|b|b]; cbn [kaction_fits left_action] in *; try contradiction; try reflexivity.
    + destruct F as [B H]. apply T; auto.
    + destruct F as [B H]. apply T; auto.
    + destruct F as (B & H & _). unfold qk_kind. now rewrite H.
  - intros q Q. destruct a as [| |b|b|b|r v|r v|r v|b|b|b]; try (exact (act_quantity _ _ _ _ Q)); step Q as y Y; exact (act_quantity _ _ _ _ Q).
Qed.
Definition left_change (h : vchange) (o : option kvalue) : res action :=
  match h, o with
  | VInc, _ => Ok AInc | VDec, _ => Ok ADec
  | VAdd _, Some v => Ok (AAdd (under v)) | VSub _, Some v => Ok (ASub (under v)) | VRem _, Some v => Ok (ARem (under v))
  | VMulV r v, _ => Ok (AMulV r v) | VDivV r v, _ => Ok (ADivV r v) | VRemV r v, _ => Ok (ARemV r v)
  | _, None => IllFormed
  end.
Lemma changed_same : forall old h o, (forall v, o = Some v -> ksound v) -> t_kchanged est (kvtype old) h (option_map kvtype o) = Ok tt ->
  (a <- left_change h o; changed est (bare_value old) a) = rmap bare_value (kchanged est g old h o).
Proof.
  intros old h o S H. destruct old as [q|x|x]; cbn [kvtype kchanged changed under] in *.
  - assert (A : forall a, q_action h o = Ok a -> left_change h o = Ok a ->
      (a <- left_change h o; s <- q_act est q a; Ok (VQuantity s)) = rmap bare_value (a <- q_action h o; s <- q_act est q a; Ok (WQuantity s))).
    { intros a -> ->. cbn [bind]. now destruct (q_act est q a). }
    destruct h as [| |e|e|e|r v|r v|r v]; try (eapply A; reflexivity; fail);
      destruct o as [[b|b|b]|]; cbn [option_map kvtype t_kchanged] in H; try discriminate; eapply A; reflexivity.
  - assert (A : forall a, k_action h o = Ok a -> kaction_fits est (qk_type x) a -> left_change h o = Ok (left_action a) ->
      (a <- left_change h o; s <- q_act est (common x) a; Ok (VQuantity s)) = rmap bare_value (a <- k_action h o; s <- k_act est g x a; Ok (WKind s))).
    { intros a -> F ->. cbn [bind]. rewrite <- (k_act_same x a F). now destruct (k_act est g x a). }
    destruct h as [| |e|e|e|r v|r v|r v]; try (eapply A; [reflexivity|exact I|reflexivity]; fail);
      try (destruct o as [[b|b|b]|]; cbn [option_map kvtype t_kchanged] in H; try discriminate; specialize (S _ eq_refl)).
    + step H as s T. pose proof (t_k_to_type _ _ _ _ T). subst s. eapply A; [reflexivity|now split|reflexivity].
    + step H as s T. pose proof (t_k_to_type _ _ _ _ T). subst s. eapply A; [reflexivity|now split|reflexivity].
    + step H as u Hu. step H as u' Hu'. destruct u, u'. eapply A; [reflexivity|split; [exact S|now split]|reflexivity].
    + eapply A; [reflexivity|exact H|reflexivity].
  - assert (A : forall a, p_action h o = Ok a -> kaction_fits est (pkt_ktype (qpk_type x)) (pk_action a) -> left_change h o = Ok (left_action (pk_action a)) ->
      (a <- left_change h o; s <- q_act est (common (pk_relative x)) a; Ok (VQuantity s)) = rmap bare_value (a <- p_action h o; s <- pk_act est g x a; Ok (WPoint s))).
    { intros a -> F ->. cbn [bind]. rewrite <- (k_act_same (pk_relative x) _ F). unfold pk_act.
      destruct (k_act est g (pk_relative x) (pk_action a)) as [s| | | |] eqn:E; try reflexivity. cbn [bind rmap].
      unfold k_act in E. cbv zeta in E. step E as y Y. inversion E. reflexivity. }
    destruct h as [| |e|e|e|r v|r v|r v]; try (eapply A; [reflexivity|exact I|reflexivity]; fail);
      try (destruct o as [[b|b|b]|]; cbn [option_map kvtype t_kchanged] in H; try discriminate; specialize (S _ eq_refl)).
    + step H as s T. pose proof (t_k_to_type _ _ _ _ T). subst s. eapply A; [reflexivity|now split|reflexivity].
    + step H as s T. pose proof (t_k_to_type _ _ _ _ T). subst s. eapply A; [reflexivity|now split|reflexivity].
Qed.
Lemma operand_same : forall d m h o, kwell_typed d m -> Forall vgood m -> vchange_sound h ->
  (match h with VAdd e | VSub e | VRem e => vlegal P e | _ => True end) -> t_operand rb est w g gp d h = Ok o ->
  action_of rb est w (bare m) (strip_change (map is_quantity d) h) = (v <- voperand rb est w g gp m h; left_change h v).
Proof.
  intros d m h o W M S L H. destruct h as [| |e|e|e|r v|r v|r v]; cbn [strip_change action_of voperand t_operand vchange_sound] in *; try reflexivity;
    step H as t T; rewrite (strip_eval d m e t W M S L T); now destruct (vev m e).
Qed.

(** ** Programs *)

Lemma typed_good : forall d m, Forall (legal_typ P) d -> kwell_typed d m -> Forall vgood m.
Proof.
  intros d m D W. induction W as [|t v d m [T S] W IH]; [constructor|]. inversion D. subst. constructor; [|now apply IH].
  destruct v as [q|x|x]; assumption.
Qed.
Lemma update_bare : forall m x v, update (bare m) x (bare_value v) = bare (kupdate m x v).
Proof. induction m as [|a m IH]; intros [|x] v; cbn; try reflexivity. f_equal. apply IH. Qed.
Lemma lookup_bare : forall m x, lookup (bare m) x = rmap bare_value (klookup m x).
Proof. intros m x. unfold lookup, klookup, bare. rewrite nth_error_map. now destruct (nth_error m x). Qed.
Lemma without_is : forall r, without_kinds r = rmap bare r.
Proof. now intros [m| | | |]. Qed.

Theorem erased : forall n s d m, Forall (legal_typ P) d -> kwell_typed d m -> vstmt_sound s -> vlegal_stmt P s -> vcompiles rb est w g gp d s = Ok tt ->
  run rb est w n (strip_stmt (map is_quantity d) s) (bare m) = without_kinds (vrun rb est w g gp n s m).
Proof.
  intros n s d m D W S L H. rewrite without_is. revert s m W S L H.
  induction n as [|n IH]; intros s m W S L H; [reflexivity|]. pose proof (typed_good d m D W) as M.
  destruct s as [|a b|x e|x h|c a b|c a]; cbn [strip_stmt run vrun vcompiles vstmt_sound vlegal_stmt] in *.
  - reflexivity.
  - step H as u V. destruct u, S as [Sa Sb], L as [La Lb]. rewrite (IH a m W Sa La V), bind_rmap, rmap_bind.
    destruct (vrun_goes rb est w g gp n a d m W Sa V) as [[(m' & -> & W')| ->]| ->]; [|reflexivity..]. cbn [bind]. exact (IH b m' W' Sb Lb H).
  - step H as old O. step H as new N. unfold kdeclared_type in O. destruct (nth_error d x) as [t|] eqn:E; [|discriminate]. inversion O. subst old.
    destruct (ktyped_at d m x t W E) as (v & V & T & Sv). rewrite lookup_bare, bind_rmap. unfold klookup. rewrite V; cbn [bind].
    rewrite (strip_eval d m e new W M S L N). destruct (veval_runs rb est w g gp d m e new W S N) as [(y & -> & [Ty Y])| ->]; [|reflexivity]. cbn [rmap bind].
    rewrite <- T, <- Ty in H. pose proof (kassigned_runs rb est v y Y H) as R. rewrite (assigned_same v y (runs_formed _ _ _ R)).
    destruct R as [(z & -> & _)| ->]; [|reflexivity]. cbn [rmap bind]. now rewrite update_bare.
  - step H as old O. step H as o N. unfold kdeclared_type in O. destruct (nth_error d x) as [t|] eqn:E; [|discriminate]. inversion O. subst old.
    destruct (ktyped_at d m x t W E) as (v & V & T & Sv). rewrite lookup_bare, bind_rmap. unfold klookup. rewrite V; cbn [bind].
    rewrite (operand_same d m h o W M S L N). destruct (voperand_runs rb est w g gp d m h o W S N) as [(y & -> & [Ty Y])| ->]; [|reflexivity]. cbn [bind].
    rewrite <- T, <- Ty in H. pose proof (changed_same v h y Y H) as K. pose proof (kchanged_runs est g v h y Y H) as R.
    destruct R as [(z & R & _)|R]; rewrite R in *; cbn [rmap bind] in *.
    + destruct (left_change h y) as [a| | | |]; try discriminate K. cbn [bind] in *. rewrite K. cbn [bind]. now rewrite update_bare.
    + destruct (left_change h y) as [a| | | |]; try discriminate K; [|reflexivity]. cbn [bind] in *. now rewrite K.
  - step H as u V. step H as u' V'. destruct u, u', S as (Sc & Sa & Sb), L as (Lc & La & Lb). rewrite (strip_holds d m c W M Sc Lc V), rmap_bind.
    destruct (vholds rb est w g gp m c) as [[|]| | | |]; try reflexivity; cbn [bind]; auto.
  - assert (H0 := H). step H as u V. destruct u. destruct S as (Sc & Sa), L as (Lc & La). rewrite (strip_holds d m c W M Sc Lc V), rmap_bind.
    destruct (vholds rb est w g gp m c) as [[|]| | | |]; try reflexivity. cbn [bind]. rewrite (IH a m W Sa La H), bind_rmap, rmap_bind.
    destruct (vrun_goes rb est w g gp n a d m W Sa H) as [[(m' & -> & W')| ->]| ->]; [|reflexivity..]. cbn [bind].
    apply (IH (VWhile c a) m' W'); [now split|now split|exact H0].
Qed.
End Erase.
