(** Proofs about the concepts of the quantities. *)

From Coq Require Import ZArith QArith Lqa Lia String List Bool Sorted.
From Verif Require Import Outcome CInt Root Ratio FixedString Unit Downcast Dim DimOp UnitDecl Rep QuantityCast Quantity
  System Catalogue Concepts SpecDim SpecCatalogue SpecSystems SpecConcepts DimProofs DimOpProofs DimOpProofs3 SystemProofs IsqProofs
  CatalogueProofs KindProofs WorldProofs SystemsProofs.
Import ListNotations.
Local Open Scope string_scope.
Local Open Scope Z_scope.
Local Open Scope res_scope.

#[local] Opaque full catalogue unit_table natural_table quantity_table isq_templates prefix_table systems isq_systems.

(** ** What a program declares *)

Lemma elaborate_dims_ind : forall est mode ts (P : option string -> dimension -> Prop),
  (forall e x o d, yields est ts e x (TDim o d) -> P o d) ->
  forall prog e e', elaborate est mode ts e prog = Ok e' -> (forall o d, In (o, d) (en_dims e) -> P o d) ->
  forall o d, In (o, d) (en_dims e') -> P o d.
Proof.
  intros est mode ts P S prog. induction prog as [|x prog IH]; cbn [elaborate]; intros e e' H Pe.
  - inversion H; subst; exact Pe.
  - step H as m M. apply (IH m e' H). destruct (elaborate_yields _ _ _ _ _ _ M) as (_ & t & Y & A & _).
    destruct t as [p|u|o' d']; cbn [adds] in A; destruct A as (_ & _ & A); rewrite A; try exact Pe.
    intros o d [D|D]; [|exact (Pe o d D)]. injection D as <- <-. exact (S _ _ _ _ Y).
Qed.

(** Declared dimensions are no products, and a base dimension has the symbol of its template. *)
Definition labelled (o : option string) (d : dimension) : Prop :=
  match d with
  | DBase b => forall t, o = Some t -> base_symbol isq_templates t = Ok (bd_symbol b)
  | DDerived _ _ _ _ => forall t, o = Some t -> exists ps r, In (TDerived t ps r) isq_templates
  | DUnknown _ _ => False
  end.
Lemma yields_labelled : forall est e x o d, yields est isq_templates e x (TDim o d) -> labelled o d.
Proof.
  intros est e x o d Y. destruct x; cbn [yields] in Y; try (destruct Y as (? & ? & _ & _ & C); discriminate C).
  - destruct Y as (cu & b & _ & _ & C). injection C as -> ->. intros t T. discriminate T.
  - destruct Y as (s & cu & b & S & _ & B & C). injection C as -> ->. intros t' T. injection T as <-. rewrite S. f_equal.
    unfold mk_base_dimension in B. unbind. reflexivity.
  - destruct Y as (rec & cu & d' & _ & _ & B & C). injection C as -> ->. unfold mk_derived_dimension in B. unbind.
    intros t T. discriminate T.
  - destruct Y as (ds & r & rec & cu & d' & _ & R & _ & _ & B & C). injection C as -> ->. unfold mk_derived_dimension in B. unbind.
    intros t' T. injection T as <-. destruct (specialisation_in _ _ _ _ R) as (ps & I & _). eauto.
Qed.
Lemma program_labelled : forall est mode prog e, elaborate est mode isq_templates empty_env prog = Ok e ->
  forall o d, In (o, d) (en_dims e) -> labelled o d.
Proof. intros est mode prog e H. apply (elaborate_dims_ind est mode isq_templates labelled (yields_labelled est) prog empty_env e H). intros o d []. Qed.

(** Without downcasting there are no guides. *)
Lemma off_world : forall est ts prog e e', elaborate est Off ts e prog = Ok e' -> w_dims (en_world e) = empty_registry ->
  w_dims (en_world e') = empty_registry.
Proof.
  intros est ts prog. induction prog as [|x prog IH]; cbn [elaborate]; intros e e' H W.
  - inversion H; subst; exact W.
  - step H as m M. apply (IH m e' H). clear IH H. unfold elaborate_entry in M. step M as v0 T. clear v0 T.
    assert (U : forall ud, declare_unit_entry est Off e ud = Ok m -> w_dims (en_world m) = empty_registry).
    { intros ud D. unfold declare_unit_entry in D. step D as us D1. destruct us as [|u us]; [discriminate D|]. step D as w Ww. inversion D; subst m. cbn [en_world].
      destruct (registers ud); [|inversion Ww; subst w; exact W]. unfold declare_unit in Ww. step Ww as g G. inversion Ww; subst w. exact W. }
    assert (D : forall o n u rec, declare_dim_entry Off e o n u rec = Ok m -> w_dims (en_world m) = empty_registry).
    { intros o n u rec D. unfold declare_dim_entry in D. step D as cu C. step D as d Dd. step D as w Ww. inversion D; subst m. cbn [en_world].
      unfold declare_dimension in Ww. step Ww as d' D'. step Ww as g G. inversion Ww; subst w. cbn [w_dims]. cbn [declare] in G. inversion G; subst g. exact W. }
    destruct x; try (step M as o O; destruct o as [y|]; [exact (U y M)|discriminate M]).
    + step M as r R. step M as p P. step M as g G. inversion M; subst m. exact W.
    + unfold declare_base_entry in M. step M as cu C. step M as b B. inversion M; subst m. exact W.
    + step M as s S. unfold declare_base_entry in M. step M as cu C. step M as b B. inversion M; subst m. exact W.
    + step M as rec R. exact (D _ _ _ _ M).
    + step M as ds Ds. step M as r R. step M as rec Rec. exact (D _ _ _ _ M).
Qed.

Section Program.
Variables (est : estimate) (mode : downcast_mode) (prog : list entry) (e : env).
Hypothesis E : elaborate est mode isq_templates empty_env prog = Ok e.

Lemma specialises_declared : forall o d, In (o, d) (en_dims e) -> specialises e d = o.
Proof.
  intros o d H. pose proof (program_labelled _ _ _ _ E _ _ H) as L.
  pose proof (elaborate_unique _ _ _ _ _ _ empty_unique E) as (_ & _ & U). specialize (U _ _ H).
  unfold specialises. destruct d; [rewrite U; reflexivity..|contradiction L].
Qed.
Lemma not_unknown : forall o a es, ~ In (o, DUnknown a es) (en_dims e).
Proof. intros o a es H. exact (program_labelled _ _ _ _ E _ _ H). Qed.

Lemma declared_of_t : forall o d t, In (o, d) (en_dims e) ->
  dimension_of_t mode isq_templates e d t = Ok (match o with Some t' => String.eqb t t' | None => false end).
Proof.
  intros o d t H. unfold dimension_of_t. rewrite (specialises_declared o d H).
  destruct o as [t'|]; [destruct (String.eqb t t'); [reflexivity|]|];
    (destruct d; [destruct mode; reflexivity..|exfalso; exact (not_unknown _ _ _ H)]).
Qed.

Lemma same_recipe_eq : forall rec es, same_recipe rec es = true -> rec = map (fun x => (DBase (e_dim x), (e_num x, e_den x))) es.
Proof.
  induction rec as [|[d [n k]] rec IH]; intros [|x es] H; cbn [same_recipe] in H; try discriminate; [reflexivity| |].
  - destruct d; discriminate.
  - destruct d as [b| |]; try discriminate. apply andb_true_iff in H as [A B]. destruct (bexp_eq_dec (BExp b n k) x) as [<-|]; [|discriminate].
    cbn [map e_dim e_num e_den]. now rewrite (IH es B).
Qed.

Lemma sound_exponents : forall t d, sound (quantity_of e) t d -> exists row, assoc quantity_table t = Some row /\ has_exponents e d row.
Proof.
  intros t d ((row & R) & F & Q). exists row. split; [exact R|]. intros k. destruct (in_dec string_dec k kinds) as [Hk|Hk].
  - destruct (Q k Hk) as [X _]. unfold row_of in X. rewrite R in X. exact X.
  - rewrite (qexpo_other _ _ _ (fun x Hx => proj2 (proj1 (Forall_forall _ _) F x Hx)) Hk).
    rewrite exponent_in_other; [reflexivity| |exact Hk].
    exact (proj1 (forallb_forall _ _) rows_ok _ (assoc_in _ _ _ _ R)).
Qed.
Lemma program_sound : forall t d, In (Some t, d) (en_dims e) -> sound (quantity_of e) t d.
Proof.
  pose proof (elaborate_unique _ _ _ _ _ _ empty_unique E) as U.
  apply (elaborate_sound _ _ _ _ _ _ E (quantity_of_labels e U)). intros q z [].
Qed.

Lemma of_t_sound : forall d t, of_program e d -> dimension_of_t mode isq_templates e d t = Ok true ->
  exists row, assoc quantity_table t = Some row /\ has_exponents e d row.
Proof.
  intros d t [(o & O)|(es & U & B)] H.
  - rewrite (declared_of_t o d t O) in H. destruct o as [t'|]; [|discriminate]. injection H as H. apply String.eqb_eq in H. subst t'.
    exact (sound_exponents t d (program_sound t d O)).
  - unfold mk_unknown_dimension in U. step U as es' M. inversion U; subst d. clear U.
    unfold dimension_of_t in H. cbn [specialises] in H.
    assert (H' : same_exponents_of isq_templates e es t = Ok true) by (revert H; clear; destruct mode; (discriminate || auto)).
    clear H. rename H' into H.
    unfold same_exponents_of in H. step H as r R. step H as rec Rec. injection H as H. apply same_recipe_eq in H.
    destruct (specialisation_in _ _ _ _ R) as (ps & Ip & Eq).
    set (ds := map (fun x => (specialises e (DBase (e_dim x)), DBase (e_dim x))) es).
    assert (S : sound (quantity_of e) t (DDerived "" es' unknown_coherent_unit rec)).
    { apply (derived_sound (quantity_of e) t ps r ds rec "" unknown_coherent_unit).
      - exact Ip.
      - unfold ds. rewrite map_map. exact Eq.
      - intros q x Hx. unfold ds in Hx. apply in_map_iff in Hx as (y & Ey & Hy). pose proof (f_equal snd Ey) as Ex. apply (f_equal fst) in Ey. cbn [fst snd] in Ey, Ex. subst x.
        destruct (B y Hy) as (o & O). rewrite (specialises_declared _ _ O) in Ey. subst o. exact (program_sound q _ O).
      - unfold ds. rewrite map_map. exact Rec.
      - unfold mk_derived_dimension. rewrite H, M. reflexivity. }
    exact (sound_exponents _ _ S).
Qed.

(** ** Without downcasting *)

Definition before (a b : string) : bool := match String.compare a b with Lt => true | _ => false end.
Fixpoint increasing (l : list string) : bool :=
  match l with
  | a :: r => forallb (before a) r && increasing r
  | [] => true
  end.
Definition plain (t : string) : bool := existsb (fun c => String.eqb t (quantity_called c)) plain_concepts.
Lemma others_checked : forallb (fun x => match x with
    | TDerived t ps _ => plain t || match map_res (base_symbol isq_templates) ps with Ok l => negb (increasing l) | _ => true end
    | TBase _ _ => true
    end) isq_templates = true.
Proof. vm_compute. reflexivity. Qed.

Lemma increasing_symbols : forall es, StronglySorted (fun a b => symbol_lt (e_dim a) (e_dim b)) es ->
  increasing (map (fun x => bd_symbol (e_dim x)) es) = true.
Proof.
  induction es as [|a es IH]; intros S; [reflexivity|]. apply StronglySorted_inv in S as [S F]. cbn [map increasing].
  rewrite (IH S), andb_true_r. apply forallb_forall. intros y Hy. apply in_map_iff in Hy as (x & <- & Hx).
  pose proof (proj1 (Forall_forall _ _) F x Hx) as L. cbv beta in L. unfold symbol_lt in L. unfold before. now rewrite L.
Qed.
Lemma symbols_increasing : forall es, increasing (map (fun x => bd_symbol (e_dim x)) es) = true ->
  StronglySorted (fun a b => symbol_lt (e_dim a) (e_dim b)) es.
Proof.
  induction es as [|a es IH]; intros H; constructor; cbn [map increasing] in H; apply andb_true_iff in H as [A B]; [exact (IH B)|].
  apply Forall_forall. intros x Hx. pose proof (proj1 (forallb_forall _ _) A _ (in_map (fun x => bd_symbol (e_dim x)) _ _ Hx)) as L.
  unfold before in L. unfold symbol_lt. destruct (String.compare (bd_symbol (e_dim a)) (bd_symbol (e_dim x))); try discriminate L; reflexivity.
Qed.

Lemma refused : forall es t, plain t = false -> StronglySorted (fun a b => symbol_lt (e_dim a) (e_dim b)) es ->
  (forall x, In x es -> exists o, In (o, DBase (e_dim x)) (en_dims e)) -> same_exponents_of isq_templates e es t = IllFormed.
Proof.
  intros es t P S B. unfold same_exponents_of.
  destruct (specialisation isq_templates t (map (fun x => specialises e (DBase (e_dim x))) es)) as [r| | | |] eqn:R; try reflexivity;
    try (exfalso; revert R; unfold specialisation; clear; destruct (filter _ _) as [|[] []]; discriminate).
  exfalso. destruct (specialisation_in _ _ _ _ R) as (ps & Ip & Eq).
  assert (Sy : map_res (base_symbol isq_templates) ps = Ok (map (fun x => bd_symbol (e_dim x)) es)).
  { clear - Eq B E. revert es Eq B. induction ps as [|p ps IH]; intros [|x es] Eq B; cbn [map] in Eq; try discriminate; [reflexivity|].
    pose proof (f_equal (@tl _) Eq) as E2. apply (f_equal (@hd_error _)) in Eq. cbn [tl hd_error] in E2, Eq.
    assert (E1 : Some p = specialises e (DBase (e_dim x))) by congruence. clear Eq.
    destruct (B x (or_introl eq_refl)) as (o & O). rewrite (specialises_declared _ _ O) in E1. subst o.
    pose proof (program_labelled _ _ _ _ E _ _ O p eq_refl) as L. cbn [map_res]. rewrite L. cbn [bind].
    rewrite (IH es E2); [reflexivity|]. intros y Hy. apply B. now right. }
  pose proof (proj1 (forallb_forall _ _) others_checked _ Ip) as C. cbn beta iota in C. rewrite P, Sy, (increasing_symbols es S) in C. discriminate C.
Qed.
End Program.

(** The class templates of the plain concepts: parameters with their exponents. *)
Definition plain_table : list (string * list (string * Z)) := [
  ("dim_acceleration", [("dim_length", 1); ("dim_time", -2)]); ("dim_angular_velocity", [("dim_angle", 1); ("dim_time", -1)]);
  ("dim_area", [("dim_length", 2)]); ("dim_current_density", [("dim_electric_current", 1); ("dim_length", -2)]);
  ("dim_frequency", [("dim_time", -1)]); ("dim_luminance", [("dim_luminous_intensity", 1); ("dim_length", -2)]);
  ("dim_radioactivity", [("dim_time", -1)]); ("dim_speed", [("dim_length", 1); ("dim_time", -1)]); ("dim_volume", [("dim_length", 3)])].
Definition sum_of (l : list (string * Z)) (k : string) : Z := fold_right Z.add 0 (map (fun x => if String.eqb (fst x) k then snd x else 0) l).
Definition numbered (l : list (string * Z)) : list (nat * Z) := combine (seq 0 (List.length l)) (map snd l).
Definition recipe_eqb (a b : list (nat * Z)) : bool := if list_eq_dec (fun x y : nat * Z => ltac:(decide equality; [apply Z.eq_dec|apply Nat.eq_dec])) a b then true else false.
Lemma plain_checked : forallb (fun x => match specialisation isq_templates (fst x) (map (fun y => Some (fst y)) (snd x)) with
    | Ok r => recipe_eqb r (numbered (snd x)) | _ => false end &&
    match map_res (base_symbol isq_templates) (map fst (snd x)) with Ok l => increasing l | _ => false end &&
    forallb (fun k => exponent_in (row_of (fst x)) k =? sum_of (snd x) k) kinds &&
    forallb (fun y => exponent_in (row_of (fst x)) (fst y) =? snd y) (snd x)) plain_table = true.
Proof. vm_compute. reflexivity. Qed.
Lemma plain_listed : map quantity_called plain_concepts = map fst plain_table.
Proof. reflexivity. Qed.

Section Obtained.
Variables (est : estimate) (prog : list entry) (e : env).
Hypothesis I : incl prog catalogue.
Variable mode : downcast_mode.
Hypothesis E : elaborate est mode isq_templates empty_env prog = Ok e.
Variable s : list string.
Hypothesis Hs : In s isq_systems.

Lemma qexpo_present : forall K k es, ~ (quantity_expo K k es == 0)%Q -> exists x, In x es /\ K (e_dim x) = k.
Proof.
  intros K k es; induction es as [|x es IH]; cbn [quantity_expo]; intros H; [exfalso; apply H; reflexivity|].
  destruct (String.eqb (K (e_dim x)) k) eqn:Q; [apply String.eqb_eq in Q; exists x; split; [now left|exact Q]|].
  destruct IH as (y & Hy & Y); [intros C; apply H; rewrite C; reflexivity|]. exists y. split; [now right|exact Y].
Qed.

Lemma accepted : forall t l es, In (t, l) plain_table -> normal es -> over (base_of e s) es ->
  (forall k, quantity_expo (quantity_of e) k es == inject_Z (exponent_in (row_of t) k))%Q ->
  same_exponents_of isq_templates e es t = Ok true.
Proof.
  intros t l es Hl N O X. pose proof (proj1 (forallb_forall _ _) plain_checked _ Hl) as C. cbn [fst snd] in C.
  apply andb_true_iff in C as [C C4]. apply andb_true_iff in C as [C C3]. apply andb_true_iff in C as [C1 C2].
  assert (Small : Forall (fun y : string * Z => snd y <> 0 /\ Z.abs (snd y) <= 9) l).
  { apply Forall_forall. assert (T : forallb (fun x => forallb (fun y : string * Z => negb (snd y =? 0) && (Z.abs (snd y) <=? 9)) (snd x)) plain_table = true) by reflexivity.
    pose proof (proj1 (forallb_forall _ _) T _ Hl) as T1. intros y Hy. pose proof (proj1 (forallb_forall _ _) T1 _ Hy) as T2.
    apply andb_true_iff in T2 as [A B]. apply negb_true_iff, Z.eqb_neq in A. apply Z.leb_le in B. auto. }
  assert (Bs : exists bs, Forall2 (fun y b => In (Some (fst y), DBase b) (en_dims e) /\ base_of e s b /\ quantity_of e b = fst y) l bs).
  { assert (P : forall y, In y l -> exists b, In (Some (fst y), DBase b) (en_dims e) /\ base_of e s b /\ quantity_of e b = fst y).
    { intros y Hy. pose proof (proj1 (forallb_forall _ _) C4 _ Hy) as A. apply Z.eqb_eq in A.
      destruct (qexpo_present (quantity_of e) (fst y) es) as (x & Hx & Qx).
      { rewrite X, A. intros Z0. destruct (proj1 (Forall_forall _ _) Small _ Hy) as [S _]. apply S.
        unfold Qeq, inject_Z in Z0. cbn [Qnum Qden] in Z0. lia. }
      exists (e_dim x). destruct (program_quantity est mode prog e I E s Hs (e_dim x) (O x Hx)) as (q & D & Q).
      assert (Eq : fst y = q) by congruence. rewrite Eq. split; [exact D|]. split; [exact (O x Hx)|exact Q]. }
    clear - P. induction l as [|y l IH]; [exists []; constructor|].
    destruct (P y (or_introl eq_refl)) as (b & B). destruct IH as (bs & Bs); [intros z Hz; apply P; now right|].
    exists (b :: bs). now constructor. }
  destruct Bs as (bs & Bs).
  set (expected := map (fun z => BExp (snd z) (snd (fst z)) 1) (combine l bs)).
  assert (Sy : map_res (base_symbol isq_templates) (map fst l) = Ok (map (fun x => bd_symbol (e_dim x)) expected)).
  { unfold expected. clear - Bs E. induction Bs as [|y b l bs (B & _) _ IH]; [reflexivity|]. cbn [map map_res combine].
    rewrite (program_labelled _ _ _ _ E _ _ B _ eq_refl). cbn [bind]. rewrite IH. reflexivity. }
  rewrite Sy in C2.
  assert (Eq : es = expected).
  { apply (normal_unique (base_of e s) (program_symbols est mode prog e I E s (isq_in_systems s Hs))); [exact N| |exact O| |].
    - split.
      + apply symbols_increasing. exact C2.
      + unfold expected. apply Forall_forall. intros x Hx. apply in_map_iff in Hx as ([y b] & <- & Hy). apply in_combine_l in Hy.
        destruct (proj1 (Forall_forall _ _) Small _ Hy) as [S1 S2]. unfold proper. cbn [e_num e_den fst snd].
        change INTMAX_MAX with 9223372036854775807. split; [exact S1|]. split; [lia|]. split; [apply Z.gcd_1_r|]. lia.
    - intros x Hx. unfold expected in Hx. apply in_map_iff in Hx as ([y b] & <- & Hy). cbn [e_dim snd].
      clear - Bs Hy. induction Bs as [|y' b' l bs (_ & B & _) _ IH]; [destruct Hy|]. destruct Hy as [Hy|Hy]; [injection Hy as _ <-; exact B|exact (IH Hy)].
    - intros b Ub. rewrite (expo_quantity est mode prog e I E s Hs es b O Ub).
      rewrite X. assert (Ox : over (base_of e s) expected).
      { intros x Hx. unfold expected in Hx. apply in_map_iff in Hx as ([y b'] & <- & Hy). cbn [e_dim snd].
        clear - Bs Hy. induction Bs as [|y' b0 l bs (_ & B & _) _ IH]; [destruct Hy|]. destruct Hy as [Hy|Hy]; [injection Hy as _ <-; exact B|exact (IH Hy)]. }
      rewrite (expo_quantity est mode prog e I E s Hs expected b Ox Ub).
      assert (Kb : In (quantity_of e b) kinds).
      { destruct (program_quantity est mode prog e I E s Hs b Ub) as (q & D & Q). rewrite Q.
        destruct (program_sound est mode prog e E q _ D) as (_ & F & _). inversion F as [|? ? [_ F1] _]; subst. exact F1. }
      pose proof (proj1 (forallb_forall _ _) C3 _ Kb) as R. apply Z.eqb_eq in R. rewrite R.
      unfold expected, sum_of. clear - Bs. revert Bs. generalize (quantity_of e b). intros k Bs.
      induction Bs as [|y b0 l bs (_ & _ & B) _ IH]; [reflexivity|].
      cbn [combine map quantity_expo e_dim snd fst fold_right]. rewrite B, inject_Z_plus, IH.
      destruct (String.eqb (fst y) k); [|reflexivity]. unfold equot. cbn [e_num e_den]. change (inject_Z 1) with 1%Q. field. }
  rewrite Eq. unfold same_exponents_of.
  assert (Sp : map (fun x => specialises e (DBase (e_dim x))) expected = map (fun y => Some (fst y)) l).
  { unfold expected. clear - Bs E. induction Bs as [|y b0 l bs (B & _) _ IH]; [reflexivity|]. cbn [combine map e_dim snd]. rewrite IH.
    f_equal. exact (specialises_declared est mode prog e E _ _ B). }
  rewrite Sp. destruct (specialisation isq_templates t (map (fun y => Some (fst y)) l)) as [r| | | |]; try discriminate C1.
  unfold recipe_eqb in C1. destruct (list_eq_dec _ r (numbered l)) as [->|]; [|discriminate C1]. cbn [bind].
  assert (G : forall n1 n2 b1 b2, (if bexp_eq_dec (BExp b1 n1 1) (BExp b1 n1 1) then true else false) = true /\
    (if bexp_eq_dec (BExp b2 n2 1) (BExp b2 n2 1) then true else false) = true).
  { intros n1 n2 b1 b2. split; [destruct (bexp_eq_dec (BExp b1 n1 1) (BExp b1 n1 1))|destruct (bexp_eq_dec (BExp b2 n2 1) (BExp b2 n2 1))]; congruence. }
  assert (L : (exists y, l = [y]) \/ exists y z, l = [y; z]).
  { clear - Hl. unfold plain_table in Hl. cbn [In] in Hl. repeat destruct Hl as [Hl|Hl]; try (injection Hl as _ <-; eauto). destruct Hl. }
  unfold expected. destruct L as [(y & ->)|(y & z & ->)].
  - inversion Bs as [|? b1 ? bs' _ B']; subst. inversion B'; subst. cbn -[bexp_eq_dec]. rewrite (proj1 (G (snd y) 0 b1 b1)). reflexivity.
  - inversion Bs as [|? b1 ? bs' _ B']; subst. inversion B' as [|? b2 ? bs'' _ B'']; subst. inversion B''; subst. cbn -[bexp_eq_dec].
    rewrite (proj1 (G (snd y) 0 b1 b1)), (proj1 (G (snd z) 0 b2 b2)). reflexivity.
Qed.

Lemma obtained_shape : forall d, obtained e s d -> ndim (base_of e s) d /\
  ((exists o, In (o, d) (en_dims e)) \/ to_dimension (en_world e) (exponents d) = Ok d).
Proof.
  pose proof (program_symbols est mode prog e I E s (isq_in_systems s Hs)) as U. pose proof (program_consistent est mode prog e E) as C.
  intros d H. induction H as [o d O B|x y d _ [IHx _] _ [IHy _] D|x y d _ [IHx _] _ [IHy _] D|x d _ [IHx _] D].
  - split; [exact (proj1 (program_ndim est mode prog e I E s o d O B))|left; eauto].
  - destruct (dimension_multiply_ok _ U _ x y d C IHx IHy D) as (A & B & _). auto.
  - destruct (dimension_divide_ok _ U _ x y d C IHx IHy D) as (A & B & _). auto.
  - destruct (dim_invert_ok _ _ x C IHx) as (d' & D' & A & B & _). rewrite D in D'. injection D' as <-. auto.
Qed.
Lemma ndim_declared : forall d, ndim (base_of e s) d -> forall x, In x (exponents d) -> exists o, In (o, DBase (e_dim x)) (en_dims e).
Proof. intros d [_ O] x Hx. exact (proj1 (O x Hx)). Qed.

(** An operator finds a base dimension, a declared derived dimension, or makes an unknown one. *)
Lemma made_shape : forall d, ndim (base_of e s) d -> to_dimension (en_world e) (exponents d) = Ok d ->
  (exists o, In (o, d) (en_dims e)) \/ d = DUnknown (exponents d) (exponents d).
Proof.
  intros d N T. assert (D : forall es, es = exponents d -> downcast_dimension (en_world e) es = Ok d ->
    (exists o, In (o, d) (en_dims e)) \/ d = DUnknown (exponents d) (exponents d)).
  { intros es Es D. unfold downcast_dimension in D. destruct (downcast bexps_eq_dec (w_dims (en_world e)) es) as [d'|] eqn:W.
    - assert (d' = d) by congruence. subst d'. left. unfold downcast in W.
      destruct (find_guide bexps_eq_dec (guides (w_dims (en_world e))) es) as [a|] eqn:F; [|discriminate W].
      destruct (has_poison bexps_eq_dec (w_dims (en_world e)) es); [discriminate W|]. injection W as ->. apply find_guide_in in F.
      exact (proj2 (proj1 (elaborate_declared _ _ _ _ _ _ E empty_declared) _ _ F)).
    - right. rewrite Es, (unknown_strict _ (proj1 (proj1 N))) in D. exact (eq_sym (f_equal (fun r => match r with Ok v => v | _ => d end) D)). }
  unfold to_dimension in T. destruct (exponents d) as [|x [|y es]] eqn:X; [exact (D [] eq_refl T)| |exact (D _ eq_refl T)].
  destruct (is_plus_one x) eqn:P; [|exact (D _ eq_refl T)].
  injection T as <-. left. apply (ndim_declared _ N x). rewrite X. now left.
Qed.

Lemma same_exponents : forall x y row, ndim (base_of e s) x -> ndim (base_of e s) y -> has_exponents e x row -> has_exponents e y row ->
  exponents x = exponents y.
Proof.
  intros x y row [Nx Ox] [Ny Oy] Hx Hy. apply (normal_unique (base_of e s) (program_symbols est mode prog e I E s (isq_in_systems s Hs))); auto.
  intros b Ub. rewrite (expo_quantity est mode prog e I E s Hs _ b Ox Ub), (expo_quantity est mode prog e I E s Hs _ b Oy Ub).
  rewrite (Hx (quantity_of e b)), (Hy (quantity_of e b)). reflexivity.
Qed.
Lemma derived_not_base : forall o n es u r x, In (o, DDerived n es u r) (en_dims e) -> es = [x] -> is_plus_one x = false.
Proof.
  intros o n es u r x Hd ->. destruct (program_checked est mode prog e I E _ Hd) as [D _]. unfold dim_checked in D. cbn [snd is_derived negb orb] in D. apply andb_true_iff in D as [_ D].
  apply andb_true_iff in D as [D _]. apply andb_true_iff in D as [D _]. apply andb_true_iff in D as [_ D].
  unfold not_base in D. cbn [exponents] in D. apply negb_true_iff in D. exact D.
Qed.

(** What the operators make is the declared dimension with those exponents. *)
Lemma found : forall d t dt row, obtained e s d -> In (Some t, dt) (en_dims e) -> built_on s dt ->
  is_derived dt = false \/ (mode <> Off /\ (mode = On \/ alone e dt)) ->
  assoc quantity_table t = Some row -> has_exponents e d row -> d = dt.
Proof.
  intros d t dt row Od Ht Bt K R Hd. destruct (obtained_shape d Od) as [N S].
  destruct (program_ndim est mode prog e I E s _ dt Ht Bt) as [Nt _].
  assert (Ex : exponents d = exponents dt).
  { apply (same_exponents d dt row N Nt Hd). destruct (sound_exponents e t dt (program_sound est mode prog e E t dt Ht)) as (row' & R' & X).
    rewrite R in R'. injection R' as <-. exact X. }
  pose proof (program_canonical est mode prog e I E _ dt Ht K) as C. unfold canonical in C. rewrite <- Ex in C.
  destruct S as [(o & O)|S]; [|congruence].
  destruct d as [b|n es u r|a es].
  - cbn in C. congruence.
  - destruct K as [K|[M [K|K]]].
    + exfalso. destruct dt as [b|n' es' u' r'|a' es']; [|discriminate K|exact (not_unknown est mode prog e E _ _ _ Ht)].
      cbn [exponents] in Ex. pose proof (derived_not_base _ _ _ _ _ _ O Ex) as P. discriminate P.
    + pose proof (program_canonical est mode prog e I E _ _ O (or_intror (conj M (or_introl K)))) as C'. unfold canonical in C'. congruence.
    + exact (K o n es u r O Ex).
  - exfalso. exact (not_unknown est mode prog e E _ _ _ O).
Qed.

(** Without downcasting: the plain concepts accept what has the exponents. *)
Lemma unknown_accepted : forall d c row, mode = Off -> obtained e s d -> In c plain_concepts -> assoc quantity_table (quantity_called c) = Some row ->
  has_exponents e d row -> (forall o, ~ In (o, d) (en_dims e)) -> dimension_of_t mode isq_templates e d (quantity_called c) = Ok true.
Proof.
  intros d c row M Od Hc R Hd Nd. destruct (obtained_shape d Od) as [N [(o & O)|S]]; [exfalso; exact (Nd o O)|].
  destruct (made_shape d N S) as [(o & O)|D]; [exfalso; exact (Nd o O)|].
  assert (Hl : exists l, In (quantity_called c, l) plain_table).
  { pose proof (in_map quantity_called _ _ Hc) as P. rewrite plain_listed in P. apply in_map_iff in P as ([t l] & <- & P). eauto. }
  destruct Hl as (l & Hl). rewrite D. unfold dimension_of_t. cbn [specialises]. rewrite M. destruct N as [N1 N2].
  apply (accepted _ l); auto. intros k. rewrite (Hd k). unfold row_of. now rewrite R.
Qed.
Lemma unknown_refused : forall d c, mode = Off -> obtained e s d -> ~ In c plain_concepts -> In c (map fst isq_concepts) ->
  (forall o, ~ In (o, d) (en_dims e)) -> dimension_of_t mode isq_templates e d (quantity_called c) = IllFormed.
Proof.
  intros d c M Od Hc Ic Nd. destruct (obtained_shape d Od) as [N [(o & O)|S]]; [exfalso; exact (Nd o O)|].
  destruct (made_shape d N S) as [(o & O)|D]; [exfalso; exact (Nd o O)|].
  rewrite D. unfold dimension_of_t. cbn [specialises]. rewrite M.
  apply (refused est mode prog e E); [|exact (proj1 (proj1 N))|exact (ndim_declared d N)].
  assert (T : forallb (fun c => negb (plain (quantity_called c)) || existsb (String.eqb c) plain_concepts) (map fst isq_concepts) = true) by (vm_compute; reflexivity).
  pose proof (proj1 (forallb_forall _ _) T c Ic) as T1. cbv beta in T1. apply orb_true_iff in T1 as [T1|T1]; [now apply negb_true_iff in T1|].
  exfalso. apply Hc. apply existsb_exists in T1 as (x & Hx & X). apply String.eqb_eq in X. now subst x.
Qed.
End Obtained.
