(** Proofs: programs of kinds that compile. *)

From Coq Require Import ZArith List Bool Lia.
From Verif Require Import Outcome CInt Root Ratio Unit Downcast Dim DimOp Equivalent Rep Reference QuantityCast CommonQuantity Quantity
  Point Affine Static SpecStatic StaticProofs Program SpecProgram ProgramProofs Kind PointKind KindExpr StaticKind SpecStaticKind StaticKindProofs
  KindProgram SpecKindExpr SpecKindProgram.
Import ListNotations.
Local Open Scope res_scope.

Section Run.
Variables (rb : rebinding) (est : estimate) (w : world) (g : kinds) (gp : pkinds).
Notation tyof := (ktype_of rb est w g gp).
Notation vty := (vtype_of rb est w g gp).
Notation vev := (veval rb est w g gp).

(** ** Stores *)

Lemma ktyped_at : forall d m x t, kwell_typed d m -> nth_error d x = Some t -> exists v, nth_error m x = Some v /\ kvtype v = t /\ ksound v.
Proof.
  intros d m x t H. revert x. induction H as [|t0 v d m [T S] F IH]; intros x E; destruct x as [|x]; cbn in *; try discriminate.
  - inversion E. subst t0. exists v. now split.
  - now apply IH.
Qed.
Lemma ktyped_none : forall d m x, kwell_typed d m -> nth_error d x = None -> nth_error m x = None.
Proof. intros d m x H. revert x. induction H as [|t0 v d m T F IH]; intros x E; destruct x as [|x]; cbn in *; auto; discriminate. Qed.
Lemma ktyped_update : forall d m x t v, kwell_typed d m -> nth_error d x = Some t -> kvtype v = t -> ksound v -> kwell_typed d (kupdate m x v).
Proof.
  intros d m x t v H. revert x. induction H as [|t0 v0 d m T F IH]; intros x E V S; destruct x as [|x]; cbn in *; try discriminate.
  - inversion E. subst t0. constructor; [now split|exact F].
  - constructor; [exact T|now apply IH].
Qed.

(** ** Expressions *)

Lemma kobject_type : forall v, tyof (kobject v) = Ok (kvtype v).
Proof. intros [q|x|x]; reflexivity. Qed.
Lemma kobject_sound : forall v, ksound v -> kexpr_sound (kobject v).
Proof. intros [q|x|x] H; exact H. Qed.
Lemma kconst_type_is : forall v, kconst_type v = kvtype v.
Proof. intros [q|x|x]; reflexivity. Qed.

(** The compiler sees of the variables their declared types. *)
Lemma vclose_type : forall d m e, kwell_typed d m ->
  match vclose m e with
  | Some a => tyof a = vty d e /\ (vexpr_sound e -> kexpr_sound a)
  | None => forall t, vty d e <> Ok t
  end.
Proof.
  intros d m e W.
  induction e as [x|v|o a IH|o a IHa b IHb|u a IH|u a IH|a IH|c a IH|u a IH|a IH|u a IH|a IH|c a IH|u a IH]; cbn [vclose];
    try (destruct (vclose m a) as [a'|]; cbn [option_map];
      [destruct IH as [IH S]; cbn [ktype_of vtype_of vexpr_sound kexpr_sound]; rewrite IH; split; [reflexivity|exact S]
      |intros t; cbn [vtype_of]; destruct (vty d a) as [x| | | |]; try discriminate; now destruct (IH x)]; fail).
  - cbn [vtype_of vexpr_sound]. destruct (nth_error d x) as [t|] eqn:E.
    + destruct (ktyped_at d m x t W E) as (v & -> & T & S). cbn [option_map]. rewrite kobject_type, T. split; [reflexivity|]. intros _. now apply kobject_sound.
    + rewrite (ktyped_none d m x W E). cbn [option_map]. discriminate.
  - rewrite kobject_type. cbn [vtype_of]. split; [reflexivity|]. cbn [vexpr_sound]. apply kobject_sound.
  - destruct (vclose m a) as [a'|]; cbn [option_map].
    + destruct IH as [IH S]. cbn [ktype_of vtype_of vexpr_sound kexpr_sound]. rewrite IH. split; [reflexivity|]. intros [H1 H2]. auto.
    + intros t. cbn [vtype_of]. destruct (vty d a) as [x| | | |]; try discriminate. now destruct (IH x).
  - destruct (vclose m a) as [a'|].
    + destruct IHa as [IHa Sa]. destruct (vclose m b) as [b'|].
      * destruct IHb as [IHb Sb]. cbn [ktype_of vtype_of vexpr_sound kexpr_sound]. rewrite IHa, IHb. split; [reflexivity|]. intros [H1 H2]. auto.
      * intros t. cbn [vtype_of]. destruct (vty d a) as [x| | | |]; try discriminate. cbn [bind].
        destruct (vty d b) as [y| | | |]; try discriminate. now destruct (IHb y).
    + intros t. cbn [vtype_of]. destruct (vty d a) as [x| | | |]; try discriminate. now destruct (IHa x).
Qed.

Lemma veval_runs : forall d m e t, kwell_typed d m -> vexpr_sound e -> vty d e = Ok t -> runs (w_has t) (vev m e).
Proof.
  intros d m e t W S H. pose proof (vclose_type d m e W) as C. unfold veval. destruct (vclose m e) as [a|].
  - destruct C as [C1 C2]. apply ktype_sound; [auto|]. now rewrite C1.
  - now destruct (C t).
Qed.
Lemma veval_static : forall d m e v, kwell_typed d m -> vev m e = Ok v -> vty d e = Ok (kvtype v).
Proof.
  intros d m e v W H. pose proof (vclose_type d m e W) as C. unfold veval in H. destruct (vclose m e) as [a|]; [|discriminate].
  destruct C as [<- _]. now apply ktype_complete.
Qed.

(** ** Conditions *)

Lemma w_relation_runs : forall o x y, ksound x -> ksound y -> t_kcompare rb est w (kvtype x) (kvtype y) = Ok tt ->
  runs (fun _ => True) (w_relation rb est w o x y).
Proof.
  intros o x y X Y H. destruct (w_compare_runs rb est w x y X Y H) as [C E].
  destruct o; cbn [w_relation]; try exact E; (eapply runs_bind; [eassumption|]); intros; now apply runs_ok.
Qed.
Lemma vholds_runs : forall d m c, kwell_typed d m -> vcond_sound c -> vcompiles_cond rb est w g gp d c = Ok tt ->
  runs (fun _ => True) (vholds rb est w g gp m c).
Proof.
  intros d m c W. induction c as [o a b|c IH|c IHc e IHe|c IHc e IHe]; intros S H; cbn [vholds vcompiles_cond vcond_sound] in *.
  - destruct S as [A B]. step H as x X. step H as y Y. eapply runs_bind; [exact (veval_runs d m a x W A X)|]. intros u [<- U].
    eapply runs_bind; [exact (veval_runs d m b y W B Y)|]. intros v [<- V]. now apply w_relation_runs.
  - eapply runs_bind; [now apply IH|]. intros. now apply runs_ok.
  - destruct S as [A B]. step H as u U. destruct u. eapply runs_bind; [now apply IHc|]. intros [|] _; [now apply IHe|now apply runs_ok].
  - destruct S as [A B]. step H as u U. destruct u. eapply runs_bind; [now apply IHc|]. intros [|] _; [now apply runs_ok|now apply IHe].
Qed.

(** ** Changes *)

Lemma t_k_to_type : forall t x s, t_k_to est t x = Ok s -> s = t.
Proof. intros t x s H. unfold t_k_to in H. step H as c C. unfold t_k_construct in H. step H as v V. now inversion H. Qed.
Lemma t_pk_to_type : forall t x s, t_pk_to rb est t x = Ok s -> s = t.
Proof. intros t x s H. unfold t_pk_to in H. step H as c C. unfold t_pk_construct in H. step H as v V. now inversion H. Qed.

Lemma kassigned_runs : forall old new, ksound new -> t_kassigned rb est (kvtype old) (kvtype new) = Ok tt ->
  runs (w_has (kvtype old)) (kassigned rb est old new).
Proof.
  intros [a|a|a] [b|b|b] S H; cbn [kvtype t_kassigned] in H; try discriminate; cbn [kassigned kvtype].
  - apply runs_wq. unfold q_to. eapply runs_bind; [now apply q_convert_runs|]. intros. now apply runs_ok, has.
  - step H as s T. pose proof (t_k_to_type _ _ _ T). subst s. now apply runs_wk, k_to_runs.
  - step H as s T. pose proof (t_pk_to_type _ _ _ T). subst s. now apply runs_wp, pk_to_runs.
Qed.
Lemma kassigned_static : forall old new v, kassigned rb est old new = Ok v -> t_kassigned rb est (kvtype old) (kvtype new) = Ok tt.
Proof.
  intros [a|a|a] [b|b|b] v H; cbn [kassigned] in H; try discriminate; cbn [kvtype t_kassigned]; step H as s T.
  - unfold q_to in T. step T as n N. now apply q_convert_static in N.
  - apply k_to_static in T. now rewrite T.
  - apply pk_to_static in T. now rewrite T.
Qed.

Lemma t_convert_same : forall t, t_convert est t t = Ok tt.
Proof. intros t. unfold t_convert. destruct (qtype_eq_dec t t); [reflexivity|congruence]. Qed.
Lemma k_act_by : forall x t r, qk_type x = t -> runs (q_has (kt_qtype t)) r -> runs (k_has t) (q <- r; Ok (QKind t (q_num q))).
Proof.
  intros x t r E R. eapply runs_bind; [exact R|]. intros q [T Q]. apply runs_ok, khas. unfold q_sound in Q. rewrite T in Q. exact Q.
Qed.
(** The types an action of kinds asks for. *)
Definition kaction_fits (t : ktype) (a : kaction) : Prop :=
  match a with
  | KInc | KDec | KMulV _ _ | KDivV _ _ => True
  | KAdd b | KSub b => k_sound b /\ t_k_to est t (qk_type b) = Ok t
  | KRem b => k_sound b /\ constrained (kind_equivalent (kt_kind t) (kt_kind (qk_type b))) = Ok tt /\
      constrained (negb (floating (kt_rep t))) = Ok tt /\ t_convert est (kt_qtype (qk_type b)) (kt_qtype t) = Ok tt
  | KRemV r _ => constrained (negb (floating (kt_rep t)) && negb (floating r)) = Ok tt
  | _ => False
  end.
Lemma k_act_runs : forall x a, kaction_fits (qk_type x) a -> runs (k_has (qk_type x)) (k_act est g x a).
Proof.
  intros x a F. unfold k_act. cbv zeta. apply (k_act_by x); [reflexivity|].
  assert (A : forall a, action_fits est (kt_qtype (qk_type x)) a -> runs (q_has (kt_qtype (qk_type x))) (q_act est (common x) a))
    by (intros a0; exact (act_runs est (common x) a0)).
  destruct a as [| |b|b|b|r v|r v|r v|b|b|b]; cbn [kaction_fits] in F; try contradiction; try (apply A; exact I).
  - destruct F as [B F]. eapply runs_bind; [exact (k_to_runs est _ b _ B F)|]. intros y [T Y]. apply A. cbn [action_fits common q_type].
    rewrite T. split; [exact Y|apply t_convert_same].
  - destruct F as [B F]. eapply runs_bind; [exact (k_to_runs est _ b _ B F)|]. intros y [T Y]. apply A. cbn [action_fits common q_type].
    rewrite T. split; [exact Y|apply t_convert_same].
  - destruct F as (B & C & D & F). unfold qk_kind. rewrite C; cbn [bind]. apply A. split; [exact B|]. now split.
  - apply A. exact F.
Qed.
Lemma kchanged_runs : forall old h o, (forall v, o = Some v -> ksound v) ->
  t_kchanged est (kvtype old) h (option_map kvtype o) = Ok tt -> runs (w_has (kvtype old)) (kchanged est g old h o).
Proof.
  intros old h o S H. destruct old as [q|x|x]; cbn [kvtype kchanged] in *.
  - assert (A : forall a, q_action h o = Ok a -> action_fits est (q_type q) a -> runs (w_has (TyQuantity (q_type q))) (a <- q_action h o; s <- q_act est q a; Ok (WQuantity s))).
    { intros a -> F. cbn [bind]. now apply runs_wq, act_runs. }
    destruct h as [| |e|e|e|r v|r v|r v]; try (eapply A; [reflexivity|exact I]; fail);
      try (destruct o as [[b|b|b]|]; cbn [option_map kvtype t_kchanged] in H; try discriminate; specialize (S _ eq_refl)).
    + eapply A; [reflexivity|]. now split.
    + eapply A; [reflexivity|]. now split.
    + step H as u Hu. destruct u. eapply A; [reflexivity|]. now split.
    + eapply A; [reflexivity|]. exact H.
  - assert (A : forall a, k_action h o = Ok a -> kaction_fits (qk_type x) a -> runs (w_has (TyKind (qk_type x))) (a <- k_action h o; s <- k_act est g x a; Ok (WKind s))).
    { intros a -> F. cbn [bind]. now apply runs_wk, k_act_runs. }
    destruct h as [| |e|e|e|r v|r v|r v]; try (eapply A; [reflexivity|exact I]; fail);
      try (destruct o as [[b|b|b]|]; cbn [option_map kvtype t_kchanged] in H; try discriminate; specialize (S _ eq_refl)).
    + step H as s T. pose proof (t_k_to_type _ _ _ T). subst s. eapply A; [reflexivity|]. now split.
    + step H as s T. pose proof (t_k_to_type _ _ _ T). subst s. eapply A; [reflexivity|]. now split.
    + step H as u Hu. step H as u' Hu'. destruct u, u'. eapply A; [reflexivity|]. split; [exact S|]. now split.
    + eapply A; [reflexivity|]. exact H.
  - assert (A : forall a, p_action h o = Ok a -> kaction_fits (pkt_ktype (qpk_type x)) (pk_action a) ->
      runs (w_has (TyPoint (qpk_type x))) (a <- p_action h o; s <- pk_act est g x a; Ok (WPoint s))).
    { intros a -> F. cbn [bind]. apply runs_wp. unfold pk_act. eapply runs_bind; [exact (k_act_runs (pk_relative x) _ F)|].
      intros s [T Q]. apply runs_ok, pkhas. unfold k_sound in Q. rewrite T in Q. exact Q. }
    destruct h as [| |e|e|e|r v|r v|r v]; try (eapply A; [reflexivity|exact I]; fail);
      try (destruct o as [[b|b|b]|]; cbn [option_map kvtype t_kchanged] in H; try discriminate; specialize (S _ eq_refl)).
    + step H as s T. pose proof (t_k_to_type _ _ _ T). subst s. eapply A; [reflexivity|]. now split.
    + step H as s T. pose proof (t_k_to_type _ _ _ T). subst s. eapply A; [reflexivity|]. now split.
Qed.

Lemma voperand_runs : forall d m h o, kwell_typed d m -> vchange_sound h -> t_operand rb est w g gp d h = Ok o ->
  runs (fun v => option_map kvtype v = o /\ forall x, v = Some x -> ksound x) (voperand rb est w g gp m h).
Proof.
  intros d m h o W S H.
  assert (E : forall e, vexpr_sound e -> (t <- vty d e; Ok (Some t)) = Ok o ->
    runs (fun v => option_map kvtype v = o /\ forall x, v = Some x -> ksound x) (v <- vev m e; Ok (Some v))).
  { intros e Se He. step He as t T. inversion He. eapply runs_bind; [exact (veval_runs d m e t W Se T)|]. intros v [<- V]. apply runs_ok.
    split; [reflexivity|]. intros x X. inversion X. now subst x. }
  destruct h; cbn [t_operand voperand vchange_sound] in *; try (now apply E); (inversion H; apply runs_ok; split; [reflexivity|discriminate]).
Qed.

(** ** Programs *)

Theorem vrun_goes : forall n s d m, kwell_typed d m -> vstmt_sound s -> vcompiles rb est w g gp d s = Ok tt ->
  goes (kwell_typed d) (vrun rb est w g gp n s m).
Proof.
  induction n as [|n IH]; intros s d m W S H; [now right|]. destruct s as [|a b|x e|x h|c a b|c a]; cbn [vrun vcompiles vstmt_sound] in *.
  - left. now apply runs_ok.
  - step H as u U. destruct u, S as [A B]. eapply goes_bind; [exact (IH a d m W A U)|]. intros m' W'. exact (IH b d m' W' B H).
  - step H as old O. step H as new N. unfold kdeclared_type in O. destruct (nth_error d x) as [t|] eqn:E; [|discriminate]. inversion O. subst old.
    destruct (ktyped_at d m x t W E) as (v & V & T & Sv). unfold klookup. rewrite V; cbn [bind]. left.
    eapply runs_bind; [exact (veval_runs d m e new W S N)|]. intros y [<- Y]. rewrite <- T in H.
    eapply runs_bind; [exact (kassigned_runs v y Y H)|]. intros z [Z Sz]. apply runs_ok. rewrite T in Z. now apply (ktyped_update d m x t).
  - step H as old O. step H as o P. unfold kdeclared_type in O. destruct (nth_error d x) as [t|] eqn:E; [|discriminate]. inversion O. subst old.
    destruct (ktyped_at d m x t W E) as (v & V & T & Sv). unfold klookup. rewrite V; cbn [bind]. left. rewrite <- T in H.
    eapply runs_bind; [exact (voperand_runs d m h o W S P)|]. intros y [<- Y].
    eapply runs_bind; [exact (kchanged_runs v h y Y H)|]. intros z [Z Sz]. apply runs_ok. rewrite T in Z. now apply (ktyped_update d m x t).
  - step H as u U. step H as u' U'. destruct u, u', S as (C & A & B). eapply goes_bind; [left; exact (vholds_runs d m c W C U)|].
    intros [|] _; [exact (IH a d m W A U')|exact (IH b d m W B H)].
  - assert (H0 := H). step H as u U. destruct u. destruct S as (C & A). eapply goes_bind; [left; exact (vholds_runs d m c W C U)|].
    intros [|] _; [|left; now apply runs_ok]. eapply goes_bind; [exact (IH a d m W A H)|]. intros m' W'. apply (IH (VWhile c a) d m' W'); [now split|exact H0].
Qed.

(** What runs without branches compiles. *)
Lemma q_static : forall q a s, q_act est q a = Ok s ->
  match a with
  | AAdd b | ASub b => t_convert est (q_type b) (q_type q) = Ok tt
  | ARem b => constrained (negb (floating (q_rep (q_type q)))) = Ok tt /\ t_convert est (q_type b) (q_type q) = Ok tt
  | ARemV r _ => constrained (negb (floating (q_rep (q_type q))) && negb (floating r)) = Ok tt
  | _ => True
  end.
Proof.
  intros q a s H. unfold q_act in H. cbv zeta in H. step H as n N. destruct a; auto.
  - step N as x X. now apply q_convert_static in X.
  - step N as x X. now apply q_convert_static in X.
  - step N as c D. step N as x X. apply q_convert_static in X. destruct c. now split.
  - step N as c D. now destruct c.
Qed.
Lemma kchanged_static : forall old h o v, (match h with VAdd _ | VSub _ | VRem _ => o <> None | _ => True end) ->
  kchanged est g old h o = Ok v -> t_kchanged est (kvtype old) h (option_map kvtype o) = Ok tt.
Proof.
  intros old h o v N H. destruct old as [q|x|x]; cbn [kvtype kchanged] in *.
  - step H as a A. step H as s E. apply q_static in E.
    destruct h as [| |e|e|e|r n|r n|r n]; cbn [q_action] in A; try reflexivity;
      try (destruct o as [[b|b|b]|]; try discriminate A; inversion A; subst a; cbn [option_map kvtype t_kchanged]).
    { exact E. }
    { exact E. }
    { destruct E as [D K]. now rewrite D. }
    all: exact E.
  - step H as a A. step H as s E. unfold k_act in E. cbv zeta in E. step E as z Z.
    destruct h as [| |e|e|e|r n|r n|r n]; cbn [k_action] in A; try reflexivity;
      try (destruct o as [[b|b|b]|]; try discriminate A; inversion A; subst a; cbn [option_map kvtype t_kchanged]).
    { step Z as y Y. apply k_to_static in Y. now rewrite Y. }
    { step Z as y Y. apply k_to_static in Y. now rewrite Y. }
    { step Z as c D. unfold qk_kind in D. destruct c. rewrite D. apply q_static in Z as [D' K]. cbn [bind]. change (q_rep (q_type (common x))) with (kt_rep (qk_type x)) in D'.
      now rewrite D'. }
    all: apply q_static in Z; exact Z.
  - step H as a A. step H as s E. unfold pk_act in E. step E as y Y. unfold k_act in Y. cbv zeta in Y. step Y as z Z.
    destruct h as [| |e|e|e|r n|r n|r n]; cbn [p_action] in A; try reflexivity; try discriminate A;
      try (destruct o as [[b|b|b]|]; try discriminate A; inversion A; subst a; cbn [option_map kvtype t_kchanged pk_action] in *).
    + step Z as u V. apply k_to_static in V. cbn [pk_relative qk_type] in V. now rewrite V.
    + step Z as u V. apply k_to_static in V. cbn [pk_relative qk_type] in V. now rewrite V.
Qed.
Lemma voperand_static : forall d m h o, kwell_typed d m -> voperand rb est w g gp m h = Ok o ->
  t_operand rb est w g gp d h = Ok (option_map kvtype o) /\ (match h with VAdd _ | VSub _ | VRem _ => o <> None | _ => True end).
Proof.
  intros d m h o W H. destruct h as [| |e|e|e|r n|r n|r n]; cbn [voperand t_operand] in *; try (inversion H; now split);
    step H as v V; inversion H; rewrite (veval_static d m e v W V); (split; [reflexivity|discriminate]).
Qed.
Theorem vstraight_compiles : forall n s d m m', vstraight s -> kwell_typed d m -> vstmt_sound s -> vrun rb est w g gp n s m = Ok m' ->
  vcompiles rb est w g gp d s = Ok tt.
Proof.
  induction n as [|n IH]; intros s d m m' St W S H; [discriminate|]. destruct s as [|a b|x e|x h|c a b|c a]; cbn [vrun vcompiles vstraight vstmt_sound] in *; try contradiction.
  - reflexivity.
  - destruct St as [Sa Sb], S as [Pa Pb]. step H as m1 H1. pose proof (IH a d m m1 Sa W Pa H1) as Ca. rewrite Ca; cbn [bind].
    destruct (vrun_goes n a d m W Pa Ca) as [[(m1' & E & W1)|E]|E]; rewrite E in H1; try discriminate. inversion H1. subst m1'. exact (IH b d m1 m' Sb W1 Pb H).
  - step H as old O. step H as v V. step H as r R. unfold klookup in O. destruct (nth_error m x) as [o|] eqn:X; [|discriminate]. inversion O. subst o.
    unfold kdeclared_type. destruct (nth_error d x) as [t|] eqn:E; [|now rewrite (ktyped_none d m x W E) in X].
    destruct (ktyped_at d m x t W E) as (v' & X' & T & _). rewrite X in X'. inversion X'. subst v'. cbn [bind]. rewrite (veval_static d m e v W V); cbn [bind].
    rewrite <- T. exact (kassigned_static _ _ _ R).
  - step H as old O. step H as a A. step H as r R. unfold klookup in O. destruct (nth_error m x) as [o|] eqn:X; [|discriminate]. inversion O. subst o.
    unfold kdeclared_type. destruct (nth_error d x) as [t|] eqn:E; [|now rewrite (ktyped_none d m x W E) in X].
    destruct (ktyped_at d m x t W E) as (v' & X' & T & _). rewrite X in X'. inversion X'. subst v'. cbn [bind].
    destruct (voperand_static d m h a W A) as [-> N]. cbn [bind]. rewrite <- T. exact (kchanged_static old h a r N R).
Qed.

(** More steps do not change the outcome. *)
Theorem vrun_more : forall n s m r, vrun rb est w g gp n s m = r -> r <> Stuck -> vrun rb est w g gp (S n) s m = r.
Proof.
  induction n as [|n IH]; intros s m r H N; [cbn in H; now subst r|].
  destruct s as [|a b|x e|x h|c a b|c a]; cbn [vrun] in H.
  - exact H.
  - change (vrun rb est w g gp (S (S n)) (VSeq a b) m) with (m' <- vrun rb est w g gp (S n) a m; vrun rb est w g gp (S n) b m').
    destruct (vrun rb est w g gp n a m) as [m'| | | |] eqn:E; cbn [bind] in H; try (rewrite (IH a m _ E) by discriminate; cbn [bind]).
    + now apply IH.
    + exact H.
    + exact H.
    + exact H.
    + now subst r.
  - exact H.
  - exact H.
  - change (vrun rb est w g gp (S (S n)) (VIf c a b) m) with (t <- vholds rb est w g gp m c; if t then vrun rb est w g gp (S n) a m else vrun rb est w g gp (S n) b m).
    destruct (vholds rb est w g gp m c) as [[|]| | | |]; cbn [bind] in *; auto.
  - change (vrun rb est w g gp (S (S n)) (VWhile c a) m) with
      (t <- vholds rb est w g gp m c; if t then m' <- vrun rb est w g gp (S n) a m; vrun rb est w g gp (S n) (VWhile c a) m' else Ok m).
    destruct (vholds rb est w g gp m c) as [[|]| | | |]; cbn [bind] in *; auto.
    destruct (vrun rb est w g gp n a m) as [m'| | | |] eqn:E; cbn [bind] in H; try (rewrite (IH a m _ E) by discriminate; cbn [bind]).
    + now apply IH.
    + exact H.
    + exact H.
    + exact H.
    + now subst r.
Qed.

(** ** One kind *)

Lemma base_of : forall c (a b : kind), constrained (kind_equivalent a b) = Ok c -> k_base a = k_base b.
Proof.
  intros c a b H. apply constrained_ok in H. unfold kind_equivalent in H. destruct (kind_eq_dec a b) as [->|_]; [reflexivity|].
  now destruct (bkind_eq_dec (k_base a) (k_base b)).
Qed.
Lemma t_k_to_base : forall t x s, t_k_to est t x = Ok s -> k_base (kt_kind x) = k_base (kt_kind t).
Proof. intros t x s H. unfold t_k_to in H. step H as c D. exact (base_of _ _ _ D). Qed.
Lemma assigned_base : forall a b, t_kassigned rb est a b = Ok tt -> typ_base b = typ_base a.
Proof.
  intros [a|a|a] [b|b|b] H; cbn [t_kassigned typ_base] in *; try discriminate; [reflexivity|..]; step H as s T.
  - f_equal. exact (t_k_to_base _ _ _ T).
  - f_equal. unfold t_pk_to in T. step T as c D. unfold t_pk_construct in T. step T as u V. exact (t_k_to_base _ _ _ V).
Qed.
Lemma changed_base : forall a h b, t_kchanged est a h (Some b) = Ok tt -> (match h with VAdd _ | VSub _ | VRem _ => True | _ => False end) -> typ_base b = typ_base a.
Proof.
  intros [a|a|a] [| |e|e|e|r n|r n|r n] [b|b|b] H K; cbn [t_kchanged typ_base] in *; try discriminate; try contradiction; try reflexivity; step H as s T.
  - f_equal. exact (t_k_to_base _ _ _ T).
  - f_equal. exact (t_k_to_base _ _ _ T).
  - f_equal. symmetry. exact (base_of _ _ _ T).
  - f_equal. exact (t_k_to_base _ _ _ T).
  - f_equal. exact (t_k_to_base _ _ _ T).
Qed.
Lemma compared_base : forall a b, t_kcompare rb est w a b = Ok tt -> typ_base a = typ_base b.
Proof.
  intros [a|a|a] [b|b|b] H; cbn [t_kcompare typ_base] in *; try discriminate; [reflexivity|..].
  - step H as s T. f_equal. symmetry. exact (base_of _ _ _ T).
  - step H as s T. step H as s' T'. f_equal. symmetry. exact (base_of _ _ _ T').
Qed.
End Run.
