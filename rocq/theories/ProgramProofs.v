(** Proofs: programs that compile. *)

From Coq Require Import ZArith List Bool Lia.
From Verif Require Import Outcome CInt Root Ratio Unit Downcast Dim DimOp Equivalent Rep Reference QuantityCast CommonQuantity Quantity
  Point Affine Static SpecStatic StaticProofs Program SpecProgram.
Import ListNotations.
Local Open Scope res_scope.

Section Run.
Variables (rb : rebinding) (est : estimate) (w : world).

(** ** Stores *)

Lemma typed_at : forall g m x t, well_typed g m -> nth_error g x = Some t -> exists v, nth_error m x = Some v /\ vtype v = t /\ sound v.
Proof.
  intros g m x t H. revert x. induction H as [|t0 v g m [T S] F IH]; intros x E; destruct x as [|x]; cbn in *; try discriminate.
  - inversion E. subst t0. exists v. now split.
  - now apply IH.
Qed.
Lemma typed_none : forall g m x, well_typed g m -> nth_error g x = None -> nth_error m x = None.
Proof. intros g m x H. revert x. induction H as [|t0 v g m T F IH]; intros x E; destruct x as [|x]; cbn in *; auto; discriminate. Qed.
Lemma typed_update : forall g m x t v, well_typed g m -> nth_error g x = Some t -> vtype v = t -> sound v -> well_typed g (update m x v).
Proof.
  intros g m x t v H. revert x. induction H as [|t0 v0 g m T F IH]; intros x E V S; destruct x as [|x]; cbn in *; try discriminate.
  - inversion E. subst t0. constructor; [now split|exact F].
  - constructor; [exact T|now apply IH].
Qed.

(** ** Expressions *)

Lemma object_type : forall v, type_of rb est w (object v) = Ok (vtype v).
Proof. intros [q|p]; reflexivity. Qed.
Lemma object_sound : forall v, sound v -> expr_sound (object v).
Proof. intros [q|p] H; exact H. Qed.
Lemma const_type : forall g v, ptype_of rb est w g (EConst v) = Ok (vtype v).
Proof. intros g [q|p]; reflexivity. Qed.

(** The compiler sees of the variables their declared types. *)
Lemma close_type : forall g m e, well_typed g m ->
  match close m e with
  | Some a => type_of rb est w a = ptype_of rb est w g e /\ (pexpr_sound e -> expr_sound a)
  | None => forall t, ptype_of rb est w g e <> Ok t
  end.
Proof.
  intros g m e W. induction e as [x|v|o a IH|o a IHa b IHb|t a IH|c a IH|t a IH|a IH|t a IH]; cbn [close].
  - cbn [ptype_of pexpr_sound]. destruct (nth_error g x) as [t|] eqn:E.
    + destruct (typed_at g m x t W E) as (v & -> & T & S). cbn [option_map]. rewrite object_type, T. split; [reflexivity|]. intros _. now apply object_sound.
    + rewrite (typed_none g m x W E). cbn [option_map]. discriminate.
  - rewrite object_type, const_type. split; [reflexivity|]. cbn [pexpr_sound]. apply object_sound.
  - destruct (close m a) as [a'|]; cbn [option_map].
    + destruct IH as [IH S]. cbn [type_of ptype_of pexpr_sound expr_sound]. rewrite IH. split; [reflexivity|]. intros [H1 H2]. auto.
    + intros t. cbn [ptype_of]. unfold t_on_quantity. destruct (ptype_of rb est w g a) as [x| | | |]; try discriminate. now destruct (IH x).
  - destruct (close m a) as [a'|].
    + destruct IHa as [IHa Sa]. destruct (close m b) as [b'|].
      * destruct IHb as [IHb Sb]. cbn [type_of ptype_of pexpr_sound expr_sound]. rewrite IHa, IHb. split; [reflexivity|]. intros [H1 H2]. auto.
      * intros t. cbn [ptype_of]. destruct (ptype_of rb est w g a) as [x| | | |]; try discriminate. cbn [bind].
        destruct (ptype_of rb est w g b) as [y| | | |]; try discriminate. now destruct (IHb y).
    + intros t. cbn [ptype_of]. destruct (ptype_of rb est w g a) as [x| | | |]; try discriminate. now destruct (IHa x).
  - destruct (close m a) as [a'|]; cbn [option_map].
    + destruct IH as [IH S]. cbn [type_of ptype_of pexpr_sound expr_sound]. rewrite IH. split; [reflexivity|exact S].
    + intros u. cbn [ptype_of]. unfold t_on_point. destruct (ptype_of rb est w g a) as [x| | | |]; try discriminate. now destruct (IH x).
  - destruct (close m a) as [a'|]; cbn [option_map].
    + destruct IH as [IH S]. cbn [type_of ptype_of pexpr_sound expr_sound]. rewrite IH. split; [reflexivity|exact S].
    + intros u. cbn [ptype_of]. unfold t_on_point. destruct (ptype_of rb est w g a) as [x| | | |]; try discriminate. now destruct (IH x).
  - destruct (close m a) as [a'|]; cbn [option_map].
    + destruct IH as [IH S]. cbn [type_of ptype_of pexpr_sound expr_sound]. rewrite IH. split; [reflexivity|exact S].
    + intros u. cbn [ptype_of]. unfold t_on_point. destruct (ptype_of rb est w g a) as [x| | | |]; try discriminate. now destruct (IH x).
  - destruct (close m a) as [a'|]; cbn [option_map].
    + destruct IH as [IH S]. cbn [type_of ptype_of pexpr_sound expr_sound]. rewrite IH. split; [reflexivity|exact S].
    + intros u. cbn [ptype_of]. unfold t_on_point. destruct (ptype_of rb est w g a) as [x| | | |]; try discriminate. now destruct (IH x).
  - destruct (close m a) as [a'|]; cbn [option_map].
    + destruct IH as [IH S]. cbn [type_of ptype_of pexpr_sound expr_sound]. rewrite IH. split; [reflexivity|exact S].
    + intros u. cbn [ptype_of]. unfold t_on_quantity. destruct (ptype_of rb est w g a) as [x| | | |]; try discriminate. now destruct (IH x).
Qed.

Lemma peval_runs : forall g m e t, well_typed g m -> pexpr_sound e -> ptype_of rb est w g e = Ok t -> runs (v_has t) (peval rb est w m e).
Proof.
  intros g m e t W S H. pose proof (close_type g m e W) as C. unfold peval. destruct (close m e) as [a|].
  - destruct C as [C1 C2]. apply type_sound; [auto|]. now rewrite C1.
  - now destruct (C t).
Qed.
Lemma peval_static : forall g m e v, well_typed g m -> peval rb est w m e = Ok v -> ptype_of rb est w g e = Ok (vtype v).
Proof.
  intros g m e v W H. pose proof (close_type g m e W) as C. unfold peval in H. destruct (close m e) as [a|]; [|discriminate].
  destruct C as [<- _]. now apply type_complete.
Qed.

(** ** Conditions *)

Lemma v_compare_runs : forall x y, sound x -> sound y -> t_compare rb est w (vtype x) (vtype y) = Ok tt ->
  runs (fun _ => True) (v_compare rb est w x y) /\ runs (fun _ => True) (v_eqb rb est w x y).
Proof.
  intros [a|a] [b|b] X Y H; cbn [vtype t_compare] in H; try discriminate; cbn [v_compare v_eqb].
  - pose proof (common_runs est w a b X Y H) as R. split; (eapply runs_bind; [exact R|]); intros p (r & P & Q); now apply (compare_total r).
  - step H as u O. unfold p_compare, p_eqb. rewrite O; cbn [bind]. pose proof (common_runs est w (relative a) (relative b) X Y H) as R.
    split; (eapply runs_bind; [exact R|]); intros p (r & P & Q); now apply (compare_total r).
Qed.
Lemma relation_runs : forall o x y, sound x -> sound y -> t_compare rb est w (vtype x) (vtype y) = Ok tt ->
  runs (fun _ => True) (relation rb est w o x y).
Proof.
  intros o x y X Y H. destruct (v_compare_runs x y X Y H) as [C E].
  destruct o; cbn [relation]; try exact E; (eapply runs_bind; [eassumption|]); intros; now apply runs_ok.
Qed.
Lemma holds_runs : forall g m c, well_typed g m -> pcond_sound c -> compiles_cond rb est w g c = Ok tt -> runs (fun _ => True) (holds rb est w m c).
Proof.
  intros g m c W. induction c as [o a b|c IH|c IHc d IHd|c IHc d IHd]; intros S H; cbn [holds compiles_cond pcond_sound] in *.
  - destruct S as [A B]. step H as x X. step H as y Y. eapply runs_bind; [exact (peval_runs g m a x W A X)|]. intros u [<- U].
    eapply runs_bind; [exact (peval_runs g m b y W B Y)|]. intros v [<- V]. now apply relation_runs.
  - eapply runs_bind; [now apply IH|]. intros. now apply runs_ok.
  - destruct S as [A B]. step H as u U. destruct u. eapply runs_bind; [now apply IHc|]. intros [|] _; [now apply IHd|now apply runs_ok].
  - destruct S as [A B]. step H as u U. destruct u. eapply runs_bind; [now apply IHc|]. intros [|] _; [now apply runs_ok|now apply IHd].
Qed.

(** ** Changes *)

Lemma assigned_runs : forall old new, sound new -> t_assigned rb est (vtype old) (vtype new) = Ok tt -> runs (v_has (vtype old)) (assigned rb est old new).
Proof.
  intros [a|a] [b|b] S H; cbn [vtype t_assigned] in H; try discriminate; cbn [assigned].
  - apply runs_quantity. unfold q_to. eapply runs_bind; [now apply q_convert_runs|]. intros. now apply runs_ok, has.
  - now apply runs_point, move_runs.
Qed.

(** The types an action asks for. *)
Definition action_fits (t : qtype) (a : action) : Prop :=
  match a with
  | AInc | ADec | AMulV _ _ | ADivV _ _ => True
  | AAdd b | ASub b => q_sound b /\ t_convert est (q_type b) t = Ok tt
  | ARem b => q_sound b /\ constrained (negb (floating (q_rep t))) = Ok tt /\ t_convert est (q_type b) t = Ok tt
  | ARemV r _ => constrained (negb (floating (q_rep t)) && negb (floating r)) = Ok tt
  end.
Lemma act_runs : forall q a, action_fits (q_type q) a -> runs (q_has (q_type q)) (q_act est q a).
Proof.
  intros q a H. unfold q_act. cbv zeta. eapply (runs_bind _ _ (fun z => num_ok (q_rep (q_type q)) z = true)); [|intros; now apply runs_ok, has].
  destruct a as [| |b|b|b|r v|r v|r v]; cbn [action_fits] in H.
  - apply n_assign_runs; discriminate.
  - apply n_assign_runs; discriminate.
  - destruct H as [B H]. eapply runs_bind; [now apply q_convert_runs|]. intros. apply n_assign_runs; discriminate.
  - destruct H as [B H]. eapply runs_bind; [now apply q_convert_runs|]. intros. apply n_assign_runs; discriminate.
  - destruct H as (B & C & H). rewrite C; cbn [bind]. eapply runs_bind; [now apply q_convert_runs|]. intros. apply n_assign_runs. intros _.
    apply constrained_ok, negb_true_iff in C. now apply arith_floating.
  - apply n_assign_runs; discriminate.
  - apply n_assign_runs; discriminate.
  - rewrite H; cbn [bind]. apply constrained_ok, andb_prop in H as [H1 H2]. apply negb_true_iff in H1, H2. apply n_assign_runs. intros _. now apply arith_floating.
Qed.
Lemma changed_runs : forall g m old h, well_typed g m -> change_sound h -> t_changed rb est w g (vtype old) h = Ok tt ->
  runs (v_has (vtype old)) (a <- action_of rb est w m h; changed est old a).
Proof.
  intros g m old h W S H.
  assert (E : forall e o, pexpr_sound e -> (x <- ptype_of rb est w g e; t_want_quantity x) = Ok o ->
    runs (fun q => q_type q = o /\ q_sound q) (x <- peval rb est w m e; want_quantity x)).
  { intros e o Se He. step He as x X. eapply runs_bind; [exact (peval_runs g m e x W Se X)|]. intros v V.
    destruct (want_q v x o V He) as (q & -> & T & Q). apply runs_ok. now split. }
  assert (E2 : forall e (f : quantity -> action) k, pexpr_sound e -> (exists o, (x <- ptype_of rb est w g e; t_want_quantity x) = Ok o /\
      (forall q, q_type q = o -> q_sound q -> runs (v_has (vtype old)) (k (f q)))) ->
    runs (v_has (vtype old)) (a <- (x <- peval rb est w m e; q <- want_quantity x; Ok (f q)); k a)).
  { intros e f k Se (o & He & K). pose proof (E e o Se He) as R.
    replace (x <- peval rb est w m e; q <- want_quantity x; Ok (f q)) with (q <- (x <- peval rb est w m e; want_quantity x); Ok (f q))
      by (destruct (peval rb est w m e); reflexivity).
    destruct R as [(q & -> & T & Q)| ->]; cbn [bind]; [now apply K|now right]. }
  destruct old as [q|p]; cbn [vtype t_changed] in H.
  - assert (K : forall a, action_fits (q_type q) a -> runs (v_has (vtype (VQuantity q))) (changed est (VQuantity q) a)).
    { intros a A. cbn [changed]. apply runs_quantity. now apply act_runs. }
    destruct h as [| |e|e|e|r v|r v|r v]; cbn [action_of change_sound] in *; cbn [bind].
    + apply K. exact I.
    + apply K. exact I.
    + apply E2; [exact S|]. step H as x X. step H as o O. exists o. rewrite X; cbn [bind]. split; [exact O|]. intros b <- B. apply K. now split.
    + apply E2; [exact S|]. step H as x X. step H as o O. exists o. rewrite X; cbn [bind]. split; [exact O|]. intros b <- B. apply K. now split.
    + apply E2; [exact S|]. step H as x X. step H as o O. step H as c C. destruct c. exists o. rewrite X; cbn [bind]. split; [exact O|].
      intros b <- B. apply K. now split.
    + apply K. exact I.
    + apply K. exact I.
    + apply K. exact H.
  - assert (K : forall a pa, point_action a = Ok pa -> action_fits (p_qtype (pt_type p)) a -> runs (v_has (vtype (VPoint p))) (changed est (VPoint p) a)).
    { intros a pa A F. cbn [changed]. rewrite A; cbn [bind]. apply runs_point. unfold p_act.
      assert (Ea : p_action pa = a) by (destruct a; cbn in A; inversion A; reflexivity). rewrite Ea.
      eapply runs_bind; [apply (act_runs (relative p) a F)|]. intros s [T Q]. apply runs_ok. split; [reflexivity|].
      unfold p_sound. cbn [pt_type pt_num]. unfold q_sound in Q. rewrite T in Q. exact Q. }
    destruct h as [| |e|e|e|r v|r v|r v]; cbn [action_of change_sound] in *; cbn [bind]; try discriminate.
    + eapply K; [reflexivity|exact I].
    + eapply K; [reflexivity|exact I].
    + apply E2; [exact S|]. step H as x X. step H as o O. exists o. rewrite X; cbn [bind]. split; [exact O|]. intros b <- B. eapply K; [reflexivity|]. now split.
    + apply E2; [exact S|]. step H as x X. step H as o O. exists o. rewrite X; cbn [bind]. split; [exact O|]. intros b <- B. eapply K; [reflexivity|]. now split.
Qed.

(** ** Programs *)

Lemma goes_bind : forall A B (P : A -> Prop) (Q : B -> Prop) r f, goes P r -> (forall x, P x -> goes Q (f x)) -> goes Q (bind r f).
Proof.
  intros A B P Q r f [[(x & -> & Px)| ->]| ->] H; cbn; [now apply H|left; now right|now right].
Qed.
Lemma goes_runs : forall A (P : A -> Prop) r, runs P r -> goes P r.
Proof. intros. now left. Qed.

Theorem run_goes : forall n s g m, well_typed g m -> pstmt_sound s -> compiles rb est w g s = Ok tt -> goes (well_typed g) (run rb est w n s m).
Proof.
  induction n as [|n IH]; intros s g m W S H; [now right|]. destruct s as [|a b|x e|x h|c a b|c a]; cbn [run compiles pstmt_sound] in *.
  - left. now apply runs_ok.
  - step H as u U. destruct u, S as [A B]. eapply goes_bind; [exact (IH a g m W A U)|]. intros m' W'. exact (IH b g m' W' B H).
  - step H as old O. step H as new N. unfold declared_type in O. destruct (nth_error g x) as [t|] eqn:E; [|discriminate]. inversion O. subst old.
    destruct (typed_at g m x t W E) as (v & V & T & Sv). unfold lookup. rewrite V; cbn [bind]. left.
    eapply runs_bind; [exact (peval_runs g m e new W S N)|]. intros y [<- Y]. rewrite <- T in H.
    eapply runs_bind; [exact (assigned_runs v y Y H)|]. intros z [Z Sz]. apply runs_ok. rewrite T in Z. now apply (typed_update g m x t).
  - step H as old O. unfold declared_type in O. destruct (nth_error g x) as [t|] eqn:E; [|discriminate]. inversion O. subst old.
    destruct (typed_at g m x t W E) as (v & V & T & Sv). unfold lookup. rewrite V; cbn [bind]. left. rewrite <- T in H.
    pose proof (changed_runs g m v h W S H) as R. destruct (action_of rb est w m h) as [a| | | |]; cbn [bind] in *.
    + eapply runs_bind; [exact R|]. intros z [Z Sz]. apply runs_ok. rewrite T in Z. now apply (typed_update g m x t).
    + destruct R as [(z & Z & _)|R]; discriminate.
    + now right.
    + destruct R as [(z & Z & _)|R]; discriminate.
    + destruct R as [(z & Z & _)|R]; discriminate.
  - destruct S as (C & A & B). step H as u U. step H as u' U'. destruct u, u'. eapply goes_bind; [apply goes_runs, (holds_runs g m c W C U)|].
    intros [|] _; [exact (IH a g m W A U')|exact (IH b g m W B H)].
  - destruct S as (C & A). pose proof H as H'. step H as u U. destruct u. eapply goes_bind; [apply goes_runs, (holds_runs g m c W C U)|].
    intros [|] _; [|left; now apply runs_ok]. eapply goes_bind; [exact (IH a g m W A H)|]. intros m' W'. apply (IH (SWhile c a) g m' W'); [now split|exact H'].
Qed.

(** What has been executed compiles. *)
Lemma act_static : forall q a r, q_act est q a = Ok r ->
  match a with
  | AAdd b | ASub b => t_convert est (q_type b) (q_type q) = Ok tt
  | ARem b => constrained (negb (floating (q_rep (q_type q)))) = Ok tt /\ t_convert est (q_type b) (q_type q) = Ok tt
  | ARemV r2 _ => constrained (negb (floating (q_rep (q_type q))) && negb (floating r2)) = Ok tt
  | _ => True
  end.
Proof.
  intros q a r H. unfold q_act in H. cbv zeta in H. step H as n N. destruct a as [| |b|b|b|k v|k v|k v]; try exact I.
  - step N as x X. exact (q_convert_static _ _ _ _ _ X).
  - step N as x X. exact (q_convert_static _ _ _ _ _ X).
  - step N as c C. step N as x X. destruct c. split; [exact C|exact (q_convert_static _ _ _ _ _ X)].
  - step N as c C. destruct c. exact C.
Qed.
Lemma changed_static : forall g m old h a r, well_typed g m -> action_of rb est w m h = Ok a -> changed est old a = Ok r ->
  t_changed rb est w g (vtype old) h = Ok tt.
Proof.
  intros g m old h a r W A H.
  assert (E : forall e (f : quantity -> action), (x <- peval rb est w m e; q <- want_quantity x; Ok (f q)) = Ok a ->
    exists q, a = f q /\ ptype_of rb est w g e = Ok (TQuantity (q_type q))).
  { intros e f He. step He as x X. step He as q Q. inversion He. exists q. split; [reflexivity|]. rewrite (peval_static g m e x W X).
    destruct x; [|discriminate]. now inversion Q. }
  destruct old as [q|p]; cbn [vtype t_changed changed] in *.
  - step H as s Hs. destruct h as [| |e|e|e|k v|k v|k v]; cbn [action_of] in A; auto.
    + destruct (E e AAdd A) as (b & -> & T). rewrite T; cbn [bind t_want_quantity]. exact (act_static q _ s Hs).
    + destruct (E e ASub A) as (b & -> & T). rewrite T; cbn [bind t_want_quantity]. exact (act_static q _ s Hs).
    + destruct (E e ARem A) as (b & -> & T). rewrite T; cbn [bind t_want_quantity]. destruct (act_static q _ s Hs) as [C K]. rewrite C; cbn [bind]. exact K.
    + inversion A. subst a. exact (act_static q _ s Hs).
  - step H as pa Pa. step H as s Hs. unfold p_act in Hs. step Hs as t T.
    destruct h as [| |e|e|e|k v|k v|k v]; cbn [action_of] in A; auto; try (inversion A; subst a; discriminate).
    + destruct (E e AAdd A) as (b & -> & Tb). rewrite Tb; cbn [bind t_want_quantity]. inversion Pa. subst pa. exact (act_static (relative p) _ t T).
    + destruct (E e ASub A) as (b & -> & Tb). rewrite Tb; cbn [bind t_want_quantity]. inversion Pa. subst pa. exact (act_static (relative p) _ t T).
    + destruct (E e ARem A) as (b & -> & Tb). discriminate.
Qed.
Lemma assigned_static : forall old new r, assigned rb est old new = Ok r -> t_assigned rb est (vtype old) (vtype new) = Ok tt.
Proof.
  intros [a|a] [b|b] r H; cbn [assigned vtype t_assigned] in *; try discriminate; step H as x X.
  - unfold q_to in X. step X as n N. exact (q_convert_static _ _ _ _ _ N).
  - now apply move_static in X.
Qed.
Theorem straight_compiles : forall n s g m m', straight s -> well_typed g m -> pstmt_sound s -> run rb est w n s m = Ok m' -> compiles rb est w g s = Ok tt.
Proof.
  induction n as [|n IH]; intros s g m m' St W S H; [discriminate|]. destruct s as [|a b|x e|x h|c a b|c a]; cbn [run compiles straight pstmt_sound] in *; try contradiction.
  - reflexivity.
  - destruct St as [Sa Sb], S as [Pa Pb]. step H as m1 H1. pose proof (IH a g m m1 Sa W Pa H1) as Ca. rewrite Ca; cbn [bind].
    destruct (run_goes n a g m W Pa Ca) as [[(m1' & E & W1)|E]|E]; rewrite E in H1; try discriminate. inversion H1. subst m1'. exact (IH b g m1 m' Sb W1 Pb H).
  - step H as old O. step H as v V. step H as r R. unfold lookup in O. destruct (nth_error m x) as [o|] eqn:X; [|discriminate]. inversion O. subst o.
    unfold declared_type. destruct (nth_error g x) as [t|] eqn:E; [|now rewrite (typed_none g m x W E) in X].
    destruct (typed_at g m x t W E) as (v' & X' & T & _). rewrite X in X'. inversion X'. subst v'. cbn [bind]. rewrite (peval_static g m e v W V); cbn [bind].
    rewrite <- T. exact (assigned_static _ _ _ R).
  - step H as old O. step H as a A. step H as r R. unfold lookup in O. destruct (nth_error m x) as [o|] eqn:X; [|discriminate]. inversion O. subst o.
    unfold declared_type. destruct (nth_error g x) as [t|] eqn:E; [|now rewrite (typed_none g m x W E) in X].
    destruct (typed_at g m x t W E) as (v' & X' & T & _). rewrite X in X'. inversion X'. subst v'. cbn [bind].
    rewrite <- T. exact (changed_static g m old h a r W A R).
Qed.

(** More steps do not change the outcome. *)
Theorem run_more : forall n s m r, run rb est w n s m = r -> r <> Stuck -> run rb est w (S n) s m = r.
Proof.
  induction n as [|n IH]; intros s m r H N; [cbn in H; now subst r|].
  destruct s as [|a b|x e|x h|c a b|c a]; cbn [run] in H.
  - exact H.
  - change (run rb est w (S (S n)) (SSeq a b) m) with (m' <- run rb est w (S n) a m; run rb est w (S n) b m').
    destruct (run rb est w n a m) as [m'| | | |] eqn:E; cbn [bind] in H; try (rewrite (IH a m _ E) by discriminate; cbn [bind]).
    + now apply IH.
    + exact H.
    + exact H.
    + exact H.
    + now subst r.
  - exact H.
  - exact H.
  - change (run rb est w (S (S n)) (SIf c a b) m) with (t <- holds rb est w m c; if t then run rb est w (S n) a m else run rb est w (S n) b m).
    destruct (holds rb est w m c) as [[|]| | | |]; cbn [bind] in *; auto.
  - change (run rb est w (S (S n)) (SWhile c a) m) with
      (t <- holds rb est w m c; if t then m' <- run rb est w (S n) a m; run rb est w (S n) (SWhile c a) m' else Ok m).
    destruct (holds rb est w m c) as [[|]| | | |]; cbn [bind] in *; auto.
    destruct (run rb est w n a m) as [m'| | | |] eqn:E; cbn [bind] in H; try (rewrite (IH a m _ E) by discriminate; cbn [bind]).
    + now apply IH.
    + exact H.
    + exact H.
    + exact H.
    + now subst r.
Qed.
End Run.
