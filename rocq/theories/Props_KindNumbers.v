(** C100 for kinds: nothing of the kinds is left when a program runs. *)

From Coq Require Import ZArith String List Bool Lia.
From Verif Require Import DimOpProofs DimOpProofs3 EquivProofs Expr SpecExpr SpecAffine KindExprProofs.
From Verif Require Import Outcome CInt Root Ratio SpecRatio Unit Downcast Dim DimOp Equivalent SpecDim SpecUnit MagnitudeProofs Rep Reference QuantityCast CommonQuantity
  Quantity SpecQuantity Point Affine AffineProofs Static SpecStatic StaticProofs Program SpecProgram ProgramProofs Kind PointKind SpecPoint KindExpr SpecKindExpr
  StaticKind SpecStaticKind StaticKindProofs KindProgram SpecKindProgram KindProgramProofs KindEraseProofs KindStripProofs QuantityProofs2 CatalogueProofs
  Samples Props_Dim Props_Quantity Props_Point Props_Expr Props_Affine Props_KindExpr Props_KindProgram SpecNumbers SpecKindNumbers Props_Numbers.
Import ListNotations.
Local Open Scope res_scope.

(** Taking the kinds away adds no operators. *)
Lemma strip_operators : forall qs e, operators (SpecKindProgram.strip qs e) <= voperators e.
Proof.
  intros qs e. induction e as [x|v|o a IH|o a IHa b IHb|t a IH|t a IH|a IH|c a IH|t a IH|a IH|t a IH|a IH|c a IH|t a IH]; cbn [SpecKindProgram.strip voperators operators]; try lia.
  - destruct o; try (destruct (plain_quantity qs a)); cbn [operators]; lia.
  - destruct c; cbn [strip_cast operators]; lia.
  - destruct c; cbn [strip_cast operators]; lia.
Qed.
Lemma strip_operators_cond : forall qs c, operators_cond (strip_cond qs c) <= voperators_cond c.
Proof. intros qs c. induction c as [o a b|c IH|c IHc d IHd|c IHc d IHd]; cbn; try lia. pose proof (strip_operators qs a). pose proof (strip_operators qs b). lia. Qed.
Lemma strip_operators_stmt : forall qs s, operators_stmt (strip_stmt qs s) <= voperators_stmt s.
Proof.
  intros qs s. induction s as [|a IHa b IHb|x e|x h|c a IHa b IHb|c a IHa]; cbn [strip_stmt operators_stmt voperators_stmt]; try lia.
  - pose proof (strip_operators qs e). lia.
  - destruct h as [| |e|e|e|r v|r v|r v]; cbn [strip_change operators_change]; try lia; pose proof (strip_operators qs e); lia.
  - pose proof (strip_operators_cond qs c). lia.
  - pose proof (strip_operators_cond qs c). lia.
Qed.
Lemma strip_sound : forall qs e, vexpr_sound e -> pexpr_sound (SpecKindProgram.strip qs e).
Proof.
  intros qs e. induction e as [x|v|o a IH|o a IHa b IHb|t a IH|t a IH|a IH|c a IH|t a IH|a IH|t a IH|a IH|c a IH|t a IH]; cbn [SpecKindProgram.strip vexpr_sound pexpr_sound]; intros S; auto.
  - destruct v; exact S.
  - destruct S as [So S]. destruct o; try (destruct (plain_quantity qs a)); cbn [pexpr_sound]; auto.
  - destruct S. auto.
  - split; [exact I|auto].
  - split; [exact I|auto].
  - destruct c; cbn [strip_cast pexpr_sound]; auto; (split; [exact I|auto]).
  - split; [exact I|auto].
  - split; [exact I|auto].
  - destruct c; cbn [strip_cast pexpr_sound]; auto; (split; [exact I|auto]).
  - split; [exact I|auto].
Qed.
Lemma strip_sound_cond : forall qs c, vcond_sound c -> pcond_sound (strip_cond qs c).
Proof. intros qs c. induction c as [o a b|c IH|c IHc d IHd|c IHc d IHd]; cbn; auto; intros [A B]; split; auto using strip_sound. Qed.
Lemma strip_sound_stmt : forall qs s, vstmt_sound s -> pstmt_sound (strip_stmt qs s).
Proof.
  intros qs s. induction s as [|a IHa b IHb|x e|x h|c a IHa b IHb|c a IHa]; cbn [strip_stmt vstmt_sound pstmt_sound]; auto.
  - intros [A B]. auto.
  - apply strip_sound.
  - destruct h; cbn [vchange_sound strip_change change_sound]; auto using strip_sound.
  - intros (A & B & C). auto using strip_sound_cond.
  - intros (A & B). auto using strip_sound_cond.
Qed.

Lemma bare_numbers : forall m, numbers (bare m) = knumbers m.
Proof. intros m. unfold numbers, bare, knumbers. rewrite map_map. apply map_ext. now intros []. Qed.
Lemma bare_typed : forall d m, kwell_typed d m -> well_typed (bare_types d) (bare m).
Proof. intros d m W. induction W as [|t v d m [<- S] F IH]; [constructor|]. cbn. constructor; [|exact IH]. destruct v; now split. Qed.
Lemma kretyped : forall d m, kwell_typed d m -> of_ktyps d (knumbers m) = m.
Proof. intros d m W. induction W as [|t v d m [<- S] F IH]; [reflexivity|]. cbn. unfold knumbers in IH. rewrite IH. f_equal. now destruct v as [[]|[]|[]]. Qed.
Lemma numbers_of_types : forall d l m, typed_as d (Ok l) = Ok m -> length l = length d -> numbers m = l.
Proof.
  intros d l m H L. injection H as <-. revert l L. induction d as [|t d IH]; intros [|n l] L; cbn in *; try discriminate; [reflexivity|].
  unfold numbers in IH. rewrite IH by lia. now destruct t.
Qed.

Lemma nupdate_length : forall l x v, length (nupdate l x v) = length l.
Proof. induction l as [|a l IH]; intros [|x] v; cbn; auto. Qed.
Lemma nrun_length : forall n p l l', nrun n p l = Ok l' -> length l' = length l.
Proof.
  induction n as [|n IH]; intros p l l' H; [discriminate|]. destruct p as [|a b|x e|c a b|c a]; cbn [nrun] in H.
  - now injection H as <-.
  - step H as m M. rewrite (IH b m l' H). exact (IH a l m M).
  - step H as v V. injection H as <-. apply nupdate_length.
  - step H as t T. destruct t; exact (IH _ _ _ H).
  - step H as t T. destruct t; [|now injection H as <-]. step H as m M. rewrite (IH (NWhile c a) m l' H). exact (IH a l m M).
Qed.

(** A program with kinds that compiles is a program of plain numbers too. *)
Theorem C100_kinds : forall U rb est w g gp d s, symbols_identify U -> reachable w -> kinds_declared g -> pkinds_declared gp ->
  Forall (legal_typ (of_system U w)) d -> vlegal_stmt (of_system U w) s ->
  vcompiles rb est w g gp d s = Ok tt -> vstmt_sound s ->
  exists p : nstmt, nops_stmt p <= 13 * voperators_stmt s /\
    (direct_stmt rb est w (bare_types d) (strip_stmt (map is_quantity d) s) -> nops_stmt p <= voperators_stmt s) /\
    forall n m, kwell_typed d m -> vrun rb est w g gp n s m = kinds_back d (nrun n p (knumbers m)).
Proof.
  intros U rb est w g gp d s HU R G GP D L H S. pose proof (proj1 (C99_compiles U rb est w g gp d HU R G GP D) s L H) as C.
  destruct (C100_programs rb est w (bare_types d) (strip_stmt (map is_quantity d) s) C (strip_sound_stmt _ s S)) as (p & N & N' & E). exists p. split; [|split].
  - pose proof (strip_operators_stmt (map is_quantity d) s). lia.
  - intros Dr. pose proof (strip_operators_stmt (map is_quantity d) s). specialize (N' Dr). lia.
  - intros n m W. pose proof (C99_erased U rb est w g gp d s m n HU R G GP D L H W S) as X. rewrite (E n (bare m) (bare_typed d m W)), bare_numbers in X.
    pose proof (C99_safe rb est w g gp d s m n H W S) as Sf. unfold kinds_back.
    destruct Sf as [[(m' & Em & W')|Em]|Em]; rewrite Em in *; cbn [without_kinds] in X; destruct (nrun n p (knumbers m)) as [l| | | |] eqn:El; try discriminate; try reflexivity.
    cbn [bind]. assert (Ln : length l = length (bare_types d)).
    { rewrite (nrun_length n p _ l El). unfold knumbers, bare_types. rewrite !map_length. symmetry. clear - W. induction W; cbn; congruence. }
    pose proof (numbers_of_types (bare_types d) l (bare m') X Ln) as Y. rewrite bare_numbers in Y. rewrite <- Y. now rewrite (kretyped d m' W').
Qed.
Print Assumptions C100_kinds.

(** The climb of C99 as a compiler leaves it: the constants in kilometres have become metres. *)
Definition climb_numbers : nstmt :=
  NSeq (NWhile (NRel RLt (NVar 0) (NOp OpMul (RInt I64) (NLit (NInt 3)) (NLit (NInt 1000))))
         (NSeq (NAssign 0 (NOp OpAdd (RInt I64) (NVar 0) (NOp OpMul (RInt I64) (NLit (NInt 1)) (NLit (NInt 1000)))))
               (NAssign 1 (NOp OpAdd (RInt I64) (NVar 1) (NVar 0)))))
       (NAssign 2 (NVar 0)).
Example C100_ex_kinds : forall est, exists w, si_world = Ok w /\ symbols_identify si_base /\ reachable w /\ kinds_declared some_kinds /\ pkinds_declared empty_registry /\
  Forall (legal_typ (of_system si_base w)) climb_types /\ vlegal_stmt (of_system si_base w) climb /\
  vcompiles no_rebinding est w some_kinds empty_registry climb_types climb = Ok tt /\ vstmt_sound climb /\ kwell_typed climb_types (climb_at 500 100 0) /\
  voperators_stmt climb = 5 /\ nops_stmt climb_numbers = 5 /\ knumbers (climb_at 500 100 0) = [NInt 500; NInt 100; NInt 0] /\
  vrun no_rebinding est w some_kinds empty_registry 9 climb (climb_at 500 100 0) = Ok (climb_at 3500 7600 3500) /\
  kinds_back climb_types (nrun 9 climb_numbers [NInt 500; NInt 100; NInt 0]) = Ok (climb_at 3500 7600 3500) /\
  vrun no_rebinding est w some_kinds empty_registry 9 climb (climb_at 500 9223372036854775807 0) = Undef /\
  kinds_back climb_types (nrun 9 climb_numbers [NInt 500; NInt 9223372036854775807; NInt 0]) = Undef.
Proof.
  intros est. destruct (C99_ex est) as (w & H1 & H2 & H3 & H4 & H5 & H6 & H7 & H8 & H9 & H10 & H11 & _). exists w.
  split; [exact H1|]. split; [exact H2|]. split; [exact H3|]. split; [exact H4|]. split; [exact pkinds_none|]. split; [exact H5|]. split; [exact H6|].
  split; [exact H7|]. split; [exact H9|]. split; [exact H8|]. clear H1 H2 H3 H4 H5 H6 H7 H8 H9.
  split; [reflexivity|]. split; [reflexivity|]. split; [reflexivity|]. split; [exact H10|]. split; [vm_compute; reflexivity|]. split; [exact H11|].
  vm_compute. reflexivity.
Qed.
