(** C80: which headers of the library can be included together, and in which order. *)

From Coq Require Import ZArith String List Bool Permutation.
From Verif Require Import Outcome Root Ratio Unit Downcast Dim DimOp UnitText Rep QuantityCast Quantity Expr QuantityIo System Catalogue Includes
  SpecIncludes SystemProofs CatalogueProofs Props_Catalogue IncludesProofs IncludesProofs2 IncludesProofs3 WorldSameProofs.
Import ListNotations.
Local Open Scope string_scope.
Local Open Scope list_scope.

#[local] Opaque full catalogue headers isq_templates.

(** The preprocessor puts out the headers the program includes, directly or not, and no
    others, each once and after the headers it includes. *)
Theorem C80_included : forall paths, known paths ->
  exists hs, preprocess paths = Ok hs /\ NoDup hs /\
    (forall h, In h hs <-> In h headers /\ included paths (h_path h)) /\
    (forall l1 h l2, hs = l1 ++ h :: l2 -> forall q, In q (h_includes h) -> In q (map h_path l1)).
Proof. exact preprocess_lists. Qed.
Print Assumptions C80_included.

(** The names a program can use are those declared in the headers it includes. *)
Theorem C80_declared : forall est mode paths e, compile est mode paths = Ok e ->
  forall n, taken e n = true <->
    exists h x, In h headers /\ included paths (h_path h) /\ In x (h_entries h) /\ entry_name x = n.
Proof. exact compile_declares. Qed.
Print Assumptions C80_declared.

(** Every header can be included on its own, in every mode: it includes all it uses. *)
Theorem C80_alone : forall est mode h, In h headers -> exists e, compile est mode [h_path h] = Ok e.
Proof. exact compile_alone. Qed.
Print Assumptions C80_alone.

(** With downcasting off or automatic every list of headers compiles, in every order. *)
Theorem C80_together : forall est mode paths, mode <> On -> known paths -> exists e, compile est mode paths = Ok e.
Proof. exact compile_open. Qed.
Print Assumptions C80_together.

(** In the default mode exactly the lists without a pair of [clashes] do. *)
Theorem C80_default : forall est paths, known paths ->
  (clash_free paths -> exists e, compile est On paths = Ok e) /\
  (~ clash_free paths -> compile est On paths = IllFormed).
Proof. exact compile_on. Qed.
Print Assumptions C80_default.

(** A path that is not a header of the library does not compile. *)
Theorem C80_unknown : forall est mode paths, ~ known paths -> compile est mode paths = IllFormed.
Proof. exact compile_unknown. Qed.
Print Assumptions C80_unknown.

(** What is included counts, not how: order, repetitions and detours make no difference. *)
Theorem C80_order : forall est mode paths paths', (forall p, included paths p <-> included paths' p) ->
  match compile est mode paths, compile est mode paths' with
  | Ok e, Ok e' => interchangeable e e'
  | IllFormed, IllFormed => True
  | _, _ => False
  end.
Proof. exact compile_order. Qed.
Print Assumptions C80_order.

(** In particular the [#include] lines can be sorted. *)
Lemma included_incl : forall a b, incl a b -> forall p, included a p -> included b p.
Proof.
  intros a b I p H. induction H as [p H|h q H IH Hh Q]; [now apply included_directly, I|].
  exact (included_through b h q IH Hh Q).
Qed.
Theorem C80_sorted : forall est mode paths paths', Permutation paths paths' ->
  match compile est mode paths, compile est mode paths' with
  | Ok e, Ok e' => interchangeable e e'
  | IllFormed, IllFormed => True
  | _, _ => False
  end.
Proof.
  intros est mode paths paths' P. apply compile_order. intros p.
  split; apply included_incl; intros x X; [exact (Permutation_in x P X)|exact (Permutation_in x (Permutation_sym P) X)].
Qed.
Print Assumptions C80_sorted.

(** Interchangeable programs give every expression the same type, unit and number, compare
    alike, and print alike. *)
Theorem C80_values : forall e e', interchangeable e e' ->
  (forall est x, eval est (en_world e) x = eval est (en_world e') x) /\
  (forall est a b, q_compare est (en_world e) a b = q_compare est (en_world e') a b /\
                   q_eqb est (en_world e) a b = q_eqb est (en_world e') a b) /\
  (forall (F : Type) (put : F -> number -> string) default os q,
    output put default (en_guides e) (en_units e) os q = output put default (en_guides e') (en_units e') os q).
Proof.
  intros e e' (_ & _ & _ & _ & Fu & _ & Dp & Du & Dd).
  assert (S : same_downcast (en_world e) (en_world e')) by (split; [exact Du|exact Dd]).
  split; [intros est x; exact (same_eval _ _ S est x)|]. split; [intros est a b; exact (same_compare _ _ S est a b)|].
  intros F put default os q. apply same_output; [exact Dp|exact Fu].
Qed.
Print Assumptions C80_values.

(** What holds of the programs of the catalogue (C63-C65, C67-C70, C73-C79) holds of what
    [#include] lines bring in. *)
Theorem C80_catalogue : forall est mode paths e, compile est mode paths = Ok e -> exists prog, compiles est mode prog e.
Proof. exact compile_catalogue. Qed.
Print Assumptions C80_catalogue.

(** Headers that clash: each compiles alone, no two together in the default mode. *)
Theorem C80_clashes_refuted : forall est a b, In (a, b) clashes ->
  (exists e, compile est On [a] = Ok e) /\ (exists e, compile est On [b] = Ok e) /\
  compile est On [a; b] = IllFormed /\ compile est On [b; a] = IllFormed.
Proof.
  intros est a b H.
  assert (K : forall p, In p [a; b] -> In p (map h_path headers)).
  { pose proof (proj1 (forallb_forall _ _) clashes_share _ H) as S. cbn [fst snd] in S.
    destruct (find_header a) as [h| | | |] eqn:A; try discriminate S. destruct (find_header b) as [k| | | |] eqn:B; try discriminate S.
    apply find_header_some in A as [A <-]. apply find_header_some in B as [B <-].
    intros p [<-|[<-|[]]]; now apply in_map. }
  assert (Alone : forall p, In p [a; b] -> exists e, compile est On [p] = Ok e).
  { intros p P. apply K, in_map_iff in P as (h & <- & P). now apply compile_alone. }
  split; [apply Alone; now left|]. split; [apply Alone; right; now left|].
  split; apply compile_on.
  - exact K.
  - intros F. apply (F a b H). split; apply included_directly; [now left|right; now left].
  - intros p [<-|[<-|[]]]; apply K; [right; now left|now left].
  - intros F. apply (F a b H). split; apply included_directly; [right; now left|now left].
Qed.
Print Assumptions C80_clashes_refuted.

(** The hypotheses can be met: two orders of three headers that share includes, and the
    declarations do come in another order. *)
#[local] Transparent full catalogue headers isq_templates.
Definition ex_a : list string := ["isq/si/international/speed.h"; "isq/iec80000/iec80000.h"; "isq/si/cgs/cgs.h"].
Definition ex_b : list string := ["isq/si/cgs/cgs.h"; "isq/si/international/speed.h"; "isq/iec80000/iec80000.h"].
Example C80_ex : Permutation ex_a ex_b /\ known ex_a /\
  forall est, match compile est On ex_a, compile est On ex_b with
    | Ok e, Ok e' => taken e "si::metre_per_second" = true /\ taken e "si::dim_energy_density" = false /\
        (if list_eq_dec string_dec (map u_ref (en_units e)) (map u_ref (en_units e')) then true else false) = false /\
        find_unit e "iec80000::bit" = find_unit e' "iec80000::bit"
    | _, _ => False
    end.
Proof.
  split; [exact (Permutation_trans (perm_skip _ (perm_swap _ _ _)) (perm_swap _ _ _))|]. split.
  - intros p P. assert (F : forallb (fun p => existsb (String.eqb p) (map h_path headers)) ex_a = true) by (vm_compute; reflexivity).
    apply existsb_eqb. exact (proj1 (forallb_forall _ _) F p P).
  - intros est. vm_compute. repeat split; reflexivity.
Qed.
(** The default mode: a list without a clash, reached through other headers. *)
Example C80_clash_ex : included ["isq/si/imperial/imperial.h"; "isq/si/fps/fps.h"] "isq/si/international/length.h" /\
  included ["isq/si/imperial/imperial.h"; "isq/si/fps/fps.h"] "isq/si/fps/length.h" /\
  forall est, compile est On ["isq/si/imperial/imperial.h"; "isq/si/fps/fps.h"] = IllFormed.
Proof.
  assert (Step : forall paths a b, included paths a ->
    existsb (fun h => String.eqb a (h_path h) && existsb (String.eqb b) (h_includes h)) headers = true -> included paths b).
  { intros paths a b I H. apply existsb_exists in H as (h & Hh & E). apply andb_true_iff in E as [E1 E2].
    apply String.eqb_eq in E1. subst a. apply existsb_eqb in E2. exact (included_through paths h b I Hh E2). }
  split; [|split].
  - apply (Step _ "isq/si/imperial/length.h"); [|vm_compute; reflexivity].
    apply (Step _ "isq/si/imperial/imperial.h"); [|vm_compute; reflexivity]. apply included_directly. now left.
  - apply (Step _ "isq/si/fps/fps.h"); [|vm_compute; reflexivity]. apply included_directly. right. now left.
  - intros est. vm_compute. reflexivity.
Qed.
