(** Outcomes of evaluating C++ code.

    Models no particular file: it is the result type of every modelled function.
    - [Ok a]      : the expression has the value [a];
    - [Contract]  : a [gsl_Expects] or [assert] fails (at run time: terminate;
                    in a constant expression: the program does not compile);
    - [Undef]     : undefined behaviour (signed overflow, division by zero);
    - [IllFormed] : a constraint of a template is not satisfied;
    - [Stuck]     : a modelled loop ran out of fuel.  No C++ execution does this;
                    the theorems show that it never happens. *)

Inductive res (A : Type) : Type :=
| Ok (a : A)
| Contract
| Undef
| IllFormed
| Stuck.

Arguments Ok {A} a.
Arguments Contract {A}.
Arguments Undef {A}.
Arguments IllFormed {A}.
Arguments Stuck {A}.

(** Sequencing: the first failing step decides the outcome. *)
Definition bind {A B : Type} (x : res A) (f : A -> res B) : res B :=
  match x with
  | Ok a => f a
  | Contract => Contract
  | Undef => Undef
  | IllFormed => IllFormed
  | Stuck => Stuck
  end.

Declare Scope res_scope.
Delimit Scope res_scope with res.
Notation "x <- e ; f" := (bind e (fun x => f))
  (at level 61, e at next level, right associativity) : res_scope.

(** [expects b]: a precondition check ([gsl_Expects(b)] or [assert(b)]). *)
Definition expects (b : bool) : res unit := if b then Ok tt else Contract.

(** [requires b]: a template constraint. *)
Definition constrained (b : bool) : res unit := if b then Ok tt else IllFormed.

Definition is_ok {A : Type} (x : res A) : bool :=
  match x with Ok _ => true | _ => false end.

Lemma bind_ok : forall (A B : Type) (x : res A) (f : A -> res B) (b : B),
  bind x f = Ok b -> exists a, x = Ok a /\ f a = Ok b.
Proof. intros A B x f b H; destruct x; simpl in H; try discriminate; eauto. Qed.

Lemma expects_ok : forall b u, expects b = Ok u -> b = true.
Proof. intros [|] u; simpl; congruence. Qed.

Lemma constrained_ok : forall b u, constrained b = Ok u -> b = true.
Proof. intros [|] u; simpl; congruence. Qed.

Ltac inv_ok :=
  repeat match goal with
  | H : bind _ _ = Ok _ |- _ =>
      let a := fresh "v" in let H1 := fresh "E" in let H2 := fresh "K" in
      apply bind_ok in H; destruct H as (a & H1 & H2)
  | H : expects _ = Ok _ |- _ => apply expects_ok in H
  | H : constrained _ = Ok _ |- _ => apply constrained_ok in H
  | H : Ok _ = Ok _ |- _ => injection H; clear H; intros; subst
  end.

(** The same, keeping the name of the hypothesis for the last computation. *)
Ltac unbind :=
  repeat match goal with
  | H : bind _ _ = Ok _ |- _ =>
      let a := fresh "v" in let H1 := fresh "E" in
      apply bind_ok in H; destruct H as (a & H1 & H)
  | H : expects _ = Ok _ |- _ => apply expects_ok in H
  | H : constrained _ = Ok _ |- _ => apply constrained_ok in H
  | H : Ok _ = Ok _ |- _ => injection H; clear H; intros; subst
  end.

(** Names the first computation of a sequence and its equation. *)
Tactic Notation "step" hyp(H) "as" ident(x) ident(E) :=
  apply bind_ok in H; destruct H as (x & E & H).
