(** Model of [example/references/total_energy.cpp]. *)

From Coq Require Import ZArith String List Bool SpecFloat.
From Verif Require Import Outcome CInt Ratio Root Unit Dim DimOp Rep QuantityCast CommonQuantity Quantity Math.
Local Open Scope Z_scope.
Local Open Scope res_scope.

(** [pow<2>(q)] where a quantity is expected, math.h:50-63: for this exponent the result is
    never a plain value. *)
Definition q_square (est : estimate) (w : world) (l : libm) (q : quantity) : res quantity :=
  r <- q_pow est w l 2 1 q;
  match r with inr s => Ok s | inl _ => IllFormed end.

(** [total_energy(p, m, c)], total_energy.cpp:38-41.  The concepts that constrain the arguments
    and the result are those of C76 and are left out: the function is modelled for all quantities
    for which its body compiles. *)
Definition total_energy (est : estimate) (w : world) (l : libm) (p m c : quantity) : res quantity :=
  pc <- q_times w p c;
  a <- q_square est w l pc;
  c2 <- q_square est w l c;
  mc2 <- q_times w m c2;
  b <- q_square est w l mc2;
  s <- q_add est w a b;
  q_sqrt est w s.
