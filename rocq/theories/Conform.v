(** The expressions the library's own tests are written in, for running the tests of
    /repo/test/unit_test on the model (the files [Conform_*]).  These are checks of the
    model, not properties: each assertion of a test must come out as it does there.

    An expression is evaluated with the operators of [Quantity], [Reference], [Point.q_cast],
    selected by the operands as in C++; names are resolved in a program's environment and in
    the tables of [Names]. *)

From Coq Require Import ZArith String List Bool SpecFloat.
From Verif Require Import Outcome CInt Root Ratio FixedString Unit Downcast Dim DimOp UnitDecl UnitText Rep Reference QuantityCast CommonQuantity
  Quantity Point Math System Catalogue Names Includes Plain.
Import ListNotations.
Local Open Scope string_scope.
Local Open Scope Z_scope.
Local Open Scope res_scope.

Inductive cval := VQ (q : quantity) | VN (r : rep) (n : number) | VR (x : reference).

Inductive cop := CAdd | CSub | CMul | CDiv | CRem.
Inductive ccmp := CEq | CNe | CLt | CLe | CGt | CGe.

(** The types the tests name: [si::length<si::metre, r>], the same with
    [scaled_unit<ratio(a, b, c), u>] (the dimension ["dim_one"] for [dimensionless]), and
    [quantity<unknown_dimension<exponent<..>...>, scaled_unit<ratio(a, b, c), unknown_coherent_unit>, r>]. *)
Inductive ctype :=
| TNamed (d u : string) (r : rep)
| TScaled (d : string) (a b c : Z) (u : string) (r : rep)
| TUnknown (l : list (string * (Z * Z))) (a b c : Z) (r : rep).
Inductive cexpr :=
| CLit (ns name : string) (z : Z)                        (* 1_q_km *)
| CFlt (ns name : string) (x : spec_float)               (* 1.5_q_km *)
| CRef (ns name : string)                                (* km *)
| CNum (r : rep) (n : number)
| CMake (t : ctype) (x : cexpr)                          (* si::length<si::metre, r>(x) *)
| CImplicit (t : ctype) (x : cexpr)                      (* a parameter of type t given the argument x *)
| CQuantity (x : cexpr)                                  (* quantity{x} *)
| CStatic (f : qtype -> quantity) (t : ctype)            (* t::zero(), t::min(), t::max() *)
| CAssign (o : cop) (x y : cexpr)                        (* x += y *)
| CStep (up : bool) (x : cexpr)                          (* ++x, --x *)
| CPos (x : cexpr)
| CSqrt (x : cexpr)
| CBin (o : cop) (x y : cexpr)
| CNeg (x : cexpr)
| CCastTo (t : ctype) (x : cexpr)                        (* quantity_cast<si::length<si::metre, r>>(x) *)
| CCastDimUnit (d u : string) (x : cexpr)
| CCastDim (d : string) (x : cexpr)
| CCastUnit (u : string) (x : cexpr)
| CCastRep (r : rep) (x : cexpr)
| CNumber (x : cexpr).                                   (* x.number() *)

Definition called (n : uname) (ns name : string) : bool := String.eqb (n_ns n) ns && String.eqb (n_name n) name.
Definition the {A : Type} (o : option A) : res A := match o with Some a => Ok a | None => IllFormed end.

Section Eval.
Variables (est : estimate) (e : env).

Definition a_dim (d : string) : res dimension :=
  if String.eqb d "dim_one" then Ok dim_one else x <- find_dim e d; Ok (snd x).
Definition a_unit (u : string) : res cunit :=
  if String.eqb u "one" then Ok unit_one else find_unit e u.
Fixpoint a_exponents (l : list (string * (Z * Z))) : res (list bexp) :=
  match l with
  | [] => Ok []
  | (d, (n, m)) :: r =>
      x <- a_dim d; t <- a_exponents r;
      match x with DBase b => Ok (BExp b n m :: t) | _ => IllFormed end
  end.
Definition a_type (t : ctype) : res qtype :=
  match t with
  | TNamed d u r => x <- a_dim d; y <- a_unit u; mk_qtype x y r
  | TScaled d a b c u r => x <- a_dim d; y <- a_unit u; k <- mk_ratio a b c; v <- scaled_unit k (u_ref y); mk_qtype x v r
  | TUnknown l a b c r =>
      es <- a_exponents l; x <- mk_unknown_dimension es; k <- mk_ratio a b c;
      v <- scaled_unit k (u_ref (dimension_unit x)); mk_qtype x v r
  end.
Definition c_op (o : cop) : arith_op :=
  match o with CAdd => OpAdd | CSub => OpSub | CMul => OpMul | CDiv => OpDiv | CRem => OpRem end.
Definition quantity_of (x : res quantity) : res cval := q <- x; Ok (VQ q).

(** A plain number on one side is converted to the type [dimensionless<one, Rep>] of the
    other (quantity.h:150-153, with the hidden friends :378-389). *)
Definition as_quantity (t : qtype) (v : cval) : res quantity :=
  match v with
  | VQ q => Ok q
  | VN r n => implicit_value t r n
  | VR _ => IllFormed
  end.

(** Whether a quantity is a [dimensionless<one, Rep>]. *)
Definition plain (q : quantity) : bool :=
  is_dim_one (q_dim (q_type q)) && is_unit_one (q_unit (q_type q)).

(** The compound assignments, quantity.h:186-285. *)
Definition c_assign (o : cop) (q : quantity) (v : cval) : res quantity :=
  match o, v with
  | CAdd, VQ _ | CAdd, VN _ _ => b <- as_quantity (q_type q) v; q_act est q (AAdd b)
  | CSub, VQ _ | CSub, VN _ _ => b <- as_quantity (q_type q) v; q_act est q (ASub b)
  | CMul, VN r n => q_act est q (AMulV r n)
  | CDiv, VN r n => q_act est q (ADivV r n)
  | CRem, VN r n => q_act est q (ARemV r n)
  | CMul, VQ b => _ <- constrained (plain b); q_act est q (AMulV (q_rep (q_type b)) (q_num b))
  | CDiv, VQ b => _ <- constrained (plain b); q_act est q (ADivV (q_rep (q_type b)) (q_num b))
  | CRem, VQ b => if plain b then q_act est q (ARemV (q_rep (q_type b)) (q_num b)) else q_act est q (ARem b)
  | _, VR _ => IllFormed
  end.

(** The overloads of quantity.h, reference.h and the built-in operators. *)
Definition c_apply (o : cop) (x y : cval) : res cval :=
  let w := en_world e in
  match x, y with
  | VQ a, VQ b => quantity_of (match o with
      | CAdd => q_add est w a b | CSub => q_sub est w a b | CMul => q_times w a b
      | CDiv => q_over w a b | CRem => q_rem a b end)
  | VQ a, VN r n => quantity_of (match o with
      | CAdd => q_addsub_value OpAdd false a r n | CSub => q_addsub_value OpSub false a r n
      | CMul => q_mul_value a r n | CDiv => q_div_value a r n | CRem => q_rem_value a r n end)
  | VN r n, VQ a => quantity_of (match o with
      | CAdd => q_addsub_value OpAdd true a r n | CSub => q_addsub_value OpSub true a r n
      | CMul => value_mul_q a r n | CDiv => value_div_q w r n a
      | CRem => c <- as_quantity (q_type a) x; q_rem c a end)
  | VN r n, VN s m => z <- n_op (c_op o) r s n m; Ok (VN (arith_rep r s) z)
  | VN r n, VR f => match o with CMul => quantity_of (times_reference r n f) | _ => IllFormed end
  | VR f, VR g => match o with
      | CMul => h <- reference_multiply w f g; Ok (VR h)
      | CDiv => h <- reference_divide w f g; Ok (VR h)
      | _ => IllFormed end
  | _, _ => IllFormed
  end.

Fixpoint c_eval (x : cexpr) : res cval :=
  match x with
  | CLit ns n z => l <- the (find (fun l => called (l_name l) ns n) literals); quantity_of (whole_literal false e (l_name l) z)
  | CFlt ns n v => l <- the (find (fun l => called (l_name l) ns n) literals); quantity_of (float_literal e l (NFlt v))
  | CRef ns n => u <- the (find (fun u => called u ns n) references); r <- named_reference e u; Ok (VR r)
  | CNum r n => Ok (VN r n)
  | CMake t y =>
      t <- a_type t; v <- c_eval y;
      match v with VN s n => quantity_of (q_make t s n) | VQ q => quantity_of (q_to est t q) | VR _ => IllFormed end
  | CImplicit t y =>
      t <- a_type t; v <- c_eval y; q <- as_quantity t v; quantity_of (q_to est t q)
  | CQuantity y => v <- c_eval y;
      match v with VN s n => quantity_of (q_make (QType dim_one unit_one s) s n) | VQ q => Ok (VQ q) | VR _ => IllFormed end
  | CStatic f t => t <- a_type t; Ok (VQ (f t))
  | CAssign o a b => u <- c_eval a; v <- c_eval b; match u with VQ q => quantity_of (c_assign o q v) | _ => IllFormed end
  | CStep up a => u <- c_eval a; match u with VQ q => quantity_of (q_act est q (if up then AInc else ADec)) | _ => IllFormed end
  | CSqrt a => u <- c_eval a; match u with VQ q => quantity_of (q_sqrt est (en_world e) q) | _ => IllFormed end
  | CPos a => u <- c_eval a; match u with VQ q => quantity_of (q_plus q) | _ => IllFormed end
  | CBin o a b => u <- c_eval a; v <- c_eval b; c_apply o u v
  | CNeg a => v <- c_eval a; match v with VQ q => quantity_of (q_neg q) | VN r n => z <- n_neg r n; Ok (VN (promote_rep r) z) | VR _ => IllFormed end
  | CCastTo t a => t <- a_type t; v <- c_eval a;
      match v with VQ q => quantity_of (q_cast est (en_world e) (ToQuantity t) q) | _ => IllFormed end
  | CCastDim d a => x <- find_dim e d; v <- c_eval a;
      match v with VQ q => quantity_of (q_cast est (en_world e) (ToDim (snd x)) q) | _ => IllFormed end
  | CCastDimUnit d u a => x <- a_dim d; y <- a_unit u; v <- c_eval a;
      match v with VQ q => p <- quantity_cast_dim_unit est x y (q_type q) (q_num q); Ok (VQ (Quantity (fst p) (snd p))) | _ => IllFormed end
  | CCastUnit u a => x <- a_unit u; v <- c_eval a;
      match v with VQ q => quantity_of (q_cast est (en_world e) (ToUnit x) q) | _ => IllFormed end
  | CCastRep r a => v <- c_eval a;
      match v with VQ q => quantity_of (q_cast est (en_world e) (ToRep r) q) | _ => IllFormed end
  | CNumber a => v <- c_eval a; match v with VQ q => Ok (VN (q_rep (q_type q)) (q_num q)) | _ => IllFormed end
  end.

Definition holds (o : ccmp) (eq : bool) (c : option comparison) : bool :=
  match o, c with
  | CEq, _ => eq | CNe, _ => negb eq
  | CLt, Some Lt => true | CLe, Some Lt => true | CLe, Some Eq => true
  | CGt, Some Gt => true | CGe, Some Gt => true | CGe, Some Eq => true
  | _, _ => false
  end.

Definition c_compare_vals (o : ccmp) (u v : cval) : res bool :=
  match u, v with
  | VN r n, VN s m =>
      a <- n_convert (arith_rep r s) n; b <- n_convert (arith_rep r s) m;
      q <- n_eqb a b; c <- n_compare a b; Ok (holds o q c)
  | _, _ =>
      a <- (match v with VQ q => as_quantity (q_type q) u | _ => match u with VQ q => Ok q | _ => IllFormed end end);
      b <- (match u with VQ q => as_quantity (q_type q) v | _ => match v with VQ q => Ok q | _ => IllFormed end end);
      q <- q_eqb est (en_world e) a b; c <- q_compare est (en_world e) a b; Ok (holds o q c)
  end.
Definition c_compare (o : ccmp) (x y : cexpr) : res bool :=
  u <- c_eval x; v <- c_eval y; c_compare_vals o u v.

Inductive cassert :=
| ACmp (o : ccmp) (x y : cexpr)
| ASymbol (u : string) (s : symbol_text)                 (* u::symbol == s *)
| AText (d u : string) (s : symbol_text)                 (* unit_text<d, u>() == s *)
| AShown (x : cexpr) (s : symbol_text)                   (* the unit of x is printed as s *)
| ARatio (d u : string) (a b c : Z)                      (* quantity_ratio<quantity<d, u>> == ratio(a, b, c) *)
| AWell (x : cexpr)                                      (* x compiles *)
| AIll (x : cexpr)                                       (* x does not compile *)
| AWellCmp (o : ccmp) (x y : cexpr)
| AIllCmp (o : ccmp) (x y : cexpr)
| AType (x : cexpr) (t : ctype)                          (* is_same_v<decltype(x), t> *)
| ASame (x y : cexpr)                                    (* is_same_v<decltype(x), decltype(y)> *)
| ARep (x : cexpr) (r : rep)                             (* is_same_v<decltype(x.number()), r&&> *)
| AMember (t : ctype) (d u : string) (r : rep)           (* the members dimension, unit and rep of t *)
| ANot (x : cassert)
| AAnd (x y : cassert).
Definition same_text (a b : symbol_text) : bool := String.eqb (st_standard a) (st_standard b) && String.eqb (st_ascii a) (st_ascii b).
Definition same_type (a b : qtype) : bool := if qtype_eq_dec a b then true else false.
Fixpoint c_check (a : cassert) : res bool :=
  match a with
  | ACmp o x y => c_compare o x y
  | ASymbol u s => x <- find_unit e u; t <- the (u_symbol x); Ok (same_text t s)
  | AText d u s => x <- find_dim e d; y <- find_unit e u; t <- unit_text (en_guides e) (en_units e) (snd x) y; Ok (same_text t s)
  | AShown x s => v <- c_eval x;
      match v with
      | VQ q => t <- unit_text (en_guides e) (en_units e) (q_dim (q_type q)) (q_unit (q_type q)); Ok (same_text t s)
      | _ => IllFormed end
  | ARatio d u a b c => t <- a_type (TNamed d u (RFlt F64)); r <- quantity_ratio est (q_dim t) (q_unit t); s <- mk_ratio a b c;
      Ok (if ratio_eq_dec r s then true else false)
  | AWell x => match c_eval x with Ok _ => Ok true | _ => Ok false end
  | AIll x => match c_eval x with IllFormed => Ok true | _ => Ok false end
  | AWellCmp o x y => match c_compare o x y with Ok _ => Ok true | _ => Ok false end
  | AIllCmp o x y => match c_compare o x y with IllFormed => Ok true | _ => Ok false end
  | AType x t => v <- c_eval x; t <- a_type t; match v with VQ q => Ok (same_type (q_type q) t) | _ => IllFormed end
  | ASame x y => v <- c_eval x; w <- c_eval y;
      match v, w with VQ p, VQ q => Ok (same_type (q_type p) (q_type q)) | _, _ => IllFormed end
  | ARep x r => v <- c_eval x; match v with VN s _ => Ok (if rep_eq_dec s r then true else false) | _ => IllFormed end
  | AMember t d u r => t <- a_type t; x <- a_dim d; y <- a_unit u; Ok (same_type t (QType x y r))
  | ANot x => b <- c_check x; Ok (negb b)
  | AAnd x y => b <- c_check x; if b then c_check y else Ok false
  end.
End Eval.

(** The lines of a test that do not hold. *)
Definition failing (est : estimate) (e : env) (l : list (Z * cassert)) : list Z :=
  map fst (filter (fun x => match c_check est e (snd x) with Ok true => false | _ => true end) l).
