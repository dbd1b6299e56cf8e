(** test/unit_test/static/custom_rep_test_min_impl.cpp on the model of transparent wrappers, with
    the headers it includes and the library's default mode: all its assertions but :61-62
    ([Representation], a constraint of every type of the model). *)

From Coq Require Import ZArith String List Bool SpecFloat.
From Verif Require Import Outcome CInt Root Ratio Unit Downcast Dim DimOp Rep QuantityCast Quantity Point System Catalogue Includes Conform Wrapper.
Import ListNotations.
Local Open Scope string_scope.
Local Open Scope Z_scope.
Local Open Scope res_scope.

(** A type, a number of type [double], the operands of the assertions. *)
Inductive wty := Ty (d u : string) (r : wrep).
Definition flt (n : Z) (d : Z) : number := NFlt (SFdiv (fprec F64) (femax F64) (float_of_int F64 n) (float_of_int F64 d)).
Inductive term :=
| Make (t : wty) (v : wvalue)                        (* length<metre, Rep>(v) *)
| Plain (v : wvalue)                                 (* quantity{v} *)
| Num (v : wvalue)                                   (* a number, right of [==] *)
| Qq (o : arith_op) (a b : term) | Qv (o : arith_op) (a : term) (v : wvalue) | Vq (o : arith_op) (v : wvalue) (a : term).
Inductive source := Value (r : wrep) | Object (t : wty).
Inductive check :=
| Constructible (t : wty) (s : source) | Convertible (t : wty) (s : source) | Equal (a b : term) | Not (c : check).

Section Eval.
Variables (est : estimate) (e : env).

Definition the_type (t : wty) : res wtype :=
  match t with Ty d u r => q <- a_type e (TNamed d u (value_type r)); Ok (WType (q_dim q) (q_unit q) r) end.
Fixpoint term_value (t : term) : res wquantity :=
  match t with
  | Make t v => t <- the_type t; w_make t v
  | Plain v => w_make (WType dim_one unit_one (wv_rep v)) v
  | Num _ => IllFormed
  | Qq o a b =>
      x <- term_value a; y <- term_value b;
      match o with
      | OpAdd | OpSub => w_addsub o est (en_world e) x y
      | OpMul => w_times (en_world e) x y
      | OpDiv => w_over (en_world e) x y
      | OpRem => w_rem x y
      end
  | Qv o a v => x <- term_value a; match o with OpMul | OpDiv => w_scale o false x v | OpRem => w_rem_value x v | _ => IllFormed end
  | Vq o v a => x <- term_value a; match o with OpMul => w_scale o true x v | OpDiv => w_value_div (en_world e) v x | _ => IllFormed end
  end.
Definition compiles {A : Type} (r : res A) : bool := match r with IllFormed => false | _ => true end.
(** A constructor is tried with the number one. *)
Definition arg (r : wrep) : wvalue := WValue r (rep_one (value_type r)).
Fixpoint holds (c : check) : bool :=
  match c with
  | Constructible t (Value r) => compiles (t <- the_type t; w_make t (arg r))
  | Convertible t (Value r) => compiles (t <- the_type t; w_implicit t (arg r))
  | Constructible t (Object s) | Convertible t (Object s) => compiles (t <- the_type t; s <- the_type s; w_to est t (w_one s))
  | Equal a (Num v) => match (x <- term_value a; y <- w_implicit (wq_type x) v; w_eqb est (en_world e) x y) with Ok b => b | _ => false end
  | Equal a b => match (x <- term_value a; y <- term_value b; w_eqb est (en_world e) x y) with Ok b => b | _ => false end
  | Not c => negb (holds c)
  end.
End Eval.

Definition min_impl_test : list (Z * check) := [
  (67, Constructible (Ty "si::dim_length" "si::metre" (Wrapped (RInt I32))) (Value (Wrapped (RInt I32))));
  (68, Not (Convertible (Ty "si::dim_length" "si::metre" (Wrapped (RInt I32))) (Value (Wrapped (RInt I32)))));
  (70, Constructible (Ty "si::dim_length" "si::metre" (Wrapped (RFlt F64))) (Value (Wrapped (RFlt F64))));
  (71, Not (Convertible (Ty "si::dim_length" "si::metre" (Wrapped (RFlt F64))) (Value (Wrapped (RFlt F64)))));
  (73, Constructible (Ty "si::dim_length" "si::metre" (Wrapped (RFlt F64))) (Value (Wrapped (RInt I32))));
  (74, Not (Convertible (Ty "si::dim_length" "si::metre" (Wrapped (RFlt F64))) (Value (Wrapped (RInt I32)))));
  (76, Not (Constructible (Ty "si::dim_length" "si::metre" (Wrapped (RInt I32))) (Value (Wrapped (RFlt F64)))));
  (77, Not (Convertible (Ty "si::dim_length" "si::metre" (Wrapped (RInt I32))) (Value (Wrapped (RFlt F64)))));
  (80, Constructible (Ty "si::dim_length" "si::metre" (Wrapped (RInt I32))) (Value (Bare (RInt I32))));
  (81, Not (Convertible (Ty "si::dim_length" "si::metre" (Wrapped (RInt I32))) (Value (Bare (RInt I32)))));
  (83, Constructible (Ty "si::dim_length" "si::metre" (Wrapped (RFlt F64))) (Value (Bare (RFlt F64))));
  (84, Not (Convertible (Ty "si::dim_length" "si::metre" (Wrapped (RFlt F64))) (Value (Bare (RFlt F64)))));
  (86, Constructible (Ty "si::dim_length" "si::metre" (Wrapped (RFlt F64))) (Value (Bare (RInt I32))));
  (87, Not (Convertible (Ty "si::dim_length" "si::metre" (Wrapped (RFlt F64))) (Value (Bare (RInt I32)))));
  (89, Not (Constructible (Ty "si::dim_length" "si::metre" (Wrapped (RInt I32))) (Value (Bare (RFlt F64)))));
  (90, Not (Convertible (Ty "si::dim_length" "si::metre" (Wrapped (RInt I32))) (Value (Bare (RFlt F64)))));
  (93, Constructible (Ty "dim_one" "one" (Wrapped (RInt I32))) (Value (Wrapped (RInt I32))));
  (94, Convertible (Ty "dim_one" "one" (Wrapped (RInt I32))) (Value (Wrapped (RInt I32))));
  (96, Constructible (Ty "dim_one" "one" (Wrapped (RFlt F64))) (Value (Wrapped (RFlt F64))));
  (97, Convertible (Ty "dim_one" "one" (Wrapped (RFlt F64))) (Value (Wrapped (RFlt F64))));
  (99, Constructible (Ty "dim_one" "one" (Wrapped (RFlt F64))) (Value (Wrapped (RInt I32))));
  (100, Convertible (Ty "dim_one" "one" (Wrapped (RFlt F64))) (Value (Wrapped (RInt I32))));
  (102, Not (Constructible (Ty "dim_one" "one" (Wrapped (RInt I32))) (Value (Wrapped (RFlt F64)))));
  (103, Not (Convertible (Ty "dim_one" "one" (Wrapped (RInt I32))) (Value (Wrapped (RFlt F64)))));
  (106, Constructible (Ty "dim_one" "one" (Wrapped (RInt I32))) (Value (Bare (RInt I32))));
  (107, Convertible (Ty "dim_one" "one" (Wrapped (RInt I32))) (Value (Bare (RInt I32))));
  (109, Constructible (Ty "dim_one" "one" (Wrapped (RFlt F64))) (Value (Bare (RFlt F64))));
  (110, Convertible (Ty "dim_one" "one" (Wrapped (RFlt F64))) (Value (Bare (RFlt F64))));
  (112, Constructible (Ty "dim_one" "one" (Wrapped (RFlt F64))) (Value (Bare (RInt I32))));
  (113, Convertible (Ty "dim_one" "one" (Wrapped (RFlt F64))) (Value (Bare (RInt I32))));
  (115, Not (Constructible (Ty "dim_one" "one" (Wrapped (RInt I32))) (Value (Bare (RFlt F64)))));
  (116, Not (Convertible (Ty "dim_one" "one" (Wrapped (RInt I32))) (Value (Bare (RFlt F64)))));
  (119, Constructible (Ty "dim_one" "percent" (Wrapped (RInt I32))) (Value (Wrapped (RInt I32))));
  (120, Not (Convertible (Ty "dim_one" "percent" (Wrapped (RInt I32))) (Value (Wrapped (RInt I32)))));
  (122, Constructible (Ty "dim_one" "percent" (Wrapped (RFlt F64))) (Value (Wrapped (RFlt F64))));
  (123, Not (Convertible (Ty "dim_one" "percent" (Wrapped (RFlt F64))) (Value (Wrapped (RFlt F64)))));
  (125, Constructible (Ty "dim_one" "percent" (Wrapped (RFlt F64))) (Value (Wrapped (RInt I32))));
  (126, Not (Convertible (Ty "dim_one" "percent" (Wrapped (RFlt F64))) (Value (Wrapped (RInt I32)))));
  (128, Not (Constructible (Ty "dim_one" "percent" (Wrapped (RInt I32))) (Value (Wrapped (RFlt F64)))));
  (129, Not (Convertible (Ty "dim_one" "percent" (Wrapped (RInt I32))) (Value (Wrapped (RFlt F64)))));
  (132, Constructible (Ty "si::dim_length" "si::metre" (Bare (RInt I32))) (Value (Wrapped (RInt I32))));
  (133, Not (Convertible (Ty "si::dim_length" "si::metre" (Bare (RInt I32))) (Value (Wrapped (RInt I32)))));
  (135, Constructible (Ty "si::dim_length" "si::metre" (Bare (RFlt F64))) (Value (Wrapped (RFlt F64))));
  (136, Not (Convertible (Ty "si::dim_length" "si::metre" (Bare (RFlt F64))) (Value (Wrapped (RFlt F64)))));
  (138, Constructible (Ty "si::dim_length" "si::metre" (Bare (RFlt F64))) (Value (Wrapped (RInt I32))));
  (139, Not (Convertible (Ty "si::dim_length" "si::metre" (Bare (RFlt F64))) (Value (Wrapped (RInt I32)))));
  (141, Not (Constructible (Ty "si::dim_length" "si::metre" (Bare (RInt I32))) (Value (Wrapped (RFlt F64)))));
  (142, Not (Convertible (Ty "si::dim_length" "si::metre" (Bare (RInt I32))) (Value (Wrapped (RFlt F64)))));
  (145, Constructible (Ty "si::dim_length" "si::metre" (Bare (RInt I32))) (Value (Wrapped (RInt I32))));
  (146, Not (Convertible (Ty "si::dim_length" "si::metre" (Bare (RInt I32))) (Value (Wrapped (RInt I32)))));
  (148, Constructible (Ty "si::dim_length" "si::metre" (Bare (RFlt F64))) (Value (Wrapped (RFlt F64))));
  (149, Not (Convertible (Ty "si::dim_length" "si::metre" (Bare (RFlt F64))) (Value (Wrapped (RFlt F64)))));
  (151, Constructible (Ty "si::dim_length" "si::metre" (Bare (RFlt F64))) (Value (Wrapped (RInt I32))));
  (152, Not (Convertible (Ty "si::dim_length" "si::metre" (Bare (RFlt F64))) (Value (Wrapped (RInt I32)))));
  (154, Not (Constructible (Ty "si::dim_length" "si::metre" (Bare (RInt I32))) (Value (Wrapped (RFlt F64)))));
  (155, Not (Convertible (Ty "si::dim_length" "si::metre" (Bare (RInt I32))) (Value (Wrapped (RFlt F64)))));
  (158, Constructible (Ty "dim_one" "one" (Bare (RInt I32))) (Value (Wrapped (RInt I32))));
  (159, Convertible (Ty "dim_one" "one" (Bare (RInt I32))) (Value (Wrapped (RInt I32))));
  (161, Constructible (Ty "dim_one" "one" (Bare (RFlt F64))) (Value (Wrapped (RFlt F64))));
  (162, Convertible (Ty "dim_one" "one" (Bare (RFlt F64))) (Value (Wrapped (RFlt F64))));
  (164, Constructible (Ty "dim_one" "one" (Bare (RFlt F64))) (Value (Wrapped (RInt I32))));
  (165, Convertible (Ty "dim_one" "one" (Bare (RFlt F64))) (Value (Wrapped (RInt I32))));
  (167, Not (Constructible (Ty "dim_one" "one" (Bare (RInt I32))) (Value (Wrapped (RFlt F64)))));
  (168, Not (Convertible (Ty "dim_one" "one" (Bare (RInt I32))) (Value (Wrapped (RFlt F64)))));
  (171, Constructible (Ty "dim_one" "percent" (Bare (RInt I32))) (Value (Wrapped (RInt I32))));
  (172, Not (Convertible (Ty "dim_one" "percent" (Bare (RInt I32))) (Value (Wrapped (RInt I32)))));
  (174, Constructible (Ty "dim_one" "percent" (Bare (RFlt F64))) (Value (Wrapped (RFlt F64))));
  (175, Not (Convertible (Ty "dim_one" "percent" (Bare (RFlt F64))) (Value (Wrapped (RFlt F64)))));
  (177, Constructible (Ty "dim_one" "percent" (Bare (RFlt F64))) (Value (Wrapped (RInt I32))));
  (178, Not (Convertible (Ty "dim_one" "percent" (Bare (RFlt F64))) (Value (Wrapped (RInt I32)))));
  (180, Not (Constructible (Ty "dim_one" "percent" (Bare (RInt I32))) (Value (Wrapped (RFlt F64)))));
  (181, Not (Convertible (Ty "dim_one" "percent" (Bare (RInt I32))) (Value (Wrapped (RFlt F64)))));
  (185, Constructible (Ty "si::dim_length" "si::metre" (Wrapped (RInt I32))) (Object (Ty "si::dim_length" "si::metre" (Wrapped (RInt I32)))));
  (186, Convertible (Ty "si::dim_length" "si::metre" (Wrapped (RInt I32))) (Object (Ty "si::dim_length" "si::metre" (Wrapped (RInt I32)))));
  (188, Constructible (Ty "si::dim_length" "si::metre" (Wrapped (RFlt F64))) (Object (Ty "si::dim_length" "si::metre" (Wrapped (RFlt F64)))));
  (189, Convertible (Ty "si::dim_length" "si::metre" (Wrapped (RFlt F64))) (Object (Ty "si::dim_length" "si::metre" (Wrapped (RFlt F64)))));
  (191, Constructible (Ty "si::dim_length" "si::metre" (Wrapped (RFlt F64))) (Object (Ty "si::dim_length" "si::metre" (Wrapped (RInt I32)))));
  (192, Convertible (Ty "si::dim_length" "si::metre" (Wrapped (RFlt F64))) (Object (Ty "si::dim_length" "si::metre" (Wrapped (RInt I32)))));
  (194, Not (Constructible (Ty "si::dim_length" "si::metre" (Wrapped (RInt I32))) (Object (Ty "si::dim_length" "si::metre" (Wrapped (RFlt F64))))));
  (195, Not (Convertible (Ty "si::dim_length" "si::metre" (Wrapped (RInt I32))) (Object (Ty "si::dim_length" "si::metre" (Wrapped (RFlt F64))))));
  (198, Constructible (Ty "si::dim_length" "si::metre" (Wrapped (RInt I32))) (Object (Ty "si::dim_length" "si::metre" (Bare (RInt I32)))));
  (199, Convertible (Ty "si::dim_length" "si::metre" (Wrapped (RInt I32))) (Object (Ty "si::dim_length" "si::metre" (Bare (RInt I32)))));
  (201, Constructible (Ty "si::dim_length" "si::metre" (Wrapped (RFlt F64))) (Object (Ty "si::dim_length" "si::metre" (Bare (RFlt F64)))));
  (202, Convertible (Ty "si::dim_length" "si::metre" (Wrapped (RFlt F64))) (Object (Ty "si::dim_length" "si::metre" (Bare (RFlt F64)))));
  (204, Constructible (Ty "si::dim_length" "si::metre" (Wrapped (RFlt F64))) (Object (Ty "si::dim_length" "si::metre" (Bare (RInt I32)))));
  (205, Convertible (Ty "si::dim_length" "si::metre" (Wrapped (RFlt F64))) (Object (Ty "si::dim_length" "si::metre" (Bare (RInt I32)))));
  (207, Not (Constructible (Ty "si::dim_length" "si::metre" (Wrapped (RInt I32))) (Object (Ty "si::dim_length" "si::metre" (Bare (RFlt F64))))));
  (208, Not (Convertible (Ty "si::dim_length" "si::metre" (Wrapped (RInt I32))) (Object (Ty "si::dim_length" "si::metre" (Bare (RFlt F64))))));
  (211, Constructible (Ty "si::dim_length" "si::metre" (Bare (RInt I32))) (Object (Ty "si::dim_length" "si::metre" (Wrapped (RInt I32)))));
  (212, Convertible (Ty "si::dim_length" "si::metre" (Bare (RInt I32))) (Object (Ty "si::dim_length" "si::metre" (Wrapped (RInt I32)))));
  (214, Constructible (Ty "si::dim_length" "si::metre" (Bare (RFlt F64))) (Object (Ty "si::dim_length" "si::metre" (Wrapped (RFlt F64)))));
  (215, Convertible (Ty "si::dim_length" "si::metre" (Bare (RFlt F64))) (Object (Ty "si::dim_length" "si::metre" (Wrapped (RFlt F64)))));
  (217, Constructible (Ty "si::dim_length" "si::metre" (Bare (RFlt F64))) (Object (Ty "si::dim_length" "si::metre" (Wrapped (RInt I32)))));
  (218, Convertible (Ty "si::dim_length" "si::metre" (Bare (RFlt F64))) (Object (Ty "si::dim_length" "si::metre" (Wrapped (RInt I32)))));
  (220, Not (Constructible (Ty "si::dim_length" "si::metre" (Bare (RInt I32))) (Object (Ty "si::dim_length" "si::metre" (Wrapped (RFlt F64))))));
  (221, Not (Convertible (Ty "si::dim_length" "si::metre" (Bare (RInt I32))) (Object (Ty "si::dim_length" "si::metre" (Wrapped (RFlt F64))))));
  (225, Equal (Qq OpAdd (Make (Ty "si::dim_length" "si::metre" (Wrapped (RInt I32))) (WValue (Bare (RInt I32)) (NInt 1))) (Make (Ty "si::dim_length" "si::metre" (Wrapped (RInt I32))) (WValue (Bare (RInt I32)) (NInt 1)))) (Make (Ty "si::dim_length" "si::metre" (Wrapped (RInt I32))) (WValue (Bare (RInt I32)) (NInt 2))));
  (226, Equal (Qq OpAdd (Make (Ty "si::dim_length" "si::metre" (Wrapped (RInt I32))) (WValue (Bare (RInt I32)) (NInt 1))) (Make (Ty "si::dim_length" "si::metre" (Wrapped (RFlt F64))) (WValue (Bare (RFlt F64)) (flt (3) 2)))) (Make (Ty "si::dim_length" "si::metre" (Wrapped (RFlt F64))) (WValue (Bare (RFlt F64)) (flt (5) 2))));
  (227, Equal (Qq OpAdd (Make (Ty "si::dim_length" "si::metre" (Bare (RInt I32))) (WValue (Bare (RInt I32)) (NInt 1))) (Make (Ty "si::dim_length" "si::metre" (Wrapped (RInt I32))) (WValue (Bare (RInt I32)) (NInt 1)))) (Make (Ty "si::dim_length" "si::metre" (Wrapped (RInt I32))) (WValue (Bare (RInt I32)) (NInt 2))));
  (228, Equal (Qq OpAdd (Make (Ty "si::dim_length" "si::metre" (Bare (RInt I32))) (WValue (Bare (RInt I32)) (NInt 1))) (Make (Ty "si::dim_length" "si::metre" (Wrapped (RFlt F64))) (WValue (Bare (RFlt F64)) (flt (3) 2)))) (Make (Ty "si::dim_length" "si::metre" (Wrapped (RFlt F64))) (WValue (Bare (RFlt F64)) (flt (5) 2))));
  (229, Equal (Qq OpAdd (Make (Ty "si::dim_length" "si::metre" (Wrapped (RInt I32))) (WValue (Bare (RInt I32)) (NInt 1))) (Make (Ty "si::dim_length" "si::metre" (Bare (RInt I32))) (WValue (Bare (RInt I32)) (NInt 1)))) (Make (Ty "si::dim_length" "si::metre" (Wrapped (RInt I32))) (WValue (Bare (RInt I32)) (NInt 2))));
  (230, Equal (Qq OpAdd (Make (Ty "si::dim_length" "si::metre" (Wrapped (RInt I32))) (WValue (Bare (RInt I32)) (NInt 1))) (Make (Ty "si::dim_length" "si::metre" (Bare (RFlt F64))) (WValue (Bare (RFlt F64)) (flt (3) 2)))) (Make (Ty "si::dim_length" "si::metre" (Wrapped (RFlt F64))) (WValue (Bare (RFlt F64)) (flt (5) 2))));
  (231, Equal (Qq OpAdd (Make (Ty "si::dim_length" "si::metre" (Wrapped (RInt I32))) (WValue (Bare (RInt I32)) (NInt 1))) (Make (Ty "si::dim_length" "si::metre" (Wrapped (RInt I32))) (WValue (Bare (RInt I32)) (NInt 1)))) (Make (Ty "si::dim_length" "si::metre" (Bare (RInt I32))) (WValue (Bare (RInt I32)) (NInt 2))));
  (232, Equal (Qq OpAdd (Make (Ty "si::dim_length" "si::metre" (Wrapped (RInt I32))) (WValue (Bare (RInt I32)) (NInt 1))) (Make (Ty "si::dim_length" "si::metre" (Wrapped (RFlt F64))) (WValue (Bare (RFlt F64)) (flt (3) 2)))) (Make (Ty "si::dim_length" "si::metre" (Bare (RFlt F64))) (WValue (Bare (RFlt F64)) (flt (5) 2))));
  (234, Equal (Qq OpAdd (Make (Ty "si::dim_length" "si::kilometre" (Wrapped (RInt I32))) (WValue (Bare (RInt I32)) (NInt 1))) (Make (Ty "si::dim_length" "si::metre" (Wrapped (RInt I32))) (WValue (Bare (RInt I32)) (NInt 1)))) (Make (Ty "si::dim_length" "si::metre" (Wrapped (RInt I32))) (WValue (Bare (RInt I32)) (NInt 1001))));
  (235, Equal (Qq OpAdd (Make (Ty "si::dim_length" "si::kilometre" (Wrapped (RInt I32))) (WValue (Bare (RInt I32)) (NInt 1))) (Make (Ty "si::dim_length" "si::metre" (Wrapped (RFlt F64))) (WValue (Bare (RFlt F64)) (flt (3) 2)))) (Make (Ty "si::dim_length" "si::metre" (Wrapped (RFlt F64))) (WValue (Bare (RFlt F64)) (flt (2003) 2))));
  (236, Equal (Qq OpAdd (Make (Ty "si::dim_length" "si::kilometre" (Bare (RInt I32))) (WValue (Bare (RInt I32)) (NInt 1))) (Make (Ty "si::dim_length" "si::metre" (Wrapped (RInt I32))) (WValue (Bare (RInt I32)) (NInt 1)))) (Make (Ty "si::dim_length" "si::metre" (Wrapped (RInt I32))) (WValue (Bare (RInt I32)) (NInt 1001))));
  (237, Equal (Qq OpAdd (Make (Ty "si::dim_length" "si::kilometre" (Bare (RInt I32))) (WValue (Bare (RInt I32)) (NInt 1))) (Make (Ty "si::dim_length" "si::metre" (Wrapped (RFlt F64))) (WValue (Bare (RFlt F64)) (flt (3) 2)))) (Make (Ty "si::dim_length" "si::metre" (Wrapped (RFlt F64))) (WValue (Bare (RFlt F64)) (flt (2003) 2))));
  (238, Equal (Qq OpAdd (Make (Ty "si::dim_length" "si::kilometre" (Wrapped (RInt I32))) (WValue (Bare (RInt I32)) (NInt 1))) (Make (Ty "si::dim_length" "si::metre" (Bare (RInt I32))) (WValue (Bare (RInt I32)) (NInt 1)))) (Make (Ty "si::dim_length" "si::metre" (Wrapped (RInt I32))) (WValue (Bare (RInt I32)) (NInt 1001))));
  (239, Equal (Qq OpAdd (Make (Ty "si::dim_length" "si::kilometre" (Wrapped (RInt I32))) (WValue (Bare (RInt I32)) (NInt 1))) (Make (Ty "si::dim_length" "si::metre" (Bare (RFlt F64))) (WValue (Bare (RFlt F64)) (flt (3) 2)))) (Make (Ty "si::dim_length" "si::metre" (Wrapped (RFlt F64))) (WValue (Bare (RFlt F64)) (flt (2003) 2))));
  (240, Equal (Qq OpAdd (Make (Ty "si::dim_length" "si::kilometre" (Wrapped (RInt I32))) (WValue (Bare (RInt I32)) (NInt 1))) (Make (Ty "si::dim_length" "si::metre" (Wrapped (RInt I32))) (WValue (Bare (RInt I32)) (NInt 1)))) (Make (Ty "si::dim_length" "si::metre" (Bare (RInt I32))) (WValue (Bare (RInt I32)) (NInt 1001))));
  (241, Equal (Qq OpAdd (Make (Ty "si::dim_length" "si::kilometre" (Wrapped (RInt I32))) (WValue (Bare (RInt I32)) (NInt 1))) (Make (Ty "si::dim_length" "si::metre" (Wrapped (RFlt F64))) (WValue (Bare (RFlt F64)) (flt (3) 2)))) (Make (Ty "si::dim_length" "si::metre" (Bare (RFlt F64))) (WValue (Bare (RFlt F64)) (flt (2003) 2))));
  (243, Equal (Qq OpAdd (Make (Ty "si::dim_length" "si::metre" (Wrapped (RInt I32))) (WValue (Bare (RInt I32)) (NInt 1))) (Make (Ty "si::dim_length" "si::kilometre" (Wrapped (RInt I32))) (WValue (Bare (RInt I32)) (NInt 1)))) (Make (Ty "si::dim_length" "si::metre" (Wrapped (RInt I32))) (WValue (Bare (RInt I32)) (NInt 1001))));
  (244, Equal (Qq OpAdd (Make (Ty "si::dim_length" "si::metre" (Wrapped (RInt I32))) (WValue (Bare (RInt I32)) (NInt 1))) (Make (Ty "si::dim_length" "si::kilometre" (Wrapped (RFlt F64))) (WValue (Bare (RFlt F64)) (flt (3) 2)))) (Make (Ty "si::dim_length" "si::metre" (Wrapped (RFlt F64))) (WValue (Bare (RInt I32)) (NInt 1501))));
  (245, Equal (Qq OpAdd (Make (Ty "si::dim_length" "si::metre" (Bare (RInt I32))) (WValue (Bare (RInt I32)) (NInt 1))) (Make (Ty "si::dim_length" "si::kilometre" (Wrapped (RInt I32))) (WValue (Bare (RInt I32)) (NInt 1)))) (Make (Ty "si::dim_length" "si::metre" (Wrapped (RInt I32))) (WValue (Bare (RInt I32)) (NInt 1001))));
  (246, Equal (Qq OpAdd (Make (Ty "si::dim_length" "si::metre" (Bare (RInt I32))) (WValue (Bare (RInt I32)) (NInt 1))) (Make (Ty "si::dim_length" "si::kilometre" (Wrapped (RFlt F64))) (WValue (Bare (RFlt F64)) (flt (3) 2)))) (Make (Ty "si::dim_length" "si::metre" (Wrapped (RFlt F64))) (WValue (Bare (RInt I32)) (NInt 1501))));
  (247, Equal (Qq OpAdd (Make (Ty "si::dim_length" "si::metre" (Wrapped (RInt I32))) (WValue (Bare (RInt I32)) (NInt 1))) (Make (Ty "si::dim_length" "si::kilometre" (Bare (RInt I32))) (WValue (Bare (RInt I32)) (NInt 1)))) (Make (Ty "si::dim_length" "si::metre" (Wrapped (RInt I32))) (WValue (Bare (RInt I32)) (NInt 1001))));
  (248, Equal (Qq OpAdd (Make (Ty "si::dim_length" "si::metre" (Wrapped (RInt I32))) (WValue (Bare (RInt I32)) (NInt 1))) (Make (Ty "si::dim_length" "si::kilometre" (Bare (RFlt F64))) (WValue (Bare (RFlt F64)) (flt (3) 2)))) (Make (Ty "si::dim_length" "si::metre" (Wrapped (RFlt F64))) (WValue (Bare (RInt I32)) (NInt 1501))));
  (249, Equal (Qq OpAdd (Make (Ty "si::dim_length" "si::metre" (Wrapped (RInt I32))) (WValue (Bare (RInt I32)) (NInt 1))) (Make (Ty "si::dim_length" "si::kilometre" (Wrapped (RInt I32))) (WValue (Bare (RInt I32)) (NInt 1)))) (Make (Ty "si::dim_length" "si::metre" (Bare (RInt I32))) (WValue (Bare (RInt I32)) (NInt 1001))));
  (250, Equal (Qq OpAdd (Make (Ty "si::dim_length" "si::metre" (Wrapped (RInt I32))) (WValue (Bare (RInt I32)) (NInt 1))) (Make (Ty "si::dim_length" "si::kilometre" (Wrapped (RFlt F64))) (WValue (Bare (RFlt F64)) (flt (3) 2)))) (Make (Ty "si::dim_length" "si::metre" (Bare (RFlt F64))) (WValue (Bare (RInt I32)) (NInt 1501))));
  (252, Equal (Qq OpSub (Make (Ty "si::dim_length" "si::metre" (Wrapped (RInt I32))) (WValue (Bare (RInt I32)) (NInt 2))) (Make (Ty "si::dim_length" "si::metre" (Wrapped (RInt I32))) (WValue (Bare (RInt I32)) (NInt 1)))) (Make (Ty "si::dim_length" "si::metre" (Wrapped (RInt I32))) (WValue (Bare (RInt I32)) (NInt 1))));
  (253, Equal (Qq OpSub (Make (Ty "si::dim_length" "si::metre" (Wrapped (RInt I32))) (WValue (Bare (RInt I32)) (NInt 2))) (Make (Ty "si::dim_length" "si::metre" (Wrapped (RFlt F64))) (WValue (Bare (RFlt F64)) (flt (3) 2)))) (Make (Ty "si::dim_length" "si::metre" (Wrapped (RFlt F64))) (WValue (Bare (RFlt F64)) (flt (1) 2))));
  (254, Equal (Qq OpSub (Make (Ty "si::dim_length" "si::metre" (Bare (RInt I32))) (WValue (Bare (RInt I32)) (NInt 2))) (Make (Ty "si::dim_length" "si::metre" (Wrapped (RInt I32))) (WValue (Bare (RInt I32)) (NInt 1)))) (Make (Ty "si::dim_length" "si::metre" (Wrapped (RInt I32))) (WValue (Bare (RInt I32)) (NInt 1))));
  (255, Equal (Qq OpSub (Make (Ty "si::dim_length" "si::metre" (Bare (RInt I32))) (WValue (Bare (RInt I32)) (NInt 2))) (Make (Ty "si::dim_length" "si::metre" (Wrapped (RFlt F64))) (WValue (Bare (RFlt F64)) (flt (3) 2)))) (Make (Ty "si::dim_length" "si::metre" (Wrapped (RFlt F64))) (WValue (Bare (RFlt F64)) (flt (1) 2))));
  (256, Equal (Qq OpSub (Make (Ty "si::dim_length" "si::metre" (Wrapped (RInt I32))) (WValue (Bare (RInt I32)) (NInt 2))) (Make (Ty "si::dim_length" "si::metre" (Bare (RInt I32))) (WValue (Bare (RInt I32)) (NInt 1)))) (Make (Ty "si::dim_length" "si::metre" (Wrapped (RInt I32))) (WValue (Bare (RInt I32)) (NInt 1))));
  (257, Equal (Qq OpSub (Make (Ty "si::dim_length" "si::metre" (Wrapped (RInt I32))) (WValue (Bare (RInt I32)) (NInt 2))) (Make (Ty "si::dim_length" "si::metre" (Bare (RFlt F64))) (WValue (Bare (RFlt F64)) (flt (3) 2)))) (Make (Ty "si::dim_length" "si::metre" (Wrapped (RFlt F64))) (WValue (Bare (RFlt F64)) (flt (1) 2))));
  (258, Equal (Qq OpSub (Make (Ty "si::dim_length" "si::metre" (Wrapped (RInt I32))) (WValue (Bare (RInt I32)) (NInt 2))) (Make (Ty "si::dim_length" "si::metre" (Wrapped (RInt I32))) (WValue (Bare (RInt I32)) (NInt 1)))) (Make (Ty "si::dim_length" "si::metre" (Bare (RInt I32))) (WValue (Bare (RInt I32)) (NInt 1))));
  (259, Equal (Qq OpSub (Make (Ty "si::dim_length" "si::metre" (Wrapped (RInt I32))) (WValue (Bare (RInt I32)) (NInt 2))) (Make (Ty "si::dim_length" "si::metre" (Wrapped (RFlt F64))) (WValue (Bare (RFlt F64)) (flt (3) 2)))) (Make (Ty "si::dim_length" "si::metre" (Bare (RFlt F64))) (WValue (Bare (RFlt F64)) (flt (1) 2))));
  (261, Equal (Qq OpSub (Make (Ty "si::dim_length" "si::kilometre" (Wrapped (RInt I32))) (WValue (Bare (RInt I32)) (NInt 2))) (Make (Ty "si::dim_length" "si::metre" (Wrapped (RInt I32))) (WValue (Bare (RInt I32)) (NInt 1)))) (Make (Ty "si::dim_length" "si::metre" (Wrapped (RInt I32))) (WValue (Bare (RInt I32)) (NInt 1999))));
  (262, Equal (Qq OpSub (Make (Ty "si::dim_length" "si::kilometre" (Wrapped (RInt I32))) (WValue (Bare (RInt I32)) (NInt 2))) (Make (Ty "si::dim_length" "si::metre" (Wrapped (RFlt F64))) (WValue (Bare (RFlt F64)) (flt (3) 2)))) (Make (Ty "si::dim_length" "si::metre" (Wrapped (RFlt F64))) (WValue (Bare (RFlt F64)) (flt (3997) 2))));
  (263, Equal (Qq OpSub (Make (Ty "si::dim_length" "si::kilometre" (Bare (RInt I32))) (WValue (Bare (RInt I32)) (NInt 2))) (Make (Ty "si::dim_length" "si::metre" (Wrapped (RInt I32))) (WValue (Bare (RInt I32)) (NInt 1)))) (Make (Ty "si::dim_length" "si::metre" (Wrapped (RInt I32))) (WValue (Bare (RInt I32)) (NInt 1999))));
  (264, Equal (Qq OpSub (Make (Ty "si::dim_length" "si::kilometre" (Bare (RInt I32))) (WValue (Bare (RInt I32)) (NInt 2))) (Make (Ty "si::dim_length" "si::metre" (Wrapped (RFlt F64))) (WValue (Bare (RFlt F64)) (flt (3) 2)))) (Make (Ty "si::dim_length" "si::metre" (Wrapped (RFlt F64))) (WValue (Bare (RFlt F64)) (flt (3997) 2))));
  (265, Equal (Qq OpSub (Make (Ty "si::dim_length" "si::kilometre" (Wrapped (RInt I32))) (WValue (Bare (RInt I32)) (NInt 2))) (Make (Ty "si::dim_length" "si::metre" (Bare (RInt I32))) (WValue (Bare (RInt I32)) (NInt 1)))) (Make (Ty "si::dim_length" "si::metre" (Wrapped (RInt I32))) (WValue (Bare (RInt I32)) (NInt 1999))));
  (266, Equal (Qq OpSub (Make (Ty "si::dim_length" "si::kilometre" (Wrapped (RInt I32))) (WValue (Bare (RInt I32)) (NInt 2))) (Make (Ty "si::dim_length" "si::metre" (Bare (RFlt F64))) (WValue (Bare (RFlt F64)) (flt (3) 2)))) (Make (Ty "si::dim_length" "si::metre" (Wrapped (RFlt F64))) (WValue (Bare (RFlt F64)) (flt (3997) 2))));
  (267, Equal (Qq OpSub (Make (Ty "si::dim_length" "si::kilometre" (Wrapped (RInt I32))) (WValue (Bare (RInt I32)) (NInt 2))) (Make (Ty "si::dim_length" "si::metre" (Wrapped (RInt I32))) (WValue (Bare (RInt I32)) (NInt 1)))) (Make (Ty "si::dim_length" "si::metre" (Bare (RInt I32))) (WValue (Bare (RInt I32)) (NInt 1999))));
  (268, Equal (Qq OpSub (Make (Ty "si::dim_length" "si::kilometre" (Wrapped (RInt I32))) (WValue (Bare (RInt I32)) (NInt 2))) (Make (Ty "si::dim_length" "si::metre" (Wrapped (RFlt F64))) (WValue (Bare (RFlt F64)) (flt (3) 2)))) (Make (Ty "si::dim_length" "si::metre" (Bare (RFlt F64))) (WValue (Bare (RFlt F64)) (flt (3997) 2))));
  (270, Equal (Qq OpSub (Make (Ty "si::dim_length" "si::metre" (Wrapped (RInt I32))) (WValue (Bare (RInt I32)) (NInt 2000))) (Make (Ty "si::dim_length" "si::kilometre" (Wrapped (RInt I32))) (WValue (Bare (RInt I32)) (NInt 1)))) (Make (Ty "si::dim_length" "si::metre" (Wrapped (RInt I32))) (WValue (Bare (RInt I32)) (NInt 1000))));
  (271, Equal (Qq OpSub (Make (Ty "si::dim_length" "si::metre" (Wrapped (RInt I32))) (WValue (Bare (RInt I32)) (NInt 2000))) (Make (Ty "si::dim_length" "si::kilometre" (Wrapped (RFlt F64))) (WValue (Bare (RFlt F64)) (flt (3) 2)))) (Make (Ty "si::dim_length" "si::metre" (Wrapped (RFlt F64))) (WValue (Bare (RInt I32)) (NInt 500))));
  (272, Equal (Qq OpSub (Make (Ty "si::dim_length" "si::metre" (Bare (RInt I32))) (WValue (Bare (RInt I32)) (NInt 2000))) (Make (Ty "si::dim_length" "si::kilometre" (Wrapped (RInt I32))) (WValue (Bare (RInt I32)) (NInt 1)))) (Make (Ty "si::dim_length" "si::metre" (Wrapped (RInt I32))) (WValue (Bare (RInt I32)) (NInt 1000))));
  (273, Equal (Qq OpSub (Make (Ty "si::dim_length" "si::metre" (Bare (RInt I32))) (WValue (Bare (RInt I32)) (NInt 2000))) (Make (Ty "si::dim_length" "si::kilometre" (Wrapped (RFlt F64))) (WValue (Bare (RFlt F64)) (flt (3) 2)))) (Make (Ty "si::dim_length" "si::metre" (Wrapped (RFlt F64))) (WValue (Bare (RInt I32)) (NInt 500))));
  (274, Equal (Qq OpSub (Make (Ty "si::dim_length" "si::metre" (Wrapped (RInt I32))) (WValue (Bare (RInt I32)) (NInt 2000))) (Make (Ty "si::dim_length" "si::kilometre" (Bare (RInt I32))) (WValue (Bare (RInt I32)) (NInt 1)))) (Make (Ty "si::dim_length" "si::metre" (Wrapped (RInt I32))) (WValue (Bare (RInt I32)) (NInt 1000))));
  (275, Equal (Qq OpSub (Make (Ty "si::dim_length" "si::metre" (Wrapped (RInt I32))) (WValue (Bare (RInt I32)) (NInt 2000))) (Make (Ty "si::dim_length" "si::kilometre" (Bare (RFlt F64))) (WValue (Bare (RFlt F64)) (flt (3) 2)))) (Make (Ty "si::dim_length" "si::metre" (Wrapped (RFlt F64))) (WValue (Bare (RInt I32)) (NInt 500))));
  (276, Equal (Qq OpSub (Make (Ty "si::dim_length" "si::metre" (Wrapped (RInt I32))) (WValue (Bare (RInt I32)) (NInt 2000))) (Make (Ty "si::dim_length" "si::kilometre" (Wrapped (RInt I32))) (WValue (Bare (RInt I32)) (NInt 1)))) (Make (Ty "si::dim_length" "si::metre" (Bare (RInt I32))) (WValue (Bare (RInt I32)) (NInt 1000))));
  (277, Equal (Qq OpSub (Make (Ty "si::dim_length" "si::metre" (Wrapped (RInt I32))) (WValue (Bare (RInt I32)) (NInt 2000))) (Make (Ty "si::dim_length" "si::kilometre" (Wrapped (RFlt F64))) (WValue (Bare (RFlt F64)) (flt (3) 2)))) (Make (Ty "si::dim_length" "si::metre" (Bare (RFlt F64))) (WValue (Bare (RInt I32)) (NInt 500))));
  (279, Equal (Qv OpMul (Make (Ty "si::dim_length" "si::metre" (Wrapped (RInt I32))) (WValue (Bare (RInt I32)) (NInt 123))) (WValue (Wrapped (RFlt F64)) (flt (3) 2))) (Make (Ty "si::dim_length" "si::metre" (Wrapped (RFlt F64))) (WValue (Bare (RFlt F64)) (flt (369) 2))));
  (280, Equal (Qv OpMul (Make (Ty "si::dim_length" "si::metre" (Wrapped (RInt I32))) (WValue (Bare (RInt I32)) (NInt 123))) (WValue (Bare (RFlt F64)) (flt (3) 2))) (Make (Ty "si::dim_length" "si::metre" (Wrapped (RFlt F64))) (WValue (Bare (RFlt F64)) (flt (369) 2))));
  (281, Equal (Qv OpMul (Make (Ty "si::dim_length" "si::metre" (Bare (RInt I32))) (WValue (Bare (RInt I32)) (NInt 123))) (WValue (Wrapped (RFlt F64)) (flt (3) 2))) (Make (Ty "si::dim_length" "si::metre" (Wrapped (RFlt F64))) (WValue (Bare (RFlt F64)) (flt (369) 2))));
  (283, Equal (Qq OpMul (Make (Ty "si::dim_length" "si::metre" (Wrapped (RInt I32))) (WValue (Bare (RInt I32)) (NInt 123))) (Plain (WValue (Wrapped (RFlt F64)) (flt (3) 2)))) (Make (Ty "si::dim_length" "si::metre" (Wrapped (RFlt F64))) (WValue (Bare (RFlt F64)) (flt (369) 2))));
  (284, Equal (Qq OpMul (Make (Ty "si::dim_length" "si::metre" (Wrapped (RInt I32))) (WValue (Bare (RInt I32)) (NInt 123))) (Plain (WValue (Bare (RFlt F64)) (flt (3) 2)))) (Make (Ty "si::dim_length" "si::metre" (Wrapped (RFlt F64))) (WValue (Bare (RFlt F64)) (flt (369) 2))));
  (285, Equal (Qq OpMul (Make (Ty "si::dim_length" "si::metre" (Bare (RInt I32))) (WValue (Bare (RInt I32)) (NInt 123))) (Plain (WValue (Wrapped (RFlt F64)) (flt (3) 2)))) (Make (Ty "si::dim_length" "si::metre" (Wrapped (RFlt F64))) (WValue (Bare (RFlt F64)) (flt (369) 2))));
  (287, Equal (Vq OpMul (WValue (Wrapped (RFlt F64)) (flt (3) 2)) (Make (Ty "si::dim_length" "si::metre" (Wrapped (RInt I32))) (WValue (Bare (RInt I32)) (NInt 123)))) (Make (Ty "si::dim_length" "si::metre" (Wrapped (RFlt F64))) (WValue (Bare (RFlt F64)) (flt (369) 2))));
  (288, Equal (Vq OpMul (WValue (Wrapped (RFlt F64)) (flt (3) 2)) (Make (Ty "si::dim_length" "si::metre" (Bare (RInt I32))) (WValue (Bare (RInt I32)) (NInt 123)))) (Make (Ty "si::dim_length" "si::metre" (Wrapped (RFlt F64))) (WValue (Bare (RFlt F64)) (flt (369) 2))));
  (289, Equal (Vq OpMul (WValue (Bare (RFlt F64)) (flt (3) 2)) (Make (Ty "si::dim_length" "si::metre" (Wrapped (RInt I32))) (WValue (Bare (RInt I32)) (NInt 123)))) (Make (Ty "si::dim_length" "si::metre" (Wrapped (RFlt F64))) (WValue (Bare (RFlt F64)) (flt (369) 2))));
  (291, Equal (Qq OpMul (Plain (WValue (Wrapped (RFlt F64)) (flt (3) 2))) (Make (Ty "si::dim_length" "si::metre" (Wrapped (RInt I32))) (WValue (Bare (RInt I32)) (NInt 123)))) (Make (Ty "si::dim_length" "si::metre" (Wrapped (RFlt F64))) (WValue (Bare (RFlt F64)) (flt (369) 2))));
  (292, Equal (Qq OpMul (Plain (WValue (Wrapped (RFlt F64)) (flt (3) 2))) (Make (Ty "si::dim_length" "si::metre" (Bare (RInt I32))) (WValue (Bare (RInt I32)) (NInt 123)))) (Make (Ty "si::dim_length" "si::metre" (Wrapped (RFlt F64))) (WValue (Bare (RFlt F64)) (flt (369) 2))));
  (293, Equal (Qq OpMul (Plain (WValue (Bare (RFlt F64)) (flt (3) 2))) (Make (Ty "si::dim_length" "si::metre" (Wrapped (RInt I32))) (WValue (Bare (RInt I32)) (NInt 123)))) (Make (Ty "si::dim_length" "si::metre" (Wrapped (RFlt F64))) (WValue (Bare (RFlt F64)) (flt (369) 2))));
  (295, Equal (Qv OpDiv (Make (Ty "si::dim_length" "si::metre" (Wrapped (RInt I32))) (WValue (Bare (RInt I32)) (NInt 123))) (WValue (Wrapped (RFlt F64)) (flt (2) 1))) (Make (Ty "si::dim_length" "si::metre" (Wrapped (RFlt F64))) (WValue (Bare (RFlt F64)) (flt (123) 2))));
  (296, Equal (Qv OpDiv (Make (Ty "si::dim_length" "si::metre" (Wrapped (RInt I32))) (WValue (Bare (RInt I32)) (NInt 123))) (WValue (Bare (RFlt F64)) (flt (2) 1))) (Make (Ty "si::dim_length" "si::metre" (Wrapped (RFlt F64))) (WValue (Bare (RFlt F64)) (flt (123) 2))));
  (297, Equal (Qv OpDiv (Make (Ty "si::dim_length" "si::metre" (Bare (RInt I32))) (WValue (Bare (RInt I32)) (NInt 123))) (WValue (Wrapped (RFlt F64)) (flt (2) 1))) (Make (Ty "si::dim_length" "si::metre" (Wrapped (RFlt F64))) (WValue (Bare (RFlt F64)) (flt (123) 2))));
  (299, Equal (Qq OpDiv (Make (Ty "si::dim_length" "si::metre" (Wrapped (RInt I32))) (WValue (Bare (RInt I32)) (NInt 123))) (Plain (WValue (Wrapped (RFlt F64)) (flt (2) 1)))) (Make (Ty "si::dim_length" "si::metre" (Wrapped (RFlt F64))) (WValue (Bare (RFlt F64)) (flt (123) 2))));
  (300, Equal (Qq OpDiv (Make (Ty "si::dim_length" "si::metre" (Wrapped (RInt I32))) (WValue (Bare (RInt I32)) (NInt 123))) (Plain (WValue (Bare (RFlt F64)) (flt (2) 1)))) (Make (Ty "si::dim_length" "si::metre" (Wrapped (RFlt F64))) (WValue (Bare (RFlt F64)) (flt (123) 2))));
  (301, Equal (Qq OpDiv (Make (Ty "si::dim_length" "si::metre" (Bare (RInt I32))) (WValue (Bare (RInt I32)) (NInt 123))) (Plain (WValue (Wrapped (RFlt F64)) (flt (2) 1)))) (Make (Ty "si::dim_length" "si::metre" (Wrapped (RFlt F64))) (WValue (Bare (RFlt F64)) (flt (123) 2))));
  (303, Equal (Qq OpDiv (Make (Ty "si::dim_length" "si::metre" (Wrapped (RInt I32))) (WValue (Bare (RInt I32)) (NInt 123))) (Make (Ty "si::dim_length" "si::metre" (Wrapped (RFlt F64))) (WValue (Bare (RFlt F64)) (flt (2) 1)))) (Num (WValue (Bare (RFlt F64)) (flt (123) 2))));
  (304, Equal (Qq OpDiv (Make (Ty "si::dim_length" "si::metre" (Wrapped (RInt I32))) (WValue (Bare (RInt I32)) (NInt 123))) (Make (Ty "si::dim_length" "si::metre" (Bare (RFlt F64))) (WValue (Bare (RFlt F64)) (flt (2) 1)))) (Num (WValue (Bare (RFlt F64)) (flt (123) 2))));
  (305, Equal (Qq OpDiv (Make (Ty "si::dim_length" "si::metre" (Bare (RInt I32))) (WValue (Bare (RInt I32)) (NInt 123))) (Make (Ty "si::dim_length" "si::metre" (Wrapped (RFlt F64))) (WValue (Bare (RFlt F64)) (flt (2) 1)))) (Num (WValue (Bare (RFlt F64)) (flt (123) 2))));
  (307, Equal (Qv OpRem (Make (Ty "si::dim_length" "si::metre" (Wrapped (RInt I32))) (WValue (Bare (RInt I32)) (NInt 123))) (WValue (Wrapped (RInt I32)) (NInt 100))) (Make (Ty "si::dim_length" "si::metre" (Bare (RInt I32))) (WValue (Bare (RInt I32)) (NInt 23))));
  (308, Equal (Qv OpRem (Make (Ty "si::dim_length" "si::metre" (Wrapped (RInt I32))) (WValue (Bare (RInt I32)) (NInt 123))) (WValue (Bare (RInt I32)) (NInt 100))) (Make (Ty "si::dim_length" "si::metre" (Bare (RInt I32))) (WValue (Bare (RInt I32)) (NInt 23))));
  (309, Equal (Qv OpRem (Make (Ty "si::dim_length" "si::metre" (Bare (RInt I32))) (WValue (Bare (RInt I32)) (NInt 123))) (WValue (Wrapped (RInt I32)) (NInt 100))) (Make (Ty "si::dim_length" "si::metre" (Bare (RInt I32))) (WValue (Bare (RInt I32)) (NInt 23))));
  (311, Equal (Qq OpRem (Make (Ty "si::dim_length" "si::metre" (Wrapped (RInt I32))) (WValue (Bare (RInt I32)) (NInt 123))) (Plain (WValue (Wrapped (RInt I32)) (NInt 100)))) (Make (Ty "si::dim_length" "si::metre" (Bare (RInt I32))) (WValue (Bare (RInt I32)) (NInt 23))));
  (312, Equal (Qq OpRem (Make (Ty "si::dim_length" "si::metre" (Wrapped (RInt I32))) (WValue (Bare (RInt I32)) (NInt 123))) (Plain (WValue (Bare (RInt I32)) (NInt 100)))) (Make (Ty "si::dim_length" "si::metre" (Bare (RInt I32))) (WValue (Bare (RInt I32)) (NInt 23))));
  (313, Equal (Qq OpRem (Make (Ty "si::dim_length" "si::metre" (Bare (RInt I32))) (WValue (Bare (RInt I32)) (NInt 123))) (Plain (WValue (Wrapped (RInt I32)) (NInt 100)))) (Make (Ty "si::dim_length" "si::metre" (Bare (RInt I32))) (WValue (Bare (RInt I32)) (NInt 23))))].
Example min_impl_conforms : forall est, match compile est On ["generic/dimensionless.h"; "isq/si/length.h"] with
  Ok e => map fst (filter (fun x => negb (holds est e (snd x))) min_impl_test) | _ => [-1] end = [].
Proof. intros est. vm_compute. reflexivity. Qed.
