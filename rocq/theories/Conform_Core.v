(** More of the repository's own tests on the model, /repo/test/unit_test: ratios, lists of
    types, products of dimensions, texts, units declared by a test, powers and roots, references,
    the concepts of quantities. *)

From Coq Require Import ZArith String List Bool SpecFloat Ascii.
From Verif Require Import Outcome CInt RatioMaths Pow Root RootFloat Ratio FixedString TypeList Unit Downcast Dim DimOp Equivalent Rep
  QuantityCast CommonQuantity Quantity Reference Math ConstexprMath UnitDecl DerivedUnit System Catalogue Includes Point Chrono Concepts Conform.
Import ListNotations.
Local Open Scope string_scope.
Local Open Scope list_scope.
Local Open Scope Z_scope.
Local Open Scope res_scope.

Definition not_holding (l : list (Z * bool)) : list Z := map fst (filter (fun x => negb (snd x)) l).

(** * Ratios *)

(** Roots with the algorithm for constant expressions, [iroot_compile]. *)
Definition same_ratio (x y : res ratio) : bool := match x, y with Ok a, Ok b => ratio_eqb a b | _, _ => false end.
Definition tmul (x y : res ratio) : res ratio := a <- x; b <- y; rmul a b.
Definition tdiv (x y : res ratio) : res ratio := a <- x; b <- y; rdiv a b.
Definition tpow (n d : Z) (x : res ratio) : res ratio := a <- x; rpow compile_estimate n d a.
Definition tsqrt (x : res ratio) : res ratio := a <- x; rsqrt compile_estimate a.
Definition tcbrt (x : res ratio) : res ratio := a <- x; rcbrt compile_estimate a.
Definition tcommon (x y : res ratio) : res ratio := a <- x; b <- y; common_ratio a b.
(** static/ratio_test.cpp: all its 50 assertions. *)
Definition ratio_test : list (Z * bool) := [
  (29, same_ratio (mk_ratio 2 4 0) (mk_ratio 1 2 0));
  (32, same_ratio (mk_ratio 2 40 1) (mk_ratio 1 20 1));
  (33, same_ratio (mk_ratio 20 4 (-1)) (mk_ratio 10 2 (-1)));
  (34, same_ratio (mk_ratio 200 5 0) (mk_ratio 20000 50 (-1)));
  (36, same_ratio ((tmul (mk_ratio 1 1 0) (mk_ratio 3 8 0))) (mk_ratio 3 8 0));
  (37, same_ratio ((tmul (mk_ratio 3 8 0) (mk_ratio 1 1 0))) (mk_ratio 3 8 0));
  (38, same_ratio ((tmul (mk_ratio 4 1 0) (mk_ratio 1 8 0))) (mk_ratio 1 2 0));
  (39, same_ratio ((tmul (mk_ratio 4 1 0) (mk_ratio 1 2 0))) (mk_ratio 2 1 0));
  (40, same_ratio ((tmul (mk_ratio 1 8 0) (mk_ratio 2 1 0))) (mk_ratio 1 4 0));
  (41, same_ratio ((tmul (mk_ratio 1 2 0) (mk_ratio 8 1 0))) (mk_ratio 4 1 0));
  (44, same_ratio ((tmul (mk_ratio 1 8 2) (mk_ratio 2 1 4))) (mk_ratio 1 4 6));
  (45, same_ratio ((tmul (mk_ratio 1 2 (-4)) (mk_ratio 8 1 3))) (mk_ratio 4 1 (-1)));
  (47, same_ratio ((tdiv (mk_ratio 4 1 0) (mk_ratio 2 1 0))) (mk_ratio 2 1 0));
  (48, same_ratio ((tdiv (mk_ratio 2 1 0) (mk_ratio 8 1 0))) (mk_ratio 1 4 0));
  (49, same_ratio ((tdiv (mk_ratio 1 8 0) (mk_ratio 2 1 0))) (mk_ratio 1 16 0));
  (50, same_ratio ((tdiv (mk_ratio 6 1 0) (mk_ratio 3 1 0))) (mk_ratio 2 1 0));
  (53, same_ratio ((tdiv (mk_ratio 1 8 (-6)) (mk_ratio 2 1 (-8)))) (mk_ratio 1 16 2));
  (54, same_ratio ((tdiv (mk_ratio 6 1 4) (mk_ratio 3 1 0))) (mk_ratio 2 1 4));
  (56, same_ratio ((tpow 0 1 (mk_ratio 2 1 0))) (mk_ratio 1 1 0));
  (57, same_ratio ((tpow 1 1 (mk_ratio 2 1 0))) (mk_ratio 2 1 0));
  (58, same_ratio ((tpow 2 1 (mk_ratio 2 1 0))) (mk_ratio 4 1 0));
  (59, same_ratio ((tpow 3 1 (mk_ratio 2 1 0))) (mk_ratio 8 1 0));
  (60, same_ratio ((tpow 0 1 (mk_ratio 1 2 0))) (mk_ratio 1 1 0));
  (61, same_ratio ((tpow 1 1 (mk_ratio 1 2 0))) (mk_ratio 1 2 0));
  (62, same_ratio ((tpow 2 1 (mk_ratio 1 2 0))) (mk_ratio 1 4 0));
  (63, same_ratio ((tpow 3 1 (mk_ratio 1 2 0))) (mk_ratio 1 8 0));
  (66, same_ratio ((tpow 2 1 (mk_ratio 1 2 3))) (mk_ratio 1 4 6));
  (67, same_ratio ((tpow 4 2 (mk_ratio 1 2 3))) (mk_ratio 1 4 6));
  (68, same_ratio ((tpow 3 1 (mk_ratio 1 2 (-6)))) (mk_ratio 1 8 (-18)));
  (70, same_ratio ((tsqrt (mk_ratio 9 1 0))) (mk_ratio 3 1 0));
  (71, same_ratio ((tcbrt (mk_ratio 27 1 0))) (mk_ratio 3 1 0));
  (72, same_ratio ((tsqrt (mk_ratio 4 1 0))) (mk_ratio 2 1 0));
  (73, same_ratio ((tcbrt (mk_ratio 8 1 0))) (mk_ratio 2 1 0));
  (74, same_ratio ((tsqrt (mk_ratio 1 1 0))) (mk_ratio 1 1 0));
  (75, same_ratio ((tcbrt (mk_ratio 1 1 0))) (mk_ratio 1 1 0));
  (76, same_ratio ((tsqrt (mk_ratio 0 1 0))) (mk_ratio 0 1 0));
  (77, same_ratio ((tcbrt (mk_ratio 0 1 0))) (mk_ratio 0 1 0));
  (78, same_ratio ((tsqrt (mk_ratio 1 4 0))) (mk_ratio 1 2 0));
  (79, same_ratio ((tcbrt (mk_ratio 1 8 0))) (mk_ratio 1 2 0));
  (82, same_ratio ((tsqrt (mk_ratio 9 1 2))) (mk_ratio 3 1 1));
  (83, same_ratio ((tcbrt (mk_ratio 27 1 3))) (mk_ratio 3 1 1));
  (84, same_ratio ((tcbrt (mk_ratio 27 1 2))) (mk_ratio 13 1 0));
  (87, same_ratio ((tcommon (mk_ratio 1 1 0) (mk_ratio 1000 1 0))) (mk_ratio 1 1 0));
  (88, same_ratio ((tcommon (mk_ratio 1000 1 0) (mk_ratio 1 1 0))) (mk_ratio 1 1 0));
  (89, same_ratio ((tcommon (mk_ratio 1 1 0) (mk_ratio 1 1000 0))) (mk_ratio 1 1000 0));
  (90, same_ratio ((tcommon (mk_ratio 1 1000 0) (mk_ratio 1 1 0))) (mk_ratio 1 1000 0));
  (91, same_ratio ((tcommon (mk_ratio 100 1 0) (mk_ratio 10 1 0))) (mk_ratio 10 1 0));
  (92, same_ratio ((tcommon (mk_ratio 100 1 0) (mk_ratio 1 10 0))) (mk_ratio 1 10 0));
  (95, same_ratio ((tcommon (mk_ratio 1 1 0) (mk_ratio 1 1 3))) (mk_ratio 1 1 0));
  (96, same_ratio ((tcommon (mk_ratio 10 1 (-1)) (mk_ratio 1 1 (-3)))) (mk_ratio 1 1 (-3)))].
Example ratio_conforms : not_holding ratio_test = [].
Proof. vm_compute. reflexivity. Qed.

(** * Products of dimensions *)

(** The dimensions and units of dimension_op_test.cpp and type_list_test.cpp. *)
Definition a_bdim (d u : string) : bdim := BDim d d (CUnit (Some u) [] (Ratio 1 1 0) u true (Some (st_of_ascii u)) no_prefix).
Definition d0 : bdim := a_bdim "d0" "u0".
Definition d1 : bdim := a_bdim "d1" "u1".
Definition d2 : bdim := a_bdim "d2" "u2".
Definition d3 : bdim := a_bdim "d3" "u3".
(** [derived_dimension_base<es...>] and [unknown_dimension<es...>]: the operations look at the exponents only. *)
Definition dim_of (es : list bexp) : dimension := match mk_unknown_dimension es with Ok d => d | _ => DBase d0 end.
Definition same_exponent (x : res bexp) (y : bexp) : bool := match x with Ok a => if bexp_eq_dec a y then true else false | _ => false end.
Definition same_exponents (x : res (list bexp)) (y : list bexp) : bool := match x with Ok a => if bexps_eq_dec a y then true else false | _ => false end.
Definition same_dimension (x : res dimension) (y : dimension) : bool := match x with Ok a => if dimension_eq_dec a y then true else false | _ => false end.
(** static/dimension_op_test.cpp: all its 32 assertions. *)
Definition dimension_op_test : list (Z * bool) := [
  (44, same_exponent (exponent_invert (BExp d0 2 1)) (BExp d0 (-2) 1));
  (45, same_exponent (exponent_invert (BExp d1 (-2) 1)) (BExp d1 2 1));
  (55, same_exponents (dim_unpack []) []);
  (56, same_exponents (dim_unpack [((DBase d0), (1, 1))]) [BExp d0 1 1]);
  (57, same_exponents (dim_unpack [((DBase d0), (1, 1)); ((DBase d1), (2, 1))]) [BExp d0 1 1; BExp d1 2 1]);
  (60, same_exponents (dim_unpack [((dim_of [BExp d0 1 1]), (2, 1)); ((DBase d0), (1, 1))]) [BExp d0 2 1; BExp d0 1 1]);
  (61, same_exponents (dim_unpack [((dim_of [BExp d0 1 1; BExp d1 2 1]), ((-2), 1)); ((DBase d0), (1, 1)); ((DBase d1), (2, 1))]) [BExp d0 (-2) 1; BExp d1 (-4) 1; BExp d0 1 1; BExp d1 2 1]);
  (65, same_dimension (dim_invert empty_world (dim_of [BExp d0 (-1) 1])) (DBase d0));
  (66, same_dimension (dim_invert empty_world (dim_of [BExp d0 (-2) 1])) (dim_of [BExp d0 2 1]));
  (67, same_dimension (dim_invert empty_world (dim_of [BExp d0 2 1; BExp d1 (-1) 1])) (dim_of [BExp d0 (-2) 1; BExp d1 1 1]));
  (75, same_exponents (make_dimension [((DBase d0), (1, 1))]) [BExp d0 1 1]);
  (76, same_exponents (make_dimension [((DBase d0), (1, 1)); ((DBase d1), (1, 1))]) [BExp d0 1 1; BExp d1 1 1]);
  (77, same_exponents (make_dimension [((DBase d1), (1, 1)); ((DBase d0), (1, 1))]) [BExp d0 1 1; BExp d1 1 1]);
  (78, same_exponents (make_dimension [((DBase d1), (1, 1)); ((DBase d1), (1, 1))]) [BExp d1 2 1]);
  (79, same_exponents (make_dimension [((DBase d1), (1, 1)); ((DBase d1), (1, 2))]) [BExp d1 3 2]);
  (80, same_exponents (make_dimension [((DBase d1), (1, 2)); ((DBase d1), (1, 2))]) [BExp d1 1 1]);
  (81, same_exponents (make_dimension [((DBase d1), (2, 1)); ((DBase d1), (1, 2))]) [BExp d1 5 2]);
  (83, same_exponents (make_dimension [((DBase d0), (1, 1)); ((DBase d1), (1, 1)); ((DBase d0), (1, 1)); ((DBase d1), (1, 1))]) [BExp d0 2 1; BExp d1 2 1]);
  (85, same_exponents (make_dimension [((DBase d0), ((-1), 1)); ((DBase d1), ((-1), 1)); ((DBase d0), ((-1), 1)); ((DBase d1), ((-1), 1))]) [BExp d0 (-2) 1; BExp d1 (-2) 1]);
  (88, same_exponents (make_dimension [((DBase d0), (1, 1)); ((DBase d1), (1, 1)); ((DBase d1), ((-1), 1))]) [BExp d0 1 1]);
  (89, same_exponents (make_dimension [((DBase d0), (1, 1)); ((DBase d0), ((-1), 1)); ((DBase d1), (1, 1))]) [BExp d1 1 1]);
  (90, same_exponents (make_dimension [((DBase d0), (1, 1)); ((DBase d1), (1, 1)); ((DBase d0), ((-1), 1))]) [BExp d1 1 1]);
  (94, same_dimension (dimension_multiply empty_world (dim_of [BExp d0 1 1]) (dim_of [BExp d1 1 1])) (dim_of [BExp d0 1 1; BExp d1 1 1]));
  (96, same_dimension (dimension_multiply empty_world (dim_of [BExp d0 1 1]) (DBase d1)) (dim_of [BExp d0 1 1; BExp d1 1 1]));
  (98, same_dimension (dimension_multiply empty_world (DBase d0) (dim_of [BExp d1 1 1])) (dim_of [BExp d0 1 1; BExp d1 1 1]));
  (100, same_dimension (dimension_multiply empty_world (DBase d0) (DBase d1)) (dim_of [BExp d0 1 1; BExp d1 1 1]));
  (101, same_dimension (dimension_multiply empty_world (dim_of [BExp d0 1 1; BExp d1 1 1; BExp d2 1 1]) (dim_of [BExp d3 1 1])) (dim_of [BExp d0 1 1; BExp d1 1 1; BExp d2 1 1; BExp d3 1 1]));
  (104, same_dimension (dimension_multiply empty_world (dim_of [BExp d0 1 1; BExp d1 1 1; BExp d2 1 1]) (dim_of [BExp d1 1 1])) (dim_of [BExp d0 1 1; BExp d1 2 1; BExp d2 1 1]));
  (107, same_dimension (dimension_multiply empty_world (dim_of [BExp d0 1 1; BExp d1 1 1; BExp d2 1 1]) (dim_of [BExp d1 (-1) 1])) (dim_of [BExp d0 1 1; BExp d2 1 1]));
  (110, same_dimension (dimension_multiply empty_world (dim_of [BExp d0 2 1]) (dim_of [BExp d0 (-1) 1])) (DBase d0));
  (114, same_dimension (dimension_divide empty_world (dim_of [BExp d0 1 1]) (dim_of [BExp d1 1 1])) (dim_of [BExp d0 1 1; BExp d1 (-1) 1]));
  (116, same_dimension (dimension_divide empty_world (dim_of [BExp d0 2 1]) (dim_of [BExp d0 1 1])) (DBase d0))].
Example dimension_op_conforms : not_holding dimension_op_test = [].
Proof. vm_compute. reflexivity. Qed.

(** * Lists of types *)

Definition same_list (a b : list string) : bool := if list_eq_dec string_dec a b then true else false.
(** static/type_list_test.cpp: 30 of its assertions (those on joining lists and appending to them are left out). *)
Definition type_list_test : list (Z * bool) := [
  (37, same_list (push_front [] ["int"]) ["int"]);
  (38, same_list (push_front [] ["int"; "long"; "double"]) ["int"; "long"; "double"]);
  (39, same_list (push_front ["double"] ["int"; "long"]) ["int"; "long"; "double"]);
  (58, same_list (fst (split_impl 0 0 ["int"])) []);
  (59, same_list (snd (split_impl 0 0 ["int"])) ["int"]);
  (61, same_list (fst (split_impl 0 1 ["int"])) ["int"]);
  (62, same_list (snd (split_impl 0 1 ["int"])) []);
  (64, same_list (fst (split_impl 0 0 ["int"; "long"])) []);
  (65, same_list (snd (split_impl 0 0 ["int"; "long"])) ["int"; "long"]);
  (67, same_list (fst (split_impl 0 1 ["int"; "long"])) ["int"]);
  (68, same_list (snd (split_impl 0 1 ["int"; "long"])) ["long"]);
  (70, same_list (fst (split_impl 0 2 ["int"; "long"])) ["int"; "long"]);
  (71, same_list (snd (split_impl 0 2 ["int"; "long"])) []);
  (73, same_list (fst (split_impl 0 1 ["int"; "long"; "double"])) ["int"]);
  (74, same_list (snd (split_impl 0 1 ["int"; "long"; "double"])) ["long"; "double"]);
  (76, same_list (fst (split_impl 0 2 ["int"; "long"; "double"])) ["int"; "long"]);
  (77, same_list (snd (split_impl 0 2 ["int"; "long"; "double"])) ["double"]);
  (81, same_list (fst (split_half ["int"])) ["int"]);
  (82, same_list (snd (split_half ["int"])) []);
  (84, same_list (fst (split_half ["int"; "long"])) ["int"]);
  (85, same_list (snd (split_half ["int"; "long"])) ["long"]);
  (87, same_list (fst (split_half ["int"; "long"; "double"])) ["int"; "long"]);
  (88, same_list (snd (split_half ["int"; "long"; "double"])) ["double"]);
  (90, same_list (fst (split_half ["int"; "long"; "double"; "float"])) ["int"; "long"]);
  (92, same_list (snd (split_half ["int"; "long"; "double"; "float"])) ["double"; "float"]);
  (101, same_exponents (Ok (merge_sorted exponent_less [BExp d0 1 1] [BExp d1 1 1])) [BExp d0 1 1; BExp d1 1 1]);
  (103, same_exponents (Ok (merge_sorted exponent_less [BExp d1 1 1] [BExp d0 1 1])) [BExp d0 1 1; BExp d1 1 1]);
  (111, same_exponents (Ok (type_list_sort exponent_less [BExp d0 1 1])) [BExp d0 1 1]);
  (112, same_exponents (Ok (type_list_sort exponent_less [BExp d0 1 1; BExp d1 (-1) 1])) [BExp d0 1 1; BExp d1 (-1) 1]);
  (114, same_exponents (Ok (type_list_sort exponent_less [BExp d1 1 1; BExp d0 (-1) 1])) [BExp d0 (-1) 1; BExp d1 1 1])].
Example type_list_conforms : not_holding type_list_test = [].
Proof. vm_compute. reflexivity. Qed.

(** * Texts *)

Definition flip_ltb (a b : fixed_string) : bool := fs_ltb b a.
Definition st_neb (a b : symbol_text) : bool := negb (st_eqb a b).
Definition st_gtb (a b : symbol_text) : bool := st_ltb b a.
Definition st_leb (a b : symbol_text) : bool := negb (st_ltb b a).
Definition st_geb (a b : symbol_text) : bool := negb (st_ltb a b).
(** static/fixed_string_test.cpp: all its 20 assertions. *)
Definition fixed_string_test : list (Z * bool) := [
  (30, Nat.eqb (fs_size "a") 1%nat);
  (31, Ascii.eqb (fs_get "a" 0%nat) "a"%char);
  (32, fs_eqb "a" "a");
  (33, fs_ltb "a" "b");
  (34, fs_ltb "a" "aa");
  (35, fs_eqb (fs_add "a" "b") "ab");
  (36, fs_eqb (fs_add "b" "a") "ba");
  (37, fs_eqb (fs_add "a" "bc") "abc");
  (38, fs_eqb (fs_add "bc" "a") "bca");
  (41, Nat.eqb (fs_size "abc") 3%nat);
  (42, Ascii.eqb (fs_get "abc" 0%nat) "a"%char);
  (43, Ascii.eqb (fs_get "abc" 1%nat) "b"%char);
  (44, Ascii.eqb (fs_get "abc" 2%nat) "c"%char);
  (45, fs_eqb "abc" "abc");
  (46, fs_ltb "abc" "b");
  (47, flip_ltb "abc" "aa");
  (48, fs_eqb (fs_add "abc" "d") "abcd");
  (49, fs_eqb (fs_add "d" "abc") "dabc");
  (50, fs_eqb (fs_add "abc" "def") "abcdef");
  (51, fs_eqb (fs_add "def" "abc") "defabc")].
(** static/symbol_text_test.cpp: all its 44 assertions; a character or a text on either side is converted to a symbol. *)
Definition symbol_text_test : list (Z * bool) := [
  (30, st_eqb (st_of_ascii "b") (st_of_ascii "b"));
  (31, st_neb (st_of_ascii "b") (st_of_ascii "a"));
  (32, st_neb (st_of_ascii "b") (st_of_ascii "ab"));
  (33, st_ltb (st_of_ascii "b") (st_of_ascii "c"));
  (34, st_gtb (st_of_ascii "b") (st_of_ascii "a"));
  (35, st_leb (st_of_ascii "b") (st_of_ascii "b"));
  (36, st_leb (st_of_ascii "b") (st_of_ascii "c"));
  (37, st_geb (st_of_ascii "b") (st_of_ascii "b"));
  (38, st_geb (st_of_ascii "b") (st_of_ascii "a"));
  (39, fs_eqb (st_standard (st_of_ascii "b")) "b");
  (40, fs_eqb (st_ascii (st_of_ascii "b")) "b");
  (43, st_eqb (SymbolText "a" "b") (SymbolText "a" "b"));
  (44, st_neb (SymbolText "a" "b") (st_of_ascii "b"));
  (45, fs_eqb (st_standard (SymbolText "a" "b")) "a");
  (46, fs_eqb (st_ascii (SymbolText "a" "b")) "b");
  (49, fs_eqb (st_standard (st_of_ascii "ab")) "ab");
  (50, fs_eqb (st_ascii (st_of_ascii "ab")) "ab");
  (54, fs_eqb (st_standard (st_of_ascii "bc")) "bc");
  (55, fs_eqb (st_ascii (st_of_ascii "bc")) "bc");
  (58, fs_eqb (st_standard (SymbolText "bc" "de")) "bc");
  (59, fs_eqb (st_ascii (SymbolText "bc" "de")) "de");
  (63, fs_eqb (st_standard (SymbolText "bc" "de")) "bc");
  (64, fs_eqb (st_ascii (SymbolText "bc" "de")) "de");
  (66, st_eqb (SymbolText "bc" "de") (SymbolText "bc" "de"));
  (67, st_neb (SymbolText "bc" "de") (SymbolText "fg" "hi"));
  (68, st_neb (SymbolText "bc" "de") (SymbolText "bcd" "ef"));
  (70, st_ltb (SymbolText "bc" "de") (st_of_ascii "c"));
  (71, st_gtb (SymbolText "bc" "de") (st_of_ascii "a"));
  (72, st_leb (SymbolText "bc" "de") (st_of_ascii "c"));
  (73, st_leb (SymbolText "bc" "de") (st_of_ascii "bcd"));
  (74, st_geb (SymbolText "bc" "de") (st_of_ascii "a"));
  (75, st_geb (SymbolText "bc" "de") (st_of_ascii "bc"));
  (77, st_eqb (st_add (st_of_ascii "a") (st_of_ascii "bc")) (st_of_ascii "abc"));
  (78, st_eqb (st_add (st_of_ascii "bc") (st_of_ascii "f")) (st_of_ascii "bcf"));
  (80, st_eqb (st_add (st_of_ascii "a") (st_of_ascii "bc")) (st_of_ascii "abc"));
  (81, st_eqb (st_add (st_of_ascii "bc") (st_of_ascii "f")) (st_of_ascii "bcf"));
  (83, st_eqb (st_add (SymbolText "a" "f") (SymbolText "bc" "de")) (SymbolText "abc" "fde"));
  (84, st_eqb (st_add (SymbolText "bc" "de") (SymbolText "a" "f")) (SymbolText "bca" "def"));
  (86, st_eqb (st_add (st_of_ascii "a") (SymbolText "bc" "de")) (SymbolText "abc" "ade"));
  (87, st_eqb (st_add (SymbolText "bc" "de") (st_of_ascii "f")) (SymbolText "bcf" "def"));
  (89, st_eqb (st_add (st_of_ascii "a") (SymbolText "bc" "de")) (SymbolText "abc" "ade"));
  (90, st_eqb (st_add (SymbolText "bc" "de") (st_of_ascii "f")) (SymbolText "bcf" "def"));
  (92, st_eqb (st_add (st_of_ascii "a") (SymbolText "bc" "de")) (SymbolText "abc" "ade"));
  (93, st_eqb (st_add (SymbolText "bc" "de") (st_of_ascii "f")) (SymbolText "bcf" "def"))].
Example texts_conform : not_holding fixed_string_test = [] /\ not_holding symbol_text_test = [].
Proof. vm_compute. split; reflexivity. Qed.

(** * Units declared by a test *)

(** static/unit_test.cpp:34-54. *)
Definition unit_test_entries : list entry := [
  ENamed "metre" (st_of_ascii "m") "si::prefix";
  EPrefixed "centimetre" "si::centi" "metre";
  EPrefixed "kilometre" "si::kilo" "metre";
  EScaled "yard" (st_of_ascii "yd") no_prefix 9144 1 (-4) "metre";
  EScaled "foot" (st_of_ascii "ft") no_prefix 1 3 0 "yard";
  EBase "dim_length" "length" "metre";
  ENamed "second" (st_of_ascii "s") "si::prefix";
  EScaled "hour" (st_of_ascii "h") no_prefix 36 1 2 "second";
  EBase "dim_time" "time" "second";
  ENamed "kelvin" (st_of_ascii "K") no_prefix;
  EUnit "metre_per_second";
  EDim "dim_speed" "metre_per_second" [("dim_length", 1); ("dim_time", -1)];
  EDerived "kilometre_per_hour" "dim_speed" ["kilometre"; "hour"]].
Definition unit_test_env : res env :=
  e <- compile compile_estimate On ["isq/si/prefixes.h"]; elaborate compile_estimate On isq_templates e unit_test_entries.
Definition is_unit (x : res cunit) (e : env) (n : string) : res bool :=
  u <- x; v <- find_unit e n; Ok (if cunit_eq_dec u v then true else false).
Definition of_units (e : env) (d : string) (r : res ratio) : res cunit := r <- r; x <- find_dim e d; downcast_unit (en_world e) (snd x) r.
Definition has_symbol (e : env) (n s : string) : res bool :=
  u <- find_unit e n; t <- the (u_symbol u); Ok (same_text t (st_of_ascii s)).
Definition unit_test (e : env) : list (Z * res bool) := [
  (49, Ok (match elaborate compile_estimate On isq_templates e [EPrefixed "kilokelvin" "si::kilo" "kelvin"] with IllFormed => true | _ => false end));
  (58, is_unit (of_units e "dim_length" (mk_ratio 1 1 0)) e "metre");
  (59, is_unit (of_units e "dim_length" (mk_ratio 1 1 (-2))) e "centimetre");
  (60, is_unit (of_units e "dim_length" (y <- find_unit e "yard"; Ok (u_ratio y))) e "yard");
  (61, is_unit (of_units e "dim_length" (y <- find_unit e "yard"; tmul (Ok (u_ratio y)) (mk_ratio 1 3 0))) e "foot");
  (62, is_unit (of_units e "dim_speed" (k <- find_unit e "kilometre"; h <- find_unit e "hour"; rdiv (u_ratio k) (u_ratio h))) e "kilometre_per_hour");
  (65, Ok (match scaled_unit (Ratio (-1) 1 0) "metre" with IllFormed => true | _ => false end));
  (68, has_symbol e "centimetre" "cm");
  (69, has_symbol e "kilometre" "km");
  (70, has_symbol e "kilometre_per_hour" "km/h")].
Definition not_true (l : list (Z * res bool)) : list Z := map fst (filter (fun x => match snd x with Ok true => false | _ => true end) l).
Example unit_conforms : match unit_test_env with Ok e => not_true (unit_test e) | _ => [-1] end = [].
Proof. vm_compute. reflexivity. Qed.

(** static/custom_unit_test.cpp: the spectral densities, with the headers it includes. *)
Definition spectral_env : res (env * (dimension * dimension)) :=
  e <- compile compile_estimate On ["isq/si/frequency.h"; "isq/si/mass.h"; "isq/si/time.h"; "isq/si/voltage.h"];
  e <- elaborate compile_estimate On isq_templates e [EUnit "sq_volt_per_hertz"; EUnit "volt_per_sqrt_hertz"];
  v <- find_dim e "si::dim_voltage"; f <- find_dim e "si::dim_frequency";
  su <- find_unit e "sq_volt_per_hertz"; au <- find_unit e "volt_per_sqrt_hertz";
  p <- declare_dimension On "dim_power_spectral_density" su [(snd v, (2, 1)); (snd f, (-1, 1))] (en_world e);
  dp <- mk_derived_dimension "dim_power_spectral_density" su [(snd v, (2, 1)); (snd f, (-1, 1))];
  da <- mk_derived_dimension "dim_amplitude_spectral_density" au [(snd v, (1, 1)); (snd f, (-1, 2))];
  a <- declare_dimension On "dim_amplitude_spectral_density" au [(snd v, (1, 1)); (snd f, (-1, 2))] p;
  Ok (Env (en_prefixes e) (en_units e) (en_dims e) (en_guides e) a, (dp, da)).
(** A [libm] for the tests: powers with whole exponents and whole fourth, square and cubic roots. *)
Definition whole (x : spec_float) : Z := match float_trunc x with Some z => z | None => 0 end.
Definition t_pow (f : fty) (x y : spec_float) : spec_float :=
  let n := whole y in
  if match SFcompare y (float_of_int F64 n) with Some Eq => true | _ => false end
  then Nat.iter (Z.to_nat n) (fun r => SFmul (fprec f) (femax f) r x) (float_of_int f 1)
  else match SFcompare y (SFdiv (fprec F64) (femax F64) (float_of_int F64 1) (float_of_int F64 4)) with
       | Some Eq => SFsqrt (fprec f) (femax f) (SFsqrt (fprec f) (femax f) x)
       | _ => S754_nan end.
Definition t_cbrt (f : fty) (x : spec_float) : spec_float :=
  match find (fun k => Z.of_nat k ^ 3 =? whole x) (seq 0 100) with Some k => float_of_int f (Z.of_nat k) | None => S754_nan end.
Definition t_libm : libm := Libm t_pow t_cbrt (fun f _ => float_of_int f 1).
Definition powered (e : env) (n d : Z) (x : res cval) : res cval :=
  v <- x; match v with VQ q => r <- q_pow compile_estimate (en_world e) t_libm n d q;
      match r with inl z => Ok (VN (q_rep (q_type q)) z) | inr p => Ok (VQ p) end | _ => IllFormed end.
Definition rooted (e : env) (x : res cval) : res cval :=
  v <- x; match v with VQ q => quantity_of (q_sqrt compile_estimate (en_world e) q) | _ => IllFormed end.
Definition cubic_rooted (e : env) (x : res cval) : res cval :=
  v <- x; match v with VQ q => quantity_of (q_cbrt compile_estimate (en_world e) t_libm q) | _ => IllFormed end.
Definition same_typed (x y : res cval) : res bool :=
  a <- x; b <- y; match a, b with
  | VQ p, VQ q => Ok (same_type (q_type p) (q_type q))
  | VN r _, VN s _ => Ok (if rep_eq_dec r s then true else false)
  | _, _ => Ok false end.
Definition equal_vals (e : env) (x y : res cval) : res bool := a <- x; b <- y; c_compare_vals compile_estimate e CEq a b.
Definition doubles (d : dimension) (e : env) (n : string) (z : Z) : res cval :=
  u <- find_unit e n; Ok (VQ (Quantity (QType d u (RFlt F64)) (NFlt (float_of_int F64 z)))).
Definition custom_unit_test (x : env * (dimension * dimension)) : list (Z * res bool) :=
  let '(e, (p, a)) := x in [
  (56, d <- dimension_sqrt (en_world e) p; Ok (if dimension_eq_dec d a then true else false));
  (57, d <- dimension_pow (en_world e) a 2 1; Ok (if dimension_eq_dec d p then true else false));
  (59, same_typed (powered e 2 1 (doubles a e "volt_per_sqrt_hertz" 4)) (doubles p e "sq_volt_per_hertz" 16));
  (60, same_typed (rooted e (doubles p e "sq_volt_per_hertz" 16)) (doubles a e "volt_per_sqrt_hertz" 4))].
Example custom_unit_conforms : match spectral_env with Ok x => not_true (custom_unit_test x) | _ => [-1] end = [].
Proof. vm_compute. reflexivity. Qed.

(** * Powers and roots *)

(** static/math_test.cpp: all its 17 assertions. *)
Definition si_lit (e : env) (z : Z) (n : string) : res cval := c_eval compile_estimate e (CLit "si" n z).
Definition int_lit (e : env) (z : Z) (n : string) : res cval := c_eval compile_estimate e (CLit "si::international" n z).
Definition times (e : env) (x y : res cval) : res cval := a <- x; b <- y; c_apply compile_estimate e CMul a b.
Definition math_test (e : env) : list (Z * res bool) :=
  let l := si_lit e in let i := int_lit e in [
  (37, same_typed (powered e 0 1 (l 2 "m")) (Ok (VN (RInt I64) (NInt 0))));
  (38, same_typed (powered e 1 1 (l 2 "m")) (l 2 "m"));
  (39, same_typed (powered e 2 1 (l 2 "m")) (l 4 "m2"));
  (40, same_typed (powered e 2 1 (l 2 "km")) (l 4 "km2"));
  (41, same_typed (powered e 2 1 (i 2 "ft")) (i 4 "ft2"));
  (42, same_typed (rooted e (l 4 "m2")) (l 2 "m"));
  (43, same_typed (rooted e (l 4 "km2")) (l 2 "km"));
  (44, same_typed (rooted e (i 4 "ft2")) (i 2 "ft"));
  (45, same_typed (cubic_rooted e (l 8 "m3")) (l 2 "m"));
  (46, same_typed (cubic_rooted e (l 8 "km3")) (l 2 "km"));
  (47, same_typed (cubic_rooted e (i 8 "ft3")) (i 2 "ft"));
  (48, same_typed (powered e 1 4 (times e (l 4 "m2") (l 4 "m2"))) (l 2 "m"));
  (49, same_typed (powered e 1 4 (times e (l 4 "km2") (l 4 "km2"))) (l 2 "km"));
  (50, same_typed (powered e 1 4 (times e (i 4 "ft2") (i 4 "ft2"))) (i 2 "ft"));
  (53, same_typed (powered e 1 4 (l 4 "m2")) (rooted e (l 2 "m")));
  (54, same_typed (powered e 1 4 (l 4 "km2")) (rooted e (l 2 "km")));
  (55, same_typed (powered e 1 4 (i 4 "ft2")) (rooted e (i 2 "ft")))].
Example math_conforms :
  match compile compile_estimate On ["isq/si/length.h"; "isq/si/area.h"; "isq/si/volume.h"; "isq/si/international/length.h";
    "isq/si/international/area.h"; "isq/si/international/volume.h"] with Ok e => not_true (math_test e) | _ => [-1] end = [].
Proof. vm_compute. reflexivity. Qed.

(** runtime/math_test.cpp:34-109. *)
Definition absolute (x : res cval) : res cval := v <- x; match v with VQ q => quantity_of (q_abs q) | _ => IllFormed end.
Definition negated (e : env) (x : cexpr) : res cval := c_eval compile_estimate e (CNeg x).
Definition a_double (z : Z) : cexpr := CFlt "si" "m" (float_of_int F80 z).
Definition epsilons (e : env) (x : cexpr) : res (rep * number) :=
  v <- c_eval compile_estimate e x; match v with VQ q => p <- q_epsilon (q_type q); Ok (q_rep (q_type p), q_num p) | _ => IllFormed end.
Definition runtime_math_test (e : env) : list (Z * res bool) :=
  let l := si_lit e in [
  (37, equal_vals e (powered e 0 1 (l 2 "m")) (Ok (VN (RInt I32) (NInt 1))));
  (41, equal_vals e (powered e 1 1 (l 2 "m")) (l 2 "m"));
  (45, equal_vals e (powered e 2 1 (l 2 "m")) (l 4 "m2"));
  (49, equal_vals e (powered e 3 1 (l 2 "m")) (l 8 "m3"));
  (55, equal_vals e (rooted e (l 4 "m2")) (l 2 "m"));
  (60, equal_vals e (cubic_rooted e (l 8 "m3")) (l 2 "m"));
  (65, equal_vals e (powered e 1 4 (l 16 "m2")) (rooted e (l 4 "m")));
  (74, equal_vals e (absolute (negated e (CLit "si" "m" 1))) (l 1 "m"));
  (80, equal_vals e (absolute (negated e (a_double 1))) (l 1 "m"));
  (89, equal_vals e (absolute (l 1 "m")) (l 1 "m"));
  (95, equal_vals e (absolute (c_eval compile_estimate e (a_double 1))) (l 1 "m"));
  (104, p <- epsilons e (a_double 1); n_eqb (snd p) (rep_epsilon (RFlt F80)));
  (107, p <- epsilons e (CLit "si" "m" 1); n_eqb (snd p) (rep_epsilon (RInt I64)));
  (110, p <- epsilons e (CLit "si" "m" 1); b <- n_convert (RFlt F80) (snd p); c <- n_eqb b (rep_epsilon (RFlt F80)); Ok (negb c))].
Example runtime_math_conforms :
  match compile compile_estimate On ["isq/si/area.h"; "isq/si/length.h"; "isq/si/volume.h"] with Ok e => not_true (runtime_math_test e) | _ => [-1] end = [].
Proof. vm_compute. reflexivity. Qed.

(** runtime/math_test.cpp:145-183: [iroot_compile<N>] at the powers of 1 to 9 and below them,
    and at the powers of ten from the tenth on, for the thirteen exponents of the test. *)
Definition exponents_tested : list positive := [1; 2; 3; 4; 5; 6; 7; 8; 9; 10; 15; 20; 25]%positive.
Definition is_root (n : positive) (v r : Z) : bool := match iroot compile_estimate n v with Ok z => z =? r | _ => false end.
Definition root_test : list (positive * (Z * bool)) :=
  flat_map (fun n =>
    flat_map (fun b => let x := b ^ Zpos n in
        if x <? 2 ^ 63 then [(n, (x - 1, is_root n (x - 1) (b - 1))); (n, (x, is_root n x b))] else [])
      [1; 2; 3; 4; 5; 6; 7; 8; 9]
    ++ map (fun k => let v := 10 ^ k in
        (n, (v, match iroot compile_estimate n v with Ok z => (z ^ Zpos n <=? v) && (v <? (z + 1) ^ Zpos n) | _ => false end)))
      [10; 11; 12; 13; 14; 15; 16; 17]) exponents_tested.
(** All but two come out as the test says.  In these the first estimate is 8 and the function
    computes [pow_impl<20>(9)], which is more than the largest [std::intmax_t]: the test itself
    runs into undefined behaviour and passes where the overflow wraps around. *)
Example roots_conform :
  map (fun x => (fst x, fst (snd x))) (filter (fun x => negb (snd (snd x))) root_test) = [(20%positive, 8 ^ 20 - 1); (20%positive, 8 ^ 20)] /\
  iroot compile_estimate 20 (8 ^ 20 - 1) = Undef /\ iroot compile_estimate 20 (8 ^ 20) = Undef.
Proof. vm_compute. repeat split; reflexivity. Qed.

(** * References *)

(** static/references_test.cpp, but for the names hidden by a local variable. *)
Definition cm (z : Z) (n : string) : cexpr := CBin CMul (CNum (RInt I32) (NInt z)) (CRef "si" n).
Definition over_s (x : cexpr) : cexpr := CBin CDiv x (CRef "si" "s").
Definition s_ : cexpr := CRef "si" "s".
Definition two : cexpr := CNum (RInt I32) (NInt 2).
Definition q_s : cexpr := CLit "si" "s" 1.
Definition references_test : list (Z * cassert) := [
  (35, ACmp CEq (cm 2 "m") (CLit "si" "m" 2));
  (36, ACmp CEq (cm 2 "s") (CLit "si" "s" 2));
  (39, AIll (CBin CDiv two s_)); (40, AIll (CBin CDiv s_ two)); (41, AIll (CBin CMul s_ two));
  (42, AIll (CBin CAdd s_ two)); (43, AIll (CBin CAdd two s_)); (44, AIll (CBin CAdd s_ s_));
  (45, AIll (CBin CSub s_ two)); (46, AIll (CBin CSub two s_)); (47, AIll (CBin CSub s_ s_));
  (48, AIll (CBin CAdd s_ q_s)); (49, AIll (CBin CSub s_ q_s)); (50, AIll (CBin CMul s_ q_s)); (51, AIll (CBin CDiv s_ q_s));
  (52, AIll (CBin CAdd q_s s_)); (53, AIll (CBin CSub q_s s_)); (54, AIll (CBin CMul q_s s_)); (55, AIll (CBin CDiv q_s s_));
  (59, ACmp CEq (CBin CDiv (CLit "si" "m" 2) (cm 1 "s")) (CLit "si" "m_per_s" 2));
  (60, ACmp CEq (CBin CMul two (CBin CDiv (CRef "si" "m") s_)) (CLit "si" "m_per_s" 2));
  (67, ACmp CEq (CBin CDiv (cm 120 "km") (cm 2 "h")) (CLit "si" "km_per_h" 60));
  (73, ASame (CBin CDiv (CBin CMul (CNum (RInt I64) (NInt 120)) (CRef "si" "km")) (cm 2 "h")) (CLit "si" "km_per_h" 60));
  (74, ASame (CBin CDiv (CBin CMul (CNum (RFlt F80) (NFlt (float_of_int F80 120))) (CRef "si" "km")) (cm 2 "h")) (CFlt "si" "km_per_h" (float_of_int F80 60)));
  (76, ACmp CEq (CBin CMul (CBin CDiv (CNum (RFlt F64) (NFlt (float_of_int F64 1))) (CNum (RInt I32) (NInt 4))) (CRef "si" "m2"))
               (CBin CDiv (CFlt "si" "m2" (float_of_int F80 1)) (CNum (RInt I32) (NInt 4))))].
Example references_conform : forall est,
  match compile est On ["isq/si/area.h"; "isq/si/length.h"; "isq/si/speed.h"; "isq/si/time.h"] with Ok e => failing est e references_test | _ => [-1] end = [].
Proof. intros est. vm_compute. reflexivity. Qed.

(** * Concepts *)

(** static/dimensions_concepts_test.cpp: all its 80 assertions with downcasting, a concept, a quantity type, the answer. *)
Definition dimensions_concepts_test : list (Z * (string * (string * string * bool))) := [
  (31, ("Length", ("si::dim_length", "si::metre", true)));
  (32, ("Length", ("si::dim_time", "si::second", false)));
  (34, ("Mass", ("si::dim_mass", "si::kilogram", true)));
  (35, ("Mass", ("si::dim_time", "si::second", false)));
  (37, ("Time", ("si::dim_time", "si::second", true)));
  (38, ("Time", ("si::dim_length", "si::metre", false)));
  (40, ("ElectricCurrent", ("si::dim_electric_current", "si::ampere", true)));
  (41, ("ElectricCurrent", ("si::dim_time", "si::second", false)));
  (43, ("ThermodynamicTemperature", ("si::dim_thermodynamic_temperature", "si::kelvin", true)));
  (44, ("ThermodynamicTemperature", ("si::dim_time", "si::second", false)));
  (46, ("AmountOfSubstance", ("si::dim_amount_of_substance", "si::mole", true)));
  (47, ("AmountOfSubstance", ("si::dim_time", "si::second", false)));
  (49, ("LuminousIntensity", ("si::dim_luminous_intensity", "si::candela", true)));
  (50, ("LuminousIntensity", ("si::dim_time", "si::second", false)));
  (52, ("Frequency", ("si::dim_frequency", "si::hertz", true)));
  (53, ("Frequency", ("si::dim_time", "si::second", false)));
  (55, ("Area", ("si::dim_area", "si::square_metre", true)));
  (56, ("Area", ("si::dim_time", "si::second", false)));
  (58, ("Volume", ("si::dim_volume", "si::cubic_metre", true)));
  (59, ("Volume", ("si::dim_area", "si::square_metre", false)));
  (64, ("Speed", ("si::dim_speed", "si::metre_per_second", true)));
  (65, ("Speed", ("si::dim_time", "si::second", false)));
  (67, ("Acceleration", ("si::dim_acceleration", "si::metre_per_second_sq", true)));
  (68, ("Acceleration", ("si::dim_time", "si::second", false)));
  (73, ("Force", ("si::dim_force", "si::newton", true)));
  (74, ("Force", ("si::dim_time", "si::second", false)));
  (79, ("Energy", ("si::dim_energy", "si::joule", true)));
  (80, ("Energy", ("si::dim_time", "si::second", false)));
  (85, ("Power", ("si::dim_power", "si::watt", true)));
  (86, ("Power", ("si::dim_time", "si::second", false)));
  (88, ("Voltage", ("si::dim_voltage", "si::volt", true)));
  (89, ("Voltage", ("si::dim_time", "si::second", false)));
  (91, ("ElectricCharge", ("si::dim_electric_charge", "si::coulomb", true)));
  (92, ("ElectricCharge", ("si::dim_time", "si::second", false)));
  (94, ("Capacitance", ("si::dim_capacitance", "si::farad", true)));
  (95, ("Capacitance", ("si::dim_time", "si::second", false)));
  (97, ("SurfaceTension", ("si::dim_surface_tension", "si::newton_per_metre", true)));
  (98, ("SurfaceTension", ("si::dim_time", "si::second", false)));
  (100, ("Pressure", ("si::dim_pressure", "si::pascal", true)));
  (101, ("Pressure", ("si::dim_time", "si::second", false)));
  (103, ("MagneticInduction", ("si::dim_magnetic_induction", "si::tesla", true)));
  (104, ("MagneticInduction", ("si::dim_time", "si::second", false)));
  (106, ("MagneticFlux", ("si::dim_magnetic_flux", "si::weber", true)));
  (107, ("MagneticFlux", ("si::dim_time", "si::second", false)));
  (109, ("Inductance", ("si::dim_inductance", "si::henry", true)));
  (110, ("Inductance", ("si::dim_time", "si::second", false)));
  (112, ("Conductance", ("si::dim_conductance", "si::siemens", true)));
  (113, ("Conductance", ("si::dim_time", "si::second", false)));
  (119, ("CatalyticActivity", ("si::dim_catalytic_activity", "si::katal", true)));
  (120, ("CatalyticActivity", ("si::dim_time", "si::second", false)));
  (122, ("AbsorbedDose", ("si::dim_absorbed_dose", "si::gray", true)));
  (123, ("AbsorbedDose", ("si::dim_time", "si::second", false)));
  (125, ("CurrentDensity", ("si::dim_current_density", "si::ampere_per_metre_sq", true)));
  (126, ("CurrentDensity", ("si::dim_time", "si::second", false)));
  (128, ("Concentration", ("si::dim_concentration", "si::mol_per_metre_cub", true)));
  (129, ("Concentration", ("si::dim_time", "si::second", false)));
  (131, ("Luminance", ("si::dim_luminance", "si::candela_per_metre_sq", true)));
  (132, ("Luminance", ("si::dim_time", "si::second", false)));
  (134, ("DynamicViscosity", ("si::dim_dynamic_viscosity", "si::pascal_second", true)));
  (135, ("DynamicViscosity", ("si::dim_time", "si::second", false)));
  (137, ("HeatCapacity", ("si::dim_heat_capacity", "si::joule_per_kelvin", true)));
  (138, ("HeatCapacity", ("si::dim_time", "si::second", false)));
  (140, ("SpecificHeatCapacity", ("si::dim_specific_heat_capacity", "si::joule_per_kilogram_kelvin", true)));
  (141, ("SpecificHeatCapacity", ("si::dim_time", "si::second", false)));
  (143, ("MolarHeatCapacity", ("si::dim_molar_heat_capacity", "si::joule_per_mole_kelvin", true)));
  (144, ("MolarHeatCapacity", ("si::dim_time", "si::second", false)));
  (146, ("ThermalConductivity", ("si::dim_thermal_conductivity", "si::watt_per_metre_kelvin", true)));
  (147, ("ThermalConductivity", ("si::dim_time", "si::second", false)));
  (153, ("ElectricFieldStrength", ("si::dim_electric_field_strength", "si::volt_per_metre", true)));
  (154, ("ElectricFieldStrength", ("si::dim_time", "si::second", false)));
  (156, ("ChargeDensity", ("si::dim_charge_density", "si::coulomb_per_metre_cub", true)));
  (157, ("ChargeDensity", ("si::dim_time", "si::second", false)));
  (159, ("SurfaceChargeDensity", ("si::dim_surface_charge_density", "si::coulomb_per_metre_sq", true)));
  (160, ("SurfaceChargeDensity", ("si::dim_time", "si::second", false)));
  (162, ("Permittivity", ("si::dim_permittivity", "si::farad_per_metre", true)));
  (163, ("Permittivity", ("si::dim_time", "si::second", false)));
  (165, ("Permeability", ("si::dim_permeability", "si::henry_per_metre", true)));
  (166, ("Permeability", ("si::dim_time", "si::second", false)));
  (168, ("MolarEnergy", ("si::dim_molar_energy", "si::joule_per_mole", true)));
  (169, ("MolarEnergy", ("si::dim_time", "si::second", false)))].
Definition concept_answers (mode : downcast_mode) (e : env) (l : list (Z * (string * (string * string * bool)))) : list (Z * res bool) :=
  map (fun x => let '(n, (c, (d, u, b))) := x in
    (n, d <- find_dim e d; u <- find_unit e u; a <- satisfies mode isq_templates e (QType (snd d) u (RFlt F64)) c; Ok (Bool.eqb a b))) l.
Example concepts_conform : forall est, match compile est On ["isq/si/si.h"] with
  | Ok e => not_true (concept_answers On e dimensions_concepts_test) | _ => [-1] end = [].
Proof. intros est. vm_compute. reflexivity. Qed.
(** And :61 and :70, compiled without downcasting; and the rest in that mode. *)
Example concepts_conform_off : forall est, match compile est Off ["isq/si/si.h"] with
  | Ok e => not_true (
      (61, d <- find_dim e "si::dim_length"; u <- mk_unknown_dimension [BExp (match snd d with DBase b => b | _ => d0 end) 3 1];
           satisfies Off isq_templates e (QType u unknown_coherent_unit (RFlt F64)) "Volume") ::
      (70, d <- find_dim e "si::dim_length"; t <- find_dim e "si::dim_time";
           u <- mk_unknown_dimension [BExp (match snd d with DBase b => b | _ => d0 end) 1 1; BExp (match snd t with DBase b => b | _ => d0 end) (-2) 1];
           satisfies Off isq_templates e (QType u unknown_coherent_unit (RFlt F64)) "Acceleration") ::
      concept_answers Off e dimensions_concepts_test)
  | _ => [-1] end = [].
Proof. intros est. vm_compute. reflexivity. Qed.

(** static/concepts_test.cpp: its assertions on ratios, units, quantities and points of a dimension or origin. *)
Definition ratio_allowed (x : res ratio) : res bool := r <- x; Ok (unit_ratio_ok r).
Definition no (x : res bool) : res bool := b <- x; Ok (negb b).
Definition is_base (e : env) (n : string) : res bool := d <- find_dim e n; Ok (match snd d with DBase _ => true | _ => false end).
Definition is_unit_of (e : env) (u d : string) : res bool := u <- find_unit e u; d <- find_dim e d; Ok (unit_of u (snd d)).
Definition is_quantity_of (e : env) (d u d' : string) : res bool :=
  d <- find_dim e d; u <- find_unit e u; t <- mk_qtype (snd d) u (RFlt F64); d' <- find_dim e d'; Ok (quantity_of_dim t (snd d')).
Definition dynamic_time (e : env) : res origin := d <- find_dim e "si::dim_time"; Ok (ODynamic (snd d)).
Definition is_point_of (x y : res origin) : res bool := a <- x; b <- y; Ok (origin_equivalent (fun _ _ _ => None) a b).
Definition concepts_test (e : env) : list (Z * res bool) := [
  (59, ratio_allowed (mk_ratio 1000 1 0)); (60, no (ratio_allowed (mk_ratio 0 1 0))); (62, ratio_allowed (mk_ratio (-1000) (-1) 0));
  (63, no (ratio_allowed (mk_ratio (-1000) 1 0))); (64, no (ratio_allowed (mk_ratio 1 (-1000) 0)));
  (68, is_base e "si::dim_length"); (69, no (is_base e "si::dim_speed")); (74, no (is_base e "si::dim_speed")); (75, is_base e "si::dim_length");
  (98, is_unit_of e "si::metre" "si::dim_length"); (99, is_unit_of e "si::kilometre" "si::dim_length");
  (100, is_unit_of e "si::fps::mile" "si::dim_length"); (101, no (is_unit_of e "si::second" "si::dim_length"));
  (139, is_quantity_of e "si::dim_length" "si::metre" "si::dim_length");
  (141, is_quantity_of e "si::cgs::dim_length" "si::centimetre" "si::dim_length");
  (142, is_quantity_of e "si::cgs::dim_length" "si::metre" "si::dim_length");
  (143, is_quantity_of e "si::cgs::dim_length" "si::centimetre" "si::fps::dim_length");
  (144, no (is_quantity_of e "si::cgs::dim_length" "si::centimetre" "si::dim_time"));
  (146, is_point_of (dynamic_time e) (dynamic_time e));
  (147, is_point_of (Ok (clock_origin "system")) (Ok (clock_origin "system")));
  (148, no (is_point_of (dynamic_time e) (Ok (clock_origin "system"))));
  (149, no (is_point_of (Ok (clock_origin "system")) (dynamic_time e)))].
Example more_concepts_conform : forall est, match compile est On ["isq/si/cgs/speed.h"; "isq/si/fps/length.h"; "isq/si/fps/speed.h"; "isq/si/length.h"; "isq/si/prefixes.h"; "isq/si/speed.h"] with
  | Ok e => not_true (concepts_test e) | _ => [-1] end = [].
Proof. intros est. vm_compute. reflexivity. Qed.
