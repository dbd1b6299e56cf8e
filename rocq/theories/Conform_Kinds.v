(** The tests of points, kinds and points of kinds, /repo/test/unit_test/static, on the model,
    with the headers they include and the library's default mode.  A check that an expression
    does not compile is the assertion that the model rejects it; a check on types alone
    ([is_invocable_v], [is_convertible_v] ...) uses an object of each type (one, or the origin). *)

From Coq Require Import ZArith String List Bool SpecFloat.
From Verif Require Import Outcome CInt Root Ratio FixedString Unit Downcast Dim DimOp Rep QuantityCast Quantity Point System Catalogue
  Includes Conform ConformKinds SystemProofs CatalogueProofs.
Import ListNotations.
Local Open Scope string_scope.
Local Open Scope Z_scope.

(** The origins of the tests with a [rebind] of their own (quantity_point_kind_test.cpp:64-68,
    point_origin_test.cpp:38-46). *)
Definition no_rebinding : rebinding := fun _ _ _ => None.
Definition screen_rebinding : rebinding := fun n _ d => if String.eqb n "screen_origin" then Some (OUser n d) else None.
Definition viewpoint_rebinding (e : env) : rebinding := fun n _ _ =>
  if String.eqb n "ones_viewpoint1" || String.eqb n "ones_viewpoint2"
  then match a_dim e "si::dim_length" with Ok d => Some (OUser "ones_viewpoint1" d) | _ => None end
  else None.

(** test/unit_test/static/kind_test.cpp: 51 assertions. *)
Definition kind_declarations : list kdecl := [KdBase "radius" "si::dim_length";
  KdBase "colatitude" "dim_angle<>";
  KdBase "azimuth" "dim_angle<>";
  KdBase "width" "si::dim_length";
  KdPoint "abscissa" "width" (OrDynamic "si::dim_length");
  KdBase "height" "si::dim_length";
  KdDerived "rate_of_climb" "si::dim_speed" "height";
  KdPoint "velocity_of_climb" "rate_of_climb" (OrDynamic "si::dim_speed")].
Definition kind_test : list (Z * xassert) := [
  (63, SKindBase (KrName "radius") (KrName "radius"));
  (64, SKindDim (KrName "radius") "si::dim_length");
  (65, SKindSame (KrName "radius") (KrDown (KrName "radius") "si::dim_length"));
  (67, SKindEquivalent (KrName "radius") (KrName "radius"));
  (69, SKindEquivalent (KrName "radius") (KrBase (KrName "radius")));
  (71, SKindEquivalent (KrBase (KrName "radius")) (KrBase (KrName "radius")));
  (72, SNot (SKindEquivalent (KrName "radius") (KrName "colatitude")));
  (73, SNot (SKindEquivalent (KrName "radius") (KrName "azimuth")));
  (74, SNot (SKindEquivalent (KrName "azimuth") (KrName "colatitude")));
  (75, SNot (SKindEquivalent (KrName "azimuth") (KrBase (KrName "colatitude"))));
  (76, SNot (SKindEquivalent (KrBase (KrName "azimuth")) (KrBase (KrName "colatitude"))));
  (77, SNot (SKindEquivalent (KrName "colatitude") (KrDown (KrName "radius") "si::dim_length")));
  (78, SNot (SKindEquivalent (KrName "azimuth") (KrDown (KrName "radius") "si::dim_length")));
  (86, SKindBase (KrDown (KrName "radius") "si::dim_area") (KrName "radius"));
  (87, SKindDim (KrDown (KrName "radius") "si::dim_area") "si::dim_area");
  (89, SKindSame (KrDown (KrName "radius") "si::dim_area") (KrDown (KrName "radius") "si::dim_area"));
  (90, SKindSame (KrDown (KrName "radius") "si::dim_area") (KrDown (KrDown (KrName "radius") "si::dim_area") "si::dim_area"));
  (92, SKindEquivalent (KrDown (KrName "radius") "si::dim_area") (KrDown (KrName "radius") "si::dim_area"));
  (93, SNot (SKindEquivalent (KrDown (KrName "radius") "si::dim_area") (KrName "radius")));
  (94, SNot (SKindEquivalent (KrDown (KrName "radius") "si::dim_area") (KrBase (KrName "radius"))));
  (99, SPointKindBase (PrDown (KrName "radius")) (KrName "radius"));
  (101, SPointKindSame (PrDown (KrName "radius")) (PrDown (KrName "radius")));
  (103, SPointKindEquivalent (PrDown (KrName "radius")) (PrDown (KrName "radius")));
  (107, SKindEquivalent (KrName "radius") (KrDown (KrDown (KrName "radius") "si::dim_area") "si::dim_length"));
  (108, SNot (SKindEquivalent (KrName "radius") (KrDown (KrName "radius") "si::dim_area")));
  (125, SPointKindBase (PrName "abscissa") (KrName "width"));
  (127, SPointKindSame (PrName "abscissa") (PrDown (KrName "width")));
  (129, SPointKindEquivalent (PrName "abscissa") (PrName "abscissa"));
  (131, SPointKindEquivalent (PrName "abscissa") (PrBase (PrName "abscissa")));
  (138, SPointKindBase (PrDown (KrDown (KrName "width") "si::dim_speed")) (KrDown (KrName "width") "si::dim_speed"));
  (140, SPointKindSame (PrDown (KrDown (KrName "width") "si::dim_speed")) (PrDown (KrDown (KrName "width") "si::dim_speed")));
  (142, SPointKindEquivalent (PrDown (KrDown (KrName "width") "si::dim_speed")) (PrDown (KrDown (KrName "width") "si::dim_speed")));
  (147, SNot (SPointKindEquivalent (PrName "abscissa") (PrDown (KrDown (KrName "width") "si::dim_speed"))));
  (148, SNot (SPointKindEquivalent (PrBase (PrName "abscissa")) (PrDown (KrDown (KrName "width") "si::dim_speed"))));
  (163, SKindBase (KrName "rate_of_climb") (KrName "height"));
  (164, SKindDim (KrName "rate_of_climb") "si::dim_speed");
  (165, SKindSame (KrName "rate_of_climb") (KrDown (KrName "rate_of_climb") "si::dim_speed"));
  (166, SKindSame (KrName "rate_of_climb") (KrDown (KrName "height") "si::dim_speed"));
  (168, SKindEquivalent (KrName "rate_of_climb") (KrName "rate_of_climb"));
  (170, SKindEquivalent (KrName "rate_of_climb") (KrBase (KrName "rate_of_climb")));
  (172, SNot (SKindEquivalent (KrName "rate_of_climb") (KrName "height")));
  (173, SNot (SKindEquivalent (KrName "rate_of_climb") (KrBase (KrName "height"))));
  (182, SPointKindBase (PrName "velocity_of_climb") (KrName "rate_of_climb"));
  (184, SPointKindSame (PrName "velocity_of_climb") (PrDown (KrName "rate_of_climb")));
  (186, SPointKindEquivalent (PrName "velocity_of_climb") (PrName "velocity_of_climb"));
  (188, SPointKindEquivalent (PrName "velocity_of_climb") (PrBase (PrName "velocity_of_climb")));
  (190, SPointKindEquivalent (PrBase (PrName "velocity_of_climb")) (PrBase (PrName "velocity_of_climb")));
  (192, SNot (SKindEquivalent (KrName "height") (KrName "rate_of_climb")));
  (193, SNot (SKindEquivalent (KrName "height") (KrBase (KrName "rate_of_climb"))));
  (194, SNot (SKindEquivalent (KrBase (KrName "height")) (KrBase (KrName "rate_of_climb"))));
  (203, SKindSame (KrName "height") (KrDown (KrName "rate_of_climb") "si::dim_length"))].
Example kind_conforms : forall est, match compile est On ["generic/angle.h"; "isq/si/area.h"; "isq/si/length.h"; "isq/si/speed.h"] with Ok e => failing_kinds no_rebinding est e kind_declarations kind_test | _ => [-1] end = [].
Proof. intros est. vm_compute. reflexivity. Qed.

(** test/unit_test/static/point_origin_test.cpp: 17 assertions. *)
Definition point_origin_declarations : list kdecl := [KdBase "width" "si::dim_length";
  KdPoint "abscissa" "width" (OrDynamic "si::dim_length")].
Definition point_origin_test : list (Z * xassert) := [
  (53, SRebindable (OrDynamic "si::dim_length") "si::dim_length");
  (54, SRebind (OrDynamic "si::dim_length") "si::dim_length" (OrDynamic "si::dim_length"));
  (56, SRebindable (OrDynamic "si::dim_length") "si::dim_time");
  (57, SRebind (OrDynamic "si::dim_length") "si::dim_time" (OrDynamic "si::dim_time"));
  (59, SRebindable (OrUser "ones_viewpoint1" "si::dim_length") "si::dim_length");
  (60, SRebind (OrUser "ones_viewpoint1" "si::dim_length") "si::dim_length" (OrUser "ones_viewpoint1" "si::dim_length"));
  (61, SRebindable (OrUser "ones_viewpoint2" "si::cgs::dim_length") "si::dim_length");
  (62, SRebind (OrUser "ones_viewpoint2" "si::cgs::dim_length") "si::dim_length" (OrUser "ones_viewpoint1" "si::dim_length"));
  (63, SRebindable (OrUser "ones_viewpoint2" "si::cgs::dim_length") "si::cgs::dim_length");
  (64, SRebind (OrUser "ones_viewpoint2" "si::cgs::dim_length") "si::cgs::dim_length" (OrUser "ones_viewpoint2" "si::cgs::dim_length"));
  (65, SNot (SRebindable (OrUser "ones_viewpoint1" "si::dim_length") "si::cgs::dim_length"));
  (67, SOriginEquivalent (OrDynamic "si::dim_time") (OrDynamic "si::dim_time"));
  (68, SOriginEquivalent (OrDynamic "si::dim_length") (OrDynamic "si::cgs::dim_length"));
  (69, SNot (SOriginEquivalent (OrDynamic "si::dim_time") (OrClock "system_clock")));
  (70, SNot (SOriginEquivalent (OrClock "steady_clock") (OrClock "system_clock")));
  (71, SNot (SOriginEquivalent (OrDynamic "si::dim_time") (OrDynamic "si::dim_length")));
  (72, SNot (SOriginEquivalent (OrUser "ones_viewpoint1" "si::dim_length") (OrUser "ones_viewpoint2" "si::cgs::dim_length")))].
Example point_origin_conforms : forall est, match compile est On ["isq/si/length.h"; "isq/si/cgs/length.h"; "isq/si/time.h"] with Ok e => failing_kinds (viewpoint_rebinding e) est e point_origin_declarations point_origin_test | _ => [-1] end = [].
Proof. intros est. vm_compute. reflexivity. Qed.

(** test/unit_test/static/quantity_kind_test.cpp: 452 assertions. *)
Definition quantity_kind_declarations : list kdecl := [KdBase "radius_kind" "si::dim_length";
  KdBase "width_kind" "si::dim_length";
  KdBase "height_kind" "si::dim_length";
  KdDerived "horizontal_area_kind" "si::dim_area" "width_kind";
  KdDerived "rate_of_climb_kind" "si::dim_speed" "height_kind";
  KdBase "apple" "dim_one";
  KdBase "orange" "dim_one";
  KdBase "time_kind" "si::dim_time";
  KdBase "cgs_width_kind" "si::cgs::dim_length"].
Definition quantity_kind_test : list (Z * xassert) := [
  (106, SIllType (XK (KrName "width_kind") (UrName "si::second") (RInt I32)));
  (135, SWellCmp CEq (XStatic BOne (XK (KrName "width_kind") (UrName "si::metre") (RFlt F64))) (XStatic BOne (XK (KrName "width_kind") (UrName "si::metre") (RFlt F64))));
  (136, SWellCmp CLt (XStatic BOne (XK (KrName "width_kind") (UrName "si::metre") (RFlt F64))) (XStatic BOne (XK (KrName "width_kind") (UrName "si::metre") (RFlt F64))));
  (139, SWellCmp CLt (XStatic BOne (XK (KrName "width_kind") (UrName "si::metre") (RFlt F64))) (XStatic BOne (XK (KrName "width_kind") (UrName "si::metre") (RFlt F64))));
  (148, SKindSame (KrName "width_kind") (KrName "width_kind"));
  (149, SMember (XK (KrName "width_kind") (UrName "si::metre") (RFlt F64)) (TNamed "si::dim_length" "si::metre" (RFlt F64)));
  (150, SMember (XK (KrName "width_kind") (UrName "si::metre") (RFlt F64)) (TNamed "si::dim_length" "si::metre" (RFlt F64)));
  (151, SMember (XK (KrName "width_kind") (UrName "si::metre") (RFlt F64)) (TNamed "si::dim_length" "si::metre" (RFlt F64)));
  (152, SMember (XK (KrName "width_kind") (UrName "si::metre") (RFlt F64)) (TNamed "si::dim_length" "si::metre" (RFlt F64)));
  (159, SSame (XCommon (XDefault (XK (KrName "radius_kind") (UrName "si::metre") (RFlt F64)))) (XDefault (XQ (TNamed "si::dim_length" "si::metre" (RFlt F64)))));
  (160, SCmp CEq (XCommon (XDefault (XK (KrName "radius_kind") (UrName "si::metre") (RFlt F64)))) (XCommon (XDefault (XK (KrName "height_kind") (UrName "si::metre") (RFlt F64)))));
  (163, SIllCmp CEq (XStatic BOne (XK (KrName "apple") (UrName "one") (RFlt F64))) (XStatic BOne (XK (KrName "orange") (UrName "one") (RFlt F64))));
  (170, SCmp CEq (XCommon (XStatic BZero (XK (KrName "width_kind") (UrName "si::metre") (RFlt F64)))) (XBin CMul (XC (CNum (RInt I32) (NInt 0))) (XC (CRef "si" "m"))));
  (171, SCmp CEq (XCommon (XStatic BOne (XK (KrName "width_kind") (UrName "si::metre") (RFlt F64)))) (XBin CMul (XC (CNum (RInt I32) (NInt 1))) (XC (CRef "si" "m"))));
  (172, SCmp CEq (XCommon (XStatic BMin (XK (KrName "width_kind") (UrName "si::metre") (RInt (ITy W32 false))))) (XBin CMul (XC (CNum (RInt I32) (NInt 0))) (XC (CRef "si" "m"))));
  (173, SCmp CEq (XCommon (XStatic BMax (XK (KrName "width_kind") (UrName "si::metre") (RInt (ITy W32 false))))) (XBin CMul (XC (CNum (RInt (ITy W32 false)) (NInt 4294967295))) (XC (CRef "si" "m"))));
  (174, SCmp CEq (XNumber (XCommon (XStatic BMin (XK (KrName "width_kind") (UrName "si::metre") (RFlt F64))))) (XC (CNum (RFlt F64) (NFlt (S754_finite true 9007199254740991 971)))));
  (175, SCmp CEq (XNumber (XCommon (XStatic BMax (XK (KrName "width_kind") (UrName "si::metre") (RFlt F64))))) (XC (CNum (RFlt F64) (NFlt (S754_finite false 9007199254740991 971)))));
  (194, SCmp CEq (XCommon (XDefault (XK (KrName "width_kind") (UrName "si::metre") (RFlt F64)))) (XBin CMul (XC (CNum (RInt I32) (NInt 0))) (XC (CRef "si" "m"))));
  (201, SSame (XDeduce FKind (XMake (XK (KrName "rate_of_climb_kind") (UrName "si::kilometre_per_hour") (RFlt F64)) (XBin CMul (XC (CNum (RFlt F64) (NFlt (S754_finite false 5764607523034235 (-59))))) (XBin CDiv (XC (CRef "si" "km")) (XC (CRef "si" "h")))))) (XMake (XK (KrName "rate_of_climb_kind") (UrName "si::kilometre_per_hour") (RFlt F64)) (XBin CMul (XC (CNum (RFlt F64) (NFlt (S754_finite false 5764607523034235 (-59))))) (XBin CDiv (XC (CRef "si" "km")) (XC (CRef "si" "h"))))));
  (209, SAnd (SCmp CEq (XCommon (XMake (XK (KrName "apple") (UrName "one") (RInt I32)) (XC (CNum (RInt I32) (NInt 1))))) (XC (CNum (RInt I32) (NInt 1)))) (SIll (XImplicit (XK (KrName "apple") (UrName "one") (RInt I32)) (XC (CNum (RInt I32) (NInt 1))))));
  (210, SAnd (SCmp CEq (XCommon (XMake (XK (KrName "apple") (UrName "one") (RFlt F64)) (XC (CNum (RFlt F64) (NFlt (S754_finite false 4503599627370496 (-52))))))) (XC (CNum (RInt I32) (NInt 1)))) (SIll (XImplicit (XK (KrName "apple") (UrName "one") (RFlt F64)) (XC (CNum (RFlt F64) (NFlt (S754_finite false 4503599627370496 (-52))))))));
  (211, SAnd (SCmp CEq (XNumber (XCommon (XMake (XK (KrName "apple") (UrName "percent") (RInt I32)) (XC (CNum (RInt U64) (NInt 1)))))) (XC (CNum (RInt I32) (NInt 1)))) (SIll (XImplicit (XK (KrName "apple") (UrName "percent") (RInt I32)) (XC (CNum (RInt U64) (NInt 1))))));
  (212, SAnd (SCmp CEq (XNumber (XCommon (XMake (XK (KrName "apple") (UrName "percent") (RFlt F64)) (XC (CNum (RFlt F80) (NFlt (S754_finite false 9223372036854775808 (-63)))))))) (XC (CNum (RInt I32) (NInt 1)))) (SIll (XImplicit (XK (KrName "apple") (UrName "percent") (RFlt F64)) (XC (CNum (RFlt F80) (NFlt (S754_finite false 9223372036854775808 (-63))))))));
  (213, SAnd (SIll (XMake (XK (KrName "apple") (UrName "one") (RInt I32)) (XC (CNum (RFlt F64) (NFlt (S754_finite false 4503599627370496 (-52))))))) (SIll (XImplicit (XK (KrName "apple") (UrName "one") (RInt I32)) (XC (CNum (RFlt F64) (NFlt (S754_finite false 4503599627370496 (-52))))))));
  (214, SAnd (SIll (XMake (XK (KrName "apple") (UrName "percent") (RInt I32)) (XC (CNum (RFlt F64) (NFlt (S754_finite false 4503599627370496 (-52))))))) (SIll (XImplicit (XK (KrName "apple") (UrName "percent") (RInt I32)) (XC (CNum (RFlt F64) (NFlt (S754_finite false 4503599627370496 (-52))))))));
  (215, SAnd (SIll (XMake (XK (KrName "width_kind") (UrName "si::metre") (RFlt F64)) (XC (CNum (RFlt F64) (NFlt (S754_finite false 4503599627370496 (-52))))))) (SIll (XImplicit (XK (KrName "width_kind") (UrName "si::metre") (RFlt F64)) (XC (CNum (RFlt F64) (NFlt (S754_finite false 4503599627370496 (-52))))))));
  (216, SAnd (SIll (XMake (XK (KrName "width_kind") (UrName "si::metre") (RFlt F64)) (XC (CNum (RFlt F32) (NFlt (S754_finite false 8388608 (-23))))))) (SIll (XImplicit (XK (KrName "width_kind") (UrName "si::metre") (RFlt F64)) (XC (CNum (RFlt F32) (NFlt (S754_finite false 8388608 (-23))))))));
  (217, SAnd (SIll (XMake (XK (KrName "width_kind") (UrName "si::metre") (RFlt F32)) (XC (CNum (RFlt F64) (NFlt (S754_finite false 4503599627370496 (-52))))))) (SIll (XImplicit (XK (KrName "width_kind") (UrName "si::metre") (RFlt F32)) (XC (CNum (RFlt F64) (NFlt (S754_finite false 4503599627370496 (-52))))))));
  (218, SAnd (SIll (XMake (XK (KrName "width_kind") (UrName "si::metre") (RFlt F64)) (XC (CNum (RInt I32) (NInt 1))))) (SIll (XImplicit (XK (KrName "width_kind") (UrName "si::metre") (RFlt F64)) (XC (CNum (RInt I32) (NInt 1))))));
  (225, SAnd (SCmp CEq (XCommon (XMake (XK (KrName "width_kind") (UrName "si::metre") (RInt I32)) (XBin CMul (XC (CNum (RInt I32) (NInt 1))) (XC (CRef "si" "m"))))) (XBin CMul (XC (CNum (RInt I32) (NInt 1))) (XC (CRef "si" "m")))) (SIll (XImplicit (XK (KrName "width_kind") (UrName "si::metre") (RInt I32)) (XBin CMul (XC (CNum (RInt I32) (NInt 1))) (XC (CRef "si" "m"))))));
  (226, SAnd (SCmp CEq (XCommon (XMake (XK (KrName "width_kind") (UrName "si::metre") (RInt I32)) (XBin CMul (XC (CNum (RInt I32) (NInt 1))) (XC (CRef "si" "km"))))) (XBin CMul (XC (CNum (RInt I32) (NInt 1))) (XC (CRef "si" "km")))) (SIll (XImplicit (XK (KrName "width_kind") (UrName "si::metre") (RInt I32)) (XBin CMul (XC (CNum (RInt I32) (NInt 1))) (XC (CRef "si" "km"))))));
  (228, SAnd (SCmp CEq (XCommon (XMake (XK (KrName "width_kind") (UrName "si::metre") (RFlt F64)) (XBin CMul (XC (CNum (RInt I32) (NInt 1))) (XC (CRef "si::cgs" "cm"))))) (XBin CMul (XC (CNum (RInt I32) (NInt 1))) (XC (CRef "si" "cm")))) (SIll (XImplicit (XK (KrName "width_kind") (UrName "si::metre") (RFlt F64)) (XBin CMul (XC (CNum (RInt I32) (NInt 1))) (XC (CRef "si::cgs" "cm"))))));
  (229, SAnd (SCmp CEq (XCommon (XMake (XK (KrName "width_kind") (UrName "si::metre") (RFlt F64)) (XBin CMul (XC (CNum (RInt I32) (NInt 1))) (XC (CRef "si" "mm"))))) (XBin CMul (XC (CNum (RInt I32) (NInt 1))) (XC (CRef "si" "mm")))) (SIll (XImplicit (XK (KrName "width_kind") (UrName "si::metre") (RFlt F64)) (XBin CMul (XC (CNum (RInt I32) (NInt 1))) (XC (CRef "si" "mm"))))));
  (230, SAnd (SCmp CEq (XCommon (XMake (XK (KrName "width_kind") (UrName "si::metre") (RFlt F64)) (XBin CMul (XC (CNum (RInt I32) (NInt 1))) (XC (CRef "si" "m"))))) (XBin CMul (XC (CNum (RInt I32) (NInt 1))) (XC (CRef "si" "m")))) (SIll (XImplicit (XK (KrName "width_kind") (UrName "si::metre") (RFlt F64)) (XBin CMul (XC (CNum (RInt I32) (NInt 1))) (XC (CRef "si" "m"))))));
  (231, SAnd (SCmp CEq (XCommon (XMake (XK (KrName "width_kind") (UrName "si::metre") (RFlt F64)) (XBin CMul (XC (CNum (RInt I32) (NInt 1))) (XC (CRef "si" "km"))))) (XBin CMul (XC (CNum (RInt I32) (NInt 1))) (XC (CRef "si" "km")))) (SIll (XImplicit (XK (KrName "width_kind") (UrName "si::metre") (RFlt F64)) (XBin CMul (XC (CNum (RInt I32) (NInt 1))) (XC (CRef "si" "km"))))));
  (232, SAnd (SCmp CEq (XCommon (XMake (XK (KrName "width_kind") (UrName "si::metre") (RFlt F64)) (XBin CMul (XC (CNum (RFlt F64) (NFlt (S754_finite false 4503599627370496 (-52))))) (XC (CRef "si" "mm"))))) (XBin CMul (XC (CNum (RInt I32) (NInt 1))) (XC (CRef "si" "mm")))) (SIll (XImplicit (XK (KrName "width_kind") (UrName "si::metre") (RFlt F64)) (XBin CMul (XC (CNum (RFlt F64) (NFlt (S754_finite false 4503599627370496 (-52))))) (XC (CRef "si" "mm"))))));
  (233, SAnd (SCmp CEq (XCommon (XMake (XK (KrName "width_kind") (UrName "si::metre") (RFlt F64)) (XBin CMul (XC (CNum (RFlt F64) (NFlt (S754_finite false 4503599627370496 (-52))))) (XC (CRef "si" "m"))))) (XBin CMul (XC (CNum (RInt I32) (NInt 1))) (XC (CRef "si" "m")))) (SIll (XImplicit (XK (KrName "width_kind") (UrName "si::metre") (RFlt F64)) (XBin CMul (XC (CNum (RFlt F64) (NFlt (S754_finite false 4503599627370496 (-52))))) (XC (CRef "si" "m"))))));
  (234, SAnd (SCmp CEq (XCommon (XMake (XK (KrName "width_kind") (UrName "si::metre") (RFlt F64)) (XBin CMul (XC (CNum (RFlt F64) (NFlt (S754_finite false 4503599627370496 (-52))))) (XC (CRef "si" "km"))))) (XBin CMul (XC (CNum (RInt I32) (NInt 1))) (XC (CRef "si" "km")))) (SIll (XImplicit (XK (KrName "width_kind") (UrName "si::metre") (RFlt F64)) (XBin CMul (XC (CNum (RFlt F64) (NFlt (S754_finite false 4503599627370496 (-52))))) (XC (CRef "si" "km"))))));
  (235, SAnd (SCmp CEq (XCommon (XMake (XK (KrName "width_kind") (UrName "si::metre") (RFlt F32)) (XBin CMul (XC (CNum (RFlt F64) (NFlt (S754_finite false 4503599627370496 (-52))))) (XC (CRef "si" "mm"))))) (XBin CMul (XC (CNum (RInt I32) (NInt 1))) (XC (CRef "si" "mm")))) (SIll (XImplicit (XK (KrName "width_kind") (UrName "si::metre") (RFlt F32)) (XBin CMul (XC (CNum (RFlt F64) (NFlt (S754_finite false 4503599627370496 (-52))))) (XC (CRef "si" "mm"))))));
  (236, SAnd (SCmp CEq (XCommon (XMake (XK (KrName "width_kind") (UrName "si::metre") (RFlt F32)) (XBin CMul (XC (CNum (RFlt F64) (NFlt (S754_finite false 4503599627370496 (-52))))) (XC (CRef "si" "m"))))) (XBin CMul (XC (CNum (RInt I32) (NInt 1))) (XC (CRef "si" "m")))) (SIll (XImplicit (XK (KrName "width_kind") (UrName "si::metre") (RFlt F32)) (XBin CMul (XC (CNum (RFlt F64) (NFlt (S754_finite false 4503599627370496 (-52))))) (XC (CRef "si" "m"))))));
  (237, SAnd (SCmp CEq (XCommon (XMake (XK (KrName "width_kind") (UrName "si::metre") (RFlt F32)) (XBin CMul (XC (CNum (RFlt F64) (NFlt (S754_finite false 4503599627370496 (-52))))) (XC (CRef "si" "km"))))) (XBin CMul (XC (CNum (RInt I32) (NInt 1))) (XC (CRef "si" "km")))) (SIll (XImplicit (XK (KrName "width_kind") (UrName "si::metre") (RFlt F32)) (XBin CMul (XC (CNum (RFlt F64) (NFlt (S754_finite false 4503599627370496 (-52))))) (XC (CRef "si" "km"))))));
  (239, SAnd (SIll (XMake (XK (KrName "width_kind") (UrName "si::metre") (RInt I32)) (XBin CMul (XC (CNum (RInt I32) (NInt 1))) (XC (CRef "si" "mm"))))) (SIll (XImplicit (XK (KrName "width_kind") (UrName "si::metre") (RInt I32)) (XBin CMul (XC (CNum (RInt I32) (NInt 1))) (XC (CRef "si" "mm"))))));
  (240, SAnd (SIll (XMake (XK (KrName "width_kind") (UrName "si::metre") (RInt I32)) (XBin CMul (XC (CNum (RFlt F64) (NFlt (S754_finite false 4503599627370496 (-52))))) (XC (CRef "si" "mm"))))) (SIll (XImplicit (XK (KrName "width_kind") (UrName "si::metre") (RInt I32)) (XBin CMul (XC (CNum (RFlt F64) (NFlt (S754_finite false 4503599627370496 (-52))))) (XC (CRef "si" "mm"))))));
  (241, SAnd (SIll (XMake (XK (KrName "width_kind") (UrName "si::metre") (RInt I32)) (XBin CMul (XC (CNum (RFlt F64) (NFlt (S754_finite false 4503599627370496 (-52))))) (XC (CRef "si" "m"))))) (SIll (XImplicit (XK (KrName "width_kind") (UrName "si::metre") (RInt I32)) (XBin CMul (XC (CNum (RFlt F64) (NFlt (S754_finite false 4503599627370496 (-52))))) (XC (CRef "si" "m"))))));
  (242, SAnd (SIll (XMake (XK (KrName "width_kind") (UrName "si::metre") (RInt I32)) (XBin CMul (XC (CNum (RFlt F64) (NFlt (S754_finite false 4503599627370496 (-52))))) (XC (CRef "si" "km"))))) (SIll (XImplicit (XK (KrName "width_kind") (UrName "si::metre") (RInt I32)) (XBin CMul (XC (CNum (RFlt F64) (NFlt (S754_finite false 4503599627370496 (-52))))) (XC (CRef "si" "km"))))));
  (243, SAnd (SIll (XMake (XK (KrName "width_kind") (UrName "si::metre") (RInt I32)) (XBin CMul (XC (CNum (RInt I32) (NInt 1))) (XC (CRef "si" "s"))))) (SIll (XImplicit (XK (KrName "width_kind") (UrName "si::metre") (RInt I32)) (XBin CMul (XC (CNum (RInt I32) (NInt 1))) (XC (CRef "si" "s"))))));
  (244, SAnd (SIll (XMake (XK (KrName "width_kind") (UrName "si::metre") (RInt I32)) (XBin CMul (XC (CNum (RInt I32) (NInt 1))) (XBin CMul (XC (CRef "si" "m")) (XC (CRef "si" "m")))))) (SIll (XImplicit (XK (KrName "width_kind") (UrName "si::metre") (RInt I32)) (XBin CMul (XC (CNum (RInt I32) (NInt 1))) (XBin CMul (XC (CRef "si" "m")) (XC (CRef "si" "m")))))));
  (245, SAnd (SIll (XMake (XK (KrName "width_kind") (UrName "si::metre") (RInt I32)) (XBin CMul (XC (CNum (RInt I32) (NInt 1))) (XBin CDiv (XC (CRef "si" "m")) (XC (CRef "si" "s")))))) (SIll (XImplicit (XK (KrName "width_kind") (UrName "si::metre") (RInt I32)) (XBin CMul (XC (CNum (RInt I32) (NInt 1))) (XBin CDiv (XC (CRef "si" "m")) (XC (CRef "si" "s")))))));
  (248, SAnd (SCmp CEq (XCommon (XMake (XK (KrName "width_kind") (UrName "si::metre") (RFlt F64)) (XBin CMul (XC (CNum (RFlt F32) (NFlt (S754_finite false 8388608 (-23))))) (XC (CRef "si" "m"))))) (XBin CMul (XC (CNum (RInt I32) (NInt 1))) (XC (CRef "si" "m")))) (SIll (XImplicit (XK (KrName "width_kind") (UrName "si::metre") (RFlt F64)) (XBin CMul (XC (CNum (RFlt F32) (NFlt (S754_finite false 8388608 (-23))))) (XC (CRef "si" "m"))))));
  (249, SAnd (SCmp CEq (XCommon (XMake (XK (KrName "width_kind") (UrName "si::metre") (RFlt F64)) (XBin CMul (XC (CNum (RInt (ITy W16 true)) (NInt (1)))) (XC (CRef "si" "m"))))) (XBin CMul (XC (CNum (RInt I32) (NInt 1))) (XC (CRef "si" "m")))) (SIll (XImplicit (XK (KrName "width_kind") (UrName "si::metre") (RFlt F64)) (XBin CMul (XC (CNum (RInt (ITy W16 true)) (NInt (1)))) (XC (CRef "si" "m"))))));
  (250, SAnd (SCmp CEq (XCommon (XMake (XK (KrName "width_kind") (UrName "si::metre") (RInt (ITy W16 true))) (XBin CMul (XC (CNum (RInt I32) (NInt 1))) (XC (CRef "si" "m"))))) (XBin CMul (XC (CNum (RInt I32) (NInt 1))) (XC (CRef "si" "m")))) (SIll (XImplicit (XK (KrName "width_kind") (UrName "si::metre") (RInt (ITy W16 true))) (XBin CMul (XC (CNum (RInt I32) (NInt 1))) (XC (CRef "si" "m"))))));
  (253, SAnd (SCmp CEq (XCommon (XMake (XK (KrName "apple") (UrName "one") (RInt I32)) (XDeduce FQuantity (XC (CNum (RInt I32) (NInt 1)))))) (XC (CNum (RInt I32) (NInt 1)))) (SIll (XImplicit (XK (KrName "apple") (UrName "one") (RInt I32)) (XDeduce FQuantity (XC (CNum (RInt I32) (NInt 1)))))));
  (254, SAnd (SCmp CEq (XCommon (XMake (XK (KrName "apple") (UrName "one") (RFlt F64)) (XMake (XQ (TNamed "dim_one" "percent" (RFlt F64))) (XC (CNum (RInt I32) (NInt 1)))))) (XC (CNum (RFlt F64) (NFlt (S754_finite false 5764607523034235 (-59)))))) (SIll (XImplicit (XK (KrName "apple") (UrName "one") (RFlt F64)) (XMake (XQ (TNamed "dim_one" "percent" (RFlt F64))) (XC (CNum (RInt I32) (NInt 1)))))));
  (255, SAnd (SCmp CEq (XNumber (XCommon (XMake (XK (KrName "apple") (UrName "percent") (RFlt F64)) (XDeduce FQuantity (XC (CNum (RFlt F64) (NFlt (S754_finite false 4503599627370496 (-52))))))))) (XC (CNum (RInt I32) (NInt 100)))) (SIll (XImplicit (XK (KrName "apple") (UrName "percent") (RFlt F64)) (XDeduce FQuantity (XC (CNum (RFlt F64) (NFlt (S754_finite false 4503599627370496 (-52)))))))));
  (256, SAnd (SCmp CEq (XNumber (XCommon (XMake (XK (KrName "apple") (UrName "percent") (RFlt F64)) (XMake (XQ (TNamed "dim_one" "percent" (RFlt F64))) (XC (CNum (RInt I32) (NInt 1))))))) (XC (CNum (RInt I32) (NInt 1)))) (SIll (XImplicit (XK (KrName "apple") (UrName "percent") (RFlt F64)) (XMake (XQ (TNamed "dim_one" "percent" (RFlt F64))) (XC (CNum (RInt I32) (NInt 1)))))));
  (257, SAnd (SCmp CEq (XCommon (XMake (XK (KrName "apple") (UrName "one") (RFlt F64)) (XDeduce FQuantity (XC (CNum (RFlt F64) (NFlt (S754_finite false 4503599627370496 (-52)))))))) (XC (CNum (RInt I32) (NInt 1)))) (SIll (XImplicit (XK (KrName "apple") (UrName "one") (RFlt F64)) (XDeduce FQuantity (XC (CNum (RFlt F64) (NFlt (S754_finite false 4503599627370496 (-52)))))))));
  (258, SAnd (SCmp CEq (XCommon (XMake (XK (KrName "apple") (UrName "one") (RFlt F64)) (XDeduce FQuantity (XC (CNum (RFlt F32) (NFlt (S754_finite false 8388608 (-23)))))))) (XC (CNum (RInt I32) (NInt 1)))) (SIll (XImplicit (XK (KrName "apple") (UrName "one") (RFlt F64)) (XDeduce FQuantity (XC (CNum (RFlt F32) (NFlt (S754_finite false 8388608 (-23)))))))));
  (259, SAnd (SCmp CEq (XCommon (XMake (XK (KrName "apple") (UrName "one") (RFlt F32)) (XDeduce FQuantity (XC (CNum (RFlt F64) (NFlt (S754_finite false 4503599627370496 (-52)))))))) (XC (CNum (RInt I32) (NInt 1)))) (SIll (XImplicit (XK (KrName "apple") (UrName "one") (RFlt F32)) (XDeduce FQuantity (XC (CNum (RFlt F64) (NFlt (S754_finite false 4503599627370496 (-52)))))))));
  (260, SAnd (SCmp CEq (XCommon (XMake (XK (KrName "apple") (UrName "one") (RFlt F64)) (XDeduce FQuantity (XC (CNum (RInt I32) (NInt 1)))))) (XC (CNum (RInt I32) (NInt 1)))) (SIll (XImplicit (XK (KrName "apple") (UrName "one") (RFlt F64)) (XDeduce FQuantity (XC (CNum (RInt I32) (NInt 1)))))));
  (261, SAnd (SCmp CEq (XCommon (XMake (XK (KrName "apple") (UrName "one") (RFlt F64)) (XDeduce FQuantity (XC (CNum (RInt (ITy W16 true)) (NInt (1))))))) (XC (CNum (RInt I32) (NInt 1)))) (SIll (XImplicit (XK (KrName "apple") (UrName "one") (RFlt F64)) (XDeduce FQuantity (XC (CNum (RInt (ITy W16 true)) (NInt (1))))))));
  (262, SAnd (SCmp CEq (XCommon (XMake (XK (KrName "apple") (UrName "one") (RInt (ITy W16 true))) (XDeduce FQuantity (XC (CNum (RInt I32) (NInt 1)))))) (XC (CNum (RInt I32) (NInt 1)))) (SIll (XImplicit (XK (KrName "apple") (UrName "one") (RInt (ITy W16 true))) (XDeduce FQuantity (XC (CNum (RInt I32) (NInt 1)))))));
  (263, SAnd (SCmp CEq (XNumber (XCommon (XMake (XK (KrName "apple") (UrName "percent") (RFlt F64)) (XDeduce FQuantity (XC (CNum (RFlt F64) (NFlt (S754_finite false 4503599627370496 (-52))))))))) (XC (CNum (RFlt F64) (NFlt (S754_finite false 7036874417766400 (-46)))))) (SIll (XImplicit (XK (KrName "apple") (UrName "percent") (RFlt F64)) (XDeduce FQuantity (XC (CNum (RFlt F64) (NFlt (S754_finite false 4503599627370496 (-52)))))))));
  (264, SAnd (SCmp CEq (XNumber (XCommon (XMake (XK (KrName "apple") (UrName "percent") (RFlt F64)) (XDeduce FQuantity (XC (CNum (RFlt F32) (NFlt (S754_finite false 8388608 (-23))))))))) (XC (CNum (RFlt F64) (NFlt (S754_finite false 7036874417766400 (-46)))))) (SIll (XImplicit (XK (KrName "apple") (UrName "percent") (RFlt F64)) (XDeduce FQuantity (XC (CNum (RFlt F32) (NFlt (S754_finite false 8388608 (-23)))))))));
  (265, SAnd (SCmp CEq (XNumber (XCommon (XMake (XK (KrName "apple") (UrName "percent") (RFlt F32)) (XDeduce FQuantity (XC (CNum (RFlt F64) (NFlt (S754_finite false 4503599627370496 (-52))))))))) (XC (CNum (RFlt F32) (NFlt (S754_finite false 13107200 (-17)))))) (SIll (XImplicit (XK (KrName "apple") (UrName "percent") (RFlt F32)) (XDeduce FQuantity (XC (CNum (RFlt F64) (NFlt (S754_finite false 4503599627370496 (-52)))))))));
  (266, SAnd (SCmp CEq (XNumber (XCommon (XMake (XK (KrName "apple") (UrName "percent") (RFlt F64)) (XDeduce FQuantity (XC (CNum (RInt I32) (NInt 1))))))) (XC (CNum (RFlt F64) (NFlt (S754_finite false 7036874417766400 (-46)))))) (SIll (XImplicit (XK (KrName "apple") (UrName "percent") (RFlt F64)) (XDeduce FQuantity (XC (CNum (RInt I32) (NInt 1)))))));
  (267, SAnd (SCmp CEq (XNumber (XCommon (XMake (XK (KrName "apple") (UrName "percent") (RFlt F64)) (XDeduce FQuantity (XC (CNum (RInt (ITy W16 true)) (NInt (1)))))))) (XC (CNum (RFlt F64) (NFlt (S754_finite false 7036874417766400 (-46)))))) (SIll (XImplicit (XK (KrName "apple") (UrName "percent") (RFlt F64)) (XDeduce FQuantity (XC (CNum (RInt (ITy W16 true)) (NInt (1))))))));
  (268, SAnd (SCmp CEq (XNumber (XCommon (XMake (XK (KrName "apple") (UrName "percent") (RInt (ITy W16 true))) (XDeduce FQuantity (XC (CNum (RInt I32) (NInt 1))))))) (XC (CNum (RFlt F64) (NFlt (S754_finite false 7036874417766400 (-46)))))) (SIll (XImplicit (XK (KrName "apple") (UrName "percent") (RInt (ITy W16 true))) (XDeduce FQuantity (XC (CNum (RInt I32) (NInt 1)))))));
  (270, SAnd (SIll (XMake (XQ (TNamed "dim_one" "one" (RFlt F64))) (XDefault (XK (KrName "apple") (UrName "one") (RFlt F64))))) (SIll (XImplicit (XQ (TNamed "dim_one" "one" (RFlt F64))) (XDefault (XK (KrName "apple") (UrName "one") (RFlt F64))))));
  (271, SAnd (SIll (XMake (XQ (TNamed "dim_one" "one" (RFlt F64))) (XDefault (XK (KrName "apple") (UrName "one") (RFlt F32))))) (SIll (XImplicit (XQ (TNamed "dim_one" "one" (RFlt F64))) (XDefault (XK (KrName "apple") (UrName "one") (RFlt F32))))));
  (272, SAnd (SIll (XMake (XQ (TNamed "dim_one" "one" (RFlt F32))) (XDefault (XK (KrName "apple") (UrName "one") (RFlt F64))))) (SIll (XImplicit (XQ (TNamed "dim_one" "one" (RFlt F32))) (XDefault (XK (KrName "apple") (UrName "one") (RFlt F64))))));
  (273, SAnd (SIll (XMake (XQ (TNamed "dim_one" "one" (RFlt F64))) (XDefault (XK (KrName "apple") (UrName "one") (RInt I32))))) (SIll (XImplicit (XQ (TNamed "dim_one" "one" (RFlt F64))) (XDefault (XK (KrName "apple") (UrName "one") (RInt I32))))));
  (274, SAnd (SIll (XMake (XQ (TNamed "dim_one" "one" (RFlt F64))) (XDefault (XK (KrName "apple") (UrName "one") (RInt (ITy W16 true)))))) (SIll (XImplicit (XQ (TNamed "dim_one" "one" (RFlt F64))) (XDefault (XK (KrName "apple") (UrName "one") (RInt (ITy W16 true)))))));
  (275, SAnd (SIll (XMake (XQ (TNamed "dim_one" "one" (RInt (ITy W16 true)))) (XDefault (XK (KrName "apple") (UrName "one") (RInt I32))))) (SIll (XImplicit (XQ (TNamed "dim_one" "one" (RInt (ITy W16 true)))) (XDefault (XK (KrName "apple") (UrName "one") (RInt I32))))));
  (276, SAnd (SIll (XMake (XQ (TNamed "dim_one" "percent" (RFlt F64))) (XDefault (XK (KrName "apple") (UrName "percent") (RFlt F64))))) (SIll (XImplicit (XQ (TNamed "dim_one" "percent" (RFlt F64))) (XDefault (XK (KrName "apple") (UrName "percent") (RFlt F64))))));
  (277, SAnd (SIll (XMake (XQ (TNamed "dim_one" "percent" (RFlt F64))) (XDefault (XK (KrName "apple") (UrName "percent") (RFlt F32))))) (SIll (XImplicit (XQ (TNamed "dim_one" "percent" (RFlt F64))) (XDefault (XK (KrName "apple") (UrName "percent") (RFlt F32))))));
  (278, SAnd (SIll (XMake (XQ (TNamed "dim_one" "percent" (RFlt F32))) (XDefault (XK (KrName "apple") (UrName "percent") (RFlt F64))))) (SIll (XImplicit (XQ (TNamed "dim_one" "percent" (RFlt F32))) (XDefault (XK (KrName "apple") (UrName "percent") (RFlt F64))))));
  (279, SAnd (SIll (XMake (XQ (TNamed "dim_one" "percent" (RFlt F64))) (XDefault (XK (KrName "apple") (UrName "percent") (RInt I32))))) (SIll (XImplicit (XQ (TNamed "dim_one" "percent" (RFlt F64))) (XDefault (XK (KrName "apple") (UrName "percent") (RInt I32))))));
  (280, SAnd (SIll (XMake (XQ (TNamed "dim_one" "percent" (RFlt F64))) (XDefault (XK (KrName "apple") (UrName "percent") (RInt (ITy W16 true)))))) (SIll (XImplicit (XQ (TNamed "dim_one" "percent" (RFlt F64))) (XDefault (XK (KrName "apple") (UrName "percent") (RInt (ITy W16 true)))))));
  (281, SAnd (SIll (XMake (XQ (TNamed "dim_one" "percent" (RInt (ITy W16 true)))) (XDefault (XK (KrName "apple") (UrName "percent") (RInt I32))))) (SIll (XImplicit (XQ (TNamed "dim_one" "percent" (RInt (ITy W16 true)))) (XDefault (XK (KrName "apple") (UrName "percent") (RInt I32))))));
  (282, SAnd (SIll (XMake (XQ (TNamed "dim_one" "one" (RFlt F64))) (XDefault (XK (KrName "apple") (UrName "percent") (RFlt F64))))) (SIll (XImplicit (XQ (TNamed "dim_one" "one" (RFlt F64))) (XDefault (XK (KrName "apple") (UrName "percent") (RFlt F64))))));
  (283, SAnd (SIll (XMake (XQ (TNamed "dim_one" "one" (RFlt F64))) (XDefault (XK (KrName "apple") (UrName "percent") (RFlt F32))))) (SIll (XImplicit (XQ (TNamed "dim_one" "one" (RFlt F64))) (XDefault (XK (KrName "apple") (UrName "percent") (RFlt F32))))));
  (284, SAnd (SIll (XMake (XQ (TNamed "dim_one" "one" (RFlt F32))) (XDefault (XK (KrName "apple") (UrName "percent") (RFlt F64))))) (SIll (XImplicit (XQ (TNamed "dim_one" "one" (RFlt F32))) (XDefault (XK (KrName "apple") (UrName "percent") (RFlt F64))))));
  (285, SAnd (SIll (XMake (XQ (TNamed "dim_one" "one" (RFlt F64))) (XDefault (XK (KrName "apple") (UrName "percent") (RInt I32))))) (SIll (XImplicit (XQ (TNamed "dim_one" "one" (RFlt F64))) (XDefault (XK (KrName "apple") (UrName "percent") (RInt I32))))));
  (286, SAnd (SIll (XMake (XQ (TNamed "dim_one" "one" (RFlt F64))) (XDefault (XK (KrName "apple") (UrName "percent") (RInt (ITy W16 true)))))) (SIll (XImplicit (XQ (TNamed "dim_one" "one" (RFlt F64))) (XDefault (XK (KrName "apple") (UrName "percent") (RInt (ITy W16 true)))))));
  (287, SAnd (SIll (XMake (XQ (TNamed "dim_one" "one" (RInt (ITy W16 true)))) (XDefault (XK (KrName "apple") (UrName "percent") (RInt I32))))) (SIll (XImplicit (XQ (TNamed "dim_one" "one" (RInt (ITy W16 true)))) (XDefault (XK (KrName "apple") (UrName "percent") (RInt I32))))));
  (288, SAnd (SIll (XMake (XQ (TNamed "dim_one" "percent" (RFlt F64))) (XDefault (XK (KrName "apple") (UrName "one") (RFlt F64))))) (SIll (XImplicit (XQ (TNamed "dim_one" "percent" (RFlt F64))) (XDefault (XK (KrName "apple") (UrName "one") (RFlt F64))))));
  (289, SAnd (SIll (XMake (XQ (TNamed "dim_one" "percent" (RFlt F64))) (XDefault (XK (KrName "apple") (UrName "one") (RFlt F32))))) (SIll (XImplicit (XQ (TNamed "dim_one" "percent" (RFlt F64))) (XDefault (XK (KrName "apple") (UrName "one") (RFlt F32))))));
  (290, SAnd (SIll (XMake (XQ (TNamed "dim_one" "percent" (RFlt F32))) (XDefault (XK (KrName "apple") (UrName "one") (RFlt F64))))) (SIll (XImplicit (XQ (TNamed "dim_one" "percent" (RFlt F32))) (XDefault (XK (KrName "apple") (UrName "one") (RFlt F64))))));
  (291, SAnd (SIll (XMake (XQ (TNamed "dim_one" "percent" (RFlt F64))) (XDefault (XK (KrName "apple") (UrName "one") (RInt I32))))) (SIll (XImplicit (XQ (TNamed "dim_one" "percent" (RFlt F64))) (XDefault (XK (KrName "apple") (UrName "one") (RInt I32))))));
  (292, SAnd (SIll (XMake (XQ (TNamed "dim_one" "percent" (RFlt F64))) (XDefault (XK (KrName "apple") (UrName "one") (RInt (ITy W16 true)))))) (SIll (XImplicit (XQ (TNamed "dim_one" "percent" (RFlt F64))) (XDefault (XK (KrName "apple") (UrName "one") (RInt (ITy W16 true)))))));
  (293, SAnd (SIll (XMake (XQ (TNamed "dim_one" "percent" (RInt (ITy W16 true)))) (XDefault (XK (KrName "apple") (UrName "one") (RInt I32))))) (SIll (XImplicit (XQ (TNamed "dim_one" "percent" (RInt (ITy W16 true)))) (XDefault (XK (KrName "apple") (UrName "one") (RInt I32))))));
  (296, SAnd (SCmp CEq (XCommon (XMake (XK (KrName "time_kind") (UrName "si::second") (RInt I32)) (XDur 1 1 (RInt I64) (NInt 42)))) (XBin CMul (XC (CNum (RInt I32) (NInt 42))) (XC (CRef "si" "s")))) (SIll (XImplicit (XK (KrName "time_kind") (UrName "si::second") (RInt I32)) (XDur 1 1 (RInt I64) (NInt 42)))));
  (299, SAnd (SIll (XMake (XK (KrName "width_kind") (UrName "si::metre") (RInt I32)) (XBin CMul (XC (CNum (RInt I32) (NInt 1))) (XC (CRef "si" "s"))))) (SIll (XImplicit (XK (KrName "width_kind") (UrName "si::metre") (RInt I32)) (XBin CMul (XC (CNum (RInt I32) (NInt 1))) (XC (CRef "si" "s"))))));
  (300, SAnd (SIll (XMake (XK (KrName "width_kind") (UrName "si::metre") (RInt I32)) (XBin CMul (XC (CNum (RInt I32) (NInt 1))) (XBin CMul (XC (CRef "si" "m")) (XC (CRef "si" "m")))))) (SIll (XImplicit (XK (KrName "width_kind") (UrName "si::metre") (RInt I32)) (XBin CMul (XC (CNum (RInt I32) (NInt 1))) (XBin CMul (XC (CRef "si" "m")) (XC (CRef "si" "m")))))));
  (301, SAnd (SIll (XMake (XK (KrName "width_kind") (UrName "si::metre") (RInt I32)) (XBin CMul (XC (CNum (RInt I32) (NInt 1))) (XBin CDiv (XC (CRef "si" "m")) (XC (CRef "si" "s")))))) (SIll (XImplicit (XK (KrName "width_kind") (UrName "si::metre") (RInt I32)) (XBin CMul (XC (CNum (RInt I32) (NInt 1))) (XBin CDiv (XC (CRef "si" "m")) (XC (CRef "si" "s")))))));
  (304, SAnd (SCmp CEq (XCommon (XMake (XK (KrName "width_kind") (UrName "si::centimetre") (RFlt F64)) (XBin CMul (XC (CNum (RFlt F64) (NFlt (S754_finite false 4503599627370496 (-52))))) (XC (CRef "si::cgs" "cm"))))) (XBin CMul (XC (CNum (RInt I32) (NInt 1))) (XC (CRef "si" "cm")))) (SIll (XImplicit (XK (KrName "width_kind") (UrName "si::centimetre") (RFlt F64)) (XBin CMul (XC (CNum (RFlt F64) (NFlt (S754_finite false 4503599627370496 (-52))))) (XC (CRef "si::cgs" "cm"))))));
  (305, SAnd (SCmp CEq (XCommon (XMake (XK (KrName "width_kind") (UrName "si::centimetre") (RFlt F64)) (XBin CMul (XC (CNum (RFlt F64) (NFlt (S754_finite false 4503599627370496 (-52))))) (XC (CRef "si" "cm"))))) (XBin CMul (XC (CNum (RInt I32) (NInt 1))) (XC (CRef "si" "cm")))) (SIll (XImplicit (XK (KrName "width_kind") (UrName "si::centimetre") (RFlt F64)) (XBin CMul (XC (CNum (RFlt F64) (NFlt (S754_finite false 4503599627370496 (-52))))) (XC (CRef "si" "cm"))))));
  (313, SAnd (SCmp CEq (XCommon (XMake (XK (KrName "width_kind") (UrName "si::metre") (RInt I32)) (XMake (XK (KrName "width_kind") (UrName "si::metre") (RInt I32)) (XBin CMul (XC (CNum (RInt I32) (NInt 1))) (XC (CRef "si" "m")))))) (XBin CMul (XC (CNum (RInt I32) (NInt 1))) (XC (CRef "si" "m")))) (SSame (XMake (XK (KrName "width_kind") (UrName "si::metre") (RInt I32)) (XMake (XK (KrName "width_kind") (UrName "si::metre") (RInt I32)) (XBin CMul (XC (CNum (RInt I32) (NInt 1))) (XC (CRef "si" "m"))))) (XImplicit (XK (KrName "width_kind") (UrName "si::metre") (RInt I32)) (XMake (XK (KrName "width_kind") (UrName "si::metre") (RInt I32)) (XBin CMul (XC (CNum (RInt I32) (NInt 1))) (XC (CRef "si" "m")))))));
  (314, SAnd (SCmp CEq (XCommon (XMake (XK (KrName "width_kind") (UrName "si::centimetre") (RInt I32)) (XMake (XK (KrName "width_kind") (UrName "si::centimetre") (RInt I32)) (XBin CMul (XC (CNum (RInt I32) (NInt 1))) (XC (CRef "si::cgs" "cm")))))) (XBin CMul (XC (CNum (RInt I32) (NInt 1))) (XC (CRef "si" "cm")))) (SSame (XMake (XK (KrName "width_kind") (UrName "si::centimetre") (RInt I32)) (XMake (XK (KrName "width_kind") (UrName "si::centimetre") (RInt I32)) (XBin CMul (XC (CNum (RInt I32) (NInt 1))) (XC (CRef "si::cgs" "cm"))))) (XImplicit (XK (KrName "width_kind") (UrName "si::centimetre") (RInt I32)) (XMake (XK (KrName "width_kind") (UrName "si::centimetre") (RInt I32)) (XBin CMul (XC (CNum (RInt I32) (NInt 1))) (XC (CRef "si::cgs" "cm")))))));
  (315, SAnd (SCmp CEq (XCommon (XMake (XK (KrName "width_kind") (UrName "si::fps::foot") (RFlt F64)) (XMake (XK (KrName "width_kind") (UrName "si::centimetre") (RInt I32)) (XBin CMul (XC (CNum (RInt I32) (NInt 1))) (XC (CRef "si::cgs" "cm")))))) (XBin CMul (XC (CNum (RInt I32) (NInt 1))) (XC (CRef "si" "cm")))) (SSame (XMake (XK (KrName "width_kind") (UrName "si::fps::foot") (RFlt F64)) (XMake (XK (KrName "width_kind") (UrName "si::centimetre") (RInt I32)) (XBin CMul (XC (CNum (RInt I32) (NInt 1))) (XC (CRef "si::cgs" "cm"))))) (XImplicit (XK (KrName "width_kind") (UrName "si::fps::foot") (RFlt F64)) (XMake (XK (KrName "width_kind") (UrName "si::centimetre") (RInt I32)) (XBin CMul (XC (CNum (RInt I32) (NInt 1))) (XC (CRef "si::cgs" "cm")))))));
  (318, SAnd (SCmp CEq (XCommon (XMake (XK (KrName "width_kind") (UrName "si::metre") (RFlt F64)) (XMake (XK (KrName "width_kind") (UrName "si::metre") (RInt I32)) (XBin CMul (XC (CNum (RInt I32) (NInt 1))) (XC (CRef "si" "m")))))) (XBin CMul (XC (CNum (RInt I32) (NInt 1))) (XC (CRef "si" "m")))) (SSame (XMake (XK (KrName "width_kind") (UrName "si::metre") (RFlt F64)) (XMake (XK (KrName "width_kind") (UrName "si::metre") (RInt I32)) (XBin CMul (XC (CNum (RInt I32) (NInt 1))) (XC (CRef "si" "m"))))) (XImplicit (XK (KrName "width_kind") (UrName "si::metre") (RFlt F64)) (XMake (XK (KrName "width_kind") (UrName "si::metre") (RInt I32)) (XBin CMul (XC (CNum (RInt I32) (NInt 1))) (XC (CRef "si" "m")))))));
  (319, SAnd (SIll (XMake (XK (KrName "width_kind") (UrName "si::metre") (RInt I32)) (XMake (XK (KrName "width_kind") (UrName "si::metre") (RFlt F64)) (XBin CMul (XC (CNum (RFlt F64) (NFlt (S754_finite false 4503599627370496 (-52))))) (XC (CRef "si" "m")))))) (SIll (XImplicit (XK (KrName "width_kind") (UrName "si::metre") (RInt I32)) (XMake (XK (KrName "width_kind") (UrName "si::metre") (RFlt F64)) (XBin CMul (XC (CNum (RFlt F64) (NFlt (S754_finite false 4503599627370496 (-52))))) (XC (CRef "si" "m")))))));
  (321, SAnd (SCmp CEq (XCommon (XMake (XK (KrName "width_kind") (UrName "si::metre") (RInt I32)) (XMake (XK (KrName "width_kind") (UrName "si::kilometre") (RInt I32)) (XBin CMul (XC (CNum (RInt I32) (NInt 1))) (XC (CRef "si" "km")))))) (XBin CMul (XC (CNum (RInt I32) (NInt 1))) (XC (CRef "si" "km")))) (SSame (XMake (XK (KrName "width_kind") (UrName "si::metre") (RInt I32)) (XMake (XK (KrName "width_kind") (UrName "si::kilometre") (RInt I32)) (XBin CMul (XC (CNum (RInt I32) (NInt 1))) (XC (CRef "si" "km"))))) (XImplicit (XK (KrName "width_kind") (UrName "si::metre") (RInt I32)) (XMake (XK (KrName "width_kind") (UrName "si::kilometre") (RInt I32)) (XBin CMul (XC (CNum (RInt I32) (NInt 1))) (XC (CRef "si" "km")))))));
  (322, SAnd (SIll (XMake (XK (KrName "width_kind") (UrName "si::kilometre") (RInt I32)) (XMake (XK (KrName "width_kind") (UrName "si::metre") (RInt I32)) (XBin CMul (XC (CNum (RInt I32) (NInt 1))) (XC (CRef "si" "m")))))) (SIll (XImplicit (XK (KrName "width_kind") (UrName "si::kilometre") (RInt I32)) (XMake (XK (KrName "width_kind") (UrName "si::metre") (RInt I32)) (XBin CMul (XC (CNum (RInt I32) (NInt 1))) (XC (CRef "si" "m")))))));
  (324, SAnd (SCmp CEq (XCommon (XMake (XK (KrName "width_kind") (UrName "si::metre") (RFlt F64)) (XMake (XK (KrName "width_kind") (UrName "si::kilometre") (RInt I32)) (XBin CMul (XC (CNum (RInt I32) (NInt 1))) (XC (CRef "si" "km")))))) (XBin CMul (XC (CNum (RInt I32) (NInt 1))) (XC (CRef "si" "km")))) (SSame (XMake (XK (KrName "width_kind") (UrName "si::metre") (RFlt F64)) (XMake (XK (KrName "width_kind") (UrName "si::kilometre") (RInt I32)) (XBin CMul (XC (CNum (RInt I32) (NInt 1))) (XC (CRef "si" "km"))))) (XImplicit (XK (KrName "width_kind") (UrName "si::metre") (RFlt F64)) (XMake (XK (KrName "width_kind") (UrName "si::kilometre") (RInt I32)) (XBin CMul (XC (CNum (RInt I32) (NInt 1))) (XC (CRef "si" "km")))))));
  (325, SAnd (SCmp CEq (XCommon (XMake (XK (KrName "width_kind") (UrName "si::kilometre") (RFlt F64)) (XMake (XK (KrName "width_kind") (UrName "si::metre") (RInt I32)) (XBin CMul (XC (CNum (RInt I32) (NInt 1))) (XC (CRef "si" "m")))))) (XBin CMul (XC (CNum (RInt I32) (NInt 1))) (XC (CRef "si" "m")))) (SSame (XMake (XK (KrName "width_kind") (UrName "si::kilometre") (RFlt F64)) (XMake (XK (KrName "width_kind") (UrName "si::metre") (RInt I32)) (XBin CMul (XC (CNum (RInt I32) (NInt 1))) (XC (CRef "si" "m"))))) (XImplicit (XK (KrName "width_kind") (UrName "si::kilometre") (RFlt F64)) (XMake (XK (KrName "width_kind") (UrName "si::metre") (RInt I32)) (XBin CMul (XC (CNum (RInt I32) (NInt 1))) (XC (CRef "si" "m")))))));
  (327, SAnd (SIll (XMake (XK (KrName "width_kind") (UrName "si::metre") (RInt I32)) (XMake (XK (KrName "height_kind") (UrName "si::metre") (RInt I32)) (XBin CMul (XC (CNum (RInt I32) (NInt 1))) (XC (CRef "si" "m")))))) (SIll (XImplicit (XK (KrName "width_kind") (UrName "si::metre") (RInt I32)) (XMake (XK (KrName "height_kind") (UrName "si::metre") (RInt I32)) (XBin CMul (XC (CNum (RInt I32) (NInt 1))) (XC (CRef "si" "m")))))));
  (328, SAnd (SIll (XMake (XK (KrName "apple") (UrName "one") (RInt I32)) (XBin CDiv (XMake (XK (KrName "width_kind") (UrName "si::metre") (RInt I32)) (XBin CMul (XC (CNum (RInt I32) (NInt 1))) (XC (CRef "si" "m")))) (XBin CMul (XC (CNum (RInt I32) (NInt 1))) (XC (CRef "si" "m")))))) (SIll (XImplicit (XK (KrName "apple") (UrName "one") (RInt I32)) (XBin CDiv (XMake (XK (KrName "width_kind") (UrName "si::metre") (RInt I32)) (XBin CMul (XC (CNum (RInt I32) (NInt 1))) (XC (CRef "si" "m")))) (XBin CMul (XC (CNum (RInt I32) (NInt 1))) (XC (CRef "si" "m")))))));
  (329, SAnd (SIll (XMake (XK (KrName "apple") (UrName "one") (RInt I32)) (XMake (XK (KrName "orange") (UrName "one") (RInt I32)) (XC (CNum (RInt I32) (NInt 1)))))) (SIll (XImplicit (XK (KrName "apple") (UrName "one") (RInt I32)) (XMake (XK (KrName "orange") (UrName "one") (RInt I32)) (XC (CNum (RInt I32) (NInt 1)))))));
  (337, SAnd (SIll (XMake (XK (KrName "width_kind") (UrName "si::metre") (RInt I32)) (XDeduce FPoint (XBin CMul (XC (CNum (RInt I32) (NInt 1))) (XC (CRef "si" "m")))))) (SIll (XImplicit (XK (KrName "width_kind") (UrName "si::metre") (RInt I32)) (XDeduce FPoint (XBin CMul (XC (CNum (RInt I32) (NInt 1))) (XC (CRef "si" "m")))))));
  (338, SAnd (SIll (XMake (XK (KrName "width_kind") (UrName "si::metre") (RInt I32)) (XDeduce FPoint (XBin CMul (XC (CNum (RInt I32) (NInt 1))) (XC (CRef "si" "km")))))) (SIll (XImplicit (XK (KrName "width_kind") (UrName "si::metre") (RInt I32)) (XDeduce FPoint (XBin CMul (XC (CNum (RInt I32) (NInt 1))) (XC (CRef "si" "km")))))));
  (339, SAnd (SIll (XMake (XK (KrName "width_kind") (UrName "si::metre") (RFlt F64)) (XDeduce FPoint (XBin CMul (XC (CNum (RInt I32) (NInt 1))) (XC (CRef "si" "m")))))) (SIll (XImplicit (XK (KrName "width_kind") (UrName "si::metre") (RFlt F64)) (XDeduce FPoint (XBin CMul (XC (CNum (RInt I32) (NInt 1))) (XC (CRef "si" "m")))))));
  (340, SAnd (SIll (XMake (XK (KrName "width_kind") (UrName "si::metre") (RFlt F64)) (XDeduce FPoint (XBin CMul (XC (CNum (RInt I32) (NInt 1))) (XC (CRef "si" "km")))))) (SIll (XImplicit (XK (KrName "width_kind") (UrName "si::metre") (RFlt F64)) (XDeduce FPoint (XBin CMul (XC (CNum (RInt I32) (NInt 1))) (XC (CRef "si" "km")))))));
  (341, SAnd (SIll (XMake (XK (KrName "width_kind") (UrName "si::metre") (RFlt F64)) (XDeduce FPoint (XBin CMul (XC (CNum (RFlt F64) (NFlt (S754_finite false 4503599627370496 (-52))))) (XC (CRef "si" "m")))))) (SIll (XImplicit (XK (KrName "width_kind") (UrName "si::metre") (RFlt F64)) (XDeduce FPoint (XBin CMul (XC (CNum (RFlt F64) (NFlt (S754_finite false 4503599627370496 (-52))))) (XC (CRef "si" "m")))))));
  (342, SAnd (SIll (XMake (XK (KrName "width_kind") (UrName "si::metre") (RFlt F64)) (XDeduce FPoint (XBin CMul (XC (CNum (RFlt F64) (NFlt (S754_finite false 4503599627370496 (-52))))) (XC (CRef "si" "km")))))) (SIll (XImplicit (XK (KrName "width_kind") (UrName "si::metre") (RFlt F64)) (XDeduce FPoint (XBin CMul (XC (CNum (RFlt F64) (NFlt (S754_finite false 4503599627370496 (-52))))) (XC (CRef "si" "km")))))));
  (343, SAnd (SIll (XMake (XK (KrName "width_kind") (UrName "si::metre") (RFlt F64)) (XDeduce FPoint (XBin CMul (XC (CNum (RFlt F64) (NFlt (S754_finite false 4503599627370496 (-52))))) (XBin CMul (XC (CRef "si" "m")) (XC (CRef "si" "m"))))))) (SIll (XImplicit (XK (KrName "width_kind") (UrName "si::metre") (RFlt F64)) (XDeduce FPoint (XBin CMul (XC (CNum (RFlt F64) (NFlt (S754_finite false 4503599627370496 (-52))))) (XBin CMul (XC (CRef "si" "m")) (XC (CRef "si" "m"))))))));
  (344, SAnd (SIll (XMake (XK (KrName "width_kind") (UrName "si::metre") (RFlt F64)) (XDeduce FPoint (XBin CMul (XC (CNum (RFlt F64) (NFlt (S754_finite false 4503599627370496 (-52))))) (XC (CRef "si" "s")))))) (SIll (XImplicit (XK (KrName "width_kind") (UrName "si::metre") (RFlt F64)) (XDeduce FPoint (XBin CMul (XC (CNum (RFlt F64) (NFlt (S754_finite false 4503599627370496 (-52))))) (XC (CRef "si" "s")))))));
  (345, SAnd (SIll (XMake (XK (KrName "width_kind") (UrName "si::metre") (RFlt F64)) (XDeduce FPoint (XBin CMul (XC (CNum (RFlt F64) (NFlt (S754_finite false 4503599627370496 (-52))))) (XC (CRef "si" "s")))))) (SIll (XImplicit (XK (KrName "width_kind") (UrName "si::metre") (RFlt F64)) (XDeduce FPoint (XBin CMul (XC (CNum (RFlt F64) (NFlt (S754_finite false 4503599627370496 (-52))))) (XC (CRef "si" "s")))))));
  (346, SAnd (SIll (XMake (XK (KrName "width_kind") (UrName "si::metre") (RFlt F64)) (XDur 1 1 (RInt I64) (NInt 1)))) (SIll (XImplicit (XK (KrName "width_kind") (UrName "si::metre") (RFlt F64)) (XDur 1 1 (RInt I64) (NInt 1)))));
  (347, SAnd (SIll (XMake (XK (KrName "width_kind") (UrName "si::metre") (RFlt F64)) (XDur 1 1 (RFlt F80) (NFlt (S754_finite false 9223372036854775808 (-63)))))) (SIll (XImplicit (XK (KrName "width_kind") (UrName "si::metre") (RFlt F64)) (XDur 1 1 (RFlt F80) (NFlt (S754_finite false 9223372036854775808 (-63)))))));
  (348, SAnd (SIll (XMake (XK (KrName "apple") (UrName "one") (RInt I32)) (XDeduce FPoint (XC (CNum (RInt I32) (NInt 1)))))) (SIll (XImplicit (XK (KrName "apple") (UrName "one") (RInt I32)) (XDeduce FPoint (XC (CNum (RInt I32) (NInt 1)))))));
  (349, SAnd (SIll (XMake (XK (KrName "apple") (UrName "one") (RInt I32)) (XDeduce FPoint (XMake (XQ (TNamed "dim_one" "percent" (RInt I32))) (XC (CNum (RInt I32) (NInt 1))))))) (SIll (XImplicit (XK (KrName "apple") (UrName "one") (RInt I32)) (XDeduce FPoint (XMake (XQ (TNamed "dim_one" "percent" (RInt I32))) (XC (CNum (RInt I32) (NInt 1))))))));
  (350, SAnd (SIll (XMake (XK (KrName "apple") (UrName "one") (RFlt F64)) (XDeduce FPoint (XC (CNum (RInt I32) (NInt 1)))))) (SIll (XImplicit (XK (KrName "apple") (UrName "one") (RFlt F64)) (XDeduce FPoint (XC (CNum (RInt I32) (NInt 1)))))));
  (351, SAnd (SIll (XMake (XK (KrName "apple") (UrName "one") (RFlt F64)) (XDeduce FPoint (XMake (XQ (TNamed "dim_one" "percent" (RInt I32))) (XC (CNum (RInt I32) (NInt 1))))))) (SIll (XImplicit (XK (KrName "apple") (UrName "one") (RFlt F64)) (XDeduce FPoint (XMake (XQ (TNamed "dim_one" "percent" (RInt I32))) (XC (CNum (RInt I32) (NInt 1))))))));
  (352, SAnd (SIll (XMake (XK (KrName "apple") (UrName "one") (RFlt F64)) (XDeduce FPoint (XC (CNum (RFlt F64) (NFlt (S754_finite false 4503599627370496 (-52)))))))) (SIll (XImplicit (XK (KrName "apple") (UrName "one") (RFlt F64)) (XDeduce FPoint (XC (CNum (RFlt F64) (NFlt (S754_finite false 4503599627370496 (-52)))))))));
  (353, SAnd (SIll (XMake (XK (KrName "apple") (UrName "one") (RFlt F64)) (XDeduce FPoint (XMake (XQ (TNamed "dim_one" "percent" (RFlt F64))) (XC (CNum (RFlt F64) (NFlt (S754_finite false 4503599627370496 (-52))))))))) (SIll (XImplicit (XK (KrName "apple") (UrName "one") (RFlt F64)) (XDeduce FPoint (XMake (XQ (TNamed "dim_one" "percent" (RFlt F64))) (XC (CNum (RFlt F64) (NFlt (S754_finite false 4503599627370496 (-52))))))))));
  (354, SAnd (SIll (XMake (XK (KrName "apple") (UrName "one") (RFlt F64)) (XDeduce FPoint (XBin CMul (XC (CNum (RFlt F64) (NFlt (S754_finite false 4503599627370496 (-52))))) (XC (CRef "si" "m")))))) (SIll (XImplicit (XK (KrName "apple") (UrName "one") (RFlt F64)) (XDeduce FPoint (XBin CMul (XC (CNum (RFlt F64) (NFlt (S754_finite false 4503599627370496 (-52))))) (XC (CRef "si" "m")))))));
  (355, SAnd (SIll (XMake (XK (KrName "apple") (UrName "one") (RFlt F64)) (XDur 1 1 (RInt I64) (NInt 1)))) (SIll (XImplicit (XK (KrName "apple") (UrName "one") (RFlt F64)) (XDur 1 1 (RInt I64) (NInt 1)))));
  (356, SAnd (SIll (XMake (XK (KrName "apple") (UrName "one") (RFlt F64)) (XDur 1 1 (RFlt F80) (NFlt (S754_finite false 9223372036854775808 (-63)))))) (SIll (XImplicit (XK (KrName "apple") (UrName "one") (RFlt F64)) (XDur 1 1 (RFlt F80) (NFlt (S754_finite false 9223372036854775808 (-63)))))));
  (364, SCmp CEq (XCommon (XSet (XMake (XK (KrName "width_kind") (UrName "si::metre") (RInt I32)) (XBin CMul (XC (CNum (RInt I32) (NInt 2))) (XC (CRef "si" "m")))) (XMake (XK (KrName "width_kind") (UrName "si::metre") (RInt I32)) (XBin CMul (XC (CNum (RInt I32) (NInt 1))) (XC (CRef "si" "m")))))) (XBin CMul (XC (CNum (RInt I32) (NInt 1))) (XC (CRef "si" "m"))));
  (365, SCmp CEq (XCommon (XSet (XMake (XK (KrName "width_kind") (UrName "si::metre") (RInt I32)) (XBin CMul (XC (CNum (RInt I32) (NInt 2))) (XC (CRef "si" "m")))) (XMake (XK (KrName "width_kind") (UrName "si::metre") (RInt I32)) (XBin CMul (XC (CNum (RInt I32) (NInt 1))) (XC (CRef "si" "km")))))) (XBin CMul (XC (CNum (RInt I32) (NInt 1))) (XC (CRef "si" "km"))));
  (366, SIll (XImplicit (XK (KrName "width_kind") (UrName "si::metre") (RInt I32)) (XStatic BOne (XK (KrName "width_kind") (UrName "si::metre") (RFlt F64)))));
  (367, SIll (XImplicit (XK (KrName "width_kind") (UrName "si::metre") (RInt I32)) (XStatic BOne (XK (KrName "width_kind") (UrName "si::millimetre") (RInt I32)))));
  (375, SCmp CEq (XPos (XCommon (XMake (XK (KrName "width_kind") (UrName "si::metre") (RInt I32)) (XBin CMul (XC (CNum (RInt I32) (NInt 1))) (XC (CRef "si" "m")))))) (XBin CMul (XC (CNum (RInt I32) (NInt 1))) (XC (CRef "si" "m"))));
  (375, SCmp CEq (XNeg (XCommon (XMake (XK (KrName "width_kind") (UrName "si::metre") (RInt I32)) (XBin CMul (XC (CNum (RInt I32) (NInt 1))) (XC (CRef "si" "m")))))) (XBin CMul (XNeg (XC (CNum (RInt I32) (NInt 1)))) (XC (CRef "si" "m"))));
  (375, SCmp CEq (XCommon (XStep true (XMake (XK (KrName "width_kind") (UrName "si::metre") (RInt I32)) (XBin CMul (XC (CNum (RInt I32) (NInt 1))) (XC (CRef "si" "m")))))) (XBin CMul (XC (CNum (RInt I32) (NInt 2))) (XC (CRef "si" "m"))));
  (375, SCmp CEq (XCommon (XStep false (XStep true (XMake (XK (KrName "width_kind") (UrName "si::metre") (RInt I32)) (XBin CMul (XC (CNum (RInt I32) (NInt 1))) (XC (CRef "si" "m"))))))) (XBin CMul (XC (CNum (RInt I32) (NInt 1))) (XC (CRef "si" "m"))));
  (375, SCmp CEq (XCommon (XStep false (XStep true (XMake (XK (KrName "width_kind") (UrName "si::metre") (RInt I32)) (XBin CMul (XC (CNum (RInt I32) (NInt 1))) (XC (CRef "si" "m"))))))) (XBin CMul (XC (CNum (RInt I32) (NInt 1))) (XC (CRef "si" "m"))));
  (375, SCmp CEq (XCommon (XStep true (XStep false (XStep true (XMake (XK (KrName "width_kind") (UrName "si::metre") (RInt I32)) (XBin CMul (XC (CNum (RInt I32) (NInt 1))) (XC (CRef "si" "m")))))))) (XBin CMul (XC (CNum (RInt I32) (NInt 2))) (XC (CRef "si" "m"))));
  (375, SCmp CEq (XCommon (XStep true (XStep false (XStep true (XMake (XK (KrName "width_kind") (UrName "si::metre") (RInt I32)) (XBin CMul (XC (CNum (RInt I32) (NInt 1))) (XC (CRef "si" "m")))))))) (XBin CMul (XC (CNum (RInt I32) (NInt 2))) (XC (CRef "si" "m"))));
  (375, SCmp CEq (XCommon (XStep false (XStep true (XStep false (XStep true (XMake (XK (KrName "width_kind") (UrName "si::metre") (RInt I32)) (XBin CMul (XC (CNum (RInt I32) (NInt 1))) (XC (CRef "si" "m"))))))))) (XBin CMul (XC (CNum (RInt I32) (NInt 1))) (XC (CRef "si" "m"))));
  (375, SCmp CEq (XCommon (XAssign CAdd (XStep false (XStep true (XStep false (XStep true (XMake (XK (KrName "width_kind") (UrName "si::metre") (RInt I32)) (XBin CMul (XC (CNum (RInt I32) (NInt 1))) (XC (CRef "si" "m")))))))) (XStep false (XStep true (XStep false (XStep true (XMake (XK (KrName "width_kind") (UrName "si::metre") (RInt I32)) (XBin CMul (XC (CNum (RInt I32) (NInt 1))) (XC (CRef "si" "m")))))))))) (XBin CMul (XC (CNum (RInt I32) (NInt 2))) (XC (CRef "si" "m"))));
  (375, SCmp CEq (XCommon (XAssign CSub (XAssign CAdd (XStep false (XStep true (XStep false (XStep true (XMake (XK (KrName "width_kind") (UrName "si::metre") (RInt I32)) (XBin CMul (XC (CNum (RInt I32) (NInt 1))) (XC (CRef "si" "m")))))))) (XStep false (XStep true (XStep false (XStep true (XMake (XK (KrName "width_kind") (UrName "si::metre") (RInt I32)) (XBin CMul (XC (CNum (RInt I32) (NInt 1))) (XC (CRef "si" "m"))))))))) (XAssign CAdd (XStep false (XStep true (XStep false (XStep true (XMake (XK (KrName "width_kind") (UrName "si::metre") (RInt I32)) (XBin CMul (XC (CNum (RInt I32) (NInt 1))) (XC (CRef "si" "m")))))))) (XStep false (XStep true (XStep false (XStep true (XMake (XK (KrName "width_kind") (UrName "si::metre") (RInt I32)) (XBin CMul (XC (CNum (RInt I32) (NInt 1))) (XC (CRef "si" "m"))))))))))) (XBin CMul (XC (CNum (RInt I32) (NInt 0))) (XC (CRef "si" "m"))));
  (375, SCmp CEq (XCommon (XAssign CMul (XSet (XMake (XK (KrName "width_kind") (UrName "si::metre") (RInt I32)) (XBin CMul (XC (CNum (RInt I32) (NInt 0))) (XC (CRef "si" "m")))) (XMake (XK (KrName "width_kind") (UrName "si::metre") (RInt I32)) (XBin CMul (XC (CNum (RInt I32) (NInt 3))) (XC (CRef "si" "m"))))) (XC (CNum (RInt I32) (NInt 3))))) (XBin CMul (XC (CNum (RInt I32) (NInt 9))) (XC (CRef "si" "m"))));
  (375, SCmp CEq (XCommon (XAssign CMul (XAssign CMul (XSet (XMake (XK (KrName "width_kind") (UrName "si::metre") (RInt I32)) (XBin CMul (XC (CNum (RInt I32) (NInt 0))) (XC (CRef "si" "m")))) (XMake (XK (KrName "width_kind") (UrName "si::metre") (RInt I32)) (XBin CMul (XC (CNum (RInt I32) (NInt 3))) (XC (CRef "si" "m"))))) (XC (CNum (RInt I32) (NInt 3)))) (XDeduce FQuantity (XC (CNum (RInt I32) (NInt 1)))))) (XBin CMul (XC (CNum (RInt I32) (NInt 9))) (XC (CRef "si" "m"))));
  (375, SCmp CEq (XCommon (XAssign CMul (XAssign CMul (XAssign CMul (XSet (XMake (XK (KrName "width_kind") (UrName "si::metre") (RInt I32)) (XBin CMul (XC (CNum (RInt I32) (NInt 0))) (XC (CRef "si" "m")))) (XMake (XK (KrName "width_kind") (UrName "si::metre") (RInt I32)) (XBin CMul (XC (CNum (RInt I32) (NInt 3))) (XC (CRef "si" "m"))))) (XC (CNum (RInt I32) (NInt 3)))) (XDeduce FQuantity (XC (CNum (RInt I32) (NInt 1))))) (XBin CDiv (XAssign CMul (XAssign CMul (XSet (XMake (XK (KrName "width_kind") (UrName "si::metre") (RInt I32)) (XBin CMul (XC (CNum (RInt I32) (NInt 0))) (XC (CRef "si" "m")))) (XMake (XK (KrName "width_kind") (UrName "si::metre") (RInt I32)) (XBin CMul (XC (CNum (RInt I32) (NInt 3))) (XC (CRef "si" "m"))))) (XC (CNum (RInt I32) (NInt 3)))) (XDeduce FQuantity (XC (CNum (RInt I32) (NInt 1))))) (XAssign CMul (XAssign CMul (XSet (XMake (XK (KrName "width_kind") (UrName "si::metre") (RInt I32)) (XBin CMul (XC (CNum (RInt I32) (NInt 0))) (XC (CRef "si" "m")))) (XMake (XK (KrName "width_kind") (UrName "si::metre") (RInt I32)) (XBin CMul (XC (CNum (RInt I32) (NInt 3))) (XC (CRef "si" "m"))))) (XC (CNum (RInt I32) (NInt 3)))) (XDeduce FQuantity (XC (CNum (RInt I32) (NInt 1)))))))) (XBin CMul (XC (CNum (RInt I32) (NInt 9))) (XC (CRef "si" "m"))));
  (375, SCmp CEq (XCommon (XAssign CDiv (XMake (XK (KrName "width_kind") (UrName "si::metre") (RInt I32)) (XBin CMul (XC (CNum (RInt I32) (NInt 9))) (XC (CRef "si" "m")))) (XC (CNum (RInt I32) (NInt 2))))) (XBin CMul (XC (CNum (RInt I32) (NInt 4))) (XC (CRef "si" "m"))));
  (375, SCmp CEq (XCommon (XAssign CDiv (XAssign CDiv (XMake (XK (KrName "width_kind") (UrName "si::metre") (RInt I32)) (XBin CMul (XC (CNum (RInt I32) (NInt 9))) (XC (CRef "si" "m")))) (XC (CNum (RInt I32) (NInt 2)))) (XDeduce FQuantity (XC (CNum (RInt I32) (NInt 1)))))) (XBin CMul (XC (CNum (RInt I32) (NInt 4))) (XC (CRef "si" "m"))));
  (375, SCmp CEq (XCommon (XAssign CDiv (XAssign CDiv (XAssign CDiv (XMake (XK (KrName "width_kind") (UrName "si::metre") (RInt I32)) (XBin CMul (XC (CNum (RInt I32) (NInt 9))) (XC (CRef "si" "m")))) (XC (CNum (RInt I32) (NInt 2)))) (XDeduce FQuantity (XC (CNum (RInt I32) (NInt 1))))) (XBin CDiv (XAssign CDiv (XAssign CDiv (XMake (XK (KrName "width_kind") (UrName "si::metre") (RInt I32)) (XBin CMul (XC (CNum (RInt I32) (NInt 9))) (XC (CRef "si" "m")))) (XC (CNum (RInt I32) (NInt 2)))) (XDeduce FQuantity (XC (CNum (RInt I32) (NInt 1))))) (XAssign CDiv (XAssign CDiv (XMake (XK (KrName "width_kind") (UrName "si::metre") (RInt I32)) (XBin CMul (XC (CNum (RInt I32) (NInt 9))) (XC (CRef "si" "m")))) (XC (CNum (RInt I32) (NInt 2)))) (XDeduce FQuantity (XC (CNum (RInt I32) (NInt 1)))))))) (XBin CMul (XC (CNum (RInt I32) (NInt 4))) (XC (CRef "si" "m"))));
  (375, SCmp CEq (XCommon (XAssign CRem (XMake (XK (KrName "width_kind") (UrName "si::metre") (RInt I32)) (XBin CMul (XC (CNum (RInt I32) (NInt 4))) (XC (CRef "si" "m")))) (XC (CNum (RInt I32) (NInt 3))))) (XBin CMul (XC (CNum (RInt I32) (NInt 1))) (XC (CRef "si" "m"))));
  (375, SCmp CEq (XCommon (XAssign CRem (XAssign CRem (XMake (XK (KrName "width_kind") (UrName "si::metre") (RInt I32)) (XBin CMul (XC (CNum (RInt I32) (NInt 4))) (XC (CRef "si" "m")))) (XC (CNum (RInt I32) (NInt 3)))) (XDeduce FQuantity (XC (CNum (RInt I32) (NInt 3)))))) (XBin CMul (XC (CNum (RInt I32) (NInt 1))) (XC (CRef "si" "m"))));
  (375, SCmp CEq (XCommon (XAssign CRem (XAssign CRem (XAssign CRem (XMake (XK (KrName "width_kind") (UrName "si::metre") (RInt I32)) (XBin CMul (XC (CNum (RInt I32) (NInt 4))) (XC (CRef "si" "m")))) (XC (CNum (RInt I32) (NInt 3)))) (XDeduce FQuantity (XC (CNum (RInt I32) (NInt 3))))) (XBin CMul (XC (CNum (RInt I32) (NInt 3))) (XBin CDiv (XAssign CRem (XAssign CRem (XMake (XK (KrName "width_kind") (UrName "si::metre") (RInt I32)) (XBin CMul (XC (CNum (RInt I32) (NInt 4))) (XC (CRef "si" "m")))) (XC (CNum (RInt I32) (NInt 3)))) (XDeduce FQuantity (XC (CNum (RInt I32) (NInt 3))))) (XAssign CRem (XAssign CRem (XMake (XK (KrName "width_kind") (UrName "si::metre") (RInt I32)) (XBin CMul (XC (CNum (RInt I32) (NInt 4))) (XC (CRef "si" "m")))) (XC (CNum (RInt I32) (NInt 3)))) (XDeduce FQuantity (XC (CNum (RInt I32) (NInt 3))))))))) (XBin CMul (XC (CNum (RInt I32) (NInt 1))) (XC (CRef "si" "m"))));
  (375, SCmp CEq (XCommon (XAssign CRem (XMake (XK (KrName "width_kind") (UrName "si::metre") (RInt I32)) (XBin CMul (XC (CNum (RInt I32) (NInt 1))) (XC (CRef "si" "m")))) (XMake (XK (KrName "width_kind") (UrName "si::metre") (RInt I32)) (XBin CMul (XC (CNum (RInt I32) (NInt 1))) (XC (CRef "si" "m")))))) (XBin CMul (XC (CNum (RInt I32) (NInt 0))) (XC (CRef "si" "m"))));
  (375, SCmp CEq (XCommon (XAssign CMul (XSet (XAssign CRem (XMake (XK (KrName "width_kind") (UrName "si::metre") (RInt I32)) (XBin CMul (XC (CNum (RInt I32) (NInt 1))) (XC (CRef "si" "m")))) (XMake (XK (KrName "width_kind") (UrName "si::metre") (RInt I32)) (XBin CMul (XC (CNum (RInt I32) (NInt 1))) (XC (CRef "si" "m"))))) (XMake (XK (KrName "width_kind") (UrName "si::metre") (RInt I32)) (XBin CMul (XC (CNum (RInt I32) (NInt 3))) (XC (CRef "si" "m"))))) (XC (CNum (RFlt F64) (NFlt (S754_finite false 8782019273372467 (-51))))))) (XBin CMul (XC (CNum (RInt I32) (NInt 11))) (XC (CRef "si" "m"))));
  (375, SCmp CEq (XCommon (XAssign CMul (XMake (XK (KrName "width_kind") (UrName "si::metre") (RInt I32)) (XBin CMul (XC (CNum (RInt I32) (NInt 11))) (XC (CRef "si" "m")))) (XDeduce FQuantity (XC (CNum (RFlt F64) (NFlt (S754_finite false 4503599627370496 (-52)))))))) (XBin CMul (XC (CNum (RInt I32) (NInt 11))) (XC (CRef "si" "m"))));
  (375, SCmp CEq (XCommon (XAssign CMul (XAssign CMul (XMake (XK (KrName "width_kind") (UrName "si::metre") (RInt I32)) (XBin CMul (XC (CNum (RInt I32) (NInt 11))) (XC (CRef "si" "m")))) (XDeduce FQuantity (XC (CNum (RFlt F64) (NFlt (S754_finite false 4503599627370496 (-52))))))) (XBin CMul (XC (CNum (RFlt F64) (NFlt (S754_finite false 4503599627370496 (-52))))) (XBin CDiv (XAssign CMul (XMake (XK (KrName "width_kind") (UrName "si::metre") (RInt I32)) (XBin CMul (XC (CNum (RInt I32) (NInt 11))) (XC (CRef "si" "m")))) (XDeduce FQuantity (XC (CNum (RFlt F64) (NFlt (S754_finite false 4503599627370496 (-52))))))) (XAssign CMul (XMake (XK (KrName "width_kind") (UrName "si::metre") (RInt I32)) (XBin CMul (XC (CNum (RInt I32) (NInt 11))) (XC (CRef "si" "m")))) (XDeduce FQuantity (XC (CNum (RFlt F64) (NFlt (S754_finite false 4503599627370496 (-52))))))))))) (XBin CMul (XC (CNum (RInt I32) (NInt 11))) (XC (CRef "si" "m"))));
  (375, SCmp CEq (XCommon (XAssign CDiv (XMake (XK (KrName "width_kind") (UrName "si::metre") (RInt I32)) (XBin CMul (XC (CNum (RInt I32) (NInt 11))) (XC (CRef "si" "m")))) (XC (CNum (RFlt F64) (NFlt (S754_finite false 8782019273372467 (-51))))))) (XBin CMul (XC (CNum (RInt I32) (NInt 2))) (XC (CRef "si" "m"))));
  (375, SCmp CEq (XCommon (XAssign CDiv (XAssign CDiv (XMake (XK (KrName "width_kind") (UrName "si::metre") (RInt I32)) (XBin CMul (XC (CNum (RInt I32) (NInt 11))) (XC (CRef "si" "m")))) (XC (CNum (RFlt F64) (NFlt (S754_finite false 8782019273372467 (-51)))))) (XDeduce FQuantity (XC (CNum (RFlt F64) (NFlt (S754_finite false 4503599627370496 (-52)))))))) (XBin CMul (XC (CNum (RInt I32) (NInt 2))) (XC (CRef "si" "m"))));
  (375, SCmp CEq (XCommon (XAssign CDiv (XAssign CDiv (XAssign CDiv (XMake (XK (KrName "width_kind") (UrName "si::metre") (RInt I32)) (XBin CMul (XC (CNum (RInt I32) (NInt 11))) (XC (CRef "si" "m")))) (XC (CNum (RFlt F64) (NFlt (S754_finite false 8782019273372467 (-51)))))) (XDeduce FQuantity (XC (CNum (RFlt F64) (NFlt (S754_finite false 4503599627370496 (-52))))))) (XBin CMul (XC (CNum (RFlt F64) (NFlt (S754_finite false 4503599627370496 (-52))))) (XBin CDiv (XAssign CDiv (XAssign CDiv (XMake (XK (KrName "width_kind") (UrName "si::metre") (RInt I32)) (XBin CMul (XC (CNum (RInt I32) (NInt 11))) (XC (CRef "si" "m")))) (XC (CNum (RFlt F64) (NFlt (S754_finite false 8782019273372467 (-51)))))) (XDeduce FQuantity (XC (CNum (RFlt F64) (NFlt (S754_finite false 4503599627370496 (-52))))))) (XAssign CDiv (XAssign CDiv (XMake (XK (KrName "width_kind") (UrName "si::metre") (RInt I32)) (XBin CMul (XC (CNum (RInt I32) (NInt 11))) (XC (CRef "si" "m")))) (XC (CNum (RFlt F64) (NFlt (S754_finite false 8782019273372467 (-51)))))) (XDeduce FQuantity (XC (CNum (RFlt F64) (NFlt (S754_finite false 4503599627370496 (-52))))))))))) (XBin CMul (XC (CNum (RInt I32) (NInt 2))) (XC (CRef "si" "m"))));
  (407, SCmp CEq (XAssign CRem (XBin CMul (XC (CNum (RInt (ITy W8 false)) (NInt (255)))) (XC (CRef "si" "m"))) (XC (CNum (RInt I32) (NInt 256)))) (XCommon (XAssign CRem (XMake (XK (KrName "width_kind") (UrName "si::metre") (RInt (ITy W8 false))) (XBin CMul (XC (CNum (RInt I32) (NInt 255))) (XC (CRef "si" "m")))) (XC (CNum (RInt I32) (NInt 256))))));
  (408, SCmp CEq (XAssign CRem (XBin CMul (XC (CNum (RInt (ITy W8 false)) (NInt (255)))) (XC (CRef "si" "m"))) (XDeduce FQuantity (XC (CNum (RInt I32) (NInt 256))))) (XCommon (XAssign CRem (XMake (XK (KrName "width_kind") (UrName "si::metre") (RInt (ITy W8 false))) (XBin CMul (XC (CNum (RInt I32) (NInt 255))) (XC (CRef "si" "m")))) (XDeduce FQuantity (XC (CNum (RInt I32) (NInt 256)))))));
  (415, SCmp CEq (XAssign CRem (XBin CMul (XC (CNum (RInt (ITy W8 false)) (NInt (255)))) (XC (CRef "si" "m"))) (XC (CNum (RInt I32) (NInt 257)))) (XCommon (XAssign CRem (XMake (XK (KrName "width_kind") (UrName "si::metre") (RInt (ITy W8 false))) (XBin CMul (XC (CNum (RInt I32) (NInt 255))) (XC (CRef "si" "m")))) (XC (CNum (RInt I32) (NInt 257))))));
  (416, SCmp CEq (XAssign CRem (XBin CMul (XC (CNum (RInt (ITy W8 false)) (NInt (255)))) (XC (CRef "si" "m"))) (XDeduce FQuantity (XC (CNum (RInt I32) (NInt 257))))) (XCommon (XAssign CRem (XMake (XK (KrName "width_kind") (UrName "si::metre") (RInt (ITy W8 false))) (XBin CMul (XC (CNum (RInt I32) (NInt 255))) (XC (CRef "si" "m")))) (XDeduce FQuantity (XC (CNum (RInt I32) (NInt 257)))))));
  (418, SCmp CEq (XAssign CRem (XBin CMul (XC (CNum (RInt (ITy W8 false)) (NInt (255)))) (XC (CRef "si" "m"))) (XBin CMul (XC (CNum (RInt I32) (NInt 257))) (XC (CRef "si" "m")))) (XCommon (XAssign CRem (XMake (XK (KrName "width_kind") (UrName "si::metre") (RInt (ITy W8 false))) (XBin CMul (XC (CNum (RInt I32) (NInt 255))) (XC (CRef "si" "m")))) (XMake (XK (KrDown (KrName "width_kind") "dim_one") (UrName "one") (RInt (ITy W8 false))) (XC (CNum (RInt I32) (NInt 257)))))));
  (421, SCmp CEq (XAssign CRem (XBin CMul (XC (CNum (RInt (ITy W8 false)) (NInt (255)))) (XC (CRef "si" "m"))) (XBin CMul (XC (CNum (RInt I32) (NInt 257))) (XC (CRef "si" "m")))) (XCommon (XAssign CRem (XMake (XK (KrName "width_kind") (UrName "si::metre") (RInt (ITy W8 false))) (XBin CMul (XC (CNum (RInt I32) (NInt 255))) (XC (CRef "si" "m")))) (XMake (XK (KrName "width_kind") (UrName "si::metre") (RInt (ITy W8 false))) (XBin CMul (XC (CNum (RInt I32) (NInt 257))) (XC (CRef "si" "m")))))));
  (424, SSame (XCommon (XNeg (XMake (XK (KrName "width_kind") (UrName "si::metre") (RInt (ITy W16 true))) (XBin CMul (XC (CNum (RInt (ITy W16 true)) (NInt (1)))) (XC (CRef "si" "m")))))) (XBin CMul (XC (CNum (RInt I32) (NInt (-1)))) (XC (CRef "si" "m"))));
  (436, SIll (XAssign CAdd (XStatic BOne (XK (KrName "width_kind") (UrName "si::metre") (RInt I32))) (XC (CNum (RInt I32) (NInt 1)))));
  (437, SIll (XAssign CSub (XStatic BOne (XK (KrName "width_kind") (UrName "si::metre") (RInt I32))) (XC (CNum (RInt I32) (NInt 1)))));
  (438, SIll (XAssign CMul (XStatic BOne (XK (KrName "width_kind") (UrName "si::metre") (RInt I32))) (XBin CMul (XC (CNum (RInt I32) (NInt 1))) (XBin CDiv (XC (CRef "si" "km")) (XC (CRef "si" "m"))))));
  (439, SIll (XAssign CDiv (XStatic BOne (XK (KrName "width_kind") (UrName "si::metre") (RInt I32))) (XBin CMul (XC (CNum (RInt I32) (NInt 1))) (XBin CDiv (XC (CRef "si" "km")) (XC (CRef "si" "m"))))));
  (440, SIll (XAssign CRem (XStatic BOne (XK (KrName "width_kind") (UrName "si::metre") (RInt I32))) (XBin CMul (XC (CNum (RInt I32) (NInt 1))) (XBin CDiv (XC (CRef "si" "km")) (XC (CRef "si" "m"))))));
  (441, SIll (XAssign CAdd (XStatic BOne (XK (KrName "width_kind") (UrName "si::metre") (RInt I32))) (XC (CRef "si" "m"))));
  (442, SIll (XAssign CSub (XStatic BOne (XK (KrName "width_kind") (UrName "si::metre") (RInt I32))) (XC (CRef "si" "m"))));
  (443, SIll (XAssign CMul (XStatic BOne (XK (KrName "width_kind") (UrName "si::metre") (RInt I32))) (XC (CRef "si" "m"))));
  (444, SIll (XAssign CDiv (XStatic BOne (XK (KrName "width_kind") (UrName "si::metre") (RInt I32))) (XC (CRef "si" "m"))));
  (445, SIll (XAssign CRem (XStatic BOne (XK (KrName "width_kind") (UrName "si::metre") (RInt I32))) (XC (CRef "si" "m"))));
  (446, SIll (XAssign CMul (XStatic BOne (XK (KrName "width_kind") (UrName "si::metre") (RInt I32))) (XMake (XK (KrDown (KrName "width_kind") "dim_one") (UrScaled 1 1 3 "one") (RInt I32)) (XC (CNum (RInt I32) (NInt 1))))));
  (447, SIll (XAssign CDiv (XStatic BOne (XK (KrName "width_kind") (UrName "si::metre") (RInt I32))) (XMake (XK (KrDown (KrName "width_kind") "dim_one") (UrScaled 1 1 3 "one") (RInt I32)) (XC (CNum (RInt I32) (NInt 1))))));
  (448, SIll (XAssign CRem (XStatic BOne (XK (KrName "width_kind") (UrName "si::metre") (RInt I32))) (XMake (XK (KrDown (KrName "width_kind") "dim_one") (UrScaled 1 1 3 "one") (RInt I32)) (XC (CNum (RInt I32) (NInt 1))))));
  (449, SIll (XAssign CRem (XStatic BOne (XK (KrName "width_kind") (UrName "si::metre") (RInt I32))) (XC (CNum (RFlt F64) (NFlt (S754_finite false 4503599627370496 (-52)))))));
  (450, SIll (XAssign CRem (XStatic BOne (XK (KrName "width_kind") (UrName "si::metre") (RInt I32))) (XDeduce FQuantity (XC (CNum (RFlt F64) (NFlt (S754_finite false 4503599627370496 (-52))))))));
  (451, SIll (XAssign CRem (XStatic BOne (XK (KrName "width_kind") (UrName "si::metre") (RInt I32))) (XBin CMul (XC (CNum (RFlt F64) (NFlt (S754_finite false 4503599627370496 (-52))))) (XBin CDiv (XStatic BOne (XK (KrName "width_kind") (UrName "si::metre") (RInt I32))) (XStatic BOne (XK (KrName "width_kind") (UrName "si::metre") (RInt I32)))))));
  (452, SIll (XAssign CRem (XStatic BOne (XK (KrName "width_kind") (UrName "si::metre") (RInt I32))) (XBin CMul (XC (CNum (RFlt F64) (NFlt (S754_finite false 4503599627370496 (-52))))) (XStatic BOne (XK (KrName "width_kind") (UrName "si::metre") (RInt I32))))));
  (453, SIll (XAssign CRem (XStatic BOne (XK (KrName "width_kind") (UrName "si::metre") (RInt I32))) (XBin CDiv (XStatic BOne (XK (KrName "height_kind") (UrName "si::metre") (RInt I32))) (XStatic BOne (XK (KrName "height_kind") (UrName "si::metre") (RInt I32))))));
  (454, SIll (XAssign CAdd (XStatic BOne (XK (KrName "width_kind") (UrName "si::metre") (RInt I32))) (XStatic BOne (XQ (TNamed "si::dim_length" "si::metre" (RInt I32))))));
  (454, SIll (XAssign CSub (XStatic BOne (XK (KrName "width_kind") (UrName "si::metre") (RInt I32))) (XStatic BOne (XQ (TNamed "si::dim_length" "si::metre" (RInt I32))))));
  (454, SIll (XAssign CMul (XStatic BOne (XK (KrName "width_kind") (UrName "si::metre") (RInt I32))) (XStatic BOne (XQ (TNamed "si::dim_length" "si::metre" (RInt I32))))));
  (454, SIll (XAssign CDiv (XStatic BOne (XK (KrName "width_kind") (UrName "si::metre") (RInt I32))) (XStatic BOne (XQ (TNamed "si::dim_length" "si::metre" (RInt I32))))));
  (454, SIll (XAssign CRem (XStatic BOne (XK (KrName "width_kind") (UrName "si::metre") (RInt I32))) (XStatic BOne (XQ (TNamed "si::dim_length" "si::metre" (RInt I32))))));
  (455, SIll (XAssign CAdd (XStatic BOne (XK (KrName "width_kind") (UrName "si::metre") (RInt I32))) (XStatic BOne (XK (KrName "height_kind") (UrName "si::metre") (RInt I32)))));
  (455, SIll (XAssign CSub (XStatic BOne (XK (KrName "width_kind") (UrName "si::metre") (RInt I32))) (XStatic BOne (XK (KrName "height_kind") (UrName "si::metre") (RInt I32)))));
  (455, SIll (XAssign CMul (XStatic BOne (XK (KrName "width_kind") (UrName "si::metre") (RInt I32))) (XStatic BOne (XK (KrName "height_kind") (UrName "si::metre") (RInt I32)))));
  (455, SIll (XAssign CDiv (XStatic BOne (XK (KrName "width_kind") (UrName "si::metre") (RInt I32))) (XStatic BOne (XK (KrName "height_kind") (UrName "si::metre") (RInt I32)))));
  (455, SIll (XAssign CRem (XStatic BOne (XK (KrName "width_kind") (UrName "si::metre") (RInt I32))) (XStatic BOne (XK (KrName "height_kind") (UrName "si::metre") (RInt I32)))));
  (456, SIll (XAssign CAdd (XStatic BOne (XK (KrName "width_kind") (UrName "si::metre") (RInt I32))) (XStatic BOne (XK (KrName "horizontal_area_kind") (UrName "si::square_metre") (RInt I32)))));
  (456, SIll (XAssign CSub (XStatic BOne (XK (KrName "width_kind") (UrName "si::metre") (RInt I32))) (XStatic BOne (XK (KrName "horizontal_area_kind") (UrName "si::square_metre") (RInt I32)))));
  (456, SIll (XAssign CMul (XStatic BOne (XK (KrName "width_kind") (UrName "si::metre") (RInt I32))) (XStatic BOne (XK (KrName "horizontal_area_kind") (UrName "si::square_metre") (RInt I32)))));
  (456, SIll (XAssign CDiv (XStatic BOne (XK (KrName "width_kind") (UrName "si::metre") (RInt I32))) (XStatic BOne (XK (KrName "horizontal_area_kind") (UrName "si::square_metre") (RInt I32)))));
  (456, SIll (XAssign CRem (XStatic BOne (XK (KrName "width_kind") (UrName "si::metre") (RInt I32))) (XStatic BOne (XK (KrName "horizontal_area_kind") (UrName "si::square_metre") (RInt I32)))));
  (457, SIll (XAssign CAdd (XStatic BOne (XK (KrName "width_kind") (UrName "si::metre") (RInt I32))) (XDefault (XP (OrDynamic "si::dim_length") (UrName "si::metre") (RInt I32)))));
  (457, SIll (XAssign CSub (XStatic BOne (XK (KrName "width_kind") (UrName "si::metre") (RInt I32))) (XDefault (XP (OrDynamic "si::dim_length") (UrName "si::metre") (RInt I32)))));
  (457, SIll (XAssign CMul (XStatic BOne (XK (KrName "width_kind") (UrName "si::metre") (RInt I32))) (XDefault (XP (OrDynamic "si::dim_length") (UrName "si::metre") (RInt I32)))));
  (457, SIll (XAssign CDiv (XStatic BOne (XK (KrName "width_kind") (UrName "si::metre") (RInt I32))) (XDefault (XP (OrDynamic "si::dim_length") (UrName "si::metre") (RInt I32)))));
  (457, SIll (XAssign CRem (XStatic BOne (XK (KrName "width_kind") (UrName "si::metre") (RInt I32))) (XDefault (XP (OrDynamic "si::dim_length") (UrName "si::metre") (RInt I32)))));
  (458, SIll (XAssign CAdd (XStatic BOne (XK (KrName "width_kind") (UrName "si::metre") (RInt I32))) (XDur 1 1 (RInt I64) (NInt 1))));
  (458, SIll (XAssign CSub (XStatic BOne (XK (KrName "width_kind") (UrName "si::metre") (RInt I32))) (XDur 1 1 (RInt I64) (NInt 1))));
  (458, SIll (XAssign CMul (XStatic BOne (XK (KrName "width_kind") (UrName "si::metre") (RInt I32))) (XDur 1 1 (RInt I64) (NInt 1))));
  (458, SIll (XAssign CDiv (XStatic BOne (XK (KrName "width_kind") (UrName "si::metre") (RInt I32))) (XDur 1 1 (RInt I64) (NInt 1))));
  (458, SIll (XAssign CRem (XStatic BOne (XK (KrName "width_kind") (UrName "si::metre") (RInt I32))) (XDur 1 1 (RInt I64) (NInt 1))));
  (461, SIll (XAssign CAdd (XStatic BOne (XK (KrName "time_kind") (UrName "si::second") (RInt I32))) (XDur 1 1 (RInt I64) (NInt 1))));
  (461, SIll (XAssign CSub (XStatic BOne (XK (KrName "time_kind") (UrName "si::second") (RInt I32))) (XDur 1 1 (RInt I64) (NInt 1))));
  (461, SIll (XAssign CMul (XStatic BOne (XK (KrName "time_kind") (UrName "si::second") (RInt I32))) (XDur 1 1 (RInt I64) (NInt 1))));
  (461, SIll (XAssign CDiv (XStatic BOne (XK (KrName "time_kind") (UrName "si::second") (RInt I32))) (XDur 1 1 (RInt I64) (NInt 1))));
  (461, SIll (XAssign CRem (XStatic BOne (XK (KrName "time_kind") (UrName "si::second") (RInt I32))) (XDur 1 1 (RInt I64) (NInt 1))));
  (468, SSame (XBin CAdd (XMake (XK (KrName "width_kind") (UrName "si::metre") (RInt I32)) (XBin CMul (XC (CNum (RInt I32) (NInt 2))) (XC (CRef "si" "m")))) (XMake (XK (KrName "width_kind") (UrName "si::metre") (RInt I32)) (XBin CMul (XC (CNum (RInt I32) (NInt 3))) (XC (CRef "si" "m"))))) (XMake (XK (KrName "width_kind") (UrName "si::metre") (RInt I32)) (XBin CMul (XC (CNum (RInt I32) (NInt 5))) (XC (CRef "si" "m")))));
  (469, SSame (XBin CAdd (XMake (XK (KrName "width_kind") (UrName "si::metre") (RInt I32)) (XBin CMul (XC (CNum (RInt I32) (NInt 2))) (XC (CRef "si" "m")))) (XMake (XK (KrName "width_kind") (UrName "si::metre") (RFlt F64)) (XBin CMul (XC (CNum (RFlt F64) (NFlt (S754_finite false 6755399441055744 (-51))))) (XC (CRef "si" "m"))))) (XMake (XK (KrName "width_kind") (UrName "si::metre") (RFlt F64)) (XBin CMul (XC (CNum (RFlt F64) (NFlt (S754_finite false 5629499534213120 (-50))))) (XC (CRef "si" "m")))));
  (470, SSame (XBin CAdd (XMake (XK (KrName "width_kind") (UrName "si::metre") (RFlt F64)) (XBin CMul (XC (CNum (RFlt F64) (NFlt (S754_finite false 4503599627370496 (-51))))) (XC (CRef "si" "m")))) (XMake (XK (KrName "width_kind") (UrName "si::metre") (RInt I32)) (XBin CMul (XC (CNum (RInt I32) (NInt 3))) (XC (CRef "si" "m"))))) (XMake (XK (KrName "width_kind") (UrName "si::metre") (RFlt F64)) (XBin CMul (XC (CNum (RFlt F64) (NFlt (S754_finite false 5629499534213120 (-50))))) (XC (CRef "si" "m")))));
  (471, SSame (XBin CAdd (XMake (XK (KrName "width_kind") (UrName "si::kilometre") (RInt I32)) (XBin CMul (XC (CNum (RInt I32) (NInt 2))) (XC (CRef "si" "km")))) (XMake (XK (KrName "width_kind") (UrName "si::metre") (RFlt F64)) (XBin CMul (XC (CNum (RFlt F64) (NFlt (S754_finite false 6597069766656000 (-41))))) (XC (CRef "si" "m"))))) (XMake (XK (KrName "width_kind") (UrName "si::metre") (RFlt F64)) (XBin CMul (XC (CNum (RFlt F64) (NFlt (S754_finite false 5497558138880000 (-40))))) (XC (CRef "si" "m")))));
  (472, SSame (XBin CSub (XMake (XK (KrName "width_kind") (UrName "si::metre") (RInt I32)) (XBin CMul (XC (CNum (RInt I32) (NInt 2))) (XC (CRef "si" "m")))) (XMake (XK (KrName "width_kind") (UrName "si::metre") (RInt I32)) (XBin CMul (XC (CNum (RInt I32) (NInt 3))) (XC (CRef "si" "m"))))) (XMake (XK (KrName "width_kind") (UrName "si::metre") (RInt I32)) (XBin CMul (XNeg (XC (CNum (RInt I32) (NInt 1)))) (XC (CRef "si" "m")))));
  (473, SSame (XBin CSub (XMake (XK (KrName "width_kind") (UrName "si::metre") (RInt I32)) (XBin CMul (XC (CNum (RInt I32) (NInt 2))) (XC (CRef "si" "m")))) (XMake (XK (KrName "width_kind") (UrName "si::metre") (RFlt F64)) (XBin CMul (XC (CNum (RFlt F64) (NFlt (S754_finite false 6755399441055744 (-51))))) (XC (CRef "si" "m"))))) (XMake (XK (KrName "width_kind") (UrName "si::metre") (RFlt F64)) (XBin CMul (XNeg (XC (CNum (RFlt F64) (NFlt (S754_finite false 4503599627370496 (-52)))))) (XC (CRef "si" "m")))));
  (474, SSame (XBin CSub (XMake (XK (KrName "width_kind") (UrName "si::metre") (RFlt F64)) (XBin CMul (XC (CNum (RFlt F64) (NFlt (S754_finite false 4503599627370496 (-51))))) (XC (CRef "si" "m")))) (XMake (XK (KrName "width_kind") (UrName "si::metre") (RInt I32)) (XBin CMul (XC (CNum (RInt I32) (NInt 3))) (XC (CRef "si" "m"))))) (XMake (XK (KrName "width_kind") (UrName "si::metre") (RFlt F64)) (XBin CMul (XNeg (XC (CNum (RFlt F64) (NFlt (S754_finite false 4503599627370496 (-52)))))) (XC (CRef "si" "m")))));
  (475, SSame (XBin CSub (XMake (XK (KrName "width_kind") (UrName "si::metre") (RFlt F64)) (XBin CMul (XC (CNum (RFlt F64) (NFlt (S754_finite false 8796093022208000 (-42))))) (XC (CRef "si" "m")))) (XMake (XK (KrName "width_kind") (UrName "si::kilometre") (RInt I32)) (XBin CMul (XC (CNum (RInt I32) (NInt 3))) (XC (CRef "si" "km"))))) (XMake (XK (KrName "width_kind") (UrName "si::metre") (RFlt F64)) (XBin CMul (XNeg (XC (CNum (RFlt F64) (NFlt (S754_finite false 8796093022208000 (-43)))))) (XC (CRef "si" "m")))));
  (477, SRep (XNumber (XCommon (XBin CAdd (XMake (XK (KrName "width_kind") (UrName "si::metre") (RInt (ITy W8 false))) (XBin CMul (XC (CNum (RInt I32) (NInt 0))) (XC (CRef "si" "m")))) (XMake (XK (KrName "width_kind") (UrName "si::metre") (RInt (ITy W8 false))) (XBin CMul (XC (CNum (RInt I32) (NInt 0))) (XC (CRef "si" "m"))))))) (RInt I32));
  (479, SRep (XNumber (XCommon (XBin CSub (XMake (XK (KrName "width_kind") (UrName "si::metre") (RInt (ITy W8 false))) (XBin CMul (XC (CNum (RInt I32) (NInt 0))) (XC (CRef "si" "m")))) (XMake (XK (KrName "width_kind") (UrName "si::metre") (RInt (ITy W8 false))) (XBin CMul (XC (CNum (RInt I32) (NInt 0))) (XC (CRef "si" "m"))))))) (RInt I32));
  (481, SCmp CEq (XNumber (XCommon (XBin CAdd (XMake (XK (KrName "width_kind") (UrName "si::metre") (RInt (ITy W8 false))) (XBin CMul (XC (CNum (RInt I32) (NInt 128))) (XC (CRef "si" "m")))) (XMake (XK (KrName "width_kind") (UrName "si::metre") (RInt (ITy W8 false))) (XBin CMul (XC (CNum (RInt I32) (NInt 128))) (XC (CRef "si" "m"))))))) (XBin CAdd (XC (CNum (RInt (ITy W8 false)) (NInt (128)))) (XC (CNum (RInt (ITy W8 false)) (NInt (128))))));
  (483, SCmp CEq (XNumber (XCommon (XBin CSub (XMake (XK (KrName "width_kind") (UrName "si::metre") (RInt (ITy W8 false))) (XBin CMul (XC (CNum (RInt I32) (NInt 0))) (XC (CRef "si" "m")))) (XMake (XK (KrName "width_kind") (UrName "si::metre") (RInt (ITy W8 false))) (XBin CMul (XC (CNum (RInt I32) (NInt 1))) (XC (CRef "si" "m"))))))) (XBin CSub (XC (CNum (RInt (ITy W8 false)) (NInt (0)))) (XC (CNum (RInt (ITy W8 false)) (NInt (1))))));
  (486, SIll (XBin CAdd (XStatic BOne (XK (KrName "width_kind") (UrName "si::metre") (RFlt F64))) (XC (CNum (RFlt F64) (NFlt (S754_finite false 4503599627370496 (-52)))))));
  (487, SIll (XBin CAdd (XStatic BOne (XK (KrName "width_kind") (UrName "si::metre") (RFlt F64))) (XStatic BOne (XQ (TNamed "si::dim_length" "si::metre" (RFlt F64))))));
  (488, SIll (XBin CAdd (XStatic BOne (XK (KrName "width_kind") (UrName "si::metre") (RFlt F64))) (XDefault (XP (OrDynamic "si::dim_length") (UrName "si::metre") (RFlt F64)))));
  (489, SIll (XBin CAdd (XStatic BOne (XK (KrName "width_kind") (UrName "si::metre") (RFlt F64))) (XStatic BOne (XK (KrName "height_kind") (UrName "si::metre") (RFlt F64)))));
  (490, SIll (XBin CAdd (XStatic BOne (XK (KrName "width_kind") (UrName "si::metre") (RFlt F64))) (XC (CRef "si" "m"))));
  (491, SIll (XBin CSub (XStatic BOne (XK (KrName "width_kind") (UrName "si::metre") (RFlt F64))) (XC (CNum (RFlt F64) (NFlt (S754_finite false 4503599627370496 (-52)))))));
  (492, SIll (XBin CSub (XStatic BOne (XK (KrName "width_kind") (UrName "si::metre") (RFlt F64))) (XStatic BOne (XQ (TNamed "si::dim_length" "si::metre" (RFlt F64))))));
  (493, SIll (XBin CSub (XStatic BOne (XK (KrName "width_kind") (UrName "si::metre") (RFlt F64))) (XDefault (XP (OrDynamic "si::dim_length") (UrName "si::metre") (RFlt F64)))));
  (494, SIll (XBin CSub (XStatic BOne (XK (KrName "width_kind") (UrName "si::metre") (RFlt F64))) (XStatic BOne (XK (KrName "height_kind") (UrName "si::metre") (RFlt F64)))));
  (495, SIll (XBin CSub (XStatic BOne (XK (KrName "width_kind") (UrName "si::metre") (RFlt F64))) (XC (CRef "si" "m"))));
  (498, SIll (XBin CAdd (XStatic BOne (XK (KrDown (KrName "width_kind") "dim_one") (UrName "one") (RFlt F64))) (XStatic BOne (XK (KrDown (KrName "height_kind") "dim_one") (UrName "one") (RFlt F64)))));
  (499, SIll (XBin CAdd (XStatic BOne (XK (KrDown (KrName "width_kind") "dim_one") (UrName "one") (RFlt F64))) (XStatic BOne (XK (KrName "height_kind") (UrName "si::metre") (RFlt F64)))));
  (500, SIll (XBin CAdd (XStatic BOne (XK (KrName "width_kind") (UrName "si::metre") (RFlt F64))) (XStatic BOne (XK (KrDown (KrName "height_kind") "dim_one") (UrName "one") (RFlt F64)))));
  (501, SIll (XBin CAdd (XStatic BOne (XK (KrDown (KrName "width_kind") "si::dim_time") (UrName "si::day") (RFlt F64))) (XStatic BOne (XK (KrName "height_kind") (UrName "si::metre") (RFlt F64)))));
  (502, SIll (XBin CAdd (XStatic BOne (XK (KrName "width_kind") (UrName "si::metre") (RFlt F64))) (XStatic BOne (XK (KrDown (KrName "height_kind") "si::dim_time") (UrName "si::day") (RFlt F64)))));
  (503, SIll (XBin CAdd (XStatic BOne (XK (KrDown (KrName "width_kind") "si::dim_time") (UrName "si::day") (RFlt F64))) (XStatic BOne (XK (KrDown (KrName "height_kind") "si::dim_time") (UrName "si::day") (RFlt F64)))));
  (504, SIll (XBin CSub (XStatic BOne (XK (KrDown (KrName "width_kind") "dim_one") (UrName "one") (RFlt F64))) (XStatic BOne (XK (KrDown (KrName "height_kind") "dim_one") (UrName "one") (RFlt F64)))));
  (505, SIll (XBin CSub (XStatic BOne (XK (KrDown (KrName "width_kind") "dim_one") (UrName "one") (RFlt F64))) (XStatic BOne (XK (KrName "height_kind") (UrName "si::metre") (RFlt F64)))));
  (506, SIll (XBin CSub (XStatic BOne (XK (KrName "width_kind") (UrName "si::metre") (RFlt F64))) (XStatic BOne (XK (KrDown (KrName "height_kind") "dim_one") (UrName "one") (RFlt F64)))));
  (507, SIll (XBin CSub (XStatic BOne (XK (KrDown (KrName "width_kind") "si::dim_time") (UrName "si::day") (RFlt F64))) (XStatic BOne (XK (KrName "height_kind") (UrName "si::metre") (RFlt F64)))));
  (508, SIll (XBin CSub (XStatic BOne (XK (KrName "width_kind") (UrName "si::metre") (RFlt F64))) (XStatic BOne (XK (KrDown (KrName "height_kind") "si::dim_time") (UrName "si::day") (RFlt F64)))));
  (509, SIll (XBin CSub (XStatic BOne (XK (KrDown (KrName "width_kind") "si::dim_time") (UrName "si::day") (RFlt F64))) (XStatic BOne (XK (KrDown (KrName "height_kind") "si::dim_time") (UrName "si::day") (RFlt F64)))));
  (512, SSame (XBin CMul (XMake (XK (KrName "width_kind") (UrName "si::metre") (RInt I32)) (XBin CMul (XC (CNum (RInt I32) (NInt 2))) (XC (CRef "si" "m")))) (XC (CNum (RInt I32) (NInt 3)))) (XMake (XK (KrName "width_kind") (UrName "si::metre") (RInt I32)) (XBin CMul (XC (CNum (RInt I32) (NInt 6))) (XC (CRef "si" "m")))));
  (513, SSame (XBin CMul (XMake (XK (KrName "width_kind") (UrName "si::metre") (RInt I32)) (XBin CMul (XC (CNum (RInt I32) (NInt 2))) (XC (CRef "si" "m")))) (XC (CNum (RFlt F64) (NFlt (S754_finite false 6755399441055744 (-51)))))) (XMake (XK (KrName "width_kind") (UrName "si::metre") (RFlt F64)) (XBin CMul (XC (CNum (RFlt F64) (NFlt (S754_finite false 6755399441055744 (-50))))) (XC (CRef "si" "m")))));
  (514, SSame (XBin CMul (XMake (XK (KrName "width_kind") (UrName "si::metre") (RFlt F64)) (XBin CMul (XC (CNum (RFlt F64) (NFlt (S754_finite false 4503599627370496 (-51))))) (XC (CRef "si" "m")))) (XC (CNum (RInt I32) (NInt 3)))) (XMake (XK (KrName "width_kind") (UrName "si::metre") (RFlt F64)) (XBin CMul (XC (CNum (RFlt F64) (NFlt (S754_finite false 6755399441055744 (-50))))) (XC (CRef "si" "m")))));
  (515, SSame (XBin CMul (XC (CNum (RInt I32) (NInt 2))) (XMake (XK (KrName "width_kind") (UrName "si::metre") (RInt I32)) (XBin CMul (XC (CNum (RInt I32) (NInt 3))) (XC (CRef "si" "m"))))) (XMake (XK (KrName "width_kind") (UrName "si::metre") (RInt I32)) (XBin CMul (XC (CNum (RInt I32) (NInt 6))) (XC (CRef "si" "m")))));
  (516, SSame (XBin CMul (XC (CNum (RInt I32) (NInt 2))) (XMake (XK (KrName "width_kind") (UrName "si::metre") (RFlt F64)) (XBin CMul (XC (CNum (RFlt F64) (NFlt (S754_finite false 6755399441055744 (-51))))) (XC (CRef "si" "m"))))) (XMake (XK (KrName "width_kind") (UrName "si::metre") (RFlt F64)) (XBin CMul (XC (CNum (RFlt F64) (NFlt (S754_finite false 6755399441055744 (-50))))) (XC (CRef "si" "m")))));
  (517, SSame (XBin CMul (XC (CNum (RFlt F64) (NFlt (S754_finite false 4503599627370496 (-51))))) (XMake (XK (KrName "width_kind") (UrName "si::metre") (RInt I32)) (XBin CMul (XC (CNum (RInt I32) (NInt 3))) (XC (CRef "si" "m"))))) (XMake (XK (KrName "width_kind") (UrName "si::metre") (RFlt F64)) (XBin CMul (XC (CNum (RFlt F64) (NFlt (S754_finite false 6755399441055744 (-50))))) (XC (CRef "si" "m")))));
  (519, SSame (XBin CMul (XMake (XK (KrName "width_kind") (UrName "si::metre") (RInt I32)) (XBin CMul (XC (CNum (RInt I32) (NInt 2))) (XC (CRef "si" "m")))) (XDeduce FQuantity (XC (CNum (RInt I32) (NInt 3))))) (XMake (XK (KrName "width_kind") (UrName "si::metre") (RInt I32)) (XBin CMul (XC (CNum (RInt I32) (NInt 6))) (XC (CRef "si" "m")))));
  (520, SSame (XBin CMul (XMake (XK (KrName "width_kind") (UrName "si::metre") (RInt I32)) (XBin CMul (XC (CNum (RInt I32) (NInt 2))) (XC (CRef "si" "m")))) (XDeduce FQuantity (XC (CNum (RFlt F64) (NFlt (S754_finite false 6755399441055744 (-51))))))) (XMake (XK (KrName "width_kind") (UrName "si::metre") (RFlt F64)) (XBin CMul (XC (CNum (RFlt F64) (NFlt (S754_finite false 6755399441055744 (-50))))) (XC (CRef "si" "m")))));
  (521, SSame (XBin CMul (XMake (XK (KrName "width_kind") (UrName "si::metre") (RFlt F64)) (XBin CMul (XC (CNum (RFlt F64) (NFlt (S754_finite false 4503599627370496 (-51))))) (XC (CRef "si" "m")))) (XDeduce FQuantity (XC (CNum (RInt I32) (NInt 3))))) (XMake (XK (KrName "width_kind") (UrName "si::metre") (RFlt F64)) (XBin CMul (XC (CNum (RFlt F64) (NFlt (S754_finite false 6755399441055744 (-50))))) (XC (CRef "si" "m")))));
  (522, SSame (XBin CMul (XDeduce FQuantity (XC (CNum (RInt I32) (NInt 2)))) (XMake (XK (KrName "width_kind") (UrName "si::metre") (RInt I32)) (XBin CMul (XC (CNum (RInt I32) (NInt 3))) (XC (CRef "si" "m"))))) (XMake (XK (KrName "width_kind") (UrName "si::metre") (RInt I32)) (XBin CMul (XC (CNum (RInt I32) (NInt 6))) (XC (CRef "si" "m")))));
  (523, SSame (XBin CMul (XDeduce FQuantity (XC (CNum (RInt I32) (NInt 2)))) (XMake (XK (KrName "width_kind") (UrName "si::metre") (RFlt F64)) (XBin CMul (XC (CNum (RFlt F64) (NFlt (S754_finite false 6755399441055744 (-51))))) (XC (CRef "si" "m"))))) (XMake (XK (KrName "width_kind") (UrName "si::metre") (RFlt F64)) (XBin CMul (XC (CNum (RFlt F64) (NFlt (S754_finite false 6755399441055744 (-50))))) (XC (CRef "si" "m")))));
  (524, SSame (XBin CMul (XDeduce FQuantity (XC (CNum (RFlt F64) (NFlt (S754_finite false 4503599627370496 (-51)))))) (XMake (XK (KrName "width_kind") (UrName "si::metre") (RInt I32)) (XBin CMul (XC (CNum (RInt I32) (NInt 3))) (XC (CRef "si" "m"))))) (XMake (XK (KrName "width_kind") (UrName "si::metre") (RFlt F64)) (XBin CMul (XC (CNum (RFlt F64) (NFlt (S754_finite false 6755399441055744 (-50))))) (XC (CRef "si" "m")))));
  (526, SSame (XBin CMul (XMake (XK (KrName "width_kind") (UrName "si::metre") (RInt I32)) (XBin CMul (XC (CNum (RInt I32) (NInt 2))) (XC (CRef "si" "m")))) (XMake (XK (KrDown (KrName "width_kind") "dim_one") (UrName "one") (RInt I32)) (XC (CNum (RInt I32) (NInt 3))))) (XMake (XK (KrName "width_kind") (UrName "si::metre") (RInt I32)) (XBin CMul (XC (CNum (RInt I32) (NInt 6))) (XC (CRef "si" "m")))));
  (528, SSame (XBin CMul (XMake (XK (KrName "width_kind") (UrName "si::metre") (RInt I32)) (XBin CMul (XC (CNum (RInt I32) (NInt 2))) (XC (CRef "si" "m")))) (XMake (XK (KrDown (KrName "width_kind") "dim_one") (UrName "one") (RFlt F64)) (XC (CNum (RFlt F64) (NFlt (S754_finite false 6755399441055744 (-51))))))) (XMake (XK (KrName "width_kind") (UrName "si::metre") (RFlt F64)) (XBin CMul (XC (CNum (RFlt F64) (NFlt (S754_finite false 6755399441055744 (-50))))) (XC (CRef "si" "m")))));
  (530, SSame (XBin CMul (XMake (XK (KrName "width_kind") (UrName "si::metre") (RFlt F64)) (XBin CMul (XC (CNum (RFlt F64) (NFlt (S754_finite false 4503599627370496 (-51))))) (XC (CRef "si" "m")))) (XMake (XK (KrDown (KrName "width_kind") "dim_one") (UrName "one") (RInt I32)) (XC (CNum (RInt I32) (NInt 3))))) (XMake (XK (KrName "width_kind") (UrName "si::metre") (RFlt F64)) (XBin CMul (XC (CNum (RFlt F64) (NFlt (S754_finite false 6755399441055744 (-50))))) (XC (CRef "si" "m")))));
  (532, SSame (XBin CMul (XMake (XK (KrDown (KrName "width_kind") "dim_one") (UrName "one") (RInt I32)) (XC (CNum (RInt I32) (NInt 2)))) (XMake (XK (KrName "width_kind") (UrName "si::metre") (RInt I32)) (XBin CMul (XC (CNum (RInt I32) (NInt 3))) (XC (CRef "si" "m"))))) (XMake (XK (KrName "width_kind") (UrName "si::metre") (RInt I32)) (XBin CMul (XC (CNum (RInt I32) (NInt 6))) (XC (CRef "si" "m")))));
  (534, SSame (XBin CMul (XMake (XK (KrDown (KrName "width_kind") "dim_one") (UrName "one") (RInt I32)) (XC (CNum (RInt I32) (NInt 2)))) (XMake (XK (KrName "width_kind") (UrName "si::metre") (RFlt F64)) (XBin CMul (XC (CNum (RFlt F64) (NFlt (S754_finite false 6755399441055744 (-51))))) (XC (CRef "si" "m"))))) (XMake (XK (KrName "width_kind") (UrName "si::metre") (RFlt F64)) (XBin CMul (XC (CNum (RFlt F64) (NFlt (S754_finite false 6755399441055744 (-50))))) (XC (CRef "si" "m")))));
  (536, SSame (XBin CMul (XMake (XK (KrDown (KrName "width_kind") "dim_one") (UrName "one") (RFlt F64)) (XC (CNum (RFlt F64) (NFlt (S754_finite false 4503599627370496 (-51)))))) (XMake (XK (KrName "width_kind") (UrName "si::metre") (RInt I32)) (XBin CMul (XC (CNum (RInt I32) (NInt 3))) (XC (CRef "si" "m"))))) (XMake (XK (KrName "width_kind") (UrName "si::metre") (RFlt F64)) (XBin CMul (XC (CNum (RFlt F64) (NFlt (S754_finite false 6755399441055744 (-50))))) (XC (CRef "si" "m")))));
  (539, SSame (XBin CMul (XMake (XK (KrName "height_kind") (UrName "si::metre") (RInt I32)) (XBin CMul (XC (CNum (RInt I32) (NInt 2))) (XC (CRef "si" "m")))) (XBin CMul (XC (CNum (RInt I32) (NInt 3))) (XC (CRef "si" "Hz")))) (XMake (XK (KrName "rate_of_climb_kind") (UrName "si::metre_per_second") (RInt I32)) (XBin CMul (XC (CNum (RInt I32) (NInt 6))) (XBin CDiv (XC (CRef "si" "m")) (XC (CRef "si" "s"))))));
  (540, SSame (XBin CMul (XMake (XK (KrName "height_kind") (UrName "si::metre") (RInt I32)) (XBin CMul (XC (CNum (RInt I32) (NInt 2))) (XC (CRef "si" "m")))) (XBin CMul (XC (CNum (RFlt F64) (NFlt (S754_finite false 6755399441055744 (-51))))) (XC (CRef "si" "Hz")))) (XMake (XK (KrName "rate_of_climb_kind") (UrName "si::metre_per_second") (RFlt F64)) (XBin CMul (XC (CNum (RFlt F64) (NFlt (S754_finite false 6755399441055744 (-50))))) (XBin CDiv (XC (CRef "si" "m")) (XC (CRef "si" "s"))))));
  (541, SSame (XBin CMul (XMake (XK (KrName "height_kind") (UrName "si::metre") (RFlt F64)) (XBin CMul (XC (CNum (RFlt F64) (NFlt (S754_finite false 4503599627370496 (-51))))) (XC (CRef "si" "m")))) (XBin CMul (XC (CNum (RInt I32) (NInt 3))) (XC (CRef "si" "Hz")))) (XMake (XK (KrName "rate_of_climb_kind") (UrName "si::metre_per_second") (RFlt F64)) (XBin CMul (XC (CNum (RFlt F64) (NFlt (S754_finite false 6755399441055744 (-50))))) (XBin CDiv (XC (CRef "si" "m")) (XC (CRef "si" "s"))))));
  (542, SSame (XBin CMul (XBin CMul (XC (CNum (RInt I32) (NInt 2))) (XC (CRef "si" "Hz"))) (XMake (XK (KrName "height_kind") (UrName "si::metre") (RInt I32)) (XBin CMul (XC (CNum (RInt I32) (NInt 3))) (XC (CRef "si" "m"))))) (XMake (XK (KrName "rate_of_climb_kind") (UrName "si::metre_per_second") (RInt I32)) (XBin CMul (XC (CNum (RInt I32) (NInt 6))) (XBin CDiv (XC (CRef "si" "m")) (XC (CRef "si" "s"))))));
  (543, SSame (XBin CMul (XBin CMul (XC (CNum (RInt I32) (NInt 2))) (XC (CRef "si" "Hz"))) (XMake (XK (KrName "height_kind") (UrName "si::metre") (RFlt F64)) (XBin CMul (XC (CNum (RFlt F64) (NFlt (S754_finite false 6755399441055744 (-51))))) (XC (CRef "si" "m"))))) (XMake (XK (KrName "rate_of_climb_kind") (UrName "si::metre_per_second") (RFlt F64)) (XBin CMul (XC (CNum (RFlt F64) (NFlt (S754_finite false 6755399441055744 (-50))))) (XBin CDiv (XC (CRef "si" "m")) (XC (CRef "si" "s"))))));
  (544, SSame (XBin CMul (XBin CMul (XC (CNum (RFlt F64) (NFlt (S754_finite false 4503599627370496 (-51))))) (XC (CRef "si" "Hz"))) (XMake (XK (KrName "height_kind") (UrName "si::metre") (RInt I32)) (XBin CMul (XC (CNum (RInt I32) (NInt 3))) (XC (CRef "si" "m"))))) (XMake (XK (KrName "rate_of_climb_kind") (UrName "si::metre_per_second") (RFlt F64)) (XBin CMul (XC (CNum (RFlt F64) (NFlt (S754_finite false 6755399441055744 (-50))))) (XBin CDiv (XC (CRef "si" "m")) (XC (CRef "si" "s"))))));
  (546, SSame (XBin CMul (XMake (XK (KrName "time_kind") (UrName "si::second") (RInt I32)) (XBin CMul (XC (CNum (RInt I32) (NInt 2))) (XC (CRef "si" "s")))) (XBin CMul (XC (CNum (RInt I32) (NInt 3))) (XC (CRef "si" "Hz")))) (XMake (XK (KrDown (KrName "time_kind") "dim_one") (UrName "one") (RInt I32)) (XC (CNum (RInt I32) (NInt 6)))));
  (548, SSame (XBin CMul (XBin CMul (XC (CNum (RInt I32) (NInt 3))) (XC (CRef "si" "Hz"))) (XMake (XK (KrName "time_kind") (UrName "si::second") (RInt I32)) (XBin CMul (XC (CNum (RInt I32) (NInt 2))) (XC (CRef "si" "s"))))) (XMake (XK (KrDown (KrName "time_kind") "dim_one") (UrName "one") (RInt I32)) (XC (CNum (RInt I32) (NInt 6)))));
  (551, SSame (XBin CMul (XMake (XK (KrName "apple") (UrName "one") (RInt I32)) (XC (CNum (RInt I32) (NInt 2)))) (XDeduce FQuantity (XC (CNum (RInt I32) (NInt 2))))) (XMake (XK (KrName "apple") (UrName "one") (RInt I32)) (XC (CNum (RInt I32) (NInt 4)))));
  (552, SSame (XBin CMul (XDeduce FQuantity (XC (CNum (RInt I32) (NInt 2)))) (XMake (XK (KrName "apple") (UrName "one") (RInt I32)) (XC (CNum (RInt I32) (NInt 2))))) (XMake (XK (KrName "apple") (UrName "one") (RInt I32)) (XC (CNum (RInt I32) (NInt 4)))));
  (555, SSame (XBin CMul (XMake (XK (KrName "width_kind") (UrName "si::metre") (RInt I32)) (XBin CMul (XC (CNum (RInt I32) (NInt 4))) (XC (CRef "si" "m")))) (XBin CMul (XC (CNum (RInt I32) (NInt 1))) (XC (CRef "si" "m")))) (XMake (XK (KrName "horizontal_area_kind") (UrName "si::square_metre") (RInt I32)) (XBin CMul (XC (CNum (RInt I32) (NInt 4))) (XBin CMul (XC (CRef "si" "m")) (XC (CRef "si" "m"))))));
  (556, SSame (XBin CMul (XMake (XK (KrName "width_kind") (UrName "si::metre") (RInt I32)) (XBin CMul (XC (CNum (RInt I32) (NInt 2))) (XC (CRef "si" "m")))) (XMake (XK (KrName "width_kind") (UrName "si::metre") (RInt I32)) (XBin CMul (XC (CNum (RInt I32) (NInt 2))) (XC (CRef "si" "m"))))) (XMake (XK (KrName "horizontal_area_kind") (UrName "si::square_metre") (RInt I32)) (XBin CMul (XC (CNum (RInt I32) (NInt 4))) (XBin CMul (XC (CRef "si" "m")) (XC (CRef "si" "m"))))));
  (557, SSame (XBin CMul (XMake (XK (KrName "width_kind") (UrName "si::metre") (RInt I32)) (XBin CMul (XC (CNum (RInt I32) (NInt 2))) (XC (CRef "si" "m")))) (XMake (XK (KrName "width_kind") (UrName "si::metre") (RFlt F64)) (XBin CMul (XC (CNum (RInt I32) (NInt 2))) (XC (CRef "si" "m"))))) (XMake (XK (KrName "horizontal_area_kind") (UrName "si::square_metre") (RFlt F64)) (XBin CMul (XC (CNum (RInt I32) (NInt 4))) (XBin CMul (XC (CRef "si" "m")) (XC (CRef "si" "m"))))));
  (558, SSame (XBin CMul (XMake (XK (KrName "width_kind") (UrName "si::metre") (RFlt F64)) (XBin CMul (XC (CNum (RInt I32) (NInt 2))) (XC (CRef "si" "m")))) (XMake (XK (KrName "width_kind") (UrName "si::metre") (RInt I32)) (XBin CMul (XC (CNum (RInt I32) (NInt 2))) (XC (CRef "si" "m"))))) (XMake (XK (KrName "horizontal_area_kind") (UrName "si::square_metre") (RFlt F64)) (XBin CMul (XC (CNum (RInt I32) (NInt 4))) (XBin CMul (XC (CRef "si" "m")) (XC (CRef "si" "m"))))));
  (561, SSame (XBin CMul (XMake (XK (KrName "apple") (UrName "one") (RInt I32)) (XC (CNum (RInt I32) (NInt 2)))) (XMake (XK (KrName "apple") (UrName "one") (RInt I32)) (XC (CNum (RInt I32) (NInt 2))))) (XMake (XK (KrName "apple") (UrName "one") (RInt I32)) (XC (CNum (RInt I32) (NInt 4)))));
  (562, SSame (XBin CMul (XMake (XK (KrName "apple") (UrName "one") (RInt I32)) (XC (CNum (RInt I32) (NInt 2)))) (XBin CDiv (XC (CNum (RInt I32) (NInt 2))) (XMake (XK (KrName "apple") (UrName "one") (RInt I32)) (XC (CNum (RInt I32) (NInt 1)))))) (XMake (XK (KrName "apple") (UrName "one") (RInt I32)) (XC (CNum (RInt I32) (NInt 4)))));
  (564, SSame (XBin CMul (XMake (XK (KrName "width_kind") (UrName "si::kilometre") (RFlt F64)) (XBin CMul (XC (CNum (RInt I32) (NInt 4))) (XC (CRef "si" "m")))) (XBin CMul (XC (CNum (RInt I32) (NInt 1))) (XC (CRef "si" "mm")))) (XMake (XK (KrName "horizontal_area_kind") (UrName "si::square_metre") (RFlt F64)) (XBin CMul (XC (CNum (RInt I32) (NInt 4))) (XBin CMul (XC (CRef "si" "m")) (XC (CRef "si" "mm"))))));
  (565, SSame (XBin CMul (XMake (XK (KrName "width_kind") (UrName "si::kilometre") (RFlt F64)) (XBin CMul (XC (CNum (RInt I32) (NInt 2))) (XC (CRef "si" "m")))) (XMake (XK (KrName "width_kind") (UrName "si::millimetre") (RFlt F64)) (XBin CMul (XC (CNum (RInt I32) (NInt 2))) (XC (CRef "si" "m"))))) (XMake (XK (KrName "horizontal_area_kind") (UrName "si::square_metre") (RFlt F64)) (XBin CMul (XC (CNum (RInt I32) (NInt 4))) (XBin CMul (XC (CRef "si" "m")) (XC (CRef "si" "m"))))));
  (566, SSame (XBin CMul (XMake (XK (KrName "width_kind") (UrName "si::metre") (RFlt F64)) (XBin CMul (XC (CNum (RInt I32) (NInt 2))) (XC (CRef "si" "m")))) (XBin CDiv (XC (CNum (RInt I32) (NInt 1))) (XMake (XK (KrName "width_kind") (UrName "si::metre") (RFlt F64)) (XBin CMul (XC (CNum (RInt I32) (NInt 2))) (XC (CRef "si" "m")))))) (XMake (XK (KrDown (KrName "width_kind") "dim_one") (UrName "one") (RFlt F64)) (XC (CNum (RInt I32) (NInt 1)))));
  (569, SSame (XBin CDiv (XMake (XK (KrName "width_kind") (UrName "si::metre") (RInt I32)) (XBin CMul (XC (CNum (RInt I32) (NInt 2))) (XC (CRef "si" "m")))) (XC (CNum (RInt I32) (NInt 3)))) (XMake (XK (KrName "width_kind") (UrName "si::metre") (RInt I32)) (XBin CMul (XC (CNum (RInt I32) (NInt 0))) (XC (CRef "si" "m")))));
  (570, SSame (XBin CDiv (XMake (XK (KrName "width_kind") (UrName "si::metre") (RInt I32)) (XBin CMul (XC (CNum (RInt I32) (NInt 2))) (XC (CRef "si" "m")))) (XC (CNum (RFlt F64) (NFlt (S754_finite false 6755399441055744 (-51)))))) (XMake (XK (KrName "width_kind") (UrName "si::metre") (RFlt F64)) (XBin CMul (XBin CDiv (XC (CNum (RInt I32) (NInt 2))) (XC (CNum (RFlt F64) (NFlt (S754_finite false 6755399441055744 (-51)))))) (XC (CRef "si" "m")))));
  (571, SSame (XBin CDiv (XMake (XK (KrName "width_kind") (UrName "si::metre") (RFlt F64)) (XBin CMul (XC (CNum (RFlt F64) (NFlt (S754_finite false 4503599627370496 (-51))))) (XC (CRef "si" "m")))) (XC (CNum (RInt I32) (NInt 3)))) (XMake (XK (KrName "width_kind") (UrName "si::metre") (RFlt F64)) (XBin CMul (XBin CDiv (XC (CNum (RFlt F64) (NFlt (S754_finite false 4503599627370496 (-51))))) (XC (CNum (RInt I32) (NInt 3)))) (XC (CRef "si" "m")))));
  (573, SSame (XBin CDiv (XMake (XK (KrName "width_kind") (UrName "si::metre") (RInt I32)) (XBin CMul (XC (CNum (RInt I32) (NInt 2))) (XC (CRef "si" "m")))) (XDeduce FQuantity (XC (CNum (RInt I32) (NInt 3))))) (XMake (XK (KrName "width_kind") (UrName "si::metre") (RInt I32)) (XBin CMul (XC (CNum (RInt I32) (NInt 0))) (XC (CRef "si" "m")))));
  (574, SSame (XBin CDiv (XMake (XK (KrName "width_kind") (UrName "si::metre") (RInt I32)) (XBin CMul (XC (CNum (RInt I32) (NInt 2))) (XC (CRef "si" "m")))) (XDeduce FQuantity (XC (CNum (RFlt F64) (NFlt (S754_finite false 6755399441055744 (-51))))))) (XMake (XK (KrName "width_kind") (UrName "si::metre") (RFlt F64)) (XBin CMul (XBin CDiv (XC (CNum (RInt I32) (NInt 2))) (XC (CNum (RFlt F64) (NFlt (S754_finite false 6755399441055744 (-51)))))) (XC (CRef "si" "m")))));
  (575, SSame (XBin CDiv (XMake (XK (KrName "width_kind") (UrName "si::metre") (RFlt F64)) (XBin CMul (XC (CNum (RFlt F64) (NFlt (S754_finite false 4503599627370496 (-51))))) (XC (CRef "si" "m")))) (XDeduce FQuantity (XC (CNum (RInt I32) (NInt 3))))) (XMake (XK (KrName "width_kind") (UrName "si::metre") (RFlt F64)) (XBin CMul (XBin CDiv (XC (CNum (RFlt F64) (NFlt (S754_finite false 4503599627370496 (-51))))) (XC (CNum (RInt I32) (NInt 3)))) (XC (CRef "si" "m")))));
  (577, SSame (XBin CDiv (XMake (XK (KrName "width_kind") (UrName "si::metre") (RInt I32)) (XBin CMul (XC (CNum (RInt I32) (NInt 2))) (XC (CRef "si" "m")))) (XMake (XK (KrDown (KrName "width_kind") "dim_one") (UrName "one") (RInt I32)) (XC (CNum (RInt I32) (NInt 3))))) (XMake (XK (KrName "width_kind") (UrName "si::metre") (RInt I32)) (XBin CMul (XC (CNum (RInt I32) (NInt 0))) (XC (CRef "si" "m")))));
  (579, SSame (XBin CDiv (XMake (XK (KrName "width_kind") (UrName "si::metre") (RInt I32)) (XBin CMul (XC (CNum (RInt I32) (NInt 2))) (XC (CRef "si" "m")))) (XMake (XK (KrDown (KrName "width_kind") "dim_one") (UrName "one") (RFlt F64)) (XC (CNum (RFlt F64) (NFlt (S754_finite false 6755399441055744 (-51))))))) (XMake (XK (KrName "width_kind") (UrName "si::metre") (RFlt F64)) (XBin CMul (XBin CDiv (XC (CNum (RInt I32) (NInt 2))) (XC (CNum (RFlt F64) (NFlt (S754_finite false 6755399441055744 (-51)))))) (XC (CRef "si" "m")))));
  (581, SSame (XBin CDiv (XMake (XK (KrName "width_kind") (UrName "si::metre") (RFlt F64)) (XBin CMul (XC (CNum (RFlt F64) (NFlt (S754_finite false 4503599627370496 (-51))))) (XC (CRef "si" "m")))) (XMake (XK (KrDown (KrName "width_kind") "dim_one") (UrName "one") (RFlt F64)) (XC (CNum (RInt I32) (NInt 3))))) (XMake (XK (KrName "width_kind") (UrName "si::metre") (RFlt F64)) (XBin CMul (XBin CDiv (XC (CNum (RFlt F64) (NFlt (S754_finite false 4503599627370496 (-51))))) (XC (CNum (RInt I32) (NInt 3)))) (XC (CRef "si" "m")))));
  (584, SSame (XBin CDiv (XC (CNum (RInt I32) (NInt 2))) (XMake (XK (KrName "time_kind") (UrName "si::second") (RInt I32)) (XBin CMul (XC (CNum (RInt I32) (NInt 3))) (XC (CRef "si" "s"))))) (XMake (XK (KrDown (KrName "time_kind") "si::dim_frequency") (UrName "si::hertz") (RInt I32)) (XBin CDiv (XBin CDiv (XC (CNum (RInt I32) (NInt 2))) (XC (CNum (RInt I32) (NInt 3)))) (XBin CMul (XC (CNum (RInt I32) (NInt 1))) (XC (CRef "si" "s"))))));
  (586, SSame (XBin CDiv (XC (CNum (RInt I32) (NInt 2))) (XMake (XK (KrName "time_kind") (UrName "si::second") (RFlt F64)) (XBin CMul (XC (CNum (RFlt F64) (NFlt (S754_finite false 6755399441055744 (-51))))) (XC (CRef "si" "s"))))) (XMake (XK (KrDown (KrName "time_kind") "si::dim_frequency") (UrName "si::hertz") (RFlt F64)) (XBin CDiv (XBin CDiv (XC (CNum (RInt I32) (NInt 2))) (XC (CNum (RFlt F64) (NFlt (S754_finite false 6755399441055744 (-51)))))) (XBin CMul (XC (CNum (RInt I32) (NInt 1))) (XC (CRef "si" "s"))))));
  (588, SSame (XBin CDiv (XC (CNum (RFlt F64) (NFlt (S754_finite false 4503599627370496 (-51))))) (XMake (XK (KrName "time_kind") (UrName "si::second") (RInt I32)) (XBin CMul (XC (CNum (RInt I32) (NInt 3))) (XC (CRef "si" "s"))))) (XMake (XK (KrDown (KrName "time_kind") "si::dim_frequency") (UrName "si::hertz") (RFlt F64)) (XBin CDiv (XBin CDiv (XC (CNum (RInt I32) (NInt 2))) (XC (CNum (RFlt F64) (NFlt (S754_finite false 6755399441055744 (-51)))))) (XBin CMul (XC (CNum (RInt I32) (NInt 1))) (XC (CRef "si" "s"))))));
  (591, SSame (XBin CDiv (XDeduce FQuantity (XC (CNum (RInt I32) (NInt 2)))) (XMake (XK (KrName "time_kind") (UrName "si::second") (RInt I32)) (XBin CMul (XC (CNum (RInt I32) (NInt 3))) (XC (CRef "si" "s"))))) (XMake (XK (KrDown (KrName "time_kind") "si::dim_frequency") (UrName "si::hertz") (RInt I32)) (XBin CDiv (XBin CDiv (XC (CNum (RInt I32) (NInt 2))) (XC (CNum (RInt I32) (NInt 3)))) (XBin CMul (XC (CNum (RInt I32) (NInt 1))) (XC (CRef "si" "s"))))));
  (593, SSame (XBin CDiv (XDeduce FQuantity (XC (CNum (RInt I32) (NInt 2)))) (XMake (XK (KrName "time_kind") (UrName "si::second") (RFlt F64)) (XBin CMul (XC (CNum (RFlt F64) (NFlt (S754_finite false 6755399441055744 (-51))))) (XC (CRef "si" "s"))))) (XMake (XK (KrDown (KrName "time_kind") "si::dim_frequency") (UrName "si::hertz") (RFlt F64)) (XBin CDiv (XBin CDiv (XC (CNum (RInt I32) (NInt 2))) (XC (CNum (RFlt F64) (NFlt (S754_finite false 6755399441055744 (-51)))))) (XBin CMul (XC (CNum (RInt I32) (NInt 1))) (XC (CRef "si" "s"))))));
  (595, SSame (XBin CDiv (XDeduce FQuantity (XC (CNum (RFlt F64) (NFlt (S754_finite false 4503599627370496 (-51)))))) (XMake (XK (KrName "time_kind") (UrName "si::second") (RInt I32)) (XBin CMul (XC (CNum (RInt I32) (NInt 3))) (XC (CRef "si" "s"))))) (XMake (XK (KrDown (KrName "time_kind") "si::dim_frequency") (UrName "si::hertz") (RFlt F64)) (XBin CDiv (XBin CDiv (XC (CNum (RInt I32) (NInt 2))) (XC (CNum (RFlt F64) (NFlt (S754_finite false 6755399441055744 (-51)))))) (XBin CMul (XC (CNum (RInt I32) (NInt 1))) (XC (CRef "si" "s"))))));
  (598, SSame (XBin CDiv (XMake (XK (KrDown (KrName "time_kind") "dim_one") (UrName "one") (RInt I32)) (XC (CNum (RInt I32) (NInt 2)))) (XMake (XK (KrName "time_kind") (UrName "si::second") (RInt I32)) (XBin CMul (XC (CNum (RInt I32) (NInt 3))) (XC (CRef "si" "s"))))) (XMake (XK (KrDown (KrName "time_kind") "si::dim_frequency") (UrName "si::hertz") (RInt I32)) (XBin CDiv (XBin CDiv (XC (CNum (RInt I32) (NInt 2))) (XC (CNum (RInt I32) (NInt 3)))) (XBin CMul (XC (CNum (RInt I32) (NInt 1))) (XC (CRef "si" "s"))))));
  (601, SSame (XBin CDiv (XMake (XK (KrDown (KrName "time_kind") "dim_one") (UrName "one") (RInt I32)) (XC (CNum (RInt I32) (NInt 2)))) (XMake (XK (KrName "time_kind") (UrName "si::second") (RFlt F64)) (XBin CMul (XC (CNum (RFlt F64) (NFlt (S754_finite false 6755399441055744 (-51))))) (XC (CRef "si" "s"))))) (XMake (XK (KrDown (KrName "time_kind") "si::dim_frequency") (UrName "si::hertz") (RFlt F64)) (XBin CDiv (XBin CDiv (XC (CNum (RInt I32) (NInt 2))) (XC (CNum (RFlt F64) (NFlt (S754_finite false 6755399441055744 (-51)))))) (XBin CMul (XC (CNum (RInt I32) (NInt 1))) (XC (CRef "si" "s"))))));
  (604, SSame (XBin CDiv (XMake (XK (KrDown (KrName "time_kind") "dim_one") (UrName "one") (RFlt F64)) (XC (CNum (RFlt F64) (NFlt (S754_finite false 4503599627370496 (-51)))))) (XMake (XK (KrName "time_kind") (UrName "si::second") (RInt I32)) (XBin CMul (XC (CNum (RInt I32) (NInt 3))) (XC (CRef "si" "s"))))) (XMake (XK (KrDown (KrName "time_kind") "si::dim_frequency") (UrName "si::hertz") (RFlt F64)) (XBin CDiv (XBin CDiv (XC (CNum (RInt I32) (NInt 2))) (XC (CNum (RFlt F64) (NFlt (S754_finite false 6755399441055744 (-51)))))) (XBin CMul (XC (CNum (RInt I32) (NInt 1))) (XC (CRef "si" "s"))))));
  (608, SSame (XBin CDiv (XMake (XK (KrName "height_kind") (UrName "si::metre") (RInt I32)) (XBin CMul (XC (CNum (RInt I32) (NInt 2))) (XC (CRef "si" "m")))) (XBin CMul (XC (CNum (RInt I32) (NInt 3))) (XC (CRef "si" "s")))) (XMake (XK (KrName "rate_of_climb_kind") (UrName "si::metre_per_second") (RInt I32)) (XBin CMul (XC (CNum (RInt I32) (NInt 0))) (XBin CDiv (XC (CRef "si" "m")) (XC (CRef "si" "s"))))));
  (609, SSame (XBin CDiv (XMake (XK (KrName "height_kind") (UrName "si::metre") (RInt I32)) (XBin CMul (XC (CNum (RInt I32) (NInt 2))) (XC (CRef "si" "m")))) (XBin CMul (XC (CNum (RFlt F64) (NFlt (S754_finite false 6755399441055744 (-51))))) (XC (CRef "si" "s")))) (XMake (XK (KrName "rate_of_climb_kind") (UrName "si::metre_per_second") (RFlt F64)) (XBin CMul (XBin CDiv (XC (CNum (RInt I32) (NInt 2))) (XC (CNum (RFlt F64) (NFlt (S754_finite false 6755399441055744 (-51)))))) (XBin CDiv (XC (CRef "si" "m")) (XC (CRef "si" "s"))))));
  (610, SSame (XBin CDiv (XMake (XK (KrName "height_kind") (UrName "si::metre") (RFlt F64)) (XBin CMul (XC (CNum (RFlt F64) (NFlt (S754_finite false 4503599627370496 (-51))))) (XC (CRef "si" "m")))) (XBin CMul (XC (CNum (RInt I32) (NInt 3))) (XC (CRef "si" "s")))) (XMake (XK (KrName "rate_of_climb_kind") (UrName "si::metre_per_second") (RFlt F64)) (XBin CMul (XBin CDiv (XC (CNum (RFlt F64) (NFlt (S754_finite false 4503599627370496 (-51))))) (XC (CNum (RInt I32) (NInt 3)))) (XBin CDiv (XC (CRef "si" "m")) (XC (CRef "si" "s"))))));
  (612, SSame (XBin CMul (XMake (XK (KrName "width_kind") (UrName "si::metre") (RInt I32)) (XBin CMul (XC (CNum (RInt I32) (NInt 2))) (XC (CRef "si" "m")))) (XMake (XQ (TNamed "dim_one" "percent" (RInt I32))) (XC (CNum (RInt I32) (NInt 3))))) (XMake (XK (KrName "width_kind") (UrName "si::centimetre") (RInt I32)) (XBin CMul (XC (CNum (RInt I32) (NInt 6))) (XC (CRef "si" "cm")))));
  (613, SSame (XBin CMul (XMake (XQ (TNamed "dim_one" "percent" (RInt I32))) (XC (CNum (RInt I32) (NInt 2)))) (XMake (XK (KrName "width_kind") (UrName "si::metre") (RInt I32)) (XBin CMul (XC (CNum (RInt I32) (NInt 3))) (XC (CRef "si" "m"))))) (XMake (XK (KrName "width_kind") (UrName "si::centimetre") (RInt I32)) (XBin CMul (XC (CNum (RInt I32) (NInt 6))) (XC (CRef "si" "cm")))));
  (614, SSame (XBin CDiv (XMake (XK (KrName "width_kind") (UrName "si::metre") (RInt I32)) (XBin CMul (XC (CNum (RInt I32) (NInt 2))) (XC (CRef "si" "m")))) (XMake (XQ (TNamed "dim_one" "percent" (RFlt F64))) (XC (CNum (RInt I32) (NInt 3))))) (XMake (XK (KrName "width_kind") (UrName "si::hectometre") (RFlt F64)) (XBin CMul (XBin CDiv (XC (CNum (RFlt F64) (NFlt (S754_finite false 4503599627370496 (-51))))) (XC (CNum (RInt I32) (NInt 3)))) (XC (CRef "si" "hm")))));
  (615, SSame (XBin CRem (XMake (XK (KrName "width_kind") (UrName "si::metre") (RInt I32)) (XBin CMul (XC (CNum (RInt I32) (NInt 2))) (XC (CRef "si" "m")))) (XMake (XQ (TNamed "dim_one" "percent" (RInt I32))) (XC (CNum (RInt I32) (NInt 3))))) (XMake (XK (KrName "width_kind") (UrName "si::metre") (RInt I32)) (XBin CMul (XC (CNum (RInt I32) (NInt 2))) (XC (CRef "si" "m")))));
  (617, SSame (XBin CDiv (XMake (XK (KrName "height_kind") (UrName "si::metre") (RInt I32)) (XBin CMul (XC (CNum (RInt I32) (NInt 2))) (XC (CRef "si" "m")))) (XBin CMul (XC (CNum (RInt I32) (NInt 3))) (XC (CRef "si" "m")))) (XMake (XK (KrDown (KrName "height_kind") "dim_one") (UrName "one") (RInt I32)) (XC (CNum (RInt I32) (NInt 0)))));
  (619, SSame (XBin CDiv (XMake (XK (KrName "height_kind") (UrName "si::metre") (RInt I32)) (XBin CMul (XC (CNum (RInt I32) (NInt 2))) (XC (CRef "si" "m")))) (XBin CMul (XC (CNum (RFlt F64) (NFlt (S754_finite false 6755399441055744 (-51))))) (XC (CRef "si" "m")))) (XMake (XK (KrDown (KrName "height_kind") "dim_one") (UrName "one") (RFlt F64)) (XBin CDiv (XC (CNum (RInt I32) (NInt 2))) (XC (CNum (RFlt F64) (NFlt (S754_finite false 6755399441055744 (-51))))))));
  (621, SSame (XBin CDiv (XMake (XK (KrName "height_kind") (UrName "si::metre") (RFlt F64)) (XBin CMul (XC (CNum (RFlt F64) (NFlt (S754_finite false 4503599627370496 (-51))))) (XC (CRef "si" "m")))) (XBin CMul (XC (CNum (RInt I32) (NInt 3))) (XC (CRef "si" "m")))) (XMake (XK (KrDown (KrName "height_kind") "dim_one") (UrName "one") (RFlt F64)) (XBin CDiv (XC (CNum (RFlt F64) (NFlt (S754_finite false 4503599627370496 (-51))))) (XC (CNum (RInt I32) (NInt 3))))));
  (624, SSame (XBin CDiv (XBin CMul (XC (CNum (RInt I32) (NInt 2))) (XC (CRef "si" "m"))) (XMake (XK (KrName "height_kind") (UrName "si::metre") (RInt I32)) (XBin CMul (XC (CNum (RInt I32) (NInt 3))) (XC (CRef "si" "m"))))) (XMake (XK (KrDown (KrName "height_kind") "dim_one") (UrName "one") (RInt I32)) (XC (CNum (RInt I32) (NInt 0)))));
  (626, SSame (XBin CDiv (XBin CMul (XC (CNum (RInt I32) (NInt 2))) (XC (CRef "si" "m"))) (XMake (XK (KrName "height_kind") (UrName "si::metre") (RFlt F64)) (XBin CMul (XC (CNum (RFlt F64) (NFlt (S754_finite false 6755399441055744 (-51))))) (XC (CRef "si" "m"))))) (XMake (XK (KrDown (KrName "height_kind") "dim_one") (UrName "one") (RFlt F64)) (XBin CDiv (XC (CNum (RInt I32) (NInt 2))) (XC (CNum (RFlt F64) (NFlt (S754_finite false 6755399441055744 (-51))))))));
  (628, SSame (XBin CDiv (XBin CMul (XC (CNum (RFlt F64) (NFlt (S754_finite false 4503599627370496 (-51))))) (XC (CRef "si" "m"))) (XMake (XK (KrName "height_kind") (UrName "si::metre") (RInt I32)) (XBin CMul (XC (CNum (RInt I32) (NInt 3))) (XC (CRef "si" "m"))))) (XMake (XK (KrDown (KrName "height_kind") "dim_one") (UrName "one") (RFlt F64)) (XBin CDiv (XC (CNum (RFlt F64) (NFlt (S754_finite false 4503599627370496 (-51))))) (XC (CNum (RInt I32) (NInt 3))))));
  (631, SSame (XBin CDiv (XMake (XK (KrName "width_kind") (UrName "si::metre") (RInt I32)) (XBin CMul (XC (CNum (RInt I32) (NInt 8))) (XC (CRef "si" "m")))) (XMake (XK (KrName "width_kind") (UrName "si::metre") (RInt I32)) (XBin CMul (XC (CNum (RInt I32) (NInt 2))) (XC (CRef "si" "m"))))) (XMake (XK (KrDown (KrName "width_kind") "dim_one") (UrName "one") (RInt I32)) (XC (CNum (RInt I32) (NInt 4)))));
  (633, SSame (XBin CDiv (XMake (XK (KrName "width_kind") (UrName "si::metre") (RInt I32)) (XBin CMul (XC (CNum (RInt I32) (NInt 8))) (XC (CRef "si" "m")))) (XMake (XK (KrName "width_kind") (UrName "si::metre") (RFlt F64)) (XBin CMul (XC (CNum (RInt I32) (NInt 2))) (XC (CRef "si" "m"))))) (XMake (XK (KrDown (KrName "width_kind") "dim_one") (UrName "one") (RFlt F64)) (XC (CNum (RFlt F64) (NFlt (S754_finite false 4503599627370496 (-50)))))));
  (635, SSame (XBin CDiv (XMake (XK (KrName "width_kind") (UrName "si::metre") (RFlt F64)) (XBin CMul (XC (CNum (RInt I32) (NInt 8))) (XC (CRef "si" "m")))) (XMake (XK (KrName "width_kind") (UrName "si::metre") (RInt I32)) (XBin CMul (XC (CNum (RInt I32) (NInt 2))) (XC (CRef "si" "m"))))) (XMake (XK (KrDown (KrName "width_kind") "dim_one") (UrName "one") (RFlt F64)) (XC (CNum (RFlt F64) (NFlt (S754_finite false 4503599627370496 (-50)))))));
  (638, SSame (XBin CDiv (XMake (XK (KrName "apple") (UrName "one") (RInt I32)) (XC (CNum (RInt I32) (NInt 8)))) (XMake (XK (KrName "apple") (UrName "one") (RInt I32)) (XC (CNum (RInt I32) (NInt 2))))) (XMake (XK (KrName "apple") (UrName "one") (RInt I32)) (XC (CNum (RInt I32) (NInt 4)))));
  (639, SSame (XBin CDiv (XMake (XK (KrName "apple") (UrName "one") (RInt I32)) (XC (CNum (RInt I32) (NInt 8)))) (XBin CDiv (XC (CNum (RInt I32) (NInt 2))) (XMake (XK (KrName "apple") (UrName "one") (RInt I32)) (XC (CNum (RInt I32) (NInt 1)))))) (XMake (XK (KrName "apple") (UrName "one") (RInt I32)) (XC (CNum (RInt I32) (NInt 4)))));
  (641, SSame (XBin CDiv (XMake (XK (KrName "horizontal_area_kind") (UrName "si::square_metre") (RFlt F64)) (XBin CMul (XC (CNum (RInt I32) (NInt 8))) (XBin CMul (XC (CRef "si" "m")) (XC (CRef "si" "m"))))) (XMake (XK (KrName "width_kind") (UrName "si::metre") (RFlt F64)) (XBin CMul (XC (CNum (RInt I32) (NInt 2))) (XC (CRef "si" "m"))))) (XMake (XK (KrName "width_kind") (UrName "si::metre") (RFlt F64)) (XBin CMul (XC (CNum (RInt I32) (NInt 4))) (XC (CRef "si" "m")))));
  (642, SSame (XBin CDiv (XMake (XK (KrName "horizontal_area_kind") (UrName "si::square_metre") (RFlt F64)) (XBin CMul (XC (CNum (RInt I32) (NInt 4))) (XBin CMul (XC (CRef "si" "m")) (XC (CRef "si" "m"))))) (XBin CMul (XC (CNum (RInt I32) (NInt 1))) (XC (CRef "si" "m")))) (XMake (XK (KrName "width_kind") (UrName "si::metre") (RFlt F64)) (XBin CMul (XC (CNum (RInt I32) (NInt 4))) (XC (CRef "si" "m")))));
  (644, SSame (XBin CRem (XMake (XK (KrName "width_kind") (UrName "si::metre") (RInt I32)) (XBin CMul (XC (CNum (RInt I32) (NInt 2))) (XC (CRef "si" "m")))) (XC (CNum (RInt I32) (NInt 3)))) (XMake (XK (KrName "width_kind") (UrName "si::metre") (RInt I32)) (XBin CMul (XC (CNum (RInt I32) (NInt 2))) (XC (CRef "si" "m")))));
  (645, SSame (XBin CRem (XMake (XK (KrName "width_kind") (UrName "si::metre") (RInt I32)) (XBin CMul (XC (CNum (RInt I32) (NInt 3))) (XC (CRef "si" "m")))) (XMake (XK (KrName "width_kind") (UrName "si::metre") (RInt I32)) (XBin CMul (XC (CNum (RInt I32) (NInt 2))) (XC (CRef "si" "m"))))) (XMake (XK (KrName "width_kind") (UrName "si::metre") (RInt I32)) (XBin CMul (XC (CNum (RInt I32) (NInt 1))) (XC (CRef "si" "m")))));
  (647, SRep (XNumber (XCommon (XBin CRem (XMake (XK (KrName "width_kind") (UrName "si::metre") (RInt (ITy W8 false))) (XBin CMul (XC (CNum (RInt I32) (NInt 1))) (XC (CRef "si" "m")))) (XMake (XK (KrName "width_kind") (UrName "si::metre") (RInt (ITy W8 false))) (XBin CMul (XC (CNum (RInt I32) (NInt 1))) (XC (CRef "si" "m"))))))) (RInt I32));
  (651, SIll (XBin CMul (XC (CRef "si" "m")) (XStatic BOne (XK (KrName "width_kind") (UrName "si::metre") (RFlt F64)))));
  (652, SIll (XBin CMul (XStatic BOne (XK (KrName "width_kind") (UrName "si::metre") (RFlt F64))) (XStatic BOne (XK (KrName "height_kind") (UrName "si::metre") (RFlt F64)))));
  (653, SIll (XBin CMul (XStatic BOne (XK (KrName "height_kind") (UrName "si::metre") (RFlt F64))) (XDefault (XP (OrDynamic "si::dim_length") (UrName "si::metre") (RFlt F64)))));
  (654, SIll (XBin CMul (XDefault (XP (OrDynamic "si::dim_length") (UrName "si::metre") (RFlt F64))) (XStatic BOne (XK (KrName "height_kind") (UrName "si::metre") (RFlt F64)))));
  (656, SIll (XBin CDiv (XC (CRef "si" "m")) (XStatic BOne (XK (KrName "width_kind") (UrName "si::metre") (RFlt F64)))));
  (657, SIll (XBin CDiv (XStatic BOne (XK (KrName "width_kind") (UrName "si::metre") (RFlt F64))) (XStatic BOne (XK (KrName "height_kind") (UrName "si::metre") (RFlt F64)))));
  (658, SIll (XBin CDiv (XStatic BOne (XK (KrName "height_kind") (UrName "si::metre") (RFlt F64))) (XDefault (XP (OrDynamic "si::dim_length") (UrName "si::metre") (RFlt F64)))));
  (659, SIll (XBin CDiv (XDefault (XP (OrDynamic "si::dim_length") (UrName "si::metre") (RFlt F64))) (XStatic BOne (XK (KrName "height_kind") (UrName "si::metre") (RFlt F64)))));
  (661, SIll (XBin CRem (XStatic BOne (XK (KrName "width_kind") (UrName "si::metre") (RInt I32))) (XC (CRef "si" "m"))));
  (662, SIll (XBin CRem (XStatic BOne (XK (KrName "width_kind") (UrName "si::metre") (RInt I32))) (XStatic BOne (XQ (TNamed "si::dim_length" "si::metre" (RInt I32))))));
  (663, SIll (XBin CRem (XStatic BOne (XK (KrName "width_kind") (UrName "si::metre") (RInt I32))) (XDefault (XP (OrDynamic "si::dim_length") (UrName "si::metre") (RInt I32)))));
  (664, SIll (XBin CRem (XStatic BOne (XK (KrName "width_kind") (UrName "si::metre") (RInt I32))) (XC (CNum (RFlt F64) (NFlt (S754_finite false 4503599627370496 (-52)))))));
  (665, SIll (XBin CRem (XStatic BOne (XK (KrName "width_kind") (UrName "si::metre") (RInt I32))) (XStatic BOne (XK (KrName "width_kind") (UrName "si::metre") (RFlt F64)))));
  (668, SIll (XBin CMul (XStatic BOne (XK (KrDown (KrName "width_kind") "dim_one") (UrName "one") (RFlt F64))) (XStatic BOne (XK (KrDown (KrName "height_kind") "dim_one") (UrName "one") (RFlt F64)))));
  (669, SIll (XBin CMul (XStatic BOne (XK (KrDown (KrName "width_kind") "dim_one") (UrName "one") (RFlt F64))) (XStatic BOne (XK (KrName "height_kind") (UrName "si::metre") (RFlt F64)))));
  (670, SIll (XBin CMul (XStatic BOne (XK (KrName "width_kind") (UrName "si::metre") (RFlt F64))) (XStatic BOne (XK (KrDown (KrName "height_kind") "dim_one") (UrName "one") (RFlt F64)))));
  (671, SIll (XBin CMul (XStatic BOne (XK (KrDown (KrName "width_kind") "si::dim_time") (UrName "si::day") (RFlt F64))) (XStatic BOne (XK (KrName "height_kind") (UrName "si::metre") (RFlt F64)))));
  (672, SIll (XBin CMul (XStatic BOne (XK (KrName "width_kind") (UrName "si::metre") (RFlt F64))) (XStatic BOne (XK (KrDown (KrName "height_kind") "si::dim_time") (UrName "si::day") (RFlt F64)))));
  (673, SIll (XBin CMul (XStatic BOne (XK (KrDown (KrName "width_kind") "si::dim_time") (UrName "si::day") (RFlt F64))) (XStatic BOne (XK (KrDown (KrName "height_kind") "si::dim_time") (UrName "si::day") (RFlt F64)))));
  (674, SIll (XBin CDiv (XStatic BOne (XK (KrDown (KrName "width_kind") "dim_one") (UrName "one") (RFlt F64))) (XStatic BOne (XK (KrDown (KrName "height_kind") "dim_one") (UrName "one") (RFlt F64)))));
  (675, SIll (XBin CDiv (XStatic BOne (XK (KrDown (KrName "width_kind") "dim_one") (UrName "one") (RFlt F64))) (XStatic BOne (XK (KrName "height_kind") (UrName "si::metre") (RFlt F64)))));
  (676, SIll (XBin CDiv (XStatic BOne (XK (KrName "width_kind") (UrName "si::metre") (RFlt F64))) (XStatic BOne (XK (KrDown (KrName "height_kind") "dim_one") (UrName "one") (RFlt F64)))));
  (677, SIll (XBin CDiv (XStatic BOne (XK (KrDown (KrName "width_kind") "si::dim_time") (UrName "si::day") (RFlt F64))) (XStatic BOne (XK (KrName "height_kind") (UrName "si::metre") (RFlt F64)))));
  (678, SIll (XBin CDiv (XStatic BOne (XK (KrName "width_kind") (UrName "si::metre") (RFlt F64))) (XStatic BOne (XK (KrDown (KrName "height_kind") "si::dim_time") (UrName "si::day") (RFlt F64)))));
  (679, SIll (XBin CDiv (XStatic BOne (XK (KrDown (KrName "width_kind") "si::dim_time") (UrName "si::day") (RFlt F64))) (XStatic BOne (XK (KrDown (KrName "height_kind") "si::dim_time") (UrName "si::day") (RFlt F64)))));
  (680, SIll (XBin CRem (XStatic BOne (XK (KrDown (KrName "width_kind") "dim_one") (UrName "one") (RFlt F64))) (XStatic BOne (XK (KrDown (KrName "height_kind") "dim_one") (UrName "one") (RFlt F64)))));
  (681, SIll (XBin CRem (XStatic BOne (XK (KrDown (KrName "width_kind") "dim_one") (UrName "one") (RFlt F64))) (XStatic BOne (XK (KrName "height_kind") (UrName "si::metre") (RFlt F64)))));
  (682, SIll (XBin CRem (XStatic BOne (XK (KrName "width_kind") (UrName "si::metre") (RFlt F64))) (XStatic BOne (XK (KrDown (KrName "height_kind") "dim_one") (UrName "one") (RFlt F64)))));
  (683, SIll (XBin CRem (XStatic BOne (XK (KrDown (KrName "width_kind") "si::dim_time") (UrName "si::day") (RFlt F64))) (XStatic BOne (XK (KrName "height_kind") (UrName "si::metre") (RFlt F64)))));
  (684, SIll (XBin CRem (XStatic BOne (XK (KrName "width_kind") (UrName "si::metre") (RFlt F64))) (XStatic BOne (XK (KrDown (KrName "height_kind") "si::dim_time") (UrName "si::day") (RFlt F64)))));
  (685, SIll (XBin CRem (XStatic BOne (XK (KrDown (KrName "width_kind") "si::dim_time") (UrName "si::day") (RFlt F64))) (XStatic BOne (XK (KrDown (KrName "height_kind") "si::dim_time") (UrName "si::day") (RFlt F64)))));
  (693, SCmp CEq (XMake (XK (KrName "width_kind") (UrName "si::metre") (RInt I32)) (XBin CMul (XC (CNum (RInt I32) (NInt 1))) (XC (CRef "si" "m")))) (XMake (XK (KrName "width_kind") (UrName "si::metre") (RInt I32)) (XBin CMul (XC (CNum (RInt I32) (NInt 1))) (XC (CRef "si" "m")))));
  (694, SCmp CEq (XMake (XK (KrName "width_kind") (UrName "si::metre") (RInt I32)) (XBin CMul (XC (CNum (RInt I32) (NInt 1))) (XC (CRef "si" "m")))) (XMake (XK (KrName "width_kind") (UrName "si::metre") (RFlt F64)) (XBin CMul (XC (CNum (RFlt F64) (NFlt (S754_finite false 4503599627370496 (-52))))) (XC (CRef "si" "m")))));
  (695, SCmp CEq (XMake (XK (KrName "width_kind") (UrName "si::metre") (RInt I32)) (XBin CMul (XC (CNum (RInt I32) (NInt 1))) (XC (CRef "si" "m")))) (XMake (XK (KrName "width_kind") (UrName "si::millimetre") (RInt I32)) (XBin CMul (XC (CNum (RInt I32) (NInt 1000))) (XC (CRef "si" "mm")))));
  (696, SCmp CEq (XMake (XK (KrName "width_kind") (UrName "si::metre") (RInt I32)) (XBin CMul (XC (CNum (RInt I32) (NInt 1))) (XC (CRef "si" "m")))) (XMake (XK (KrName "width_kind") (UrName "si::millimetre") (RFlt F64)) (XBin CMul (XC (CNum (RFlt F64) (NFlt (S754_finite false 8796093022208000 (-43))))) (XC (CRef "si" "mm")))));
  (697, SCmp CNe (XMake (XK (KrName "width_kind") (UrName "si::metre") (RInt I32)) (XBin CMul (XC (CNum (RInt I32) (NInt 2))) (XC (CRef "si" "m")))) (XMake (XK (KrName "width_kind") (UrName "si::metre") (RInt I32)) (XBin CMul (XC (CNum (RInt I32) (NInt 1))) (XC (CRef "si" "m")))));
  (698, SCmp CNe (XMake (XK (KrName "width_kind") (UrName "si::metre") (RInt I32)) (XBin CMul (XC (CNum (RInt I32) (NInt 2))) (XC (CRef "si" "m")))) (XMake (XK (KrName "width_kind") (UrName "si::centimetre") (RFlt F64)) (XBin CMul (XC (CNum (RFlt F64) (NFlt (S754_finite false 4503599627370496 (-52))))) (XC (CRef "si::cgs" "cm")))));
  (699, SWellCmp CEq (XStatic BOne (XK (KrName "width_kind") (UrName "si::metre") (RInt I32))) (XStatic BOne (XK (KrName "width_kind") (UrName "si::metre") (RFlt F64))));
  (700, SWellCmp CEq (XStatic BOne (XK (KrName "width_kind") (UrName "si::nanometre") (RInt I32))) (XStatic BOne (XK (KrName "width_kind") (UrName "si::kilometre") (RInt I32))));
  (701, SWellCmp CEq (XStatic BOne (XK (KrName "width_kind") (UrName "si::centimetre") (RInt I32))) (XStatic BOne (XK (KrName "width_kind") (UrName "si::millimetre") (RFlt F64))));
  (702, SWellCmp CEq (XStatic BOne (XK (KrName "width_kind") (UrName "si::metre") (RFlt F64))) (XStatic BOne (XK (KrName "width_kind") (UrName "si::centimetre") (RFlt F64))));
  (705, SIllCmp CEq (XStatic BOne (XK (KrName "width_kind") (UrName "si::metre") (RInt I32))) (XC (CNum (RInt I32) (NInt 1))));
  (706, SIllCmp CNe (XStatic BOne (XK (KrName "width_kind") (UrName "si::metre") (RInt I32))) (XC (CNum (RFlt F64) (NFlt (S754_finite false 4503599627370496 (-52))))));
  (707, SIllCmp CEq (XStatic BOne (XK (KrName "width_kind") (UrName "si::metre") (RInt I32))) (XBin CMul (XC (CNum (RInt I32) (NInt 1))) (XC (CRef "si" "m"))));
  (708, SIllCmp CNe (XStatic BOne (XK (KrName "width_kind") (UrName "si::metre") (RInt I32))) (XBin CMul (XC (CNum (RFlt F64) (NFlt (S754_finite false 4503599627370496 (-52))))) (XC (CRef "si::cgs" "cm"))));
  (709, SIllCmp CEq (XStatic BOne (XK (KrName "width_kind") (UrName "si::metre") (RInt I32))) (XBin CMul (XC (CNum (RInt I32) (NInt 1))) (XC (CRef "si" "km"))));
  (710, SIllCmp CNe (XStatic BOne (XK (KrName "width_kind") (UrName "si::metre") (RInt I32))) (XC (CRef "si" "m")));
  (711, SIllCmp CEq (XStatic BOne (XK (KrName "width_kind") (UrName "si::metre") (RInt I32))) (XC (CRef "si" "km")));
  (712, SIllCmp CNe (XStatic BOne (XK (KrName "width_kind") (UrName "si::metre") (RInt I32))) (XDeduce FQuantity (XC (CNum (RInt I32) (NInt 1)))));
  (713, SIllCmp CEq (XStatic BOne (XK (KrName "width_kind") (UrName "si::metre") (RInt I32))) (XMake (XQ (TNamed "dim_one" "percent" (RFlt F64))) (XC (CNum (RFlt F64) (NFlt (S754_finite false 4503599627370496 (-52)))))));
  (714, SIllCmp CNe (XStatic BOne (XK (KrName "width_kind") (UrName "si::metre") (RInt I32))) (XMake (XK (KrName "height_kind") (UrName "si::metre") (RInt I32)) (XBin CMul (XC (CNum (RInt I32) (NInt 1))) (XC (CRef "si" "m")))));
  (715, SIllCmp CEq (XStatic BOne (XK (KrName "width_kind") (UrName "si::metre") (RInt I32))) (XMake (XK (KrName "height_kind") (UrName "si::kilometre") (RFlt F64)) (XBin CMul (XC (CNum (RFlt F64) (NFlt (S754_finite false 4503599627370496 (-52))))) (XC (CRef "si" "km")))));
  (716, SIllCmp CNe (XStatic BOne (XK (KrName "width_kind") (UrName "si::metre") (RInt I32))) (XMake (XK (KrName "horizontal_area_kind") (UrName "si::square_metre") (RInt I32)) (XBin CMul (XC (CNum (RInt I32) (NInt 1))) (XBin CMul (XC (CRef "si" "m")) (XC (CRef "si" "m"))))));
  (717, SIllCmp CEq (XStatic BOne (XK (KrName "width_kind") (UrName "si::metre") (RInt I32))) (XMake (XK (KrName "rate_of_climb_kind") (UrName "si::kilometre_per_hour") (RFlt F64)) (XBin CMul (XC (CNum (RFlt F64) (NFlt (S754_finite false 4503599627370496 (-52))))) (XBin CDiv (XC (CRef "si" "km")) (XC (CRef "si" "h"))))));
  (718, SIllCmp CNe (XStatic BOne (XK (KrName "width_kind") (UrName "si::metre") (RInt I32))) (XDeduce FPoint (XBin CMul (XC (CNum (RInt I32) (NInt 1))) (XC (CRef "si" "m")))));
  (719, SIllCmp CEq (XStatic BOne (XK (KrName "width_kind") (UrName "si::metre") (RInt I32))) (XDeduce FPoint (XBin CMul (XC (CNum (RFlt F64) (NFlt (S754_finite false 4503599627370496 (-52))))) (XC (CRef "si" "mm")))));
  (720, SIllCmp CNe (XStatic BOne (XK (KrName "width_kind") (UrName "si::metre") (RInt I32))) (XDeduce FPoint (XDeduce FQuantity (XC (CNum (RInt I32) (NInt 1))))));
  (721, SIllCmp CEq (XStatic BOne (XK (KrName "width_kind") (UrName "si::metre") (RInt I32))) (XDeduce FPoint (XMake (XQ (TNamed "dim_one" "percent" (RFlt F64))) (XC (CNum (RFlt F64) (NFlt (S754_finite false 4503599627370496 (-52))))))));
  (725, SCmp CLt (XMake (XK (KrName "width_kind") (UrName "si::metre") (RInt I32)) (XBin CMul (XC (CNum (RInt I32) (NInt 1))) (XC (CRef "si" "m")))) (XMake (XK (KrName "width_kind") (UrName "si::metre") (RInt I32)) (XBin CMul (XC (CNum (RInt I32) (NInt 2))) (XC (CRef "si" "m")))));
  (726, SCmp CLe (XMake (XK (KrName "width_kind") (UrName "si::metre") (RInt I32)) (XBin CMul (XC (CNum (RInt I32) (NInt 1))) (XC (CRef "si" "m")))) (XMake (XK (KrName "width_kind") (UrName "si::metre") (RFlt F64)) (XBin CMul (XC (CNum (RFlt F64) (NFlt (S754_finite false 4503599627370496 (-51))))) (XC (CRef "si" "m")))));
  (727, SCmp CLe (XMake (XK (KrName "width_kind") (UrName "si::metre") (RInt I32)) (XBin CMul (XC (CNum (RInt I32) (NInt 1))) (XC (CRef "si" "m")))) (XMake (XK (KrName "width_kind") (UrName "si::kilometre") (RInt I32)) (XBin CMul (XC (CNum (RInt I32) (NInt 1))) (XC (CRef "si" "km")))));
  (728, SCmp CGe (XMake (XK (KrName "width_kind") (UrName "si::metre") (RInt I32)) (XBin CMul (XC (CNum (RInt I32) (NInt 1))) (XC (CRef "si" "m")))) (XMake (XK (KrName "width_kind") (UrName "si::millimetre") (RFlt F64)) (XBin CMul (XC (CNum (RFlt F64) (NFlt (S754_finite false 8796093022208000 (-43))))) (XC (CRef "si" "mm")))));
  (729, SCmp CGe (XMake (XK (KrName "width_kind") (UrName "si::metre") (RInt I32)) (XBin CMul (XC (CNum (RInt I32) (NInt 2))) (XC (CRef "si" "m")))) (XMake (XK (KrName "width_kind") (UrName "si::millimetre") (RInt I32)) (XBin CMul (XC (CNum (RInt I32) (NInt 1))) (XC (CRef "si" "mm")))));
  (730, SCmp CGt (XMake (XK (KrName "width_kind") (UrName "si::metre") (RInt I32)) (XBin CMul (XC (CNum (RInt I32) (NInt 2))) (XC (CRef "si" "m")))) (XMake (XK (KrName "width_kind") (UrName "si::centimetre") (RInt I32)) (XBin CMul (XC (CNum (RInt I32) (NInt 1))) (XC (CRef "si::cgs" "cm")))));
  (731, SWellCmp CLt (XStatic BOne (XK (KrName "width_kind") (UrName "si::metre") (RInt I32))) (XStatic BOne (XK (KrName "width_kind") (UrName "si::metre") (RFlt F64))));
  (732, SWellCmp CLt (XStatic BOne (XK (KrName "width_kind") (UrName "si::nanometre") (RInt I32))) (XStatic BOne (XK (KrName "width_kind") (UrName "si::kilometre") (RInt I32))));
  (733, SWellCmp CLt (XStatic BOne (XK (KrName "width_kind") (UrName "si::centimetre") (RInt I32))) (XStatic BOne (XK (KrName "width_kind") (UrName "si::millimetre") (RFlt F64))));
  (734, SWellCmp CLt (XStatic BOne (XK (KrName "width_kind") (UrName "si::metre") (RFlt F64))) (XStatic BOne (XK (KrName "width_kind") (UrName "si::centimetre") (RFlt F64))));
  (737, SIllCmp CLt (XStatic BOne (XK (KrName "width_kind") (UrName "si::metre") (RInt I32))) (XC (CNum (RInt I32) (NInt 1))));
  (738, SIllCmp CLe (XStatic BOne (XK (KrName "width_kind") (UrName "si::metre") (RInt I32))) (XC (CNum (RFlt F64) (NFlt (S754_finite false 4503599627370496 (-52))))));
  (739, SIllCmp CGe (XStatic BOne (XK (KrName "width_kind") (UrName "si::metre") (RInt I32))) (XBin CMul (XC (CNum (RInt I32) (NInt 1))) (XC (CRef "si" "m"))));
  (740, SIllCmp CGt (XStatic BOne (XK (KrName "width_kind") (UrName "si::metre") (RInt I32))) (XBin CMul (XC (CNum (RFlt F64) (NFlt (S754_finite false 4503599627370496 (-52))))) (XC (CRef "si::cgs" "cm"))));
  (741, SIllCmp CLt (XStatic BOne (XK (KrName "width_kind") (UrName "si::metre") (RInt I32))) (XBin CMul (XC (CNum (RInt I32) (NInt 1))) (XC (CRef "si" "km"))));
  (742, SIllCmp CLt (XStatic BOne (XK (KrName "width_kind") (UrName "si::metre") (RInt I32))) (XDeduce FQuantity (XC (CNum (RInt I32) (NInt 1)))));
  (743, SIllCmp CLe (XStatic BOne (XK (KrName "width_kind") (UrName "si::metre") (RInt I32))) (XMake (XQ (TNamed "dim_one" "percent" (RFlt F64))) (XC (CNum (RFlt F64) (NFlt (S754_finite false 4503599627370496 (-52)))))));
  (744, SIllCmp CGe (XStatic BOne (XK (KrName "width_kind") (UrName "si::metre") (RInt I32))) (XMake (XK (KrName "height_kind") (UrName "si::metre") (RInt I32)) (XBin CMul (XC (CNum (RInt I32) (NInt 1))) (XC (CRef "si" "m")))));
  (745, SIllCmp CGt (XStatic BOne (XK (KrName "width_kind") (UrName "si::metre") (RInt I32))) (XMake (XK (KrName "height_kind") (UrName "si::kilometre") (RFlt F64)) (XBin CMul (XC (CNum (RFlt F64) (NFlt (S754_finite false 4503599627370496 (-52))))) (XC (CRef "si" "km")))));
  (746, SIllCmp CLt (XStatic BOne (XK (KrName "width_kind") (UrName "si::metre") (RInt I32))) (XMake (XK (KrName "horizontal_area_kind") (UrName "si::square_metre") (RInt I32)) (XBin CMul (XC (CNum (RInt I32) (NInt 1))) (XBin CMul (XC (CRef "si" "m")) (XC (CRef "si" "m"))))));
  (747, SIllCmp CLt (XStatic BOne (XK (KrName "width_kind") (UrName "si::metre") (RInt I32))) (XMake (XK (KrName "rate_of_climb_kind") (UrName "si::kilometre_per_hour") (RFlt F64)) (XBin CMul (XC (CNum (RFlt F64) (NFlt (S754_finite false 4503599627370496 (-52))))) (XBin CDiv (XC (CRef "si" "km")) (XC (CRef "si" "h"))))));
  (748, SIllCmp CLe (XStatic BOne (XK (KrName "width_kind") (UrName "si::metre") (RInt I32))) (XDeduce FPoint (XBin CMul (XC (CNum (RInt I32) (NInt 1))) (XC (CRef "si" "m")))));
  (749, SIllCmp CGe (XStatic BOne (XK (KrName "width_kind") (UrName "si::metre") (RInt I32))) (XDeduce FPoint (XBin CMul (XC (CNum (RFlt F64) (NFlt (S754_finite false 4503599627370496 (-52))))) (XC (CRef "si" "mm")))));
  (750, SIllCmp CGt (XStatic BOne (XK (KrName "width_kind") (UrName "si::metre") (RInt I32))) (XDeduce FPoint (XDeduce FQuantity (XC (CNum (RInt I32) (NInt 1))))));
  (751, SIllCmp CLt (XStatic BOne (XK (KrName "width_kind") (UrName "si::metre") (RInt I32))) (XDeduce FPoint (XMake (XQ (TNamed "dim_one" "percent" (RFlt F64))) (XC (CNum (RFlt F64) (NFlt (S754_finite false 4503599627370496 (-52))))))));
  (761, SSame (XCast (XsType (XK (KrName "width_kind") (UrName "si::metre") (RInt I32))) (XMake (XK (KrName "width_kind") (UrName "si::metre") (RInt I32)) (XBin CMul (XC (CNum (RInt I32) (NInt 1))) (XC (CRef "si" "m"))))) (XMake (XK (KrName "width_kind") (UrName "si::metre") (RInt I32)) (XBin CMul (XC (CNum (RInt I32) (NInt 1))) (XC (CRef "si" "m")))));
  (762, SSame (XCast (XsType (XK (KrName "width_kind") (UrName "si::metre") (RFlt F64))) (XMake (XK (KrName "width_kind") (UrName "si::metre") (RInt I32)) (XBin CMul (XC (CNum (RInt I32) (NInt 1))) (XC (CRef "si" "m"))))) (XMake (XK (KrName "width_kind") (UrName "si::metre") (RFlt F64)) (XBin CMul (XC (CNum (RFlt F64) (NFlt (S754_finite false 4503599627370496 (-52))))) (XC (CRef "si" "m")))));
  (763, SSame (XCast (XsType (XK (KrName "width_kind") (UrName "si::kilometre") (RInt I32))) (XMake (XK (KrName "width_kind") (UrName "si::metre") (RInt I32)) (XBin CMul (XC (CNum (RInt I32) (NInt 999))) (XC (CRef "si" "m"))))) (XMake (XK (KrName "width_kind") (UrName "si::kilometre") (RInt I32)) (XBin CMul (XC (CNum (RInt I32) (NInt 0))) (XC (CRef "si" "km")))));
  (764, SSame (XCast (XsType (XK (KrName "width_kind") (UrName "si::kilometre") (RInt I32))) (XMake (XK (KrName "width_kind") (UrName "si::metre") (RInt I32)) (XBin CMul (XC (CNum (RInt I32) (NInt 1000))) (XC (CRef "si" "m"))))) (XMake (XK (KrName "width_kind") (UrName "si::kilometre") (RInt I32)) (XBin CMul (XC (CNum (RInt I32) (NInt 1))) (XC (CRef "si" "km")))));
  (765, SSame (XCast (XsType (XK (KrName "width_kind") (UrName "si::kilometre") (RFlt F64))) (XMake (XK (KrName "width_kind") (UrName "si::metre") (RInt I32)) (XBin CMul (XC (CNum (RInt I32) (NInt 999))) (XC (CRef "si" "m"))))) (XMake (XK (KrName "width_kind") (UrName "si::kilometre") (RFlt F64)) (XBin CMul (XC (CNum (RFlt F64) (NFlt (S754_finite false 8998192055486251 (-53))))) (XC (CRef "si" "km")))));
  (766, SSame (XCast (XsRep (RFlt F64)) (XMake (XK (KrName "width_kind") (UrName "si::metre") (RInt I32)) (XBin CMul (XC (CNum (RInt I32) (NInt 1))) (XC (CRef "si" "m"))))) (XMake (XK (KrName "width_kind") (UrName "si::metre") (RFlt F64)) (XBin CMul (XC (CNum (RFlt F64) (NFlt (S754_finite false 4503599627370496 (-52))))) (XC (CRef "si" "m")))));
  (767, SSame (XCast (XsUnit "si::metre") (XMake (XK (KrName "width_kind") (UrName "si::metre") (RInt I32)) (XBin CMul (XC (CNum (RInt I32) (NInt 1))) (XC (CRef "si" "m"))))) (XMake (XK (KrName "width_kind") (UrName "si::metre") (RInt I32)) (XBin CMul (XC (CNum (RInt I32) (NInt 1))) (XC (CRef "si" "m")))));
  (768, SSame (XCast (XsUnit "si::kilometre") (XMake (XK (KrName "width_kind") (UrName "si::metre") (RInt I32)) (XBin CMul (XC (CNum (RInt I32) (NInt 999))) (XC (CRef "si" "m"))))) (XMake (XK (KrName "width_kind") (UrName "si::kilometre") (RInt I32)) (XBin CMul (XC (CNum (RInt I32) (NInt 0))) (XC (CRef "si" "km")))));
  (769, SSame (XCast (XsUnit "si::kilometre") (XMake (XK (KrName "width_kind") (UrName "si::metre") (RInt I32)) (XBin CMul (XC (CNum (RInt I32) (NInt 1000))) (XC (CRef "si" "m"))))) (XMake (XK (KrName "width_kind") (UrName "si::kilometre") (RInt I32)) (XBin CMul (XC (CNum (RInt I32) (NInt 1))) (XC (CRef "si" "km")))));
  (770, SSame (XCast (XsType (XK (KrName "height_kind") (UrName "si::metre") (RInt I32))) (XMake (XK (KrName "width_kind") (UrName "si::metre") (RInt I32)) (XBin CMul (XC (CNum (RInt I32) (NInt 1))) (XC (CRef "si" "m"))))) (XMake (XK (KrName "height_kind") (UrName "si::metre") (RInt I32)) (XBin CMul (XC (CNum (RInt I32) (NInt 1))) (XC (CRef "si" "m")))));
  (771, SSame (XCast (XsType (XK (KrName "height_kind") (UrName "si::metre") (RFlt F64))) (XMake (XK (KrName "width_kind") (UrName "si::metre") (RInt I32)) (XBin CMul (XC (CNum (RInt I32) (NInt 1))) (XC (CRef "si" "m"))))) (XMake (XK (KrName "height_kind") (UrName "si::metre") (RFlt F64)) (XBin CMul (XC (CNum (RFlt F64) (NFlt (S754_finite false 4503599627370496 (-52))))) (XC (CRef "si" "m")))));
  (772, SSame (XCast (XsType (XK (KrName "height_kind") (UrName "si::kilometre") (RInt I32))) (XMake (XK (KrName "width_kind") (UrName "si::metre") (RInt I32)) (XBin CMul (XC (CNum (RInt I32) (NInt 999))) (XC (CRef "si" "m"))))) (XMake (XK (KrName "height_kind") (UrName "si::kilometre") (RInt I32)) (XBin CMul (XC (CNum (RInt I32) (NInt 0))) (XC (CRef "si" "km")))));
  (773, SSame (XCast (XsType (XK (KrName "height_kind") (UrName "si::kilometre") (RInt I32))) (XMake (XK (KrName "width_kind") (UrName "si::metre") (RInt I32)) (XBin CMul (XC (CNum (RInt I32) (NInt 1000))) (XC (CRef "si" "m"))))) (XMake (XK (KrName "height_kind") (UrName "si::kilometre") (RInt I32)) (XBin CMul (XC (CNum (RInt I32) (NInt 1))) (XC (CRef "si" "km")))));
  (774, SSame (XCast (XsType (XK (KrName "height_kind") (UrName "si::kilometre") (RFlt F64))) (XMake (XK (KrName "width_kind") (UrName "si::metre") (RInt I32)) (XBin CMul (XC (CNum (RInt I32) (NInt 999))) (XC (CRef "si" "m"))))) (XMake (XK (KrName "height_kind") (UrName "si::kilometre") (RFlt F64)) (XBin CMul (XC (CNum (RFlt F64) (NFlt (S754_finite false 8998192055486251 (-53))))) (XC (CRef "si" "km")))));
  (775, SSame (XCast (XsKind (KrName "height_kind")) (XMake (XK (KrName "width_kind") (UrName "si::metre") (RInt I32)) (XBin CMul (XC (CNum (RInt I32) (NInt 1))) (XC (CRef "si" "m"))))) (XMake (XK (KrName "height_kind") (UrName "si::metre") (RInt I32)) (XBin CMul (XC (CNum (RInt I32) (NInt 1))) (XC (CRef "si" "m")))));
  (776, SSame (XCast (XsKindUnit (KrName "height_kind") "si::metre") (XMake (XK (KrName "width_kind") (UrName "si::metre") (RInt I32)) (XBin CMul (XC (CNum (RInt I32) (NInt 1))) (XC (CRef "si" "m"))))) (XMake (XK (KrName "height_kind") (UrName "si::metre") (RInt I32)) (XBin CMul (XC (CNum (RInt I32) (NInt 1))) (XC (CRef "si" "m")))));
  (777, SSame (XCast (XsKindUnit (KrName "height_kind") "si::kilometre") (XMake (XK (KrName "width_kind") (UrName "si::metre") (RInt I32)) (XBin CMul (XC (CNum (RInt I32) (NInt 999))) (XC (CRef "si" "m"))))) (XMake (XK (KrName "height_kind") (UrName "si::kilometre") (RInt I32)) (XBin CMul (XC (CNum (RInt I32) (NInt 0))) (XC (CRef "si" "km")))));
  (778, SSame (XCast (XsKindUnit (KrName "height_kind") "si::kilometre") (XMake (XK (KrName "width_kind") (UrName "si::metre") (RInt I32)) (XBin CMul (XC (CNum (RInt I32) (NInt 1000))) (XC (CRef "si" "m"))))) (XMake (XK (KrName "height_kind") (UrName "si::kilometre") (RInt I32)) (XBin CMul (XC (CNum (RInt I32) (NInt 1))) (XC (CRef "si" "km")))));
  (779, SSame (XCast (XsType (XK (KrName "cgs_width_kind") (UrName "si::centimetre") (RInt I32))) (XMake (XK (KrName "width_kind") (UrName "si::centimetre") (RInt I32)) (XBin CMul (XC (CNum (RInt I32) (NInt 1))) (XC (CRef "si" "cm"))))) (XMake (XK (KrName "cgs_width_kind") (UrName "si::centimetre") (RInt I32)) (XBin CMul (XC (CNum (RInt I32) (NInt 1))) (XC (CRef "si::cgs" "cm")))));
  (780, SSame (XCast (XsKind (KrName "cgs_width_kind")) (XMake (XK (KrName "width_kind") (UrName "si::centimetre") (RInt I32)) (XBin CMul (XC (CNum (RInt I32) (NInt 1))) (XC (CRef "si" "cm"))))) (XMake (XK (KrName "cgs_width_kind") (UrName "si::centimetre") (RInt I32)) (XBin CMul (XC (CNum (RInt I32) (NInt 1))) (XC (CRef "si::cgs" "cm")))));
  (781, SSame (XCast (XsKindUnit (KrName "cgs_width_kind") "si::centimetre") (XMake (XK (KrName "width_kind") (UrName "si::centimetre") (RInt I32)) (XBin CMul (XC (CNum (RInt I32) (NInt 1))) (XC (CRef "si" "cm"))))) (XMake (XK (KrName "cgs_width_kind") (UrName "si::centimetre") (RInt I32)) (XBin CMul (XC (CNum (RInt I32) (NInt 1))) (XC (CRef "si::cgs" "cm")))));
  (782, SSame (XCast (XsKind (KrName "cgs_width_kind")) (XMake (XK (KrName "width_kind") (UrName "si::metre") (RInt I32)) (XBin CMul (XC (CNum (RInt I32) (NInt 1))) (XC (CRef "si" "m"))))) (XMake (XK (KrName "cgs_width_kind") (UrName "si::metre") (RInt I32)) (XBin CMul (XC (CNum (RInt I32) (NInt 1))) (XC (CRef "si" "m")))));
  (783, SSame (XCast (XsKindUnit (KrName "cgs_width_kind") "si::metre") (XMake (XK (KrName "width_kind") (UrName "si::metre") (RInt I32)) (XBin CMul (XC (CNum (RInt I32) (NInt 1))) (XC (CRef "si" "m"))))) (XMake (XK (KrName "cgs_width_kind") (UrName "si::metre") (RInt I32)) (XBin CMul (XC (CNum (RInt I32) (NInt 1))) (XC (CRef "si" "m")))));
  (784, SSame (XCast (XsDim "si::cgs::dim_length") (XMake (XK (KrName "width_kind") (UrName "si::centimetre") (RInt I32)) (XBin CMul (XC (CNum (RInt I32) (NInt 1))) (XC (CRef "si" "cm"))))) (XMake (XK (KrName "width_kind") (UrName "si::centimetre") (RInt I32)) (XBin CMul (XC (CNum (RInt I32) (NInt 1))) (XC (CRef "si::cgs" "cm")))));
  (785, SSame (XCast (XsType (XQ (TNamed "si::dim_length" "si::kilometre" (RInt I32)))) (XMake (XK (KrName "width_kind") (UrName "si::metre") (RInt I32)) (XBin CMul (XC (CNum (RInt I32) (NInt 1))) (XC (CRef "si" "m"))))) (XMake (XK (KrName "width_kind") (UrName "si::kilometre") (RInt I32)) (XBin CMul (XC (CNum (RInt I32) (NInt 0))) (XC (CRef "si" "km")))));
  (786, SSame (XCast (XsType (XQ (TNamed "si::dim_length" "si::centimetre" (RInt I32)))) (XMake (XK (KrName "width_kind") (UrName "si::metre") (RInt I32)) (XBin CMul (XC (CNum (RInt I32) (NInt 1))) (XC (CRef "si" "m"))))) (XMake (XK (KrName "width_kind") (UrName "si::centimetre") (RInt I32)) (XBin CMul (XC (CNum (RInt I32) (NInt 100))) (XC (CRef "si" "cm")))));
  (787, SSame (XCast (XsType (XQ (TNamed "si::dim_length" "si::centimetre" (RInt I32)))) (XMake (XK (KrName "width_kind") (UrName "si::metre") (RFlt F64)) (XBin CMul (XC (CNum (RFlt F64) (NFlt (S754_finite false 5764607523034235 (-59))))) (XC (CRef "si" "m"))))) (XMake (XK (KrName "width_kind") (UrName "si::centimetre") (RInt I32)) (XBin CMul (XC (CNum (RInt I32) (NInt 1))) (XC (CRef "si" "cm")))));
  (788, SSame (XCast (XsType (XQ (TNamed "si::dim_length" "si::centimetre" (RInt I32)))) (XMake (XK (KrName "width_kind") (UrName "si::centimetre") (RInt I32)) (XBin CMul (XC (CNum (RInt I32) (NInt 1))) (XC (CRef "si::cgs" "cm"))))) (XMake (XK (KrName "width_kind") (UrName "si::centimetre") (RInt I32)) (XBin CMul (XC (CNum (RInt I32) (NInt 1))) (XC (CRef "si::cgs" "cm")))));
  (792, SIll (XCast (XsType (XK (KrName "apple") (UrName "one") (RInt I32))) (XMake (XK (KrName "width_kind") (UrName "si::metre") (RInt I32)) (XBin CMul (XC (CNum (RInt I32) (NInt 1))) (XC (CRef "si" "m"))))));
  (793, SIll (XCast (XsType (XK (KrName "horizontal_area_kind") (UrName "si::square_metre") (RInt I32))) (XMake (XK (KrName "width_kind") (UrName "si::metre") (RInt I32)) (XBin CMul (XC (CNum (RInt I32) (NInt 1))) (XC (CRef "si" "m"))))));
  (794, SIll (XCast (XsType (XK (KrName "rate_of_climb_kind") (UrName "si::metre_per_second") (RInt I32))) (XMake (XK (KrName "width_kind") (UrName "si::metre") (RInt I32)) (XBin CMul (XC (CNum (RInt I32) (NInt 1))) (XC (CRef "si" "m"))))));
  (795, SIll (XCast (XsKind (KrName "apple")) (XMake (XK (KrName "width_kind") (UrName "si::metre") (RInt I32)) (XBin CMul (XC (CNum (RInt I32) (NInt 1))) (XC (CRef "si" "m"))))));
  (796, SIll (XCast (XsKind (KrName "horizontal_area_kind")) (XMake (XK (KrName "width_kind") (UrName "si::metre") (RInt I32)) (XBin CMul (XC (CNum (RInt I32) (NInt 1))) (XC (CRef "si" "m"))))));
  (797, SIll (XCast (XsKind (KrName "rate_of_climb_kind")) (XMake (XK (KrName "width_kind") (UrName "si::metre") (RInt I32)) (XBin CMul (XC (CNum (RInt I32) (NInt 1))) (XC (CRef "si" "m"))))));
  (798, SIll (XCast (XsKindUnit (KrName "apple") "one") (XMake (XK (KrName "width_kind") (UrName "si::metre") (RInt I32)) (XBin CMul (XC (CNum (RInt I32) (NInt 1))) (XC (CRef "si" "m"))))));
  (799, SIll (XCast (XsKindUnit (KrName "horizontal_area_kind") "si::square_metre") (XMake (XK (KrName "width_kind") (UrName "si::metre") (RInt I32)) (XBin CMul (XC (CNum (RInt I32) (NInt 1))) (XC (CRef "si" "m"))))));
  (800, SIll (XCast (XsKindUnit (KrName "rate_of_climb_kind") "si::metre_per_second") (XMake (XK (KrName "width_kind") (UrName "si::metre") (RInt I32)) (XBin CMul (XC (CNum (RInt I32) (NInt 1))) (XC (CRef "si" "m"))))));
  (801, SIll (XCast (XsType (XQ (TNamed "dim_one" "one" (RFlt F64)))) (XMake (XK (KrName "width_kind") (UrName "si::metre") (RInt I32)) (XBin CMul (XC (CNum (RInt I32) (NInt 1))) (XC (CRef "si" "m"))))));
  (802, SIll (XCast (XsUnit "si::square_metre") (XMake (XK (KrName "width_kind") (UrName "si::metre") (RInt I32)) (XBin CMul (XC (CNum (RInt I32) (NInt 1))) (XC (CRef "si" "m"))))));
  (803, SIll (XCast (XsUnit "si::second") (XMake (XK (KrName "width_kind") (UrName "si::metre") (RInt I32)) (XBin CMul (XC (CNum (RInt I32) (NInt 1))) (XC (CRef "si" "m"))))));
  (804, SIll (XCast (XsType (XP (OrDynamic "si::dim_length") (UrName "si::metre") (RInt I32))) (XMake (XK (KrName "width_kind") (UrName "si::metre") (RInt I32)) (XBin CMul (XC (CNum (RInt I32) (NInt 1))) (XC (CRef "si" "m"))))));
  (805, SIll (XCast (XsType (XP (OrDynamic "dim_one") (UrName "one") (RInt I32))) (XMake (XK (KrName "width_kind") (UrName "si::metre") (RInt I32)) (XBin CMul (XC (CNum (RInt I32) (NInt 1))) (XC (CRef "si" "m"))))))].
Example quantity_kind_conforms : forall est, match compile est On ["generic/dimensionless.h"; "isq/si/area.h"; "isq/si/cgs/length.h"; "isq/si/fps/length.h"; "isq/si/frequency.h"; "isq/si/speed.h"; "isq/si/time.h"] with Ok e => failing_kinds no_rebinding est e quantity_kind_declarations quantity_kind_test | _ => [-1] end = [].
Proof. intros est. vm_compute. reflexivity. Qed.

(** test/unit_test/static/quantity_point_kind_test.cpp: 326 assertions. *)
Definition quantity_point_kind_declarations : list kdecl := [KdBase "width_kind" "si::dim_length";
  KdBase "height_kind" "si::dim_length";
  KdPoint "abscissa_kind" "width_kind" (OrDynamic "si::dim_length");
  KdPoint "ordinate_kind" "height_kind" (OrDynamic "si::dim_length");
  KdBase "distance_kind" "si::dim_length";
  KdBase "cgs_width_kind" "si::cgs::dim_length";
  KdBase "cgs_height_kind" "si::cgs::dim_length";
  KdDerived "rate_of_climb_kind" "si::dim_speed" "height_kind";
  KdPoint "altitude_kind" "cgs_height_kind" (OrDynamic "si::cgs::dim_length");
  KdPoint "sea_level_altitude_kind" "height_kind" (OrUser "sea_level_origin" "si::dim_length");
  KdPoint "screen_si_width_kind" "width_kind" (OrUser "screen_origin" "si::dim_length");
  KdPoint "screen_si_cgs_width_kind" "cgs_width_kind" (OrUser "screen_origin" "si::cgs::dim_length");
  KdBase "apple" "dim_one";
  KdBase "orange" "dim_one";
  KdPoint "nth_apple_kind" "apple" (OrDynamic "dim_one");
  KdPoint "nth_orange_kind" "orange" (OrDynamic "dim_one");
  KdBase "time_kind" "si::dim_time";
  KdPoint "time_point_kind" "time_kind" (OrDynamic "si::dim_time");
  KdPoint "sys_time_point_kind" "time_kind" (OrClock "system_clock")].
Definition quantity_point_kind_test : list (Z * xassert) := [
  (142, SIllType (XX (PrName "abscissa_kind") (UrName "si::second") (RInt I32)));
  (172, SWellCmp CEq (XDefault (XX (PrName "abscissa_kind") (UrName "si::metre") (RFlt F64))) (XDefault (XX (PrName "abscissa_kind") (UrName "si::metre") (RFlt F64))));
  (173, SWellCmp CLt (XDefault (XX (PrName "abscissa_kind") (UrName "si::metre") (RFlt F64))) (XDefault (XX (PrName "abscissa_kind") (UrName "si::metre") (RFlt F64))));
  (176, SWellCmp CLt (XDefault (XX (PrName "abscissa_kind") (UrName "si::metre") (RFlt F64))) (XDefault (XX (PrName "abscissa_kind") (UrName "si::metre") (RFlt F64))));
  (185, SPointKindSame (PrName "abscissa_kind") (PrName "abscissa_kind"));
  (186, SPointKindBase (PrName "abscissa_kind") (KrName "width_kind"));
  (187, SPointKindOrigin (PrName "abscissa_kind") (OrDynamic "si::dim_length"));
  (188, SSame (XRelative (XDefault (XX (PrName "abscissa_kind") (UrName "si::metre") (RFlt F64)))) (XDefault (XK (KrName "width_kind") (UrName "si::metre") (RFlt F64))));
  (189, SMember (XX (PrName "abscissa_kind") (UrName "si::metre") (RFlt F64)) (TNamed "si::dim_length" "si::metre" (RFlt F64)));
  (190, SMember (XX (PrName "abscissa_kind") (UrName "si::metre") (RFlt F64)) (TNamed "si::dim_length" "si::metre" (RFlt F64)));
  (191, SMember (XX (PrName "abscissa_kind") (UrName "si::metre") (RFlt F64)) (TNamed "si::dim_length" "si::metre" (RFlt F64)));
  (192, SMember (XX (PrName "abscissa_kind") (UrName "si::metre") (RFlt F64)) (TNamed "si::dim_length" "si::metre" (RFlt F64)));
  (199, SSame (XRelative (XDefault (XX (PrName "abscissa_kind") (UrName "si::metre") (RFlt F64)))) (XDefault (XK (KrName "width_kind") (UrName "si::metre") (RFlt F64))));
  (206, SCmp CEq (XCommon (XRelative (XStatic BMin (XX (PrName "abscissa_kind") (UrName "si::metre") (RInt (ITy W32 false)))))) (XBin CMul (XC (CNum (RInt I32) (NInt 0))) (XC (CRef "si" "m"))));
  (207, SCmp CEq (XCommon (XRelative (XStatic BMax (XX (PrName "abscissa_kind") (UrName "si::metre") (RInt (ITy W32 false)))))) (XBin CMul (XC (CNum (RInt (ITy W32 false)) (NInt 4294967295))) (XC (CRef "si" "m"))));
  (208, SCmp CEq (XNumber (XCommon (XRelative (XStatic BMin (XX (PrName "abscissa_kind") (UrName "si::metre") (RFlt F64)))))) (XC (CNum (RFlt F64) (NFlt (S754_finite true 9007199254740991 971)))));
  (209, SCmp CEq (XNumber (XCommon (XRelative (XStatic BMax (XX (PrName "abscissa_kind") (UrName "si::metre") (RFlt F64)))))) (XC (CNum (RFlt F64) (NFlt (S754_finite false 9007199254740991 971)))));
  (228, SCmp CEq (XCommon (XRelative (XDefault (XX (PrName "abscissa_kind") (UrName "si::metre") (RFlt F64))))) (XBin CMul (XC (CNum (RInt I32) (NInt 0))) (XC (CRef "si" "m"))));
  (235, SSame (XDeduce FPointKind (XMake (XK (KrName "width_kind") (UrName "si::metre") (RInt I32)) (XBin CMul (XC (CNum (RInt I32) (NInt 0))) (XC (CRef "si" "m"))))) (XDefault (XX (PrName "abscissa_kind") (UrName "si::metre") (RInt I32))));
  (236, SSame (XDeduce FPointKind (XMake (XX (PrName "abscissa_kind") (UrName "si::metre") (RInt I32)) (XBin CMul (XC (CNum (RInt I32) (NInt 0))) (XC (CRef "si" "m"))))) (XDefault (XX (PrName "abscissa_kind") (UrName "si::metre") (RInt I32))));
  (243, SAnd (SCmp CEq (XCommon (XRelative (XMake (XX (PrName "nth_apple_kind") (UrName "one") (RFlt F64)) (XC (CNum (RFlt F64) (NFlt (S754_finite false 4503599627370496 (-52)))))))) (XC (CNum (RInt I32) (NInt 1)))) (SIll (XImplicit (XX (PrName "nth_apple_kind") (UrName "one") (RFlt F64)) (XC (CNum (RFlt F64) (NFlt (S754_finite false 4503599627370496 (-52))))))));
  (244, SAnd (SCmp CEq (XCommon (XRelative (XMake (XX (PrName "nth_apple_kind") (UrName "one") (RFlt F64)) (XC (CNum (RFlt F32) (NFlt (S754_finite false 8388608 (-23)))))))) (XC (CNum (RInt I32) (NInt 1)))) (SIll (XImplicit (XX (PrName "nth_apple_kind") (UrName "one") (RFlt F64)) (XC (CNum (RFlt F32) (NFlt (S754_finite false 8388608 (-23))))))));
  (245, SAnd (SCmp CEq (XCommon (XRelative (XMake (XX (PrName "nth_apple_kind") (UrName "one") (RFlt F64)) (XC (CNum (RInt I32) (NInt 1)))))) (XC (CNum (RInt I32) (NInt 1)))) (SIll (XImplicit (XX (PrName "nth_apple_kind") (UrName "one") (RFlt F64)) (XC (CNum (RInt I32) (NInt 1))))));
  (246, SAnd (SCmp CEq (XCommon (XRelative (XMake (XX (PrName "nth_apple_kind") (UrName "one") (RFlt F64)) (XC (CNum (RInt (ITy W16 true)) (NInt (1))))))) (XC (CNum (RInt I32) (NInt 1)))) (SIll (XImplicit (XX (PrName "nth_apple_kind") (UrName "one") (RFlt F64)) (XC (CNum (RInt (ITy W16 true)) (NInt (1)))))));
  (247, SAnd (SCmp CEq (XCommon (XRelative (XMake (XX (PrName "nth_apple_kind") (UrName "one") (RInt (ITy W16 true))) (XC (CNum (RInt I32) (NInt 1)))))) (XC (CNum (RInt I32) (NInt 1)))) (SIll (XImplicit (XX (PrName "nth_apple_kind") (UrName "one") (RInt (ITy W16 true))) (XC (CNum (RInt I32) (NInt 1))))));
  (248, SAnd (SCmp CEq (XCommon (XRelative (XMake (XX (PrName "nth_apple_kind") (UrName "one") (RInt I32)) (XC (CNum (RInt I32) (NInt 1)))))) (XC (CNum (RInt I32) (NInt 1)))) (SIll (XImplicit (XX (PrName "nth_apple_kind") (UrName "one") (RInt I32)) (XC (CNum (RInt I32) (NInt 1))))));
  (249, SAnd (SCmp CEq (XNumber (XCommon (XRelative (XMake (XX (PrName "nth_apple_kind") (UrName "percent") (RInt I32)) (XC (CNum (RInt U64) (NInt 1))))))) (XC (CNum (RInt I32) (NInt 1)))) (SIll (XImplicit (XX (PrName "nth_apple_kind") (UrName "percent") (RInt I32)) (XC (CNum (RInt U64) (NInt 1))))));
  (250, SAnd (SCmp CEq (XNumber (XCommon (XRelative (XMake (XX (PrName "nth_apple_kind") (UrName "percent") (RFlt F64)) (XC (CNum (RInt I32) (NInt 1))))))) (XC (CNum (RInt I32) (NInt 1)))) (SIll (XImplicit (XX (PrName "nth_apple_kind") (UrName "percent") (RFlt F64)) (XC (CNum (RInt I32) (NInt 1))))));
  (251, SAnd (SIll (XMake (XX (PrName "nth_apple_kind") (UrName "percent") (RInt I32)) (XC (CNum (RFlt F64) (NFlt (S754_finite false 4503599627370496 (-52))))))) (SIll (XImplicit (XX (PrName "nth_apple_kind") (UrName "percent") (RInt I32)) (XC (CNum (RFlt F64) (NFlt (S754_finite false 4503599627370496 (-52))))))));
  (252, SAnd (SIll (XMake (XX (PrName "nth_apple_kind") (UrName "one") (RInt I32)) (XC (CNum (RFlt F64) (NFlt (S754_finite false 4503599627370496 (-52))))))) (SIll (XImplicit (XX (PrName "nth_apple_kind") (UrName "one") (RInt I32)) (XC (CNum (RFlt F64) (NFlt (S754_finite false 4503599627370496 (-52))))))));
  (253, SAnd (SIll (XMake (XX (PrName "abscissa_kind") (UrName "si::metre") (RFlt F64)) (XC (CNum (RFlt F64) (NFlt (S754_finite false 4503599627370496 (-52))))))) (SIll (XImplicit (XX (PrName "abscissa_kind") (UrName "si::metre") (RFlt F64)) (XC (CNum (RFlt F64) (NFlt (S754_finite false 4503599627370496 (-52))))))));
  (254, SAnd (SIll (XMake (XX (PrName "abscissa_kind") (UrName "si::metre") (RFlt F64)) (XC (CNum (RFlt F32) (NFlt (S754_finite false 8388608 (-23))))))) (SIll (XImplicit (XX (PrName "abscissa_kind") (UrName "si::metre") (RFlt F64)) (XC (CNum (RFlt F32) (NFlt (S754_finite false 8388608 (-23))))))));
  (255, SAnd (SIll (XMake (XX (PrName "abscissa_kind") (UrName "si::metre") (RFlt F64)) (XC (CNum (RInt I32) (NInt 1))))) (SIll (XImplicit (XX (PrName "abscissa_kind") (UrName "si::metre") (RFlt F64)) (XC (CNum (RInt I32) (NInt 1))))));
  (256, SAnd (SIll (XMake (XX (PrName "abscissa_kind") (UrName "si::metre") (RFlt F64)) (XC (CNum (RInt (ITy W16 true)) (NInt (1)))))) (SIll (XImplicit (XX (PrName "abscissa_kind") (UrName "si::metre") (RFlt F64)) (XC (CNum (RInt (ITy W16 true)) (NInt (1)))))));
  (257, SAnd (SIll (XMake (XX (PrName "abscissa_kind") (UrName "si::metre") (RInt (ITy W16 true))) (XC (CNum (RInt I32) (NInt 1))))) (SIll (XImplicit (XX (PrName "abscissa_kind") (UrName "si::metre") (RInt (ITy W16 true))) (XC (CNum (RInt I32) (NInt 1))))));
  (265, SAnd (SCmp CEq (XCommon (XRelative (XMake (XX (PrName "abscissa_kind") (UrName "si::metre") (RInt (ITy W16 true))) (XBin CMul (XC (CNum (RInt I32) (NInt 1))) (XC (CRef "si" "m")))))) (XBin CMul (XC (CNum (RInt I32) (NInt 1))) (XC (CRef "si" "m")))) (SIll (XImplicit (XX (PrName "abscissa_kind") (UrName "si::metre") (RInt (ITy W16 true))) (XBin CMul (XC (CNum (RInt I32) (NInt 1))) (XC (CRef "si" "m"))))));
  (266, SAnd (SCmp CEq (XCommon (XRelative (XMake (XX (PrName "abscissa_kind") (UrName "si::metre") (RInt I32)) (XBin CMul (XC (CNum (RInt I32) (NInt 1))) (XC (CRef "si" "m")))))) (XBin CMul (XC (CNum (RInt I32) (NInt 1))) (XC (CRef "si" "m")))) (SIll (XImplicit (XX (PrName "abscissa_kind") (UrName "si::metre") (RInt I32)) (XBin CMul (XC (CNum (RInt I32) (NInt 1))) (XC (CRef "si" "m"))))));
  (267, SAnd (SCmp CEq (XCommon (XRelative (XMake (XX (PrName "abscissa_kind") (UrName "si::metre") (RInt I32)) (XBin CMul (XC (CNum (RInt I32) (NInt 1))) (XC (CRef "si" "km")))))) (XBin CMul (XC (CNum (RInt I32) (NInt 1))) (XC (CRef "si" "km")))) (SIll (XImplicit (XX (PrName "abscissa_kind") (UrName "si::metre") (RInt I32)) (XBin CMul (XC (CNum (RInt I32) (NInt 1))) (XC (CRef "si" "km"))))));
  (268, SAnd (SCmp CEq (XCommon (XRelative (XMake (XX (PrName "abscissa_kind") (UrName "si::metre") (RInt I32)) (XBin CMul (XC (CNum (RInt U64) (NInt 1))) (XC (CRef "si" "m")))))) (XBin CMul (XC (CNum (RInt I32) (NInt 1))) (XC (CRef "si" "m")))) (SIll (XImplicit (XX (PrName "abscissa_kind") (UrName "si::metre") (RInt I32)) (XBin CMul (XC (CNum (RInt U64) (NInt 1))) (XC (CRef "si" "m"))))));
  (270, SAnd (SCmp CEq (XCommon (XRelative (XMake (XX (PrName "abscissa_kind") (UrName "si::metre") (RFlt F64)) (XBin CMul (XC (CNum (RInt I32) (NInt 1))) (XC (CRef "si" "m")))))) (XBin CMul (XC (CNum (RInt I32) (NInt 1))) (XC (CRef "si" "m")))) (SIll (XImplicit (XX (PrName "abscissa_kind") (UrName "si::metre") (RFlt F64)) (XBin CMul (XC (CNum (RInt I32) (NInt 1))) (XC (CRef "si" "m"))))));
  (271, SAnd (SCmp CEq (XCommon (XRelative (XMake (XX (PrName "abscissa_kind") (UrName "si::metre") (RFlt F64)) (XBin CMul (XC (CNum (RFlt F64) (NFlt (S754_finite false 4503599627370496 (-52))))) (XC (CRef "si" "km")))))) (XBin CMul (XC (CNum (RInt I32) (NInt 1))) (XC (CRef "si" "km")))) (SIll (XImplicit (XX (PrName "abscissa_kind") (UrName "si::metre") (RFlt F64)) (XBin CMul (XC (CNum (RFlt F64) (NFlt (S754_finite false 4503599627370496 (-52))))) (XC (CRef "si" "km"))))));
  (272, SAnd (SCmp CEq (XCommon (XRelative (XMake (XX (PrName "abscissa_kind") (UrName "si::metre") (RFlt F64)) (XBin CMul (XC (CNum (RInt I32) (NInt 1))) (XC (CRef "si::cgs" "cm")))))) (XBin CMul (XC (CNum (RInt I32) (NInt 1))) (XC (CRef "si" "cm")))) (SIll (XImplicit (XX (PrName "abscissa_kind") (UrName "si::metre") (RFlt F64)) (XBin CMul (XC (CNum (RInt I32) (NInt 1))) (XC (CRef "si::cgs" "cm"))))));
  (273, SAnd (SCmp CEq (XCommon (XRelative (XMake (XX (PrName "abscissa_kind") (UrName "si::metre") (RFlt F64)) (XBin CMul (XC (CNum (RFlt F64) (NFlt (S754_finite false 4503599627370496 (-52))))) (XC (CRef "si::cgs" "cm")))))) (XBin CMul (XC (CNum (RInt I32) (NInt 1))) (XC (CRef "si" "cm")))) (SIll (XImplicit (XX (PrName "abscissa_kind") (UrName "si::metre") (RFlt F64)) (XBin CMul (XC (CNum (RFlt F64) (NFlt (S754_finite false 4503599627370496 (-52))))) (XC (CRef "si::cgs" "cm"))))));
  (274, SAnd (SIll (XMake (XX (PrName "abscissa_kind") (UrName "si::metre") (RInt I32)) (XBin CMul (XC (CNum (RInt I32) (NInt 1))) (XC (CRef "si" "mm"))))) (SIll (XImplicit (XX (PrName "abscissa_kind") (UrName "si::metre") (RInt I32)) (XBin CMul (XC (CNum (RInt I32) (NInt 1))) (XC (CRef "si" "mm"))))));
  (275, SAnd (SIll (XMake (XX (PrName "abscissa_kind") (UrName "si::metre") (RInt I32)) (XBin CMul (XC (CNum (RFlt F64) (NFlt (S754_finite false 4503599627370496 (-52))))) (XC (CRef "si" "m"))))) (SIll (XImplicit (XX (PrName "abscissa_kind") (UrName "si::metre") (RInt I32)) (XBin CMul (XC (CNum (RFlt F64) (NFlt (S754_finite false 4503599627370496 (-52))))) (XC (CRef "si" "m"))))));
  (276, SAnd (SIll (XMake (XX (PrName "abscissa_kind") (UrName "si::metre") (RInt I32)) (XBin CMul (XC (CNum (RFlt F64) (NFlt (S754_finite false 4503599627370496 (-52))))) (XC (CRef "si" "km"))))) (SIll (XImplicit (XX (PrName "abscissa_kind") (UrName "si::metre") (RInt I32)) (XBin CMul (XC (CNum (RFlt F64) (NFlt (S754_finite false 4503599627370496 (-52))))) (XC (CRef "si" "km"))))));
  (277, SAnd (SIll (XMake (XX (PrName "abscissa_kind") (UrName "si::metre") (RInt I32)) (XBin CMul (XC (CNum (RInt I32) (NInt 1))) (XC (CRef "si::cgs" "cm"))))) (SIll (XImplicit (XX (PrName "abscissa_kind") (UrName "si::metre") (RInt I32)) (XBin CMul (XC (CNum (RInt I32) (NInt 1))) (XC (CRef "si::cgs" "cm"))))));
  (278, SAnd (SIll (XMake (XX (PrName "abscissa_kind") (UrName "si::metre") (RInt I32)) (XDeduce FQuantity (XC (CNum (RInt I32) (NInt 1)))))) (SIll (XImplicit (XX (PrName "abscissa_kind") (UrName "si::metre") (RInt I32)) (XDeduce FQuantity (XC (CNum (RInt I32) (NInt 1)))))));
  (279, SAnd (SIll (XMake (XX (PrName "abscissa_kind") (UrName "si::metre") (RInt I32)) (XBin CMul (XC (CNum (RInt I32) (NInt 1))) (XC (CRef "si" "s"))))) (SIll (XImplicit (XX (PrName "abscissa_kind") (UrName "si::metre") (RInt I32)) (XBin CMul (XC (CNum (RInt I32) (NInt 1))) (XC (CRef "si" "s"))))));
  (280, SAnd (SIll (XMake (XX (PrName "abscissa_kind") (UrName "si::metre") (RInt I32)) (XDur 1 1 (RInt I64) (NInt 1)))) (SIll (XImplicit (XX (PrName "abscissa_kind") (UrName "si::metre") (RInt I32)) (XDur 1 1 (RInt I64) (NInt 1)))));
  (282, SAnd (SCmp CEq (XCommon (XRelative (XMake (XX (PrName "nth_apple_kind") (UrName "one") (RInt I32)) (XDeduce FQuantity (XC (CNum (RInt I32) (NInt 1))))))) (XC (CNum (RInt I32) (NInt 1)))) (SIll (XImplicit (XX (PrName "nth_apple_kind") (UrName "one") (RInt I32)) (XDeduce FQuantity (XC (CNum (RInt I32) (NInt 1)))))));
  (283, SAnd (SCmp CEq (XCommon (XRelative (XMake (XX (PrName "nth_apple_kind") (UrName "one") (RFlt F64)) (XMake (XQ (TNamed "dim_one" "percent" (RFlt F64))) (XC (CNum (RInt I32) (NInt 1))))))) (XC (CNum (RFlt F64) (NFlt (S754_finite false 5764607523034235 (-59)))))) (SIll (XImplicit (XX (PrName "nth_apple_kind") (UrName "one") (RFlt F64)) (XMake (XQ (TNamed "dim_one" "percent" (RFlt F64))) (XC (CNum (RInt I32) (NInt 1)))))));
  (284, SAnd (SCmp CEq (XCommon (XRelative (XMake (XX (PrName "nth_apple_kind") (UrName "one") (RFlt F64)) (XMake (XQ (TNamed "dim_one" "percent" (RFlt F64))) (XC (CNum (RInt I32) (NInt 1))))))) (XC (CNum (RFlt F64) (NFlt (S754_finite false 5764607523034235 (-59)))))) (SIll (XImplicit (XX (PrName "nth_apple_kind") (UrName "one") (RFlt F64)) (XMake (XQ (TNamed "dim_one" "percent" (RFlt F64))) (XC (CNum (RInt I32) (NInt 1)))))));
  (285, SAnd (SCmp CEq (XNumber (XCommon (XRelative (XMake (XX (PrName "nth_apple_kind") (UrName "percent") (RFlt F64)) (XMake (XQ (TNamed "dim_one" "percent" (RFlt F64))) (XC (CNum (RInt I32) (NInt 1)))))))) (XC (CNum (RInt I32) (NInt 1)))) (SIll (XImplicit (XX (PrName "nth_apple_kind") (UrName "percent") (RFlt F64)) (XMake (XQ (TNamed "dim_one" "percent" (RFlt F64))) (XC (CNum (RInt I32) (NInt 1)))))));
  (286, SAnd (SCmp CEq (XNumber (XCommon (XRelative (XMake (XX (PrName "nth_apple_kind") (UrName "percent") (RFlt F64)) (XDeduce FQuantity (XC (CNum (RInt I32) (NInt 1)))))))) (XC (CNum (RInt I32) (NInt 100)))) (SIll (XImplicit (XX (PrName "nth_apple_kind") (UrName "percent") (RFlt F64)) (XDeduce FQuantity (XC (CNum (RInt I32) (NInt 1)))))));
  (287, SAnd (SIll (XMake (XX (PrName "nth_apple_kind") (UrName "percent") (RInt I32)) (XDeduce FQuantity (XC (CNum (RFlt F64) (NFlt (S754_finite false 4503599627370496 (-52)))))))) (SIll (XImplicit (XX (PrName "nth_apple_kind") (UrName "percent") (RInt I32)) (XDeduce FQuantity (XC (CNum (RFlt F64) (NFlt (S754_finite false 4503599627370496 (-52)))))))));
  (288, SAnd (SIll (XMake (XX (PrName "nth_apple_kind") (UrName "percent") (RInt I32)) (XMake (XQ (TNamed "dim_one" "percent" (RFlt F64))) (XC (CNum (RInt I32) (NInt 1)))))) (SIll (XImplicit (XX (PrName "nth_apple_kind") (UrName "percent") (RInt I32)) (XMake (XQ (TNamed "dim_one" "percent" (RFlt F64))) (XC (CNum (RInt I32) (NInt 1)))))));
  (289, SAnd (SIll (XMake (XX (PrName "nth_apple_kind") (UrName "one") (RInt I32)) (XDeduce FQuantity (XC (CNum (RFlt F64) (NFlt (S754_finite false 4503599627370496 (-52)))))))) (SIll (XImplicit (XX (PrName "nth_apple_kind") (UrName "one") (RInt I32)) (XDeduce FQuantity (XC (CNum (RFlt F64) (NFlt (S754_finite false 4503599627370496 (-52)))))))));
  (290, SAnd (SIll (XMake (XX (PrName "nth_apple_kind") (UrName "one") (RInt I32)) (XMake (XQ (TNamed "dim_one" "percent" (RFlt F64))) (XC (CNum (RInt I32) (NInt 1)))))) (SIll (XImplicit (XX (PrName "nth_apple_kind") (UrName "one") (RInt I32)) (XMake (XQ (TNamed "dim_one" "percent" (RFlt F64))) (XC (CNum (RInt I32) (NInt 1)))))));
  (291, SAnd (SIll (XMake (XX (PrName "nth_apple_kind") (UrName "one") (RInt I32)) (XBin CMul (XC (CNum (RInt I32) (NInt 1))) (XC (CRef "si" "m"))))) (SIll (XImplicit (XX (PrName "nth_apple_kind") (UrName "one") (RInt I32)) (XBin CMul (XC (CNum (RInt I32) (NInt 1))) (XC (CRef "si" "m"))))));
  (292, SAnd (SIll (XMake (XX (PrName "nth_apple_kind") (UrName "one") (RInt I32)) (XBin CMul (XC (CNum (RInt I32) (NInt 1))) (XC (CRef "si" "s"))))) (SIll (XImplicit (XX (PrName "nth_apple_kind") (UrName "one") (RInt I32)) (XBin CMul (XC (CNum (RInt I32) (NInt 1))) (XC (CRef "si" "s"))))));
  (293, SAnd (SIll (XMake (XX (PrName "nth_apple_kind") (UrName "one") (RInt I32)) (XDur 1 1 (RInt I64) (NInt 1)))) (SIll (XImplicit (XX (PrName "nth_apple_kind") (UrName "one") (RInt I32)) (XDur 1 1 (RInt I64) (NInt 1)))));
  (301, SAnd (SCmp CEq (XCommon (XRelative (XMake (XX (PrName "abscissa_kind") (UrName "si::metre") (RInt (ITy W16 true))) (XBin CMul (XC (CNum (RInt I32) (NInt 1))) (XC (CRef "si" "m")))))) (XBin CMul (XC (CNum (RInt I32) (NInt 1))) (XC (CRef "si" "m")))) (SIll (XImplicit (XX (PrName "abscissa_kind") (UrName "si::metre") (RInt (ITy W16 true))) (XBin CMul (XC (CNum (RInt I32) (NInt 1))) (XC (CRef "si" "m"))))));
  (302, SAnd (SCmp CEq (XCommon (XRelative (XMake (XX (PrName "abscissa_kind") (UrName "si::metre") (RInt I32)) (XDeduce FPoint (XBin CMul (XC (CNum (RInt (ITy W16 true)) (NInt (1)))) (XC (CRef "si" "m"))))))) (XBin CMul (XC (CNum (RInt I32) (NInt 1))) (XC (CRef "si" "m")))) (SIll (XImplicit (XX (PrName "abscissa_kind") (UrName "si::metre") (RInt I32)) (XDeduce FPoint (XBin CMul (XC (CNum (RInt (ITy W16 true)) (NInt (1)))) (XC (CRef "si" "m")))))));
  (303, SAnd (SCmp CEq (XCommon (XRelative (XMake (XX (PrName "abscissa_kind") (UrName "si::metre") (RInt I32)) (XDeduce FPoint (XBin CMul (XC (CNum (RInt I32) (NInt 1))) (XC (CRef "si" "m"))))))) (XBin CMul (XC (CNum (RInt I32) (NInt 1))) (XC (CRef "si" "m")))) (SIll (XImplicit (XX (PrName "abscissa_kind") (UrName "si::metre") (RInt I32)) (XDeduce FPoint (XBin CMul (XC (CNum (RInt I32) (NInt 1))) (XC (CRef "si" "m")))))));
  (304, SAnd (SCmp CEq (XCommon (XRelative (XMake (XX (PrName "abscissa_kind") (UrName "si::metre") (RInt I32)) (XDeduce FPoint (XBin CMul (XC (CNum (RInt I32) (NInt 1))) (XC (CRef "si" "km"))))))) (XBin CMul (XC (CNum (RInt I32) (NInt 1))) (XC (CRef "si" "km")))) (SIll (XImplicit (XX (PrName "abscissa_kind") (UrName "si::metre") (RInt I32)) (XDeduce FPoint (XBin CMul (XC (CNum (RInt I32) (NInt 1))) (XC (CRef "si" "km")))))));
  (305, SAnd (SCmp CEq (XCommon (XRelative (XMake (XX (PrName "abscissa_kind") (UrName "si::metre") (RFlt F64)) (XDeduce FPoint (XBin CMul (XC (CNum (RInt I32) (NInt 1))) (XC (CRef "si" "m"))))))) (XBin CMul (XC (CNum (RInt I32) (NInt 1))) (XC (CRef "si" "m")))) (SIll (XImplicit (XX (PrName "abscissa_kind") (UrName "si::metre") (RFlt F64)) (XDeduce FPoint (XBin CMul (XC (CNum (RInt I32) (NInt 1))) (XC (CRef "si" "m")))))));
  (306, SAnd (SCmp CEq (XCommon (XRelative (XMake (XX (PrName "abscissa_kind") (UrName "si::metre") (RFlt F64)) (XDeduce FPoint (XBin CMul (XC (CNum (RInt I32) (NInt 1))) (XC (CRef "si" "km"))))))) (XBin CMul (XC (CNum (RInt I32) (NInt 1))) (XC (CRef "si" "km")))) (SIll (XImplicit (XX (PrName "abscissa_kind") (UrName "si::metre") (RFlt F64)) (XDeduce FPoint (XBin CMul (XC (CNum (RInt I32) (NInt 1))) (XC (CRef "si" "km")))))));
  (307, SAnd (SCmp CEq (XCommon (XRelative (XMake (XX (PrName "abscissa_kind") (UrName "si::metre") (RFlt F64)) (XDeduce FPoint (XBin CMul (XC (CNum (RFlt F64) (NFlt (S754_finite false 4503599627370496 (-52))))) (XC (CRef "si" "m"))))))) (XBin CMul (XC (CNum (RInt I32) (NInt 1))) (XC (CRef "si" "m")))) (SIll (XImplicit (XX (PrName "abscissa_kind") (UrName "si::metre") (RFlt F64)) (XDeduce FPoint (XBin CMul (XC (CNum (RFlt F64) (NFlt (S754_finite false 4503599627370496 (-52))))) (XC (CRef "si" "m")))))));
  (308, SAnd (SCmp CEq (XCommon (XRelative (XMake (XX (PrName "abscissa_kind") (UrName "si::metre") (RFlt F64)) (XDeduce FPoint (XBin CMul (XC (CNum (RFlt F64) (NFlt (S754_finite false 4503599627370496 (-52))))) (XC (CRef "si" "mm"))))))) (XBin CMul (XC (CNum (RInt I32) (NInt 1))) (XC (CRef "si" "mm")))) (SIll (XImplicit (XX (PrName "abscissa_kind") (UrName "si::metre") (RFlt F64)) (XDeduce FPoint (XBin CMul (XC (CNum (RFlt F64) (NFlt (S754_finite false 4503599627370496 (-52))))) (XC (CRef "si" "mm")))))));
  (309, SAnd (SIll (XMake (XX (PrName "abscissa_kind") (UrName "si::metre") (RInt I32)) (XDeduce FPoint (XBin CMul (XC (CNum (RInt I32) (NInt 1))) (XC (CRef "si" "mm")))))) (SIll (XImplicit (XX (PrName "abscissa_kind") (UrName "si::metre") (RInt I32)) (XDeduce FPoint (XBin CMul (XC (CNum (RInt I32) (NInt 1))) (XC (CRef "si" "mm")))))));
  (310, SAnd (SIll (XMake (XX (PrName "abscissa_kind") (UrName "si::metre") (RInt I32)) (XDeduce FPoint (XBin CMul (XC (CNum (RFlt F64) (NFlt (S754_finite false 4503599627370496 (-52))))) (XC (CRef "si" "m")))))) (SIll (XImplicit (XX (PrName "abscissa_kind") (UrName "si::metre") (RInt I32)) (XDeduce FPoint (XBin CMul (XC (CNum (RFlt F64) (NFlt (S754_finite false 4503599627370496 (-52))))) (XC (CRef "si" "m")))))));
  (311, SAnd (SIll (XMake (XX (PrName "abscissa_kind") (UrName "si::metre") (RInt I32)) (XDeduce FPoint (XBin CMul (XC (CNum (RFlt F64) (NFlt (S754_finite false 4503599627370496 (-52))))) (XC (CRef "si" "km")))))) (SIll (XImplicit (XX (PrName "abscissa_kind") (UrName "si::metre") (RInt I32)) (XDeduce FPoint (XBin CMul (XC (CNum (RFlt F64) (NFlt (S754_finite false 4503599627370496 (-52))))) (XC (CRef "si" "km")))))));
  (312, SAnd (SIll (XMake (XX (PrName "abscissa_kind") (UrName "si::metre") (RFlt F64)) (XDeduce FPoint (XBin CMul (XC (CNum (RFlt F64) (NFlt (S754_finite false 4503599627370496 (-52))))) (XBin CMul (XC (CRef "si" "m")) (XC (CRef "si" "m"))))))) (SIll (XImplicit (XX (PrName "abscissa_kind") (UrName "si::metre") (RFlt F64)) (XDeduce FPoint (XBin CMul (XC (CNum (RFlt F64) (NFlt (S754_finite false 4503599627370496 (-52))))) (XBin CMul (XC (CRef "si" "m")) (XC (CRef "si" "m"))))))));
  (313, SAnd (SIll (XMake (XX (PrName "abscissa_kind") (UrName "si::metre") (RFlt F64)) (XDeduce FPoint (XBin CMul (XC (CNum (RFlt F64) (NFlt (S754_finite false 4503599627370496 (-52))))) (XC (CRef "si" "s")))))) (SIll (XImplicit (XX (PrName "abscissa_kind") (UrName "si::metre") (RFlt F64)) (XDeduce FPoint (XBin CMul (XC (CNum (RFlt F64) (NFlt (S754_finite false 4503599627370496 (-52))))) (XC (CRef "si" "s")))))));
  (315, SAnd (SCmp CEq (XCommon (XRelative (XMake (XX (PrName "screen_si_width_kind") (UrName "si::metre") (RFlt F64)) (XMake (XP (OrUser "screen_origin" "si::dim_length") (UrName "si::metre") (RFlt F64)) (XBin CMul (XC (CNum (RInt I32) (NInt 1))) (XC (CRef "si" "m"))))))) (XBin CMul (XC (CNum (RInt I32) (NInt 1))) (XC (CRef "si" "m")))) (SIll (XImplicit (XX (PrName "screen_si_width_kind") (UrName "si::metre") (RFlt F64)) (XMake (XP (OrUser "screen_origin" "si::dim_length") (UrName "si::metre") (RFlt F64)) (XBin CMul (XC (CNum (RInt I32) (NInt 1))) (XC (CRef "si" "m")))))));
  (318, SAnd (SCmp CEq (XCommon (XRelative (XMake (XX (PrName "screen_si_width_kind") (UrName "si::metre") (RFlt F64)) (XMake (XP (OrUser "screen_origin" "si::cgs::dim_length") (UrName "si::metre") (RFlt F64)) (XBin CMul (XC (CNum (RInt I32) (NInt 1))) (XC (CRef "si" "m"))))))) (XBin CMul (XC (CNum (RInt I32) (NInt 1))) (XC (CRef "si" "m")))) (SIll (XImplicit (XX (PrName "screen_si_width_kind") (UrName "si::metre") (RFlt F64)) (XMake (XP (OrUser "screen_origin" "si::cgs::dim_length") (UrName "si::metre") (RFlt F64)) (XBin CMul (XC (CNum (RInt I32) (NInt 1))) (XC (CRef "si" "m")))))));
  (321, SAnd (SIll (XMake (XX (PrName "sea_level_altitude_kind") (UrName "si::metre") (RFlt F64)) (XDeduce FPoint (XBin CMul (XC (CNum (RFlt F64) (NFlt (S754_finite false 4503599627370496 (-52))))) (XC (CRef "si" "m")))))) (SIll (XImplicit (XX (PrName "sea_level_altitude_kind") (UrName "si::metre") (RFlt F64)) (XDeduce FPoint (XBin CMul (XC (CNum (RFlt F64) (NFlt (S754_finite false 4503599627370496 (-52))))) (XC (CRef "si" "m")))))));
  (324, SAnd (SCmp CEq (XCommon (XRelative (XMake (XX (PrName "nth_apple_kind") (UrName "one") (RInt (ITy W16 true))) (XDeduce FPoint (XC (CNum (RInt I32) (NInt 1))))))) (XC (CNum (RInt I32) (NInt 1)))) (SIll (XImplicit (XX (PrName "nth_apple_kind") (UrName "one") (RInt (ITy W16 true))) (XDeduce FPoint (XC (CNum (RInt I32) (NInt 1)))))));
  (325, SAnd (SCmp CEq (XCommon (XRelative (XMake (XX (PrName "nth_apple_kind") (UrName "one") (RInt I32)) (XDeduce FPoint (XC (CNum (RInt I32) (NInt 1))))))) (XC (CNum (RInt I32) (NInt 1)))) (SIll (XImplicit (XX (PrName "nth_apple_kind") (UrName "one") (RInt I32)) (XDeduce FPoint (XC (CNum (RInt I32) (NInt 1)))))));
  (326, SAnd (SCmp CEq (XCommon (XRelative (XMake (XX (PrName "nth_apple_kind") (UrName "one") (RFlt F64)) (XDeduce FPoint (XC (CNum (RInt I32) (NInt 1))))))) (XC (CNum (RInt I32) (NInt 1)))) (SIll (XImplicit (XX (PrName "nth_apple_kind") (UrName "one") (RFlt F64)) (XDeduce FPoint (XC (CNum (RInt I32) (NInt 1)))))));
  (327, SAnd (SCmp CEq (XCommon (XRelative (XMake (XX (PrName "nth_apple_kind") (UrName "one") (RFlt F64)) (XDeduce FPoint (XMake (XQ (TNamed "dim_one" "percent" (RInt I32))) (XC (CNum (RInt I32) (NInt 1)))))))) (XC (CNum (RFlt F64) (NFlt (S754_finite false 5764607523034235 (-59)))))) (SIll (XImplicit (XX (PrName "nth_apple_kind") (UrName "one") (RFlt F64)) (XDeduce FPoint (XMake (XQ (TNamed "dim_one" "percent" (RInt I32))) (XC (CNum (RInt I32) (NInt 1))))))));
  (328, SAnd (SCmp CEq (XCommon (XRelative (XMake (XX (PrName "nth_apple_kind") (UrName "one") (RFlt F64)) (XDeduce FPoint (XC (CNum (RFlt F64) (NFlt (S754_finite false 4503599627370496 (-52))))))))) (XC (CNum (RInt I32) (NInt 1)))) (SIll (XImplicit (XX (PrName "nth_apple_kind") (UrName "one") (RFlt F64)) (XDeduce FPoint (XC (CNum (RFlt F64) (NFlt (S754_finite false 4503599627370496 (-52)))))))));
  (329, SAnd (SCmp CEq (XCommon (XRelative (XMake (XX (PrName "nth_apple_kind") (UrName "one") (RFlt F64)) (XDeduce FPoint (XMake (XQ (TNamed "dim_one" "percent" (RFlt F64))) (XC (CNum (RFlt F64) (NFlt (S754_finite false 4503599627370496 (-52)))))))))) (XC (CNum (RFlt F64) (NFlt (S754_finite false 5764607523034235 (-59)))))) (SIll (XImplicit (XX (PrName "nth_apple_kind") (UrName "one") (RFlt F64)) (XDeduce FPoint (XMake (XQ (TNamed "dim_one" "percent" (RFlt F64))) (XC (CNum (RFlt F64) (NFlt (S754_finite false 4503599627370496 (-52))))))))));
  (330, SAnd (SCmp CEq (XNumber (XCommon (XRelative (XMake (XX (PrName "nth_apple_kind") (UrName "percent") (RInt I32)) (XDeduce FPoint (XC (CNum (RInt I32) (NInt 1)))))))) (XC (CNum (RInt I32) (NInt 100)))) (SIll (XImplicit (XX (PrName "nth_apple_kind") (UrName "percent") (RInt I32)) (XDeduce FPoint (XC (CNum (RInt I32) (NInt 1)))))));
  (331, SAnd (SCmp CEq (XNumber (XCommon (XRelative (XMake (XX (PrName "nth_apple_kind") (UrName "percent") (RFlt F64)) (XDeduce FPoint (XMake (XQ (TNamed "dim_one" "percent" (RFlt F64))) (XC (CNum (RInt I32) (NInt 1))))))))) (XC (CNum (RInt I32) (NInt 1)))) (SIll (XImplicit (XX (PrName "nth_apple_kind") (UrName "percent") (RFlt F64)) (XDeduce FPoint (XMake (XQ (TNamed "dim_one" "percent" (RFlt F64))) (XC (CNum (RInt I32) (NInt 1))))))));
  (332, SAnd (SIll (XMake (XX (PrName "nth_apple_kind") (UrName "percent") (RInt I32)) (XDeduce FPoint (XC (CNum (RFlt F64) (NFlt (S754_finite false 4503599627370496 (-52)))))))) (SIll (XImplicit (XX (PrName "nth_apple_kind") (UrName "percent") (RInt I32)) (XDeduce FPoint (XC (CNum (RFlt F64) (NFlt (S754_finite false 4503599627370496 (-52)))))))));
  (333, SAnd (SIll (XMake (XX (PrName "nth_apple_kind") (UrName "percent") (RInt I32)) (XDeduce FPoint (XMake (XQ (TNamed "dim_one" "percent" (RFlt F64))) (XC (CNum (RInt I32) (NInt 1))))))) (SIll (XImplicit (XX (PrName "nth_apple_kind") (UrName "percent") (RInt I32)) (XDeduce FPoint (XMake (XQ (TNamed "dim_one" "percent" (RFlt F64))) (XC (CNum (RInt I32) (NInt 1))))))));
  (334, SAnd (SIll (XMake (XX (PrName "nth_apple_kind") (UrName "one") (RInt I32)) (XDeduce FPoint (XC (CNum (RFlt F64) (NFlt (S754_finite false 4503599627370496 (-52)))))))) (SIll (XImplicit (XX (PrName "nth_apple_kind") (UrName "one") (RInt I32)) (XDeduce FPoint (XC (CNum (RFlt F64) (NFlt (S754_finite false 4503599627370496 (-52)))))))));
  (335, SAnd (SIll (XMake (XX (PrName "nth_apple_kind") (UrName "one") (RInt I32)) (XDeduce FPoint (XMake (XQ (TNamed "dim_one" "percent" (RInt I32))) (XC (CNum (RInt I32) (NInt 1))))))) (SIll (XImplicit (XX (PrName "nth_apple_kind") (UrName "one") (RInt I32)) (XDeduce FPoint (XMake (XQ (TNamed "dim_one" "percent" (RInt I32))) (XC (CNum (RInt I32) (NInt 1))))))));
  (336, SAnd (SIll (XMake (XX (PrName "nth_apple_kind") (UrName "one") (RInt I32)) (XDeduce FPoint (XMake (XQ (TNamed "dim_one" "percent" (RFlt F64))) (XC (CNum (RInt I32) (NInt 1))))))) (SIll (XImplicit (XX (PrName "nth_apple_kind") (UrName "one") (RInt I32)) (XDeduce FPoint (XMake (XQ (TNamed "dim_one" "percent" (RFlt F64))) (XC (CNum (RInt I32) (NInt 1))))))));
  (337, SAnd (SIll (XMake (XX (PrName "nth_apple_kind") (UrName "one") (RFlt F64)) (XDeduce FPoint (XBin CMul (XC (CNum (RFlt F64) (NFlt (S754_finite false 4503599627370496 (-52))))) (XC (CRef "si" "s")))))) (SIll (XImplicit (XX (PrName "nth_apple_kind") (UrName "one") (RFlt F64)) (XDeduce FPoint (XBin CMul (XC (CNum (RFlt F64) (NFlt (S754_finite false 4503599627370496 (-52))))) (XC (CRef "si" "s")))))));
  (340, SAnd (SCmp CEq (XCommon (XRelative (XMake (XX (PrName "sys_time_point_kind") (UrName "si::second") (RInt I32)) (XTime "system_clock" (XDur 1 1 (RInt I64) (NInt 42)))))) (XBin CMul (XC (CNum (RInt I32) (NInt 42))) (XC (CRef "si" "s")))) (SIll (XImplicit (XX (PrName "sys_time_point_kind") (UrName "si::second") (RInt I32)) (XTime "system_clock" (XDur 1 1 (RInt I64) (NInt 42))))));
  (343, SAnd (SIll (XMake (XX (PrName "time_point_kind") (UrName "si::second") (RInt I32)) (XTime "system_clock" (XDur 1 1 (RInt I64) (NInt 42))))) (SIll (XImplicit (XX (PrName "time_point_kind") (UrName "si::second") (RInt I32)) (XTime "system_clock" (XDur 1 1 (RInt I64) (NInt 42))))));
  (352, SAnd (SCmp CEq (XCommon (XRelative (XMake (XX (PrName "abscissa_kind") (UrName "si::metre") (RInt I32)) (XMake (XK (KrName "width_kind") (UrName "si::metre") (RInt I32)) (XBin CMul (XC (CNum (RInt I32) (NInt 1))) (XC (CRef "si" "m"))))))) (XBin CMul (XC (CNum (RInt I32) (NInt 1))) (XC (CRef "si" "m")))) (SIll (XImplicit (XX (PrName "abscissa_kind") (UrName "si::metre") (RInt I32)) (XMake (XK (KrName "width_kind") (UrName "si::metre") (RInt I32)) (XBin CMul (XC (CNum (RInt I32) (NInt 1))) (XC (CRef "si" "m")))))));
  (353, SAnd (SCmp CEq (XCommon (XRelative (XMake (XX (PrName "abscissa_kind") (UrName "si::metre") (RInt I32)) (XMake (XK (KrName "width_kind") (UrName "si::kilometre") (RInt U64)) (XBin CMul (XC (CNum (RInt U64) (NInt 1))) (XC (CRef "si" "km"))))))) (XBin CMul (XC (CNum (RInt I32) (NInt 1))) (XC (CRef "si" "km")))) (SIll (XImplicit (XX (PrName "abscissa_kind") (UrName "si::metre") (RInt I32)) (XMake (XK (KrName "width_kind") (UrName "si::kilometre") (RInt U64)) (XBin CMul (XC (CNum (RInt U64) (NInt 1))) (XC (CRef "si" "km")))))));
  (354, SAnd (SCmp CEq (XCommon (XRelative (XMake (XX (PrName "abscissa_kind") (UrName "si::centimetre") (RInt I32)) (XMake (XK (KrName "width_kind") (UrName "si::centimetre") (RInt I32)) (XBin CMul (XC (CNum (RInt I32) (NInt 1))) (XC (CRef "si::cgs" "cm"))))))) (XBin CMul (XC (CNum (RInt I32) (NInt 1))) (XC (CRef "si" "cm")))) (SIll (XImplicit (XX (PrName "abscissa_kind") (UrName "si::centimetre") (RInt I32)) (XMake (XK (KrName "width_kind") (UrName "si::centimetre") (RInt I32)) (XBin CMul (XC (CNum (RInt I32) (NInt 1))) (XC (CRef "si::cgs" "cm")))))));
  (355, SAnd (SCmp CEq (XCommon (XRelative (XMake (XX (PrName "abscissa_kind") (UrName "si::fps::foot") (RFlt F64)) (XMake (XK (KrName "width_kind") (UrName "si::centimetre") (RInt I32)) (XBin CMul (XC (CNum (RInt I32) (NInt 1))) (XC (CRef "si::cgs" "cm"))))))) (XBin CMul (XC (CNum (RInt I32) (NInt 1))) (XC (CRef "si" "cm")))) (SIll (XImplicit (XX (PrName "abscissa_kind") (UrName "si::fps::foot") (RFlt F64)) (XMake (XK (KrName "width_kind") (UrName "si::centimetre") (RInt I32)) (XBin CMul (XC (CNum (RInt I32) (NInt 1))) (XC (CRef "si::cgs" "cm")))))));
  (356, SAnd (SCmp CEq (XCommon (XRelative (XMake (XX (PrName "abscissa_kind") (UrName "si::metre") (RFlt F64)) (XMake (XK (KrName "width_kind") (UrName "si::metre") (RInt I32)) (XBin CMul (XC (CNum (RInt I32) (NInt 1))) (XC (CRef "si" "m"))))))) (XBin CMul (XC (CNum (RInt I32) (NInt 1))) (XC (CRef "si" "m")))) (SIll (XImplicit (XX (PrName "abscissa_kind") (UrName "si::metre") (RFlt F64)) (XMake (XK (KrName "width_kind") (UrName "si::metre") (RInt I32)) (XBin CMul (XC (CNum (RInt I32) (NInt 1))) (XC (CRef "si" "m")))))));
  (357, SAnd (SCmp CEq (XCommon (XRelative (XMake (XX (PrName "abscissa_kind") (UrName "si::metre") (RFlt F64)) (XMake (XK (KrName "width_kind") (UrName "si::millimetre") (RFlt F64)) (XBin CMul (XC (CNum (RFlt F64) (NFlt (S754_finite false 4503599627370496 (-52))))) (XC (CRef "si" "mm"))))))) (XBin CMul (XC (CNum (RInt I32) (NInt 1))) (XC (CRef "si" "mm")))) (SIll (XImplicit (XX (PrName "abscissa_kind") (UrName "si::metre") (RFlt F64)) (XMake (XK (KrName "width_kind") (UrName "si::millimetre") (RFlt F64)) (XBin CMul (XC (CNum (RFlt F64) (NFlt (S754_finite false 4503599627370496 (-52))))) (XC (CRef "si" "mm")))))));
  (358, SAnd (SCmp CEq (XCommon (XRelative (XMake (XX (PrName "abscissa_kind") (UrName "si::metre") (RFlt F64)) (XMake (XK (KrName "width_kind") (UrName "si::kilometre") (RInt U64)) (XBin CMul (XC (CNum (RInt U64) (NInt 1))) (XC (CRef "si" "km"))))))) (XBin CMul (XC (CNum (RInt I32) (NInt 1))) (XC (CRef "si" "km")))) (SIll (XImplicit (XX (PrName "abscissa_kind") (UrName "si::metre") (RFlt F64)) (XMake (XK (KrName "width_kind") (UrName "si::kilometre") (RInt U64)) (XBin CMul (XC (CNum (RInt U64) (NInt 1))) (XC (CRef "si" "km")))))));
  (359, SAnd (SIll (XMake (XX (PrName "abscissa_kind") (UrName "si::metre") (RInt I32)) (XMake (XK (KrName "width_kind") (UrName "si::metre") (RFlt F64)) (XBin CMul (XC (CNum (RFlt F64) (NFlt (S754_finite false 4503599627370496 (-52))))) (XC (CRef "si" "m")))))) (SIll (XImplicit (XX (PrName "abscissa_kind") (UrName "si::metre") (RInt I32)) (XMake (XK (KrName "width_kind") (UrName "si::metre") (RFlt F64)) (XBin CMul (XC (CNum (RFlt F64) (NFlt (S754_finite false 4503599627370496 (-52))))) (XC (CRef "si" "m")))))));
  (360, SAnd (SIll (XMake (XX (PrName "abscissa_kind") (UrName "si::metre") (RInt I32)) (XMake (XK (KrName "width_kind") (UrName "si::millimetre") (RInt I32)) (XBin CMul (XC (CNum (RInt I32) (NInt 1))) (XC (CRef "si" "mm")))))) (SIll (XImplicit (XX (PrName "abscissa_kind") (UrName "si::metre") (RInt I32)) (XMake (XK (KrName "width_kind") (UrName "si::millimetre") (RInt I32)) (XBin CMul (XC (CNum (RInt I32) (NInt 1))) (XC (CRef "si" "mm")))))));
  (361, SAnd (SIll (XMake (XX (PrName "abscissa_kind") (UrName "si::metre") (RInt I32)) (XMake (XK (KrName "height_kind") (UrName "si::metre") (RInt I32)) (XBin CMul (XC (CNum (RInt I32) (NInt 1))) (XC (CRef "si" "m")))))) (SIll (XImplicit (XX (PrName "abscissa_kind") (UrName "si::metre") (RInt I32)) (XMake (XK (KrName "height_kind") (UrName "si::metre") (RInt I32)) (XBin CMul (XC (CNum (RInt I32) (NInt 1))) (XC (CRef "si" "m")))))));
  (366, SAnd (SCmp CEq (XCommon (XRelative (XMake (XX (PrName "nth_apple_kind") (UrName "one") (RInt I32)) (XMake (XK (KrName "apple") (UrName "one") (RInt I32)) (XC (CNum (RInt I32) (NInt 1))))))) (XC (CNum (RInt I32) (NInt 1)))) (SIll (XImplicit (XX (PrName "nth_apple_kind") (UrName "one") (RInt I32)) (XMake (XK (KrName "apple") (UrName "one") (RInt I32)) (XC (CNum (RInt I32) (NInt 1)))))));
  (367, SAnd (SCmp CEq (XCommon (XRelative (XMake (XX (PrName "nth_apple_kind") (UrName "one") (RFlt F64)) (XMake (XK (KrName "apple") (UrName "percent") (RFlt F64)) (XMake (XQ (TNamed "dim_one" "percent" (RFlt F64))) (XC (CNum (RInt I32) (NInt 1)))))))) (XC (CNum (RFlt F64) (NFlt (S754_finite false 5764607523034235 (-59)))))) (SIll (XImplicit (XX (PrName "nth_apple_kind") (UrName "one") (RFlt F64)) (XMake (XK (KrName "apple") (UrName "percent") (RFlt F64)) (XMake (XQ (TNamed "dim_one" "percent" (RFlt F64))) (XC (CNum (RInt I32) (NInt 1))))))));
  (368, SAnd (SCmp CEq (XNumber (XCommon (XRelative (XMake (XX (PrName "nth_apple_kind") (UrName "percent") (RInt I32)) (XMake (XK (KrName "apple") (UrName "one") (RInt I32)) (XC (CNum (RInt I32) (NInt 1)))))))) (XC (CNum (RInt I32) (NInt 100)))) (SIll (XImplicit (XX (PrName "nth_apple_kind") (UrName "percent") (RInt I32)) (XMake (XK (KrName "apple") (UrName "one") (RInt I32)) (XC (CNum (RInt I32) (NInt 1)))))));
  (369, SAnd (SCmp CEq (XNumber (XCommon (XRelative (XMake (XX (PrName "nth_apple_kind") (UrName "percent") (RFlt F64)) (XMake (XK (KrName "apple") (UrName "percent") (RFlt F64)) (XMake (XQ (TNamed "dim_one" "percent" (RFlt F64))) (XC (CNum (RInt I32) (NInt 1))))))))) (XC (CNum (RInt I32) (NInt 1)))) (SIll (XImplicit (XX (PrName "nth_apple_kind") (UrName "percent") (RFlt F64)) (XMake (XK (KrName "apple") (UrName "percent") (RFlt F64)) (XMake (XQ (TNamed "dim_one" "percent" (RFlt F64))) (XC (CNum (RInt I32) (NInt 1))))))));
  (370, SAnd (SIll (XMake (XX (PrName "nth_apple_kind") (UrName "percent") (RInt I32)) (XMake (XK (KrName "apple") (UrName "one") (RFlt F64)) (XC (CNum (RFlt F64) (NFlt (S754_finite false 4503599627370496 (-52)))))))) (SIll (XImplicit (XX (PrName "nth_apple_kind") (UrName "percent") (RInt I32)) (XMake (XK (KrName "apple") (UrName "one") (RFlt F64)) (XC (CNum (RFlt F64) (NFlt (S754_finite false 4503599627370496 (-52)))))))));
  (371, SAnd (SIll (XMake (XX (PrName "nth_apple_kind") (UrName "percent") (RInt I32)) (XMake (XK (KrName "apple") (UrName "percent") (RFlt F64)) (XMake (XQ (TNamed "dim_one" "percent" (RFlt F64))) (XC (CNum (RInt I32) (NInt 1))))))) (SIll (XImplicit (XX (PrName "nth_apple_kind") (UrName "percent") (RInt I32)) (XMake (XK (KrName "apple") (UrName "percent") (RFlt F64)) (XMake (XQ (TNamed "dim_one" "percent" (RFlt F64))) (XC (CNum (RInt I32) (NInt 1))))))));
  (372, SAnd (SIll (XMake (XX (PrName "nth_apple_kind") (UrName "one") (RInt I32)) (XMake (XK (KrName "apple") (UrName "one") (RFlt F64)) (XC (CNum (RFlt F64) (NFlt (S754_finite false 4503599627370496 (-52)))))))) (SIll (XImplicit (XX (PrName "nth_apple_kind") (UrName "one") (RInt I32)) (XMake (XK (KrName "apple") (UrName "one") (RFlt F64)) (XC (CNum (RFlt F64) (NFlt (S754_finite false 4503599627370496 (-52)))))))));
  (373, SAnd (SIll (XMake (XX (PrName "nth_apple_kind") (UrName "one") (RInt I32)) (XMake (XK (KrName "apple") (UrName "percent") (RFlt F64)) (XMake (XQ (TNamed "dim_one" "percent" (RFlt F64))) (XC (CNum (RInt I32) (NInt 1))))))) (SIll (XImplicit (XX (PrName "nth_apple_kind") (UrName "one") (RInt I32)) (XMake (XK (KrName "apple") (UrName "percent") (RFlt F64)) (XMake (XQ (TNamed "dim_one" "percent" (RFlt F64))) (XC (CNum (RInt I32) (NInt 1))))))));
  (374, SAnd (SIll (XMake (XX (PrName "nth_apple_kind") (UrName "one") (RInt I32)) (XMake (XK (KrName "orange") (UrName "one") (RInt I32)) (XC (CNum (RInt I32) (NInt 1)))))) (SIll (XImplicit (XX (PrName "nth_apple_kind") (UrName "one") (RInt I32)) (XMake (XK (KrName "orange") (UrName "one") (RInt I32)) (XC (CNum (RInt I32) (NInt 1)))))));
  (383, SAnd (SCmp CEq (XCommon (XRelative (XMake (XX (PrName "abscissa_kind") (UrName "si::metre") (RInt I32)) (XMake (XX (PrName "abscissa_kind") (UrName "si::metre") (RInt I32)) (XBin CMul (XC (CNum (RInt I32) (NInt 1))) (XC (CRef "si" "m"))))))) (XBin CMul (XC (CNum (RInt I32) (NInt 1))) (XC (CRef "si" "m")))) (SSame (XMake (XX (PrName "abscissa_kind") (UrName "si::metre") (RInt I32)) (XMake (XX (PrName "abscissa_kind") (UrName "si::metre") (RInt I32)) (XBin CMul (XC (CNum (RInt I32) (NInt 1))) (XC (CRef "si" "m"))))) (XImplicit (XX (PrName "abscissa_kind") (UrName "si::metre") (RInt I32)) (XMake (XX (PrName "abscissa_kind") (UrName "si::metre") (RInt I32)) (XBin CMul (XC (CNum (RInt I32) (NInt 1))) (XC (CRef "si" "m")))))));
  (384, SAnd (SCmp CEq (XCommon (XRelative (XMake (XX (PrName "abscissa_kind") (UrName "si::metre") (RInt I32)) (XMake (XX (PrName "abscissa_kind") (UrName "si::kilometre") (RInt U64)) (XBin CMul (XC (CNum (RInt U64) (NInt 1))) (XC (CRef "si" "km"))))))) (XBin CMul (XC (CNum (RInt I32) (NInt 1))) (XC (CRef "si" "km")))) (SSame (XMake (XX (PrName "abscissa_kind") (UrName "si::metre") (RInt I32)) (XMake (XX (PrName "abscissa_kind") (UrName "si::kilometre") (RInt U64)) (XBin CMul (XC (CNum (RInt U64) (NInt 1))) (XC (CRef "si" "km"))))) (XImplicit (XX (PrName "abscissa_kind") (UrName "si::metre") (RInt I32)) (XMake (XX (PrName "abscissa_kind") (UrName "si::kilometre") (RInt U64)) (XBin CMul (XC (CNum (RInt U64) (NInt 1))) (XC (CRef "si" "km")))))));
  (385, SAnd (SCmp CEq (XCommon (XRelative (XMake (XX (PrName "abscissa_kind") (UrName "si::metre") (RFlt F64)) (XMake (XX (PrName "abscissa_kind") (UrName "si::metre") (RInt U64)) (XBin CMul (XC (CNum (RInt U64) (NInt 1))) (XC (CRef "si" "m"))))))) (XBin CMul (XC (CNum (RInt I32) (NInt 1))) (XC (CRef "si" "m")))) (SSame (XMake (XX (PrName "abscissa_kind") (UrName "si::metre") (RFlt F64)) (XMake (XX (PrName "abscissa_kind") (UrName "si::metre") (RInt U64)) (XBin CMul (XC (CNum (RInt U64) (NInt 1))) (XC (CRef "si" "m"))))) (XImplicit (XX (PrName "abscissa_kind") (UrName "si::metre") (RFlt F64)) (XMake (XX (PrName "abscissa_kind") (UrName "si::metre") (RInt U64)) (XBin CMul (XC (CNum (RInt U64) (NInt 1))) (XC (CRef "si" "m")))))));
  (386, SAnd (SCmp CEq (XCommon (XRelative (XMake (XX (PrName "abscissa_kind") (UrName "si::metre") (RFlt F64)) (XMake (XX (PrName "abscissa_kind") (UrName "si::centimetre") (RInt I32)) (XBin CMul (XC (CNum (RInt I32) (NInt 1))) (XC (CRef "si::cgs" "cm"))))))) (XBin CMul (XC (CNum (RInt I32) (NInt 1))) (XC (CRef "si" "cm")))) (SSame (XMake (XX (PrName "abscissa_kind") (UrName "si::metre") (RFlt F64)) (XMake (XX (PrName "abscissa_kind") (UrName "si::centimetre") (RInt I32)) (XBin CMul (XC (CNum (RInt I32) (NInt 1))) (XC (CRef "si::cgs" "cm"))))) (XImplicit (XX (PrName "abscissa_kind") (UrName "si::metre") (RFlt F64)) (XMake (XX (PrName "abscissa_kind") (UrName "si::centimetre") (RInt I32)) (XBin CMul (XC (CNum (RInt I32) (NInt 1))) (XC (CRef "si::cgs" "cm")))))));
  (387, SAnd (SCmp CEq (XCommon (XRelative (XMake (XX (PrName "abscissa_kind") (UrName "si::fps::foot") (RFlt F64)) (XMake (XX (PrName "abscissa_kind") (UrName "si::centimetre") (RInt I32)) (XBin CMul (XC (CNum (RInt I32) (NInt 1))) (XC (CRef "si::cgs" "cm"))))))) (XBin CMul (XC (CNum (RInt I32) (NInt 1))) (XC (CRef "si" "cm")))) (SSame (XMake (XX (PrName "abscissa_kind") (UrName "si::fps::foot") (RFlt F64)) (XMake (XX (PrName "abscissa_kind") (UrName "si::centimetre") (RInt I32)) (XBin CMul (XC (CNum (RInt I32) (NInt 1))) (XC (CRef "si::cgs" "cm"))))) (XImplicit (XX (PrName "abscissa_kind") (UrName "si::fps::foot") (RFlt F64)) (XMake (XX (PrName "abscissa_kind") (UrName "si::centimetre") (RInt I32)) (XBin CMul (XC (CNum (RInt I32) (NInt 1))) (XC (CRef "si::cgs" "cm")))))));
  (388, SAnd (SIll (XMake (XX (PrName "abscissa_kind") (UrName "si::metre") (RInt I32)) (XMake (XX (PrName "abscissa_kind") (UrName "si::metre") (RFlt F64)) (XBin CMul (XC (CNum (RFlt F64) (NFlt (S754_finite false 4503599627370496 (-52))))) (XC (CRef "si" "m")))))) (SIll (XImplicit (XX (PrName "abscissa_kind") (UrName "si::metre") (RInt I32)) (XMake (XX (PrName "abscissa_kind") (UrName "si::metre") (RFlt F64)) (XBin CMul (XC (CNum (RFlt F64) (NFlt (S754_finite false 4503599627370496 (-52))))) (XC (CRef "si" "m")))))));
  (389, SAnd (SIll (XMake (XX (PrName "abscissa_kind") (UrName "si::kilometre") (RInt I32)) (XMake (XX (PrName "abscissa_kind") (UrName "si::metre") (RInt I32)) (XBin CMul (XC (CNum (RInt I32) (NInt 1))) (XC (CRef "si" "m")))))) (SIll (XImplicit (XX (PrName "abscissa_kind") (UrName "si::kilometre") (RInt I32)) (XMake (XX (PrName "abscissa_kind") (UrName "si::metre") (RInt I32)) (XBin CMul (XC (CNum (RInt I32) (NInt 1))) (XC (CRef "si" "m")))))));
  (390, SAnd (SIll (XMake (XX (PrName "abscissa_kind") (UrName "si::metre") (RInt I32)) (XMake (XX (PrName "ordinate_kind") (UrName "si::metre") (RInt I32)) (XBin CMul (XC (CNum (RInt I32) (NInt 1))) (XC (CRef "si" "m")))))) (SIll (XImplicit (XX (PrName "abscissa_kind") (UrName "si::metre") (RInt I32)) (XMake (XX (PrName "ordinate_kind") (UrName "si::metre") (RInt I32)) (XBin CMul (XC (CNum (RInt I32) (NInt 1))) (XC (CRef "si" "m")))))));
  (391, SAnd (SIll (XMake (XX (PrName "abscissa_kind") (UrName "si::metre") (RInt I32)) (XMake (XX (PrName "time_point_kind") (UrName "si::second") (RInt I32)) (XBin CMul (XC (CNum (RInt I32) (NInt 1))) (XC (CRef "si" "s")))))) (SIll (XImplicit (XX (PrName "abscissa_kind") (UrName "si::metre") (RInt I32)) (XMake (XX (PrName "time_point_kind") (UrName "si::second") (RInt I32)) (XBin CMul (XC (CNum (RInt I32) (NInt 1))) (XC (CRef "si" "s")))))));
  (393, SAnd (SCmp CEq (XCommon (XRelative (XMake (XX (PrName "nth_apple_kind") (UrName "one") (RInt I32)) (XMake (XX (PrName "nth_apple_kind") (UrName "one") (RInt I32)) (XC (CNum (RInt I32) (NInt 1))))))) (XC (CNum (RInt I32) (NInt 1)))) (SSame (XMake (XX (PrName "nth_apple_kind") (UrName "one") (RInt I32)) (XMake (XX (PrName "nth_apple_kind") (UrName "one") (RInt I32)) (XC (CNum (RInt I32) (NInt 1))))) (XImplicit (XX (PrName "nth_apple_kind") (UrName "one") (RInt I32)) (XMake (XX (PrName "nth_apple_kind") (UrName "one") (RInt I32)) (XC (CNum (RInt I32) (NInt 1)))))));
  (394, SAnd (SCmp CEq (XCommon (XRelative (XMake (XX (PrName "nth_apple_kind") (UrName "one") (RFlt F64)) (XMake (XX (PrName "nth_apple_kind") (UrName "percent") (RFlt F64)) (XMake (XQ (TNamed "dim_one" "percent" (RFlt F64))) (XC (CNum (RInt I32) (NInt 1)))))))) (XC (CNum (RFlt F64) (NFlt (S754_finite false 5764607523034235 (-59)))))) (SSame (XMake (XX (PrName "nth_apple_kind") (UrName "one") (RFlt F64)) (XMake (XX (PrName "nth_apple_kind") (UrName "percent") (RFlt F64)) (XMake (XQ (TNamed "dim_one" "percent" (RFlt F64))) (XC (CNum (RInt I32) (NInt 1)))))) (XImplicit (XX (PrName "nth_apple_kind") (UrName "one") (RFlt F64)) (XMake (XX (PrName "nth_apple_kind") (UrName "percent") (RFlt F64)) (XMake (XQ (TNamed "dim_one" "percent" (RFlt F64))) (XC (CNum (RInt I32) (NInt 1))))))));
  (395, SAnd (SCmp CEq (XNumber (XCommon (XRelative (XMake (XX (PrName "nth_apple_kind") (UrName "percent") (RInt I32)) (XMake (XX (PrName "nth_apple_kind") (UrName "one") (RInt I32)) (XC (CNum (RInt I32) (NInt 1)))))))) (XC (CNum (RInt I32) (NInt 100)))) (SSame (XMake (XX (PrName "nth_apple_kind") (UrName "percent") (RInt I32)) (XMake (XX (PrName "nth_apple_kind") (UrName "one") (RInt I32)) (XC (CNum (RInt I32) (NInt 1))))) (XImplicit (XX (PrName "nth_apple_kind") (UrName "percent") (RInt I32)) (XMake (XX (PrName "nth_apple_kind") (UrName "one") (RInt I32)) (XC (CNum (RInt I32) (NInt 1)))))));
  (396, SAnd (SCmp CEq (XNumber (XCommon (XRelative (XMake (XX (PrName "nth_apple_kind") (UrName "percent") (RFlt F64)) (XMake (XX (PrName "nth_apple_kind") (UrName "percent") (RFlt F64)) (XMake (XQ (TNamed "dim_one" "percent" (RFlt F64))) (XC (CNum (RInt I32) (NInt 1))))))))) (XC (CNum (RInt I32) (NInt 1)))) (SSame (XMake (XX (PrName "nth_apple_kind") (UrName "percent") (RFlt F64)) (XMake (XX (PrName "nth_apple_kind") (UrName "percent") (RFlt F64)) (XMake (XQ (TNamed "dim_one" "percent" (RFlt F64))) (XC (CNum (RInt I32) (NInt 1)))))) (XImplicit (XX (PrName "nth_apple_kind") (UrName "percent") (RFlt F64)) (XMake (XX (PrName "nth_apple_kind") (UrName "percent") (RFlt F64)) (XMake (XQ (TNamed "dim_one" "percent" (RFlt F64))) (XC (CNum (RInt I32) (NInt 1))))))));
  (397, SAnd (SIll (XMake (XX (PrName "nth_apple_kind") (UrName "percent") (RInt I32)) (XMake (XX (PrName "nth_apple_kind") (UrName "one") (RFlt F64)) (XC (CNum (RFlt F64) (NFlt (S754_finite false 4503599627370496 (-52)))))))) (SIll (XImplicit (XX (PrName "nth_apple_kind") (UrName "percent") (RInt I32)) (XMake (XX (PrName "nth_apple_kind") (UrName "one") (RFlt F64)) (XC (CNum (RFlt F64) (NFlt (S754_finite false 4503599627370496 (-52)))))))));
  (398, SAnd (SIll (XMake (XX (PrName "nth_apple_kind") (UrName "percent") (RInt I32)) (XMake (XX (PrName "nth_apple_kind") (UrName "percent") (RFlt F64)) (XMake (XQ (TNamed "dim_one" "percent" (RFlt F64))) (XC (CNum (RInt I32) (NInt 1))))))) (SIll (XImplicit (XX (PrName "nth_apple_kind") (UrName "percent") (RInt I32)) (XMake (XX (PrName "nth_apple_kind") (UrName "percent") (RFlt F64)) (XMake (XQ (TNamed "dim_one" "percent" (RFlt F64))) (XC (CNum (RInt I32) (NInt 1))))))));
  (399, SAnd (SIll (XMake (XX (PrName "nth_apple_kind") (UrName "one") (RInt I32)) (XMake (XX (PrName "nth_apple_kind") (UrName "one") (RFlt F64)) (XC (CNum (RFlt F64) (NFlt (S754_finite false 4503599627370496 (-52)))))))) (SIll (XImplicit (XX (PrName "nth_apple_kind") (UrName "one") (RInt I32)) (XMake (XX (PrName "nth_apple_kind") (UrName "one") (RFlt F64)) (XC (CNum (RFlt F64) (NFlt (S754_finite false 4503599627370496 (-52)))))))));
  (400, SAnd (SIll (XMake (XX (PrName "nth_apple_kind") (UrName "one") (RInt I32)) (XMake (XX (PrName "nth_apple_kind") (UrName "percent") (RInt I32)) (XMake (XQ (TNamed "dim_one" "percent" (RInt I32))) (XC (CNum (RInt I32) (NInt 1))))))) (SIll (XImplicit (XX (PrName "nth_apple_kind") (UrName "one") (RInt I32)) (XMake (XX (PrName "nth_apple_kind") (UrName "percent") (RInt I32)) (XMake (XQ (TNamed "dim_one" "percent" (RInt I32))) (XC (CNum (RInt I32) (NInt 1))))))));
  (401, SAnd (SIll (XMake (XX (PrName "nth_apple_kind") (UrName "one") (RInt I32)) (XMake (XX (PrName "nth_orange_kind") (UrName "one") (RInt I32)) (XC (CNum (RInt I32) (NInt 1)))))) (SIll (XImplicit (XX (PrName "nth_apple_kind") (UrName "one") (RInt I32)) (XMake (XX (PrName "nth_orange_kind") (UrName "one") (RInt I32)) (XC (CNum (RInt I32) (NInt 1)))))));
  (402, SAnd (SIll (XMake (XX (PrName "nth_apple_kind") (UrName "one") (RInt I32)) (XMake (XX (PrName "abscissa_kind") (UrName "si::metre") (RInt I32)) (XBin CMul (XC (CNum (RInt I32) (NInt 1))) (XC (CRef "si" "m")))))) (SIll (XImplicit (XX (PrName "nth_apple_kind") (UrName "one") (RInt I32)) (XMake (XX (PrName "abscissa_kind") (UrName "si::metre") (RInt I32)) (XBin CMul (XC (CNum (RInt I32) (NInt 1))) (XC (CRef "si" "m")))))));
  (405, SAnd (SIll (XMake (XX (PrName "sys_time_point_kind") (UrName "si::second") (RInt I32)) (XDefault (XX (PrName "time_point_kind") (UrName "si::second") (RInt I32))))) (SIll (XImplicit (XX (PrName "sys_time_point_kind") (UrName "si::second") (RInt I32)) (XDefault (XX (PrName "time_point_kind") (UrName "si::second") (RInt I32))))));
  (408, SAnd (SIll (XMake (XX (PrName "time_point_kind") (UrName "si::second") (RInt I32)) (XDefault (XX (PrName "sys_time_point_kind") (UrName "si::second") (RInt I32))))) (SIll (XImplicit (XX (PrName "time_point_kind") (UrName "si::second") (RInt I32)) (XDefault (XX (PrName "sys_time_point_kind") (UrName "si::second") (RInt I32))))));
  (411, SAnd (SIll (XMake (XX (PrName "screen_si_width_kind") (UrName "si::metre") (RFlt F64)) (XMake (XX (PrName "screen_si_cgs_width_kind") (UrName "si::metre") (RFlt F64)) (XBin CMul (XC (CNum (RInt I32) (NInt 1))) (XC (CRef "si" "m")))))) (SIll (XImplicit (XX (PrName "screen_si_width_kind") (UrName "si::metre") (RFlt F64)) (XMake (XX (PrName "screen_si_cgs_width_kind") (UrName "si::metre") (RFlt F64)) (XBin CMul (XC (CNum (RInt I32) (NInt 1))) (XC (CRef "si" "m")))))));
  (420, SIll (XImplicit (XQ (TNamed "dim_one" "one" (RInt I32))) (XDefault (XX (PrName "abscissa_kind") (UrName "si::metre") (RInt I32)))));
  (421, SIll (XImplicit (XQ (TNamed "si::dim_length" "si::metre" (RInt I32))) (XDefault (XX (PrName "abscissa_kind") (UrName "si::metre") (RInt I32)))));
  (422, SIll (XImplicit (XK (KrName "width_kind") (UrName "si::metre") (RInt I32)) (XDefault (XX (PrName "abscissa_kind") (UrName "si::metre") (RInt I32)))));
  (423, SIll (XImplicit (XK (KrName "height_kind") (UrName "si::metre") (RInt I32)) (XDefault (XX (PrName "abscissa_kind") (UrName "si::metre") (RInt I32)))));
  (424, SIll (XImplicit (XP (OrDynamic "si::dim_length") (UrName "si::metre") (RInt I32)) (XDefault (XX (PrName "abscissa_kind") (UrName "si::metre") (RInt I32)))));
  (432, SCmp CEq (XCommon (XRelative (XSet (XMake (XX (PrName "abscissa_kind") (UrName "si::metre") (RInt I32)) (XBin CMul (XC (CNum (RInt I32) (NInt 2))) (XC (CRef "si" "m")))) (XMake (XX (PrName "abscissa_kind") (UrName "si::metre") (RInt I32)) (XBin CMul (XC (CNum (RInt I32) (NInt 1))) (XC (CRef "si" "m"))))))) (XBin CMul (XC (CNum (RInt I32) (NInt 1))) (XC (CRef "si" "m"))));
  (433, SCmp CEq (XCommon (XRelative (XSet (XMake (XX (PrName "abscissa_kind") (UrName "si::metre") (RInt I32)) (XBin CMul (XC (CNum (RInt I32) (NInt 2))) (XC (CRef "si" "m")))) (XMake (XX (PrName "abscissa_kind") (UrName "si::kilometre") (RInt I32)) (XBin CMul (XC (CNum (RInt I32) (NInt 1))) (XC (CRef "si" "km"))))))) (XBin CMul (XC (CNum (RInt I32) (NInt 1))) (XC (CRef "si" "km"))));
  (434, SIll (XImplicit (XX (PrName "abscissa_kind") (UrName "si::metre") (RInt I32)) (XDefault (XX (PrName "abscissa_kind") (UrName "si::metre") (RFlt F64)))));
  (435, SIll (XImplicit (XX (PrName "abscissa_kind") (UrName "si::metre") (RInt I32)) (XDefault (XX (PrName "abscissa_kind") (UrName "si::millimetre") (RInt I32)))));
  (444, SCmp CEq (XCommon (XRelative (XStep true (XDeduce FPointKind (XMake (XK (KrName "width_kind") (UrName "si::metre") (RInt I32)) (XBin CMul (XC (CNum (RInt I32) (NInt 1))) (XC (CRef "si" "m")))))))) (XBin CMul (XC (CNum (RInt I32) (NInt 2))) (XC (CRef "si" "m"))));
  (444, SCmp CEq (XCommon (XRelative (XStep false (XStep true (XDeduce FPointKind (XMake (XK (KrName "width_kind") (UrName "si::metre") (RInt I32)) (XBin CMul (XC (CNum (RInt I32) (NInt 1))) (XC (CRef "si" "m"))))))))) (XBin CMul (XC (CNum (RInt I32) (NInt 1))) (XC (CRef "si" "m"))));
  (444, SCmp CEq (XCommon (XRelative (XStep false (XStep true (XDeduce FPointKind (XMake (XK (KrName "width_kind") (UrName "si::metre") (RInt I32)) (XBin CMul (XC (CNum (RInt I32) (NInt 1))) (XC (CRef "si" "m"))))))))) (XBin CMul (XC (CNum (RInt I32) (NInt 1))) (XC (CRef "si" "m"))));
  (444, SCmp CEq (XCommon (XRelative (XStep true (XStep false (XStep true (XDeduce FPointKind (XMake (XK (KrName "width_kind") (UrName "si::metre") (RInt I32)) (XBin CMul (XC (CNum (RInt I32) (NInt 1))) (XC (CRef "si" "m")))))))))) (XBin CMul (XC (CNum (RInt I32) (NInt 2))) (XC (CRef "si" "m"))));
  (444, SCmp CEq (XCommon (XRelative (XStep true (XStep false (XStep true (XDeduce FPointKind (XMake (XK (KrName "width_kind") (UrName "si::metre") (RInt I32)) (XBin CMul (XC (CNum (RInt I32) (NInt 1))) (XC (CRef "si" "m")))))))))) (XBin CMul (XC (CNum (RInt I32) (NInt 2))) (XC (CRef "si" "m"))));
  (444, SCmp CEq (XCommon (XRelative (XStep false (XStep true (XStep false (XStep true (XDeduce FPointKind (XMake (XK (KrName "width_kind") (UrName "si::metre") (RInt I32)) (XBin CMul (XC (CNum (RInt I32) (NInt 1))) (XC (CRef "si" "m"))))))))))) (XBin CMul (XC (CNum (RInt I32) (NInt 1))) (XC (CRef "si" "m"))));
  (444, SCmp CEq (XCommon (XRelative (XAssign CAdd (XStep false (XStep true (XStep false (XStep true (XDeduce FPointKind (XMake (XK (KrName "width_kind") (UrName "si::metre") (RInt I32)) (XBin CMul (XC (CNum (RInt I32) (NInt 1))) (XC (CRef "si" "m"))))))))) (XMake (XK (KrName "width_kind") (UrName "si::metre") (RInt I32)) (XBin CMul (XC (CNum (RInt I32) (NInt 1))) (XC (CRef "si" "m"))))))) (XBin CMul (XC (CNum (RInt I32) (NInt 2))) (XC (CRef "si" "m"))));
  (444, SCmp CEq (XCommon (XRelative (XAssign CSub (XAssign CAdd (XStep false (XStep true (XStep false (XStep true (XDeduce FPointKind (XMake (XK (KrName "width_kind") (UrName "si::metre") (RInt I32)) (XBin CMul (XC (CNum (RInt I32) (NInt 1))) (XC (CRef "si" "m"))))))))) (XMake (XK (KrName "width_kind") (UrName "si::metre") (RInt I32)) (XBin CMul (XC (CNum (RInt I32) (NInt 1))) (XC (CRef "si" "m"))))) (XMake (XK (KrName "width_kind") (UrName "si::metre") (RInt I32)) (XBin CMul (XC (CNum (RInt I32) (NInt 1))) (XC (CRef "si" "m"))))))) (XBin CMul (XC (CNum (RInt I32) (NInt 1))) (XC (CRef "si" "m"))));
  (464, SIll (XAssign CAdd (XDefault (XX (PrName "abscissa_kind") (UrName "si::metre") (RInt I32))) (XC (CNum (RInt I32) (NInt 1)))));
  (465, SIll (XAssign CSub (XDefault (XX (PrName "abscissa_kind") (UrName "si::metre") (RInt I32))) (XC (CNum (RInt I32) (NInt 1)))));
  (466, SIll (XAssign CAdd (XDefault (XX (PrName "abscissa_kind") (UrName "si::metre") (RInt I32))) (XStatic BOne (XQ (TNamed "si::dim_length" "si::metre" (RInt I32))))));
  (466, SIll (XAssign CSub (XDefault (XX (PrName "abscissa_kind") (UrName "si::metre") (RInt I32))) (XStatic BOne (XQ (TNamed "si::dim_length" "si::metre" (RInt I32))))));
  (467, SIll (XAssign CAdd (XDefault (XX (PrName "abscissa_kind") (UrName "si::metre") (RInt I32))) (XStatic BOne (XK (KrName "height_kind") (UrName "si::metre") (RInt I32)))));
  (467, SIll (XAssign CSub (XDefault (XX (PrName "abscissa_kind") (UrName "si::metre") (RInt I32))) (XStatic BOne (XK (KrName "height_kind") (UrName "si::metre") (RInt I32)))));
  (468, SIll (XAssign CAdd (XDefault (XX (PrName "abscissa_kind") (UrName "si::metre") (RInt I32))) (XStatic BOne (XK (KrName "rate_of_climb_kind") (UrName "si::metre_per_second") (RInt I32)))));
  (468, SIll (XAssign CSub (XDefault (XX (PrName "abscissa_kind") (UrName "si::metre") (RInt I32))) (XStatic BOne (XK (KrName "rate_of_climb_kind") (UrName "si::metre_per_second") (RInt I32)))));
  (469, SIll (XAssign CAdd (XDefault (XX (PrName "abscissa_kind") (UrName "si::metre") (RInt I32))) (XDefault (XP (OrDynamic "si::dim_length") (UrName "si::metre") (RInt I32)))));
  (469, SIll (XAssign CSub (XDefault (XX (PrName "abscissa_kind") (UrName "si::metre") (RInt I32))) (XDefault (XP (OrDynamic "si::dim_length") (UrName "si::metre") (RInt I32)))));
  (470, SIll (XAssign CAdd (XDefault (XX (PrName "abscissa_kind") (UrName "si::metre") (RInt I32))) (XDur 1 1 (RInt I64) (NInt 1))));
  (470, SIll (XAssign CSub (XDefault (XX (PrName "abscissa_kind") (UrName "si::metre") (RInt I32))) (XDur 1 1 (RInt I64) (NInt 1))));
  (473, SIll (XAssign CAdd (XDefault (XX (PrName "time_point_kind") (UrName "si::second") (RInt I32))) (XDur 1 1 (RInt I64) (NInt 1))));
  (473, SIll (XAssign CSub (XDefault (XX (PrName "time_point_kind") (UrName "si::second") (RInt I32))) (XDur 1 1 (RInt I64) (NInt 1))));
  (475, SIll (XAssign CAdd (XDefault (XX (PrName "time_point_kind") (UrName "si::second") (RInt I32))) (XTime "system_clock" (XDur 1 1 (RInt I64) (NInt 1)))));
  (475, SIll (XAssign CSub (XDefault (XX (PrName "time_point_kind") (UrName "si::second") (RInt I32))) (XTime "system_clock" (XDur 1 1 (RInt I64) (NInt 1)))));
  (484, SSame (XBin CAdd (XMake (XX (PrName "abscissa_kind") (UrName "si::metre") (RInt I32)) (XBin CMul (XC (CNum (RInt I32) (NInt 2))) (XC (CRef "si" "m")))) (XMake (XK (KrName "width_kind") (UrName "si::metre") (RInt I32)) (XBin CMul (XC (CNum (RInt I32) (NInt 3))) (XC (CRef "si" "m"))))) (XMake (XX (PrName "abscissa_kind") (UrName "si::metre") (RInt I32)) (XBin CMul (XC (CNum (RInt I32) (NInt 5))) (XC (CRef "si" "m")))));
  (485, SSame (XBin CAdd (XMake (XX (PrName "abscissa_kind") (UrName "si::metre") (RInt I32)) (XBin CMul (XC (CNum (RInt I32) (NInt 2))) (XC (CRef "si" "m")))) (XMake (XK (KrName "width_kind") (UrName "si::metre") (RFlt F64)) (XBin CMul (XC (CNum (RFlt F64) (NFlt (S754_finite false 6755399441055744 (-51))))) (XC (CRef "si" "m"))))) (XMake (XX (PrName "abscissa_kind") (UrName "si::metre") (RFlt F64)) (XBin CMul (XC (CNum (RFlt F64) (NFlt (S754_finite false 5629499534213120 (-50))))) (XC (CRef "si" "m")))));
  (486, SSame (XBin CAdd (XMake (XX (PrName "abscissa_kind") (UrName "si::metre") (RFlt F64)) (XBin CMul (XC (CNum (RFlt F64) (NFlt (S754_finite false 4503599627370496 (-51))))) (XC (CRef "si" "m")))) (XMake (XK (KrName "width_kind") (UrName "si::metre") (RInt I32)) (XBin CMul (XC (CNum (RInt I32) (NInt 3))) (XC (CRef "si" "m"))))) (XMake (XX (PrName "abscissa_kind") (UrName "si::metre") (RFlt F64)) (XBin CMul (XC (CNum (RFlt F64) (NFlt (S754_finite false 5629499534213120 (-50))))) (XC (CRef "si" "m")))));
  (487, SSame (XBin CAdd (XMake (XX (PrName "abscissa_kind") (UrName "si::kilometre") (RInt I32)) (XBin CMul (XC (CNum (RInt I32) (NInt 2))) (XC (CRef "si" "km")))) (XMake (XK (KrName "width_kind") (UrName "si::metre") (RFlt F64)) (XBin CMul (XC (CNum (RFlt F64) (NFlt (S754_finite false 6597069766656000 (-41))))) (XC (CRef "si" "m"))))) (XMake (XX (PrName "abscissa_kind") (UrName "si::metre") (RFlt F64)) (XBin CMul (XC (CNum (RFlt F64) (NFlt (S754_finite false 5497558138880000 (-40))))) (XC (CRef "si" "m")))));
  (488, SSame (XBin CAdd (XMake (XX (PrName "abscissa_kind") (UrName "si::metre") (RFlt F64)) (XBin CMul (XC (CNum (RFlt F64) (NFlt (S754_finite false 8796093022208000 (-42))))) (XC (CRef "si" "m")))) (XMake (XK (KrName "width_kind") (UrName "si::kilometre") (RInt I32)) (XBin CMul (XC (CNum (RInt I32) (NInt 3))) (XC (CRef "si" "km"))))) (XMake (XX (PrName "abscissa_kind") (UrName "si::metre") (RFlt F64)) (XBin CMul (XC (CNum (RFlt F64) (NFlt (S754_finite false 5497558138880000 (-40))))) (XC (CRef "si" "m")))));
  (489, SSame (XBin CAdd (XMake (XK (KrName "width_kind") (UrName "si::metre") (RInt I32)) (XBin CMul (XC (CNum (RInt I32) (NInt 2))) (XC (CRef "si" "m")))) (XMake (XX (PrName "abscissa_kind") (UrName "si::metre") (RInt I32)) (XBin CMul (XC (CNum (RInt I32) (NInt 3))) (XC (CRef "si" "m"))))) (XMake (XX (PrName "abscissa_kind") (UrName "si::metre") (RInt I32)) (XBin CMul (XC (CNum (RInt I32) (NInt 5))) (XC (CRef "si" "m")))));
  (490, SSame (XBin CAdd (XMake (XK (KrName "width_kind") (UrName "si::metre") (RInt I32)) (XBin CMul (XC (CNum (RInt I32) (NInt 2))) (XC (CRef "si" "m")))) (XMake (XX (PrName "abscissa_kind") (UrName "si::metre") (RFlt F64)) (XBin CMul (XC (CNum (RFlt F64) (NFlt (S754_finite false 6755399441055744 (-51))))) (XC (CRef "si" "m"))))) (XMake (XX (PrName "abscissa_kind") (UrName "si::metre") (RFlt F64)) (XBin CMul (XC (CNum (RFlt F64) (NFlt (S754_finite false 5629499534213120 (-50))))) (XC (CRef "si" "m")))));
  (491, SSame (XBin CAdd (XMake (XK (KrName "width_kind") (UrName "si::metre") (RFlt F64)) (XBin CMul (XC (CNum (RFlt F64) (NFlt (S754_finite false 4503599627370496 (-51))))) (XC (CRef "si" "m")))) (XMake (XX (PrName "abscissa_kind") (UrName "si::metre") (RInt I32)) (XBin CMul (XC (CNum (RInt I32) (NInt 3))) (XC (CRef "si" "m"))))) (XMake (XX (PrName "abscissa_kind") (UrName "si::metre") (RFlt F64)) (XBin CMul (XC (CNum (RFlt F64) (NFlt (S754_finite false 5629499534213120 (-50))))) (XC (CRef "si" "m")))));
  (492, SSame (XBin CAdd (XMake (XK (KrName "width_kind") (UrName "si::kilometre") (RInt I32)) (XBin CMul (XC (CNum (RInt I32) (NInt 2))) (XC (CRef "si" "km")))) (XMake (XX (PrName "abscissa_kind") (UrName "si::metre") (RFlt F64)) (XBin CMul (XC (CNum (RFlt F64) (NFlt (S754_finite false 6597069766656000 (-41))))) (XC (CRef "si" "m"))))) (XMake (XX (PrName "abscissa_kind") (UrName "si::metre") (RFlt F64)) (XBin CMul (XC (CNum (RFlt F64) (NFlt (S754_finite false 5497558138880000 (-40))))) (XC (CRef "si" "m")))));
  (493, SSame (XBin CAdd (XMake (XK (KrName "width_kind") (UrName "si::metre") (RFlt F64)) (XBin CMul (XC (CNum (RFlt F64) (NFlt (S754_finite false 8796093022208000 (-42))))) (XC (CRef "si" "m")))) (XMake (XX (PrName "abscissa_kind") (UrName "si::kilometre") (RInt I32)) (XBin CMul (XC (CNum (RInt I32) (NInt 3))) (XC (CRef "si" "km"))))) (XMake (XX (PrName "abscissa_kind") (UrName "si::metre") (RFlt F64)) (XBin CMul (XC (CNum (RFlt F64) (NFlt (S754_finite false 5497558138880000 (-40))))) (XC (CRef "si" "m")))));
  (494, SIll (XBin CAdd (XDefault (XX (PrName "abscissa_kind") (UrName "si::metre") (RFlt F64))) (XC (CNum (RFlt F64) (NFlt (S754_finite false 4503599627370496 (-52)))))));
  (495, SIll (XBin CAdd (XDefault (XX (PrName "abscissa_kind") (UrName "si::metre") (RFlt F64))) (XStatic BOne (XQ (TNamed "si::dim_length" "si::metre" (RFlt F64))))));
  (496, SIll (XBin CAdd (XDefault (XX (PrName "abscissa_kind") (UrName "si::metre") (RFlt F64))) (XDefault (XP (OrDynamic "si::dim_length") (UrName "si::metre") (RFlt F64)))));
  (497, SIll (XBin CAdd (XDefault (XX (PrName "abscissa_kind") (UrName "si::metre") (RFlt F64))) (XStatic BOne (XK (KrName "height_kind") (UrName "si::metre") (RFlt F64)))));
  (498, SIll (XBin CAdd (XDefault (XX (PrName "abscissa_kind") (UrName "si::metre") (RFlt F64))) (XDefault (XX (PrName "abscissa_kind") (UrName "si::metre") (RFlt F64)))));
  (499, SIll (XBin CAdd (XDefault (XX (PrName "abscissa_kind") (UrName "si::metre") (RFlt F64))) (XDefault (XX (PrName "abscissa_kind") (UrName "si::kilometre") (RFlt F64)))));
  (500, SIll (XBin CAdd (XDefault (XX (PrName "abscissa_kind") (UrName "si::kilometre") (RFlt F64))) (XDefault (XX (PrName "abscissa_kind") (UrName "si::metre") (RFlt F64)))));
  (501, SIll (XBin CAdd (XStatic BOne (XK (KrName "height_kind") (UrName "si::metre") (RFlt F64))) (XDefault (XX (PrName "abscissa_kind") (UrName "si::metre") (RFlt F64)))));
  (502, SIll (XBin CAdd (XDefault (XP (OrDynamic "si::dim_length") (UrName "si::metre") (RFlt F64))) (XDefault (XX (PrName "abscissa_kind") (UrName "si::metre") (RFlt F64)))));
  (503, SIll (XBin CAdd (XStatic BOne (XQ (TNamed "si::dim_length" "si::metre" (RFlt F64)))) (XDefault (XX (PrName "abscissa_kind") (UrName "si::metre") (RFlt F64)))));
  (504, SIll (XBin CAdd (XC (CNum (RFlt F64) (NFlt (S754_finite false 4503599627370496 (-52))))) (XDefault (XX (PrName "abscissa_kind") (UrName "si::metre") (RFlt F64)))));
  (506, SSame (XBin CSub (XMake (XX (PrName "abscissa_kind") (UrName "si::metre") (RInt I32)) (XBin CMul (XC (CNum (RInt I32) (NInt 2))) (XC (CRef "si" "m")))) (XMake (XK (KrName "width_kind") (UrName "si::metre") (RInt I32)) (XBin CMul (XC (CNum (RInt I32) (NInt 3))) (XC (CRef "si" "m"))))) (XMake (XX (PrName "abscissa_kind") (UrName "si::metre") (RInt I32)) (XBin CMul (XNeg (XC (CNum (RInt I32) (NInt 1)))) (XC (CRef "si" "m")))));
  (507, SSame (XBin CSub (XMake (XX (PrName "abscissa_kind") (UrName "si::metre") (RInt I32)) (XBin CMul (XC (CNum (RInt I32) (NInt 2))) (XC (CRef "si" "m")))) (XMake (XK (KrName "width_kind") (UrName "si::metre") (RFlt F64)) (XBin CMul (XC (CNum (RFlt F64) (NFlt (S754_finite false 6755399441055744 (-51))))) (XC (CRef "si" "m"))))) (XMake (XX (PrName "abscissa_kind") (UrName "si::metre") (RFlt F64)) (XBin CMul (XNeg (XC (CNum (RFlt F64) (NFlt (S754_finite false 4503599627370496 (-52)))))) (XC (CRef "si" "m")))));
  (508, SSame (XBin CSub (XMake (XX (PrName "abscissa_kind") (UrName "si::metre") (RFlt F64)) (XBin CMul (XC (CNum (RFlt F64) (NFlt (S754_finite false 4503599627370496 (-51))))) (XC (CRef "si" "m")))) (XMake (XK (KrName "width_kind") (UrName "si::metre") (RInt I32)) (XBin CMul (XC (CNum (RInt I32) (NInt 3))) (XC (CRef "si" "m"))))) (XMake (XX (PrName "abscissa_kind") (UrName "si::metre") (RFlt F64)) (XBin CMul (XNeg (XC (CNum (RFlt F64) (NFlt (S754_finite false 4503599627370496 (-52)))))) (XC (CRef "si" "m")))));
  (509, SSame (XBin CSub (XMake (XX (PrName "abscissa_kind") (UrName "si::kilometre") (RInt I32)) (XBin CMul (XC (CNum (RInt I32) (NInt 2))) (XC (CRef "si" "km")))) (XMake (XK (KrName "width_kind") (UrName "si::metre") (RFlt F64)) (XBin CMul (XC (CNum (RFlt F64) (NFlt (S754_finite false 6597069766656000 (-41))))) (XC (CRef "si" "m"))))) (XMake (XX (PrName "abscissa_kind") (UrName "si::metre") (RFlt F64)) (XBin CMul (XNeg (XC (CNum (RFlt F64) (NFlt (S754_finite false 8796093022208000 (-43)))))) (XC (CRef "si" "m")))));
  (510, SSame (XBin CSub (XMake (XX (PrName "abscissa_kind") (UrName "si::metre") (RFlt F64)) (XBin CMul (XC (CNum (RFlt F64) (NFlt (S754_finite false 8796093022208000 (-42))))) (XC (CRef "si" "m")))) (XMake (XK (KrName "width_kind") (UrName "si::kilometre") (RInt I32)) (XBin CMul (XC (CNum (RInt I32) (NInt 3))) (XC (CRef "si" "km"))))) (XMake (XX (PrName "abscissa_kind") (UrName "si::metre") (RFlt F64)) (XBin CMul (XNeg (XC (CNum (RFlt F64) (NFlt (S754_finite false 8796093022208000 (-43)))))) (XC (CRef "si" "m")))));
  (511, SSame (XBin CSub (XMake (XX (PrName "abscissa_kind") (UrName "si::metre") (RInt I32)) (XBin CMul (XC (CNum (RInt I32) (NInt 2))) (XC (CRef "si" "m")))) (XMake (XX (PrName "abscissa_kind") (UrName "si::metre") (RInt I32)) (XBin CMul (XC (CNum (RInt I32) (NInt 3))) (XC (CRef "si" "m"))))) (XMake (XK (KrName "width_kind") (UrName "si::metre") (RInt I32)) (XBin CMul (XNeg (XC (CNum (RInt I32) (NInt 1)))) (XC (CRef "si" "m")))));
  (512, SSame (XBin CSub (XMake (XX (PrName "abscissa_kind") (UrName "si::metre") (RInt I32)) (XBin CMul (XC (CNum (RInt I32) (NInt 2))) (XC (CRef "si" "m")))) (XMake (XX (PrName "abscissa_kind") (UrName "si::metre") (RFlt F64)) (XBin CMul (XC (CNum (RFlt F64) (NFlt (S754_finite false 6755399441055744 (-51))))) (XC (CRef "si" "m"))))) (XMake (XK (KrName "width_kind") (UrName "si::metre") (RFlt F64)) (XBin CMul (XNeg (XC (CNum (RFlt F64) (NFlt (S754_finite false 4503599627370496 (-52)))))) (XC (CRef "si" "m")))));
  (513, SSame (XBin CSub (XMake (XX (PrName "abscissa_kind") (UrName "si::metre") (RFlt F64)) (XBin CMul (XC (CNum (RFlt F64) (NFlt (S754_finite false 4503599627370496 (-51))))) (XC (CRef "si" "m")))) (XMake (XX (PrName "abscissa_kind") (UrName "si::metre") (RInt I32)) (XBin CMul (XC (CNum (RInt I32) (NInt 3))) (XC (CRef "si" "m"))))) (XMake (XK (KrName "width_kind") (UrName "si::metre") (RFlt F64)) (XBin CMul (XNeg (XC (CNum (RFlt F64) (NFlt (S754_finite false 4503599627370496 (-52)))))) (XC (CRef "si" "m")))));
  (514, SSame (XBin CSub (XMake (XX (PrName "abscissa_kind") (UrName "si::kilometre") (RInt I32)) (XBin CMul (XC (CNum (RInt I32) (NInt 2))) (XC (CRef "si" "km")))) (XMake (XX (PrName "abscissa_kind") (UrName "si::metre") (RFlt F64)) (XBin CMul (XC (CNum (RFlt F64) (NFlt (S754_finite false 6597069766656000 (-41))))) (XC (CRef "si" "m"))))) (XMake (XK (KrName "width_kind") (UrName "si::metre") (RFlt F64)) (XBin CMul (XNeg (XC (CNum (RFlt F64) (NFlt (S754_finite false 8796093022208000 (-43)))))) (XC (CRef "si" "m")))));
  (515, SSame (XBin CSub (XMake (XX (PrName "abscissa_kind") (UrName "si::metre") (RFlt F64)) (XBin CMul (XC (CNum (RFlt F64) (NFlt (S754_finite false 8796093022208000 (-42))))) (XC (CRef "si" "m")))) (XMake (XX (PrName "abscissa_kind") (UrName "si::kilometre") (RInt I32)) (XBin CMul (XC (CNum (RInt I32) (NInt 3))) (XC (CRef "si" "km"))))) (XMake (XK (KrName "width_kind") (UrName "si::metre") (RFlt F64)) (XBin CMul (XNeg (XC (CNum (RFlt F64) (NFlt (S754_finite false 8796093022208000 (-43)))))) (XC (CRef "si" "m")))));
  (516, SIll (XBin CSub (XDefault (XX (PrName "abscissa_kind") (UrName "si::metre") (RFlt F64))) (XC (CNum (RFlt F64) (NFlt (S754_finite false 4503599627370496 (-52)))))));
  (517, SIll (XBin CSub (XDefault (XX (PrName "abscissa_kind") (UrName "si::metre") (RFlt F64))) (XStatic BOne (XQ (TNamed "si::dim_length" "si::metre" (RFlt F64))))));
  (518, SIll (XBin CSub (XDefault (XX (PrName "abscissa_kind") (UrName "si::metre") (RFlt F64))) (XDefault (XP (OrDynamic "si::dim_length") (UrName "si::metre") (RFlt F64)))));
  (519, SIll (XBin CSub (XDefault (XX (PrName "abscissa_kind") (UrName "si::metre") (RFlt F64))) (XStatic BOne (XK (KrName "height_kind") (UrName "si::metre") (RFlt F64)))));
  (520, SIll (XBin CSub (XDefault (XX (PrName "abscissa_kind") (UrName "si::metre") (RFlt F64))) (XDefault (XX (PrName "ordinate_kind") (UrName "si::metre") (RFlt F64)))));
  (521, SIll (XBin CSub (XDefault (XX (PrName "ordinate_kind") (UrName "si::metre") (RFlt F64))) (XDefault (XX (PrName "abscissa_kind") (UrName "si::metre") (RFlt F64)))));
  (522, SIll (XBin CSub (XStatic BOne (XK (KrName "height_kind") (UrName "si::metre") (RFlt F64))) (XDefault (XX (PrName "abscissa_kind") (UrName "si::metre") (RFlt F64)))));
  (523, SIll (XBin CSub (XDefault (XP (OrDynamic "si::dim_length") (UrName "si::metre") (RFlt F64))) (XDefault (XX (PrName "abscissa_kind") (UrName "si::metre") (RFlt F64)))));
  (524, SIll (XBin CSub (XStatic BOne (XQ (TNamed "si::dim_length" "si::metre" (RFlt F64)))) (XDefault (XX (PrName "abscissa_kind") (UrName "si::metre") (RFlt F64)))));
  (525, SIll (XBin CSub (XC (CNum (RFlt F64) (NFlt (S754_finite false 4503599627370496 (-52))))) (XDefault (XX (PrName "abscissa_kind") (UrName "si::metre") (RFlt F64)))));
  (526, SIll (XBin CSub (XDefault (XX (PrName "screen_si_width_kind") (UrName "si::metre") (RFlt F64))) (XDefault (XX (PrName "screen_si_cgs_width_kind") (UrName "si::metre") (RFlt F64)))));
  (535, SCmp CEq (XMake (XX (PrName "abscissa_kind") (UrName "si::metre") (RInt I32)) (XBin CMul (XC (CNum (RInt I32) (NInt 1))) (XC (CRef "si" "m")))) (XMake (XX (PrName "abscissa_kind") (UrName "si::metre") (RInt I32)) (XBin CMul (XC (CNum (RInt I32) (NInt 1))) (XC (CRef "si" "m")))));
  (536, SCmp CEq (XMake (XX (PrName "abscissa_kind") (UrName "si::metre") (RInt I32)) (XBin CMul (XC (CNum (RInt I32) (NInt 1))) (XC (CRef "si" "m")))) (XMake (XX (PrName "abscissa_kind") (UrName "si::metre") (RFlt F64)) (XBin CMul (XC (CNum (RFlt F64) (NFlt (S754_finite false 4503599627370496 (-52))))) (XC (CRef "si" "m")))));
  (537, SCmp CEq (XMake (XX (PrName "abscissa_kind") (UrName "si::metre") (RInt I32)) (XBin CMul (XC (CNum (RInt I32) (NInt 1))) (XC (CRef "si" "m")))) (XMake (XX (PrName "abscissa_kind") (UrName "si::millimetre") (RInt I32)) (XBin CMul (XC (CNum (RInt I32) (NInt 1000))) (XC (CRef "si" "mm")))));
  (538, SCmp CEq (XMake (XX (PrName "abscissa_kind") (UrName "si::metre") (RInt I32)) (XBin CMul (XC (CNum (RInt I32) (NInt 1))) (XC (CRef "si" "m")))) (XMake (XX (PrName "abscissa_kind") (UrName "si::millimetre") (RFlt F64)) (XBin CMul (XC (CNum (RFlt F64) (NFlt (S754_finite false 8796093022208000 (-43))))) (XC (CRef "si" "mm")))));
  (539, SCmp CNe (XMake (XX (PrName "abscissa_kind") (UrName "si::metre") (RInt I32)) (XBin CMul (XC (CNum (RInt I32) (NInt 2))) (XC (CRef "si" "m")))) (XMake (XX (PrName "abscissa_kind") (UrName "si::metre") (RInt I32)) (XBin CMul (XC (CNum (RInt I32) (NInt 1))) (XC (CRef "si" "m")))));
  (540, SCmp CNe (XMake (XX (PrName "abscissa_kind") (UrName "si::metre") (RInt I32)) (XBin CMul (XC (CNum (RInt I32) (NInt 2))) (XC (CRef "si" "m")))) (XMake (XX (PrName "abscissa_kind") (UrName "si::centimetre") (RFlt F64)) (XBin CMul (XC (CNum (RFlt F64) (NFlt (S754_finite false 4503599627370496 (-52))))) (XC (CRef "si::cgs" "cm")))));
  (541, SWellCmp CEq (XDefault (XX (PrName "abscissa_kind") (UrName "si::metre") (RInt I32))) (XDefault (XX (PrName "abscissa_kind") (UrName "si::metre") (RFlt F64))));
  (542, SWellCmp CEq (XDefault (XX (PrName "abscissa_kind") (UrName "si::nanometre") (RInt I32))) (XDefault (XX (PrName "abscissa_kind") (UrName "si::kilometre") (RInt I32))));
  (543, SWellCmp CEq (XDefault (XX (PrName "abscissa_kind") (UrName "si::centimetre") (RInt I32))) (XDefault (XX (PrName "abscissa_kind") (UrName "si::millimetre") (RFlt F64))));
  (544, SWellCmp CEq (XDefault (XX (PrName "abscissa_kind") (UrName "si::metre") (RFlt F64))) (XDefault (XX (PrName "abscissa_kind") (UrName "si::centimetre") (RFlt F64))));
  (548, SIllCmp CEq (XDefault (XX (PrName "abscissa_kind") (UrName "si::metre") (RInt I32))) (XC (CNum (RInt I32) (NInt 1))));
  (549, SIllCmp CNe (XDefault (XX (PrName "abscissa_kind") (UrName "si::metre") (RInt I32))) (XC (CNum (RFlt F64) (NFlt (S754_finite false 4503599627370496 (-52))))));
  (550, SIllCmp CEq (XDefault (XX (PrName "abscissa_kind") (UrName "si::metre") (RInt I32))) (XBin CMul (XC (CNum (RInt I32) (NInt 1))) (XC (CRef "si" "m"))));
  (551, SIllCmp CNe (XDefault (XX (PrName "abscissa_kind") (UrName "si::metre") (RInt I32))) (XBin CMul (XC (CNum (RFlt F64) (NFlt (S754_finite false 4503599627370496 (-52))))) (XC (CRef "si::cgs" "cm"))));
  (552, SIllCmp CEq (XDefault (XX (PrName "abscissa_kind") (UrName "si::metre") (RInt I32))) (XBin CMul (XC (CNum (RInt I32) (NInt 1))) (XC (CRef "si" "km"))));
  (553, SIllCmp CNe (XDefault (XX (PrName "abscissa_kind") (UrName "si::metre") (RInt I32))) (XDeduce FQuantity (XC (CNum (RInt I32) (NInt 1)))));
  (554, SIllCmp CEq (XDefault (XX (PrName "abscissa_kind") (UrName "si::metre") (RInt I32))) (XMake (XQ (TNamed "dim_one" "percent" (RFlt F64))) (XC (CNum (RFlt F64) (NFlt (S754_finite false 4503599627370496 (-52)))))));
  (555, SIllCmp CNe (XDefault (XX (PrName "abscissa_kind") (UrName "si::metre") (RInt I32))) (XMake (XK (KrName "width_kind") (UrName "si::metre") (RInt I32)) (XBin CMul (XC (CNum (RInt I32) (NInt 1))) (XC (CRef "si" "m")))));
  (556, SIllCmp CEq (XDefault (XX (PrName "abscissa_kind") (UrName "si::metre") (RInt I32))) (XMake (XK (KrName "width_kind") (UrName "si::kilometre") (RFlt F64)) (XBin CMul (XC (CNum (RFlt F64) (NFlt (S754_finite false 4503599627370496 (-52))))) (XC (CRef "si" "km")))));
  (557, SIllCmp CNe (XDefault (XX (PrName "abscissa_kind") (UrName "si::metre") (RInt I32))) (XMake (XK (KrName "height_kind") (UrName "si::metre") (RInt I32)) (XBin CMul (XC (CNum (RInt I32) (NInt 1))) (XC (CRef "si" "m")))));
  (558, SIllCmp CEq (XDefault (XX (PrName "abscissa_kind") (UrName "si::metre") (RInt I32))) (XMake (XK (KrName "height_kind") (UrName "si::kilometre") (RFlt F64)) (XBin CMul (XC (CNum (RFlt F64) (NFlt (S754_finite false 4503599627370496 (-52))))) (XC (CRef "si" "km")))));
  (559, SIllCmp CEq (XDefault (XX (PrName "abscissa_kind") (UrName "si::metre") (RInt I32))) (XMake (XK (KrName "rate_of_climb_kind") (UrName "si::kilometre_per_hour") (RFlt F64)) (XBin CMul (XC (CNum (RFlt F64) (NFlt (S754_finite false 4503599627370496 (-52))))) (XBin CDiv (XC (CRef "si" "km")) (XC (CRef "si" "h"))))));
  (560, SIllCmp CNe (XDefault (XX (PrName "abscissa_kind") (UrName "si::metre") (RInt I32))) (XDeduce FPoint (XBin CMul (XC (CNum (RInt I32) (NInt 1))) (XC (CRef "si" "m")))));
  (561, SIllCmp CEq (XDefault (XX (PrName "abscissa_kind") (UrName "si::metre") (RInt I32))) (XDeduce FPoint (XBin CMul (XC (CNum (RFlt F64) (NFlt (S754_finite false 4503599627370496 (-52))))) (XC (CRef "si" "mm")))));
  (562, SIllCmp CNe (XDefault (XX (PrName "abscissa_kind") (UrName "si::metre") (RInt I32))) (XDeduce FPoint (XDeduce FQuantity (XC (CNum (RInt I32) (NInt 1))))));
  (563, SIllCmp CEq (XDefault (XX (PrName "abscissa_kind") (UrName "si::metre") (RInt I32))) (XDeduce FPoint (XMake (XQ (TNamed "dim_one" "percent" (RFlt F64))) (XC (CNum (RFlt F64) (NFlt (S754_finite false 4503599627370496 (-52))))))));
  (564, SIllCmp CNe (XDefault (XX (PrName "abscissa_kind") (UrName "si::metre") (RInt I32))) (XDeduce FPointKind (XMake (XK (KrName "cgs_width_kind") (UrName "si::metre") (RInt I32)) (XBin CMul (XC (CNum (RInt I32) (NInt 1))) (XC (CRef "si" "m"))))));
  (565, SIllCmp CEq (XDefault (XX (PrName "abscissa_kind") (UrName "si::metre") (RInt I32))) (XMake (XX (PrName "ordinate_kind") (UrName "si::metre") (RInt I32)) (XBin CMul (XC (CNum (RInt I32) (NInt 1))) (XC (CRef "si" "m")))));
  (566, SIllCmp CNe (XDefault (XX (PrName "screen_si_width_kind") (UrName "si::metre") (RInt I32))) (XDefault (XX (PrName "screen_si_cgs_width_kind") (UrName "si::metre") (RInt I32))));
  (571, SCmp CLt (XMake (XX (PrName "abscissa_kind") (UrName "si::metre") (RInt I32)) (XBin CMul (XC (CNum (RInt I32) (NInt 1))) (XC (CRef "si" "m")))) (XMake (XX (PrName "abscissa_kind") (UrName "si::metre") (RInt I32)) (XBin CMul (XC (CNum (RInt I32) (NInt 2))) (XC (CRef "si" "m")))));
  (572, SCmp CLe (XMake (XX (PrName "abscissa_kind") (UrName "si::metre") (RInt I32)) (XBin CMul (XC (CNum (RInt I32) (NInt 1))) (XC (CRef "si" "m")))) (XMake (XX (PrName "abscissa_kind") (UrName "si::metre") (RFlt F64)) (XBin CMul (XC (CNum (RFlt F64) (NFlt (S754_finite false 4503599627370496 (-51))))) (XC (CRef "si" "m")))));
  (573, SCmp CLe (XMake (XX (PrName "abscissa_kind") (UrName "si::metre") (RInt I32)) (XBin CMul (XC (CNum (RInt I32) (NInt 1))) (XC (CRef "si" "m")))) (XMake (XX (PrName "abscissa_kind") (UrName "si::kilometre") (RInt I32)) (XBin CMul (XC (CNum (RInt I32) (NInt 1))) (XC (CRef "si" "km")))));
  (574, SCmp CGe (XMake (XX (PrName "abscissa_kind") (UrName "si::metre") (RInt I32)) (XBin CMul (XC (CNum (RInt I32) (NInt 1))) (XC (CRef "si" "m")))) (XMake (XX (PrName "abscissa_kind") (UrName "si::millimetre") (RFlt F64)) (XBin CMul (XC (CNum (RFlt F64) (NFlt (S754_finite false 8796093022208000 (-43))))) (XC (CRef "si" "mm")))));
  (575, SCmp CGe (XMake (XX (PrName "abscissa_kind") (UrName "si::metre") (RInt I32)) (XBin CMul (XC (CNum (RInt I32) (NInt 2))) (XC (CRef "si" "m")))) (XMake (XX (PrName "abscissa_kind") (UrName "si::millimetre") (RInt I32)) (XBin CMul (XC (CNum (RInt I32) (NInt 1))) (XC (CRef "si" "mm")))));
  (576, SCmp CGt (XMake (XX (PrName "abscissa_kind") (UrName "si::metre") (RInt I32)) (XBin CMul (XC (CNum (RInt I32) (NInt 2))) (XC (CRef "si" "m")))) (XMake (XX (PrName "abscissa_kind") (UrName "si::centimetre") (RInt I32)) (XBin CMul (XC (CNum (RInt I32) (NInt 1))) (XC (CRef "si::cgs" "cm")))));
  (577, SWellCmp CLt (XDefault (XX (PrName "abscissa_kind") (UrName "si::metre") (RInt I32))) (XDefault (XX (PrName "abscissa_kind") (UrName "si::metre") (RFlt F64))));
  (578, SWellCmp CLt (XDefault (XX (PrName "abscissa_kind") (UrName "si::nanometre") (RInt I32))) (XDefault (XX (PrName "abscissa_kind") (UrName "si::kilometre") (RInt I32))));
  (579, SWellCmp CLt (XDefault (XX (PrName "abscissa_kind") (UrName "si::centimetre") (RInt I32))) (XDefault (XX (PrName "abscissa_kind") (UrName "si::millimetre") (RFlt F64))));
  (580, SWellCmp CLt (XDefault (XX (PrName "abscissa_kind") (UrName "si::metre") (RFlt F64))) (XDefault (XX (PrName "abscissa_kind") (UrName "si::centimetre") (RFlt F64))));
  (584, SIllCmp CLt (XDefault (XX (PrName "abscissa_kind") (UrName "si::metre") (RInt I32))) (XC (CNum (RInt I32) (NInt 1))));
  (585, SIllCmp CLe (XDefault (XX (PrName "abscissa_kind") (UrName "si::metre") (RInt I32))) (XC (CNum (RFlt F64) (NFlt (S754_finite false 4503599627370496 (-52))))));
  (586, SIllCmp CGe (XDefault (XX (PrName "abscissa_kind") (UrName "si::metre") (RInt I32))) (XBin CMul (XC (CNum (RInt I32) (NInt 1))) (XC (CRef "si" "m"))));
  (587, SIllCmp CGt (XDefault (XX (PrName "abscissa_kind") (UrName "si::metre") (RInt I32))) (XBin CMul (XC (CNum (RFlt F64) (NFlt (S754_finite false 4503599627370496 (-52))))) (XC (CRef "si::cgs" "cm"))));
  (588, SIllCmp CLt (XDefault (XX (PrName "abscissa_kind") (UrName "si::metre") (RInt I32))) (XBin CMul (XC (CNum (RInt I32) (NInt 1))) (XC (CRef "si" "km"))));
  (589, SIllCmp CLt (XDefault (XX (PrName "abscissa_kind") (UrName "si::metre") (RInt I32))) (XDeduce FQuantity (XC (CNum (RInt I32) (NInt 1)))));
  (590, SIllCmp CLe (XDefault (XX (PrName "abscissa_kind") (UrName "si::metre") (RInt I32))) (XMake (XQ (TNamed "dim_one" "percent" (RFlt F64))) (XC (CNum (RFlt F64) (NFlt (S754_finite false 4503599627370496 (-52)))))));
  (591, SIllCmp CGe (XDefault (XX (PrName "abscissa_kind") (UrName "si::metre") (RInt I32))) (XMake (XK (KrName "width_kind") (UrName "si::metre") (RInt I32)) (XBin CMul (XC (CNum (RInt I32) (NInt 1))) (XC (CRef "si" "m")))));
  (592, SIllCmp CGt (XDefault (XX (PrName "abscissa_kind") (UrName "si::metre") (RInt I32))) (XMake (XK (KrName "width_kind") (UrName "si::kilometre") (RFlt F64)) (XBin CMul (XC (CNum (RFlt F64) (NFlt (S754_finite false 4503599627370496 (-52))))) (XC (CRef "si" "km")))));
  (593, SIllCmp CLt (XDefault (XX (PrName "abscissa_kind") (UrName "si::metre") (RInt I32))) (XMake (XK (KrName "height_kind") (UrName "si::metre") (RInt I32)) (XBin CMul (XC (CNum (RInt I32) (NInt 1))) (XC (CRef "si" "m")))));
  (594, SIllCmp CLt (XDefault (XX (PrName "abscissa_kind") (UrName "si::metre") (RInt I32))) (XMake (XK (KrName "height_kind") (UrName "si::kilometre") (RFlt F64)) (XBin CMul (XC (CNum (RFlt F64) (NFlt (S754_finite false 4503599627370496 (-52))))) (XC (CRef "si" "km")))));
  (595, SIllCmp CLe (XDefault (XX (PrName "abscissa_kind") (UrName "si::metre") (RInt I32))) (XMake (XK (KrName "rate_of_climb_kind") (UrName "si::kilometre_per_hour") (RFlt F64)) (XBin CMul (XC (CNum (RFlt F64) (NFlt (S754_finite false 4503599627370496 (-52))))) (XBin CDiv (XC (CRef "si" "km")) (XC (CRef "si" "h"))))));
  (596, SIllCmp CGe (XDefault (XX (PrName "abscissa_kind") (UrName "si::metre") (RInt I32))) (XDeduce FPoint (XBin CMul (XC (CNum (RInt I32) (NInt 1))) (XC (CRef "si" "m")))));
  (597, SIllCmp CGt (XDefault (XX (PrName "abscissa_kind") (UrName "si::metre") (RInt I32))) (XDeduce FPoint (XBin CMul (XC (CNum (RFlt F64) (NFlt (S754_finite false 4503599627370496 (-52))))) (XC (CRef "si" "mm")))));
  (598, SIllCmp CLt (XDefault (XX (PrName "abscissa_kind") (UrName "si::metre") (RInt I32))) (XDeduce FPoint (XDeduce FQuantity (XC (CNum (RInt I32) (NInt 1))))));
  (599, SIllCmp CLt (XDefault (XX (PrName "abscissa_kind") (UrName "si::metre") (RInt I32))) (XDeduce FPoint (XMake (XQ (TNamed "dim_one" "percent" (RFlt F64))) (XC (CNum (RFlt F64) (NFlt (S754_finite false 4503599627370496 (-52))))))));
  (600, SIllCmp CLe (XDefault (XX (PrName "abscissa_kind") (UrName "si::metre") (RInt I32))) (XDeduce FPointKind (XMake (XK (KrName "cgs_width_kind") (UrName "si::metre") (RInt I32)) (XBin CMul (XC (CNum (RInt I32) (NInt 1))) (XC (CRef "si" "m"))))));
  (601, SIllCmp CGe (XDefault (XX (PrName "abscissa_kind") (UrName "si::metre") (RInt I32))) (XMake (XX (PrName "ordinate_kind") (UrName "si::metre") (RInt I32)) (XBin CMul (XC (CNum (RInt I32) (NInt 1))) (XC (CRef "si" "m")))));
  (602, SIllCmp CGt (XDefault (XX (PrName "screen_si_width_kind") (UrName "si::metre") (RInt I32))) (XDefault (XX (PrName "screen_si_cgs_width_kind") (UrName "si::metre") (RInt I32))));
  (612, SSame (XCast (XsType (XX (PrName "abscissa_kind") (UrName "si::metre") (RInt I32))) (XMake (XX (PrName "abscissa_kind") (UrName "si::metre") (RInt I32)) (XBin CMul (XC (CNum (RInt I32) (NInt 1))) (XC (CRef "si" "m"))))) (XMake (XX (PrName "abscissa_kind") (UrName "si::metre") (RInt I32)) (XBin CMul (XC (CNum (RInt I32) (NInt 1))) (XC (CRef "si" "m")))));
  (613, SSame (XCast (XsType (XX (PrName "abscissa_kind") (UrName "si::metre") (RFlt F64))) (XMake (XX (PrName "abscissa_kind") (UrName "si::metre") (RInt I32)) (XBin CMul (XC (CNum (RInt I32) (NInt 1))) (XC (CRef "si" "m"))))) (XMake (XX (PrName "abscissa_kind") (UrName "si::metre") (RFlt F64)) (XBin CMul (XC (CNum (RFlt F64) (NFlt (S754_finite false 4503599627370496 (-52))))) (XC (CRef "si" "m")))));
  (614, SSame (XCast (XsType (XX (PrName "abscissa_kind") (UrName "si::kilometre") (RInt I32))) (XMake (XX (PrName "abscissa_kind") (UrName "si::metre") (RInt I32)) (XBin CMul (XC (CNum (RInt I32) (NInt 999))) (XC (CRef "si" "m"))))) (XMake (XX (PrName "abscissa_kind") (UrName "si::kilometre") (RInt I32)) (XBin CMul (XC (CNum (RInt I32) (NInt 0))) (XC (CRef "si" "km")))));
  (615, SSame (XCast (XsType (XX (PrName "abscissa_kind") (UrName "si::kilometre") (RInt I32))) (XMake (XX (PrName "abscissa_kind") (UrName "si::metre") (RInt I32)) (XBin CMul (XC (CNum (RInt I32) (NInt 1000))) (XC (CRef "si" "m"))))) (XMake (XX (PrName "abscissa_kind") (UrName "si::kilometre") (RInt I32)) (XBin CMul (XC (CNum (RInt I32) (NInt 1))) (XC (CRef "si" "km")))));
  (616, SSame (XCast (XsType (XX (PrName "abscissa_kind") (UrName "si::kilometre") (RFlt F64))) (XMake (XX (PrName "abscissa_kind") (UrName "si::metre") (RInt I32)) (XBin CMul (XC (CNum (RInt I32) (NInt 999))) (XC (CRef "si" "m"))))) (XMake (XX (PrName "abscissa_kind") (UrName "si::kilometre") (RFlt F64)) (XBin CMul (XC (CNum (RFlt F64) (NFlt (S754_finite false 8998192055486251 (-53))))) (XC (CRef "si" "km")))));
  (617, SSame (XCast (XsType (XK (KrName "width_kind") (UrName "si::metre") (RInt I32))) (XMake (XX (PrName "abscissa_kind") (UrName "si::metre") (RInt I32)) (XBin CMul (XC (CNum (RInt I32) (NInt 1))) (XC (CRef "si" "m"))))) (XMake (XX (PrName "abscissa_kind") (UrName "si::metre") (RInt I32)) (XBin CMul (XC (CNum (RInt I32) (NInt 1))) (XC (CRef "si" "m")))));
  (618, SSame (XCast (XsType (XK (KrName "width_kind") (UrName "si::metre") (RFlt F64))) (XMake (XX (PrName "abscissa_kind") (UrName "si::metre") (RInt I32)) (XBin CMul (XC (CNum (RInt I32) (NInt 1))) (XC (CRef "si" "m"))))) (XMake (XX (PrName "abscissa_kind") (UrName "si::metre") (RFlt F64)) (XBin CMul (XC (CNum (RFlt F64) (NFlt (S754_finite false 4503599627370496 (-52))))) (XC (CRef "si" "m")))));
  (619, SSame (XCast (XsType (XK (KrName "width_kind") (UrName "si::kilometre") (RInt I32))) (XMake (XX (PrName "abscissa_kind") (UrName "si::metre") (RInt I32)) (XBin CMul (XC (CNum (RInt I32) (NInt 999))) (XC (CRef "si" "m"))))) (XMake (XX (PrName "abscissa_kind") (UrName "si::kilometre") (RInt I32)) (XBin CMul (XC (CNum (RInt I32) (NInt 0))) (XC (CRef "si" "km")))));
  (620, SSame (XCast (XsType (XK (KrName "width_kind") (UrName "si::kilometre") (RInt I32))) (XMake (XX (PrName "abscissa_kind") (UrName "si::metre") (RInt I32)) (XBin CMul (XC (CNum (RInt I32) (NInt 1000))) (XC (CRef "si" "m"))))) (XMake (XX (PrName "abscissa_kind") (UrName "si::kilometre") (RInt I32)) (XBin CMul (XC (CNum (RInt I32) (NInt 1))) (XC (CRef "si" "km")))));
  (621, SSame (XCast (XsType (XK (KrName "width_kind") (UrName "si::kilometre") (RFlt F64))) (XMake (XX (PrName "abscissa_kind") (UrName "si::metre") (RInt I32)) (XBin CMul (XC (CNum (RInt I32) (NInt 999))) (XC (CRef "si" "m"))))) (XMake (XX (PrName "abscissa_kind") (UrName "si::kilometre") (RFlt F64)) (XBin CMul (XC (CNum (RFlt F64) (NFlt (S754_finite false 8998192055486251 (-53))))) (XC (CRef "si" "km")))));
  (622, SSame (XCast (XsRep (RFlt F64)) (XMake (XX (PrName "abscissa_kind") (UrName "si::metre") (RInt I32)) (XBin CMul (XC (CNum (RInt I32) (NInt 1))) (XC (CRef "si" "m"))))) (XMake (XX (PrName "abscissa_kind") (UrName "si::metre") (RFlt F64)) (XBin CMul (XC (CNum (RFlt F64) (NFlt (S754_finite false 4503599627370496 (-52))))) (XC (CRef "si" "m")))));
  (623, SSame (XCast (XsUnit "si::metre") (XMake (XX (PrName "abscissa_kind") (UrName "si::metre") (RInt I32)) (XBin CMul (XC (CNum (RInt I32) (NInt 1))) (XC (CRef "si" "m"))))) (XMake (XX (PrName "abscissa_kind") (UrName "si::metre") (RInt I32)) (XBin CMul (XC (CNum (RInt I32) (NInt 1))) (XC (CRef "si" "m")))));
  (624, SSame (XCast (XsUnit "si::kilometre") (XMake (XX (PrName "abscissa_kind") (UrName "si::metre") (RInt I32)) (XBin CMul (XC (CNum (RInt I32) (NInt 999))) (XC (CRef "si" "m"))))) (XMake (XX (PrName "abscissa_kind") (UrName "si::kilometre") (RInt I32)) (XBin CMul (XC (CNum (RInt I32) (NInt 0))) (XC (CRef "si" "km")))));
  (625, SSame (XCast (XsUnit "si::kilometre") (XMake (XX (PrName "abscissa_kind") (UrName "si::metre") (RInt I32)) (XBin CMul (XC (CNum (RInt I32) (NInt 1000))) (XC (CRef "si" "m"))))) (XMake (XX (PrName "abscissa_kind") (UrName "si::kilometre") (RInt I32)) (XBin CMul (XC (CNum (RInt I32) (NInt 1))) (XC (CRef "si" "km")))));
  (626, SSame (XCast (XsType (XX (PrName "ordinate_kind") (UrName "si::metre") (RInt I32))) (XMake (XX (PrName "abscissa_kind") (UrName "si::metre") (RInt I32)) (XBin CMul (XC (CNum (RInt I32) (NInt 1))) (XC (CRef "si" "m"))))) (XMake (XX (PrName "ordinate_kind") (UrName "si::metre") (RInt I32)) (XBin CMul (XC (CNum (RInt I32) (NInt 1))) (XC (CRef "si" "m")))));
  (627, SSame (XCast (XsType (XX (PrName "ordinate_kind") (UrName "si::metre") (RFlt F64))) (XMake (XX (PrName "abscissa_kind") (UrName "si::metre") (RInt I32)) (XBin CMul (XC (CNum (RInt I32) (NInt 1))) (XC (CRef "si" "m"))))) (XMake (XX (PrName "ordinate_kind") (UrName "si::metre") (RFlt F64)) (XBin CMul (XC (CNum (RFlt F64) (NFlt (S754_finite false 4503599627370496 (-52))))) (XC (CRef "si" "m")))));
  (628, SSame (XCast (XsType (XX (PrName "ordinate_kind") (UrName "si::kilometre") (RInt I32))) (XMake (XX (PrName "abscissa_kind") (UrName "si::metre") (RInt I32)) (XBin CMul (XC (CNum (RInt I32) (NInt 999))) (XC (CRef "si" "m"))))) (XMake (XX (PrName "ordinate_kind") (UrName "si::kilometre") (RInt I32)) (XBin CMul (XC (CNum (RInt I32) (NInt 0))) (XC (CRef "si" "km")))));
  (629, SSame (XCast (XsType (XX (PrName "ordinate_kind") (UrName "si::kilometre") (RInt I32))) (XMake (XX (PrName "abscissa_kind") (UrName "si::metre") (RInt I32)) (XBin CMul (XC (CNum (RInt I32) (NInt 1000))) (XC (CRef "si" "m"))))) (XMake (XX (PrName "ordinate_kind") (UrName "si::kilometre") (RInt I32)) (XBin CMul (XC (CNum (RInt I32) (NInt 1))) (XC (CRef "si" "km")))));
  (630, SSame (XCast (XsType (XX (PrName "ordinate_kind") (UrName "si::kilometre") (RFlt F64))) (XMake (XX (PrName "abscissa_kind") (UrName "si::metre") (RInt I32)) (XBin CMul (XC (CNum (RInt I32) (NInt 999))) (XC (CRef "si" "m"))))) (XMake (XX (PrName "ordinate_kind") (UrName "si::kilometre") (RFlt F64)) (XBin CMul (XC (CNum (RFlt F64) (NFlt (S754_finite false 8998192055486251 (-53))))) (XC (CRef "si" "km")))));
  (631, SSame (XCast (XsType (XK (KrName "height_kind") (UrName "si::metre") (RInt I32))) (XMake (XX (PrName "abscissa_kind") (UrName "si::metre") (RInt I32)) (XBin CMul (XC (CNum (RInt I32) (NInt 1))) (XC (CRef "si" "m"))))) (XMake (XX (PrName "ordinate_kind") (UrName "si::metre") (RInt I32)) (XBin CMul (XC (CNum (RInt I32) (NInt 1))) (XC (CRef "si" "m")))));
  (632, SSame (XCast (XsType (XK (KrName "height_kind") (UrName "si::metre") (RFlt F64))) (XMake (XX (PrName "abscissa_kind") (UrName "si::metre") (RInt I32)) (XBin CMul (XC (CNum (RInt I32) (NInt 1))) (XC (CRef "si" "m"))))) (XMake (XX (PrName "ordinate_kind") (UrName "si::metre") (RFlt F64)) (XBin CMul (XC (CNum (RFlt F64) (NFlt (S754_finite false 4503599627370496 (-52))))) (XC (CRef "si" "m")))));
  (633, SSame (XCast (XsType (XK (KrName "height_kind") (UrName "si::kilometre") (RInt I32))) (XMake (XX (PrName "abscissa_kind") (UrName "si::metre") (RInt I32)) (XBin CMul (XC (CNum (RInt I32) (NInt 999))) (XC (CRef "si" "m"))))) (XMake (XX (PrName "ordinate_kind") (UrName "si::kilometre") (RInt I32)) (XBin CMul (XC (CNum (RInt I32) (NInt 0))) (XC (CRef "si" "km")))));
  (634, SSame (XCast (XsType (XK (KrName "height_kind") (UrName "si::kilometre") (RInt I32))) (XMake (XX (PrName "abscissa_kind") (UrName "si::metre") (RInt I32)) (XBin CMul (XC (CNum (RInt I32) (NInt 1000))) (XC (CRef "si" "m"))))) (XMake (XX (PrName "ordinate_kind") (UrName "si::kilometre") (RInt I32)) (XBin CMul (XC (CNum (RInt I32) (NInt 1))) (XC (CRef "si" "km")))));
  (635, SSame (XCast (XsType (XK (KrName "height_kind") (UrName "si::kilometre") (RFlt F64))) (XMake (XX (PrName "abscissa_kind") (UrName "si::metre") (RInt I32)) (XBin CMul (XC (CNum (RInt I32) (NInt 999))) (XC (CRef "si" "m"))))) (XMake (XX (PrName "ordinate_kind") (UrName "si::kilometre") (RFlt F64)) (XBin CMul (XC (CNum (RFlt F64) (NFlt (S754_finite false 8998192055486251 (-53))))) (XC (CRef "si" "km")))));
  (636, SSame (XCast (XsKind (KrName "height_kind")) (XMake (XX (PrName "abscissa_kind") (UrName "si::metre") (RInt I32)) (XBin CMul (XC (CNum (RInt I32) (NInt 1))) (XC (CRef "si" "m"))))) (XMake (XX (PrName "ordinate_kind") (UrName "si::metre") (RInt I32)) (XBin CMul (XC (CNum (RInt I32) (NInt 1))) (XC (CRef "si" "m")))));
  (637, SSame (XCast (XsPointKindUnit (PrName "ordinate_kind") "si::metre") (XMake (XX (PrName "abscissa_kind") (UrName "si::metre") (RInt I32)) (XBin CMul (XC (CNum (RInt I32) (NInt 1))) (XC (CRef "si" "m"))))) (XMake (XX (PrName "ordinate_kind") (UrName "si::metre") (RInt I32)) (XBin CMul (XC (CNum (RInt I32) (NInt 1))) (XC (CRef "si" "m")))));
  (638, SSame (XCast (XsPointKindUnit (PrName "ordinate_kind") "si::kilometre") (XMake (XX (PrName "abscissa_kind") (UrName "si::metre") (RInt I32)) (XBin CMul (XC (CNum (RInt I32) (NInt 999))) (XC (CRef "si" "m"))))) (XMake (XX (PrName "ordinate_kind") (UrName "si::kilometre") (RInt I32)) (XBin CMul (XC (CNum (RInt I32) (NInt 0))) (XC (CRef "si" "km")))));
  (639, SSame (XCast (XsPointKindUnit (PrName "ordinate_kind") "si::kilometre") (XMake (XX (PrName "abscissa_kind") (UrName "si::metre") (RInt I32)) (XBin CMul (XC (CNum (RInt I32) (NInt 1000))) (XC (CRef "si" "m"))))) (XMake (XX (PrName "ordinate_kind") (UrName "si::kilometre") (RInt I32)) (XBin CMul (XC (CNum (RInt I32) (NInt 1))) (XC (CRef "si" "km")))));
  (640, SSame (XCast (XsType (XK (KrName "cgs_width_kind") (UrName "si::centimetre") (RInt I32))) (XMake (XX (PrName "abscissa_kind") (UrName "si::centimetre") (RInt I32)) (XBin CMul (XC (CNum (RInt I32) (NInt 1))) (XC (CRef "si" "cm"))))) (XDeduce FPointKind (XMake (XK (KrName "cgs_width_kind") (UrName "si::centimetre") (RInt I32)) (XBin CMul (XC (CNum (RInt I32) (NInt 1))) (XC (CRef "si::cgs" "cm"))))));
  (641, SSame (XCast (XsKind (KrName "cgs_width_kind")) (XMake (XX (PrName "abscissa_kind") (UrName "si::centimetre") (RInt I32)) (XBin CMul (XC (CNum (RInt I32) (NInt 1))) (XC (CRef "si" "cm"))))) (XDeduce FPointKind (XMake (XK (KrName "cgs_width_kind") (UrName "si::centimetre") (RInt I32)) (XBin CMul (XC (CNum (RInt I32) (NInt 1))) (XC (CRef "si::cgs" "cm"))))));
  (642, SSame (XCast (XsPointKind (PrName "altitude_kind")) (XMake (XX (PrName "abscissa_kind") (UrName "si::centimetre") (RInt I32)) (XBin CMul (XC (CNum (RInt I32) (NInt 1))) (XC (CRef "si" "cm"))))) (XMake (XX (PrName "altitude_kind") (UrName "si::centimetre") (RInt I32)) (XBin CMul (XC (CNum (RInt I32) (NInt 1))) (XC (CRef "si::cgs" "cm")))));
  (643, SSame (XCast (XsPointKindUnit (PrName "altitude_kind") "si::centimetre") (XMake (XX (PrName "abscissa_kind") (UrName "si::centimetre") (RInt I32)) (XBin CMul (XC (CNum (RInt I32) (NInt 1))) (XC (CRef "si" "cm"))))) (XMake (XX (PrName "altitude_kind") (UrName "si::centimetre") (RInt I32)) (XBin CMul (XC (CNum (RInt I32) (NInt 1))) (XC (CRef "si::cgs" "cm")))));
  (644, SSame (XCast (XsKind (KrName "cgs_width_kind")) (XMake (XX (PrName "abscissa_kind") (UrName "si::metre") (RInt I32)) (XBin CMul (XC (CNum (RInt I32) (NInt 1))) (XC (CRef "si" "m"))))) (XDeduce FPointKind (XMake (XK (KrName "cgs_width_kind") (UrName "si::metre") (RInt I32)) (XBin CMul (XC (CNum (RInt I32) (NInt 1))) (XC (CRef "si" "m"))))));
  (645, SSame (XCast (XsPointKind (PrName "altitude_kind")) (XMake (XX (PrName "abscissa_kind") (UrName "si::metre") (RInt I32)) (XBin CMul (XC (CNum (RInt I32) (NInt 1))) (XC (CRef "si" "m"))))) (XMake (XX (PrName "altitude_kind") (UrName "si::metre") (RInt I32)) (XBin CMul (XC (CNum (RInt I32) (NInt 1))) (XC (CRef "si" "m")))));
  (646, SSame (XCast (XsPointKindUnit (PrName "altitude_kind") "si::metre") (XMake (XX (PrName "abscissa_kind") (UrName "si::metre") (RInt I32)) (XBin CMul (XC (CNum (RInt I32) (NInt 1))) (XC (CRef "si" "m"))))) (XMake (XX (PrName "altitude_kind") (UrName "si::metre") (RInt I32)) (XBin CMul (XC (CNum (RInt I32) (NInt 1))) (XC (CRef "si" "m")))));
  (647, SSame (XCast (XsDim "si::cgs::dim_length") (XMake (XX (PrName "abscissa_kind") (UrName "si::centimetre") (RInt I32)) (XBin CMul (XC (CNum (RInt I32) (NInt 1))) (XC (CRef "si" "cm"))))) (XMake (XX (PrName "abscissa_kind") (UrName "si::centimetre") (RInt I32)) (XBin CMul (XC (CNum (RInt I32) (NInt 1))) (XC (CRef "si::cgs" "cm")))));
  (648, SSame (XCast (XsType (XQ (TNamed "si::dim_length" "si::kilometre" (RInt I32)))) (XMake (XX (PrName "abscissa_kind") (UrName "si::metre") (RInt I32)) (XBin CMul (XC (CNum (RInt I32) (NInt 1))) (XC (CRef "si" "m"))))) (XMake (XX (PrName "abscissa_kind") (UrName "si::kilometre") (RInt I32)) (XBin CMul (XC (CNum (RInt I32) (NInt 0))) (XC (CRef "si" "km")))));
  (649, SSame (XCast (XsType (XQ (TNamed "si::dim_length" "si::centimetre" (RInt I32)))) (XMake (XX (PrName "abscissa_kind") (UrName "si::metre") (RInt I32)) (XBin CMul (XC (CNum (RInt I32) (NInt 1))) (XC (CRef "si" "m"))))) (XMake (XX (PrName "abscissa_kind") (UrName "si::centimetre") (RInt I32)) (XBin CMul (XC (CNum (RInt I32) (NInt 100))) (XC (CRef "si" "cm")))));
  (650, SSame (XCast (XsType (XQ (TNamed "si::dim_length" "si::centimetre" (RInt I32)))) (XMake (XX (PrName "abscissa_kind") (UrName "si::metre") (RFlt F64)) (XBin CMul (XC (CNum (RFlt F64) (NFlt (S754_finite false 5764607523034235 (-59))))) (XC (CRef "si" "m"))))) (XMake (XX (PrName "abscissa_kind") (UrName "si::centimetre") (RInt I32)) (XBin CMul (XC (CNum (RInt I32) (NInt 1))) (XC (CRef "si" "cm")))));
  (651, SSame (XCast (XsType (XQ (TNamed "si::dim_length" "si::centimetre" (RInt I32)))) (XMake (XX (PrName "abscissa_kind") (UrName "si::centimetre") (RInt I32)) (XBin CMul (XC (CNum (RInt I32) (NInt 1))) (XC (CRef "si::cgs" "cm"))))) (XMake (XX (PrName "abscissa_kind") (UrName "si::centimetre") (RInt I32)) (XBin CMul (XC (CNum (RInt I32) (NInt 1))) (XC (CRef "si::cgs" "cm")))));
  (652, SSame (XCast (XsType (XX (PrName "screen_si_cgs_width_kind") (UrName "si::metre") (RInt I32))) (XMake (XX (PrName "screen_si_width_kind") (UrName "si::metre") (RInt I32)) (XBin CMul (XC (CNum (RInt I32) (NInt 1))) (XC (CRef "si" "m"))))) (XMake (XX (PrName "screen_si_cgs_width_kind") (UrName "si::metre") (RInt I32)) (XBin CMul (XC (CNum (RInt I32) (NInt 1))) (XC (CRef "si" "m")))));
  (656, SIll (XCast (XsType (XK (KrName "apple") (UrName "one") (RInt I32))) (XMake (XX (PrName "abscissa_kind") (UrName "si::metre") (RInt I32)) (XBin CMul (XC (CNum (RInt I32) (NInt 1))) (XC (CRef "si" "m"))))));
  (657, SIll (XCast (XsType (XK (KrName "rate_of_climb_kind") (UrName "si::metre_per_second") (RInt I32))) (XMake (XX (PrName "abscissa_kind") (UrName "si::metre") (RInt I32)) (XBin CMul (XC (CNum (RInt I32) (NInt 1))) (XC (CRef "si" "m"))))));
  (658, SIll (XCast (XsKind (KrName "apple")) (XMake (XX (PrName "abscissa_kind") (UrName "si::metre") (RInt I32)) (XBin CMul (XC (CNum (RInt I32) (NInt 1))) (XC (CRef "si" "m"))))));
  (659, SIll (XCast (XsKind (KrName "rate_of_climb_kind")) (XMake (XX (PrName "abscissa_kind") (UrName "si::metre") (RInt I32)) (XBin CMul (XC (CNum (RInt I32) (NInt 1))) (XC (CRef "si" "m"))))));
  (660, SIll (XCast (XsKindUnit (KrName "apple") "one") (XMake (XX (PrName "abscissa_kind") (UrName "si::metre") (RInt I32)) (XBin CMul (XC (CNum (RInt I32) (NInt 1))) (XC (CRef "si" "m"))))));
  (661, SIll (XCast (XsKindUnit (KrName "width_kind") "si::metre") (XMake (XX (PrName "abscissa_kind") (UrName "si::metre") (RInt I32)) (XBin CMul (XC (CNum (RInt I32) (NInt 1))) (XC (CRef "si" "m"))))));
  (662, SIll (XCast (XsKindUnit (KrName "width_kind") "si::kilometre") (XMake (XX (PrName "abscissa_kind") (UrName "si::metre") (RInt I32)) (XBin CMul (XC (CNum (RInt I32) (NInt 1))) (XC (CRef "si" "m"))))));
  (663, SIll (XCast (XsKindUnit (KrName "height_kind") "si::metre") (XMake (XX (PrName "abscissa_kind") (UrName "si::metre") (RInt I32)) (XBin CMul (XC (CNum (RInt I32) (NInt 1))) (XC (CRef "si" "m"))))));
  (664, SIll (XCast (XsKindUnit (KrName "height_kind") "si::kilometre") (XMake (XX (PrName "abscissa_kind") (UrName "si::metre") (RInt I32)) (XBin CMul (XC (CNum (RInt I32) (NInt 1))) (XC (CRef "si" "m"))))));
  (665, SIll (XCast (XsKindUnit (KrName "cgs_width_kind") "si::centimetre") (XMake (XX (PrName "abscissa_kind") (UrName "si::metre") (RInt I32)) (XBin CMul (XC (CNum (RInt I32) (NInt 1))) (XC (CRef "si" "m"))))));
  (666, SIll (XCast (XsKindUnit (KrName "rate_of_climb_kind") "si::metre_per_second") (XMake (XX (PrName "abscissa_kind") (UrName "si::metre") (RInt I32)) (XBin CMul (XC (CNum (RInt I32) (NInt 1))) (XC (CRef "si" "m"))))));
  (667, SIll (XCast (XsType (XQ (TNamed "dim_one" "one" (RFlt F64)))) (XMake (XX (PrName "abscissa_kind") (UrName "si::metre") (RInt I32)) (XBin CMul (XC (CNum (RInt I32) (NInt 1))) (XC (CRef "si" "m"))))));
  (668, SIll (XCast (XsUnit "si::square_metre") (XMake (XX (PrName "abscissa_kind") (UrName "si::metre") (RInt I32)) (XBin CMul (XC (CNum (RInt I32) (NInt 1))) (XC (CRef "si" "m"))))));
  (669, SIll (XCast (XsUnit "si::second") (XMake (XX (PrName "abscissa_kind") (UrName "si::metre") (RInt I32)) (XBin CMul (XC (CNum (RInt I32) (NInt 1))) (XC (CRef "si" "m"))))));
  (670, SIll (XCast (XsType (XP (OrDynamic "si::dim_length") (UrName "si::metre") (RInt I32))) (XMake (XX (PrName "abscissa_kind") (UrName "si::metre") (RInt I32)) (XBin CMul (XC (CNum (RInt I32) (NInt 1))) (XC (CRef "si" "m"))))));
  (671, SIll (XCast (XsType (XP (OrDynamic "dim_one") (UrName "one") (RInt I32))) (XMake (XX (PrName "abscissa_kind") (UrName "si::metre") (RInt I32)) (XBin CMul (XC (CNum (RInt I32) (NInt 1))) (XC (CRef "si" "m"))))));
  (672, SIll (XCast (XsType (XP (OrDynamic "si::dim_length") (UrName "si::metre") (RInt I32))) (XMake (XX (PrName "screen_si_width_kind") (UrName "si::metre") (RInt I32)) (XBin CMul (XC (CNum (RInt I32) (NInt 1))) (XC (CRef "si" "m"))))))].
Example quantity_point_kind_conforms : forall est, match compile est On ["generic/dimensionless.h"; "isq/si/area.h"; "isq/si/cgs/length.h"; "isq/si/fps/length.h"; "isq/si/speed.h"; "isq/si/time.h"] with Ok e => failing_kinds screen_rebinding est e quantity_point_kind_declarations quantity_point_kind_test | _ => [-1] end = [].
Proof. intros est. vm_compute. reflexivity. Qed.

(** test/unit_test/static/quantity_point_test.cpp: 113 assertions. *)
Definition quantity_point_declarations : list kdecl := [].
Definition quantity_point_test : list (Z * xassert) := [
  (52, SIllType (XP (OrDynamic "si::dim_length") (UrName "si::second") (RInt I32)));
  (68, SMember (XP (OrDynamic "si::dim_length") (UrName "si::metre") (RInt I32)) (TNamed "si::dim_length" "si::metre" (RInt I32)));
  (69, SMember (XP (OrDynamic "si::dim_length") (UrName "si::metre") (RFlt F64)) (TNamed "si::dim_length" "si::metre" (RFlt F64)));
  (70, SMember (XP (OrDynamic "si::dim_length") (UrName "si::metre") (RInt I32)) (TNamed "si::dim_length" "si::metre" (RInt I32)));
  (71, SMember (XP (OrDynamic "si::dim_length") (UrName "si::kilometre") (RInt I32)) (TNamed "si::dim_length" "si::kilometre" (RInt I32)));
  (72, SMember (XP (OrDynamic "si::dim_length") (UrName "si::metre") (RInt I32)) (TNamed "si::dim_length" "si::metre" (RInt I32)));
  (73, SSameType (XP (OrDynamic "si::dim_length") (UrName "si::metre") (RInt I32)) (XP (OrDynamic "si::dim_length") (UrName "si::metre") (RInt I32)));
  (74, SMember (XP (OrDynamic "si::dim_length") (UrName "si::metre") (RInt I32)) (TNamed "si::dim_length" "si::metre" (RInt I32)));
  (78, SCmp CEq (XRelative (XDeduce FPoint (XC (CNum (RInt I32) (NInt 1))))) (XDeduce FQuantity (XC (CNum (RInt I32) (NInt 1)))));
  (79, SIll (XImplicit (XP (OrDynamic "dim_one") (UrName "one") (RInt I32)) (XC (CNum (RInt I32) (NInt 1)))));
  (81, SCmp CEq (XRelative (XDeduce FPoint (XDur 1 1 (RInt I64) (NInt 42)))) (XBin CMul (XC (CNum (RInt I32) (NInt 42))) (XC (CRef "si" "s"))));
  (82, SCmp CEq (XRelative (XDeduce FPoint (XTime "system_clock" (XDur 1 1 (RInt I64) (NInt 42))))) (XBin CMul (XC (CNum (RInt I32) (NInt 42))) (XC (CRef "si" "s"))));
  (83, SIll (XImplicit (XP (OrDynamic "si::dim_time") (UrName "si::second") (RInt I64)) (XDur 1 1 (RInt I64) (NInt 1))));
  (84, SIll (XImplicit (XP (OrClock "system_clock") (UrName "si::second") (RInt I64)) (XDur 1 1 (RInt I64) (NInt 1))));
  (85, SIll (XImplicit (XP (OrDynamic "si::dim_time") (UrName "si::second") (RInt I64)) (XTime "system_clock" (XDur 1 1 (RInt I64) (NInt 1)))));
  (86, SIll (XImplicit (XP (OrClock "system_clock") (UrName "si::second") (RInt I64)) (XTime "system_clock" (XDur 1 1 (RInt I64) (NInt 1)))));
  (88, SCmp CEq (XRelative (XDefault (XP (OrDynamic "si::dim_length") (UrName "si::metre") (RInt I32)))) (XC (CLit "si" "m" 0)));
  (90, SCmp CEq (XRelative (XMake (XP (OrDynamic "si::dim_length") (UrName "si::metre") (RInt I32)) (XC (CLit "si" "m" 1000)))) (XC (CLit "si" "m" 1000)));
  (91, SCmp CEq (XRelative (XMake (XP (OrDynamic "si::dim_length") (UrName "si::metre") (RInt I32)) (XMake (XP (OrDynamic "si::dim_length") (UrName "si::metre") (RInt I32)) (XC (CLit "si" "m" 1000))))) (XRelative (XMake (XP (OrDynamic "si::dim_length") (UrName "si::metre") (RInt I32)) (XC (CLit "si" "m" 1000)))));
  (93, SCmp CEq (XRelative (XMake (XP (OrDynamic "si::dim_length") (UrName "si::metre") (RInt I32)) (XC (CLit "si" "m" 1)))) (XC (CLit "si" "m" 1)));
  (94, SIll (XMake (XP (OrDynamic "si::dim_length") (UrName "si::metre") (RInt I32)) (XC (CNum (RFlt F64) (NFlt (S754_finite false 4503599627370496 (-52)))))));
  (95, SCmp CEq (XRelative (XMake (XP (OrDynamic "si::dim_length") (UrName "si::metre") (RFlt F64)) (XC (CFlt "si" "m" (S754_finite false 9223372036854775808 (-63)))))) (XC (CFlt "si" "m" (S754_finite false 9223372036854775808 (-63)))));
  (96, SCmp CEq (XRelative (XMake (XP (OrDynamic "si::dim_length") (UrName "si::metre") (RFlt F64)) (XC (CLit "si" "m" 1)))) (XC (CLit "si" "m" 1)));
  (97, SCmp CEq (XRelative (XMake (XP (OrDynamic "si::dim_length") (UrName "si::metre") (RFlt F80)) (XC (CFlt "si" "m" (S754_finite false 14480694097861998019 (-62)))))) (XC (CFlt "si" "m" (S754_finite false 14480694097861998019 (-62)))));
  (99, SCmp CEq (XRelative (XMake (XP (OrDynamic "si::dim_length") (UrName "si::metre") (RInt I32)) (XMake (XP (OrDynamic "si::dim_length") (UrName "si::metre") (RInt I32)) (XC (CLit "si" "m" 1000))))) (XC (CLit "si" "m" 1000)));
  (100, SIll (XMake (XP (OrDynamic "si::dim_length") (UrName "si::metre") (RInt I32)) (XDefault (XP (OrDynamic "si::dim_length") (UrName "si::metre") (RFlt F64)))));
  (102, SCmp CEq (XRelative (XMake (XP (OrDynamic "si::dim_length") (UrName "si::metre") (RFlt F64)) (XDeduce FPoint (XC (CFlt "si" "m" (S754_finite false 18014398509481984000 (-54))))))) (XC (CFlt "si" "m" (S754_finite false 18014398509481984000 (-54)))));
  (103, SCmp CEq (XRelative (XMake (XP (OrDynamic "si::dim_length") (UrName "si::metre") (RFlt F64)) (XMake (XP (OrDynamic "si::dim_length") (UrName "si::metre") (RInt I32)) (XC (CLit "si" "m" 1000))))) (XC (CFlt "si" "m" (S754_finite false 18014398509481984000 (-54)))));
  (104, SCmp CEq (XRelative (XMake (XP (OrDynamic "si::dim_length") (UrName "si::metre") (RInt I32)) (XDeduce FPoint (XC (CLit "si" "km" 1))))) (XC (CLit "si" "m" 1000)));
  (105, SIll (XMake (XP (OrDynamic "si::dim_length") (UrName "si::metre") (RInt I32)) (XDefault (XP (OrDynamic "si::dim_time") (UrName "si::second") (RInt I32)))));
  (107, SIll (XMake (XP (OrDynamic "si::dim_length") (UrName "si::kilometre") (RInt I32)) (XDefault (XP (OrDynamic "si::dim_length") (UrName "si::metre") (RInt I32)))));
  (110, SIll (XMake (XP (OrUser "sea_level_origin" "si::dim_length") (UrName "si::kilometre") (RInt I32)) (XDefault (XP (OrDynamic "si::dim_length") (UrName "si::metre") (RInt I32)))));
  (113, SIll (XMake (XP (OrDynamic "si::dim_time") (UrName "si::second") (RInt I32)) (XTime "system_clock" (XDur 1 1 (RInt I64) (NInt 1)))));
  (118, SCmp CEq (XRelative (XSet (XDefault (XP (OrDynamic "si::dim_length") (UrName "si::metre") (RInt I32))) (XMake (XP (OrDynamic "si::dim_length") (UrName "si::metre") (RInt I32)) (XC (CLit "si" "m" 1))))) (XC (CLit "si" "m" 1)));
  (122, SCmp CEq (XNumber (XRelative (XStatic BMin (XP (OrDynamic "si::dim_length") (UrName "si::metre") (RInt I32))))) (XC (CNum (RInt I32) (NInt (-2147483648)))));
  (123, SCmp CEq (XNumber (XRelative (XStatic BMax (XP (OrDynamic "si::dim_length") (UrName "si::metre") (RInt I32))))) (XC (CNum (RInt I32) (NInt 2147483647))));
  (124, SCmp CEq (XNumber (XRelative (XStatic BMin (XP (OrDynamic "si::dim_length") (UrName "si::metre") (RFlt F64))))) (XC (CNum (RFlt F64) (NFlt (S754_finite true 9007199254740991 971)))));
  (126, SCmp CEq (XNumber (XRelative (XStatic BMax (XP (OrDynamic "si::dim_length") (UrName "si::metre") (RFlt F64))))) (XC (CNum (RFlt F64) (NFlt (S754_finite false 9007199254740991 971)))));
  (131, SAnd (SCmp CEq (XStep true (XMake (XP (OrDynamic "si::dim_length") (UrName "si::metre") (RInt I32)) (XC (CLit "si" "m" 1000)))) (XMake (XP (OrDynamic "si::dim_length") (UrName "si::metre") (RInt I32)) (XC (CLit "si" "m" 1001)))) (SCmp CEq (XMake (XP (OrDynamic "si::dim_length") (UrName "si::metre") (RInt I32)) (XC (CLit "si" "m" 1000))) (XMake (XP (OrDynamic "si::dim_length") (UrName "si::metre") (RInt I32)) (XC (CLit "si" "m" 1000)))));
  (135, SAnd (SCmp CEq (XStep true (XMake (XP (OrDynamic "si::dim_length") (UrName "si::metre") (RInt I32)) (XC (CLit "si" "m" 1000)))) (XMake (XP (OrDynamic "si::dim_length") (UrName "si::metre") (RInt I32)) (XC (CLit "si" "m" 1001)))) (SCmp CEq (XStep true (XMake (XP (OrDynamic "si::dim_length") (UrName "si::metre") (RInt I32)) (XC (CLit "si" "m" 1000)))) (XMake (XP (OrDynamic "si::dim_length") (UrName "si::metre") (RInt I32)) (XC (CLit "si" "m" 1001)))));
  (139, SAnd (SCmp CEq (XStep false (XMake (XP (OrDynamic "si::dim_length") (UrName "si::metre") (RInt I32)) (XC (CLit "si" "m" 1000)))) (XMake (XP (OrDynamic "si::dim_length") (UrName "si::metre") (RInt I32)) (XC (CLit "si" "m" 999)))) (SCmp CEq (XMake (XP (OrDynamic "si::dim_length") (UrName "si::metre") (RInt I32)) (XC (CLit "si" "m" 1000))) (XMake (XP (OrDynamic "si::dim_length") (UrName "si::metre") (RInt I32)) (XC (CLit "si" "m" 1000)))));
  (143, SAnd (SCmp CEq (XStep false (XMake (XP (OrDynamic "si::dim_length") (UrName "si::metre") (RInt I32)) (XC (CLit "si" "m" 1000)))) (XMake (XP (OrDynamic "si::dim_length") (UrName "si::metre") (RInt I32)) (XC (CLit "si" "m" 999)))) (SCmp CEq (XStep false (XMake (XP (OrDynamic "si::dim_length") (UrName "si::metre") (RInt I32)) (XC (CLit "si" "m" 1000)))) (XMake (XP (OrDynamic "si::dim_length") (UrName "si::metre") (RInt I32)) (XC (CLit "si" "m" 999)))));
  (150, SCmp CEq (XNumber (XRelative (XAssign CAdd (XDeduce FPoint (XC (CLit "si" "m" 1))) (XC (CLit "si" "m" 1))))) (XC (CNum (RInt I32) (NInt 2))));
  (151, SCmp CEq (XNumber (XRelative (XAssign CSub (XDeduce FPoint (XC (CLit "si" "m" 2))) (XC (CLit "si" "m" 1))))) (XC (CNum (RInt I32) (NInt 1))));
  (155, SType (XBin CAdd (XDefault (XP (OrDynamic "si::dim_length") (UrName "si::metre") (RInt I32))) (XDefault (XQ (TNamed "si::dim_length" "si::metre" (RFlt F64))))) (XP (OrDynamic "si::dim_length") (UrName "si::metre") (RFlt F64)));
  (157, SType (XBin CAdd (XDefault (XQ (TNamed "si::dim_length" "si::metre" (RInt I32)))) (XDefault (XP (OrDynamic "si::dim_length") (UrName "si::metre") (RFlt F64)))) (XP (OrDynamic "si::dim_length") (UrName "si::metre") (RFlt F64)));
  (159, SType (XBin CAdd (XDefault (XP (OrDynamic "si::dim_length") (UrName "si::kilometre") (RInt I32))) (XDefault (XQ (TNamed "si::dim_length" "si::metre" (RFlt F64))))) (XP (OrDynamic "si::dim_length") (UrName "si::metre") (RFlt F64)));
  (161, SType (XBin CAdd (XDefault (XQ (TNamed "si::dim_length" "si::kilometre" (RInt I32)))) (XDefault (XP (OrDynamic "si::dim_length") (UrName "si::metre") (RFlt F64)))) (XP (OrDynamic "si::dim_length") (UrName "si::metre") (RFlt F64)));
  (163, SType (XBin CSub (XDefault (XP (OrDynamic "si::dim_length") (UrName "si::metre") (RFlt F64))) (XDefault (XQ (TNamed "si::dim_length" "si::metre" (RInt I32))))) (XP (OrDynamic "si::dim_length") (UrName "si::metre") (RFlt F64)));
  (165, SType (XBin CSub (XDefault (XP (OrDynamic "si::dim_length") (UrName "si::kilometre") (RFlt F64))) (XDefault (XQ (TNamed "si::dim_length" "si::metre" (RInt I32))))) (XP (OrDynamic "si::dim_length") (UrName "si::metre") (RFlt F64)));
  (167, SType (XBin CSub (XDefault (XP (OrDynamic "si::dim_length") (UrName "si::metre") (RFlt F64))) (XDefault (XP (OrDynamic "si::dim_length") (UrName "si::metre") (RInt I32)))) (XQ (TNamed "si::dim_length" "si::metre" (RFlt F64))));
  (170, SType (XBin CSub (XDefault (XP (OrDynamic "si::dim_length") (UrName "si::kilometre") (RFlt F64))) (XDefault (XP (OrDynamic "si::dim_length") (UrName "si::metre") (RInt I32)))) (XQ (TNamed "si::dim_length" "si::metre" (RFlt F64))));
  (174, SCmp CEq (XNumber (XRelative (XBin CAdd (XC (CLit "si" "m" 1)) (XMake (XP (OrDynamic "si::dim_length") (UrName "si::metre") (RInt I32)) (XC (CLit "si" "m" 1000)))))) (XC (CNum (RInt I32) (NInt 1001))));
  (175, SCmp CEq (XNumber (XRelative (XBin CAdd (XDeduce FPoint (XC (CLit "si" "m" 1))) (XC (CLit "si" "km" 1))))) (XC (CNum (RInt I32) (NInt 1001))));
  (176, SCmp CEq (XNumber (XRelative (XBin CSub (XMake (XP (OrDynamic "si::dim_length") (UrName "si::metre") (RInt I32)) (XC (CLit "si" "m" 1000))) (XC (CLit "si" "m" 1))))) (XC (CNum (RInt I32) (NInt 999))));
  (177, SCmp CEq (XNumber (XBin CSub (XDeduce FPoint (XC (CLit "si" "km" 1))) (XDeduce FPoint (XC (CLit "si" "m" 1))))) (XC (CNum (RInt I32) (NInt 999))));
  (182, SIll (XBin CSub (XDefault (XP (OrUser "sea_level_origin" "si::dim_length") (UrName "si::metre") (RInt I32))) (XDefault (XP (OrDynamic "si::dim_length") (UrName "si::metre") (RInt I32)))));
  (188, SCmp CEq (XBin CAdd (XDeduce FPoint (XC (CLit "si" "m" 2))) (XC (CLit "si" "m" 1))) (XDeduce FPoint (XC (CLit "si" "m" 3))));
  (189, SNot (SCmp CEq (XBin CAdd (XC (CLit "si" "m" 2)) (XDeduce FPoint (XC (CLit "si" "m" 2)))) (XDeduce FPoint (XC (CLit "si" "m" 3)))));
  (190, SCmp CNe (XBin CAdd (XDeduce FPoint (XC (CLit "si" "m" 2))) (XC (CLit "si" "m" 2))) (XDeduce FPoint (XC (CLit "si" "m" 3))));
  (191, SNot (SCmp CNe (XBin CAdd (XC (CLit "si" "m" 2)) (XDeduce FPoint (XC (CLit "si" "m" 2)))) (XDeduce FPoint (XC (CLit "si" "m" 4)))));
  (192, SCmp CGt (XDeduce FPoint (XC (CLit "si" "m" 2))) (XDeduce FPoint (XC (CLit "si" "m" 1))));
  (193, SNot (SCmp CGt (XDeduce FPoint (XC (CLit "si" "m" 1))) (XDeduce FPoint (XC (CLit "si" "m" 1)))));
  (194, SCmp CLt (XDeduce FPoint (XC (CLit "si" "m" 1))) (XDeduce FPoint (XC (CLit "si" "m" 2))));
  (195, SNot (SCmp CLt (XDeduce FPoint (XC (CLit "si" "m" 2))) (XDeduce FPoint (XC (CLit "si" "m" 2)))));
  (196, SCmp CGe (XDeduce FPoint (XC (CLit "si" "m" 2))) (XDeduce FPoint (XC (CLit "si" "m" 1))));
  (197, SCmp CGe (XDeduce FPoint (XC (CLit "si" "m" 2))) (XDeduce FPoint (XC (CLit "si" "m" 2))));
  (198, SNot (SCmp CGe (XDeduce FPoint (XC (CLit "si" "m" 2))) (XDeduce FPoint (XC (CLit "si" "m" 3)))));
  (199, SCmp CLe (XDeduce FPoint (XC (CLit "si" "m" 1))) (XDeduce FPoint (XC (CLit "si" "m" 2))));
  (200, SCmp CLe (XDeduce FPoint (XC (CLit "si" "m" 2))) (XDeduce FPoint (XC (CLit "si" "m" 2))));
  (201, SNot (SCmp CLe (XDeduce FPoint (XC (CLit "si" "m" 3))) (XDeduce FPoint (XC (CLit "si" "m" 2)))));
  (203, SCmp CEq (XDeduce FPoint (XC (CLit "si" "m" 3))) (XDeduce FPoint (XC (CFlt "si" "m" (S754_finite false 13835058055282163712 (-62))))));
  (204, SCmp CNe (XDeduce FPoint (XC (CLit "si" "m" 3))) (XDeduce FPoint (XC (CFlt "si" "m" (S754_finite false 14480694097861998019 (-62))))));
  (205, SCmp CGt (XDeduce FPoint (XC (CLit "si" "m" 2))) (XDeduce FPoint (XC (CFlt "si" "m" (S754_finite false 9223372036854775808 (-63))))));
  (206, SCmp CLt (XDeduce FPoint (XC (CFlt "si" "m" (S754_finite false 9223372036854775808 (-63))))) (XDeduce FPoint (XC (CLit "si" "m" 2))));
  (207, SCmp CGe (XDeduce FPoint (XC (CFlt "si" "m" (S754_finite false 9223372036854775808 (-62))))) (XDeduce FPoint (XC (CLit "si" "m" 1))));
  (208, SCmp CLe (XDeduce FPoint (XC (CLit "si" "m" 1))) (XDeduce FPoint (XC (CFlt "si" "m" (S754_finite false 9223372036854775808 (-62))))));
  (210, SCmp CEq (XDeduce FPoint (XC (CLit "si" "m" 1000))) (XDeduce FPoint (XC (CLit "si" "km" 1))));
  (211, SCmp CNe (XDeduce FPoint (XC (CLit "si" "m" 1001))) (XDeduce FPoint (XC (CLit "si" "km" 1))));
  (212, SCmp CGt (XDeduce FPoint (XC (CLit "si" "m" 1001))) (XDeduce FPoint (XC (CLit "si" "km" 1))));
  (213, SCmp CLt (XDeduce FPoint (XC (CLit "si" "m" 999))) (XDeduce FPoint (XC (CLit "si" "km" 1))));
  (214, SCmp CGe (XDeduce FPoint (XC (CLit "si" "m" 1000))) (XDeduce FPoint (XC (CLit "si" "km" 1))));
  (215, SCmp CLe (XDeduce FPoint (XC (CLit "si" "m" 1000))) (XDeduce FPoint (XC (CLit "si" "km" 1))));
  (220, SIllCmp CEq (XDefault (XP (OrDynamic "si::dim_length") (UrName "si::metre") (RInt I32))) (XDefault (XP (OrUser "sea_level_origin" "si::dim_length") (UrName "si::metre") (RInt I32))));
  (221, SIllCmp CLt (XDefault (XP (OrDynamic "si::dim_length") (UrName "si::metre") (RInt I32))) (XDefault (XP (OrUser "sea_level_origin" "si::dim_length") (UrName "si::metre") (RInt I32))));
  (227, SCmp CEq (XBin CAdd (XDeduce FPoint (XC (CLit "si" "l" 2))) (XC (CLit "si" "ml" 2))) (XDeduce FPoint (XC (CLit "si" "ml" 2002))));
  (228, SCmp CEq (XBin CAdd (XC (CLit "si" "l" 2)) (XDeduce FPoint (XC (CLit "si" "ml" 2)))) (XDeduce FPoint (XC (CLit "si" "cm3" 2002))));
  (229, SCmp CEq (XBin CAdd (XDeduce FPoint (XC (CLit "si" "l" 2))) (XC (CLit "si" "cm3" 2))) (XDeduce FPoint (XC (CLit "si" "ml" 2002))));
  (230, SCmp CEq (XBin CAdd (XC (CLit "si" "dm3" 2)) (XDeduce FPoint (XC (CLit "si" "cm3" 2)))) (XDeduce FPoint (XC (CLit "si" "ml" 2002))));
  (238, SCommonPoint (XP (OrDynamic "si::dim_length") (UrName "si::metre") (RInt I32)) (XP (OrDynamic "si::dim_length") (UrName "si::kilometre") (RInt I32)) (XP (OrDynamic "si::dim_length") (UrName "si::metre") (RInt I32)));
  (241, SCommonPoint (XP (OrDynamic "si::dim_length") (UrName "si::kilometre") (RInt I64)) (XP (OrDynamic "si::dim_length") (UrName "si::metre") (RInt I32)) (XP (OrDynamic "si::dim_length") (UrName "si::metre") (RInt I64)));
  (244, SCommonPoint (XP (OrDynamic "si::dim_length") (UrName "si::kilometre") (RInt I64)) (XP (OrDynamic "si::dim_length") (UrName "si::millimetre") (RFlt F64)) (XP (OrDynamic "si::dim_length") (UrName "si::millimetre") (RFlt F64)));
  (252, SWellCmp CEq (XDeduce FPoint (XC (CLit "si" "m" 1))) (XDeduce FPoint (XC (CLit "si" "m" 1))));
  (253, SWellCmp CEq (XDeduce FPoint (XC (CLit "si" "m" 1))) (XDeduce FPoint (XC (CLit "si" "km" 1))));
  (254, SCmp CEq (XDeduce FPoint (XC (CLit "si" "m" 0))) (XDeduce FPoint (XC (CLit "si::uscs" "ft_us" 0))));
  (255, SWellCmp CEq (XDeduce FPoint (XC (CLit "si" "m" 1))) (XDeduce FPoint (XC (CLit "si::uscs" "ft_us" 1))));
  (259, SCmp CEq (XNumber (XRelative (XCast (XsType (XP (OrDynamic "si::dim_length") (UrName "si::metre") (RInt I32))) (XDeduce FPoint (XC (CLit "si" "km" 2)))))) (XC (CNum (RInt I32) (NInt 2000))));
  (261, SCmp CEq (XNumber (XRelative (XCast (XsType (XP (OrDynamic "si::dim_length") (UrName "si::kilometre") (RInt I32))) (XDeduce FPoint (XC (CLit "si" "m" 2000)))))) (XC (CNum (RInt I32) (NInt 2))));
  (263, SCmp CEq (XNumber (XRelative (XCast (XsType (XP (OrDynamic "si::dim_length") (UrName "si::metre") (RInt I32))) (XDeduce FPoint (XC (CFlt "si" "m" (S754_finite false 11344747605331374244 (-63)))))))) (XC (CNum (RInt I32) (NInt 1))));
  (265, SCmp CEq (XNumber (XRelative (XCast (XsType (XQ (TNamed "si::dim_length" "si::metre" (RInt I32)))) (XDeduce FPoint (XC (CLit "si" "km" 2)))))) (XC (CNum (RInt I32) (NInt 2000))));
  (266, SCmp CEq (XNumber (XRelative (XCast (XsType (XQ (TNamed "si::dim_length" "si::kilometre" (RInt I32)))) (XDeduce FPoint (XC (CLit "si" "m" 2000)))))) (XC (CNum (RInt I32) (NInt 2))));
  (267, SCmp CEq (XNumber (XRelative (XCast (XsType (XQ (TNamed "si::dim_length" "si::metre" (RInt I32)))) (XDeduce FPoint (XC (CFlt "si" "m" (S754_finite false 11344747605331374244 (-63)))))))) (XC (CNum (RInt I32) (NInt 1))));
  (268, SCmp CEq (XNumber (XRelative (XCast (XsUnit "si::metre") (XDeduce FPoint (XC (CLit "si" "km" 2)))))) (XC (CNum (RInt I32) (NInt 2000))));
  (269, SCmp CEq (XNumber (XRelative (XCast (XsUnit "si::kilometre") (XDeduce FPoint (XC (CLit "si" "m" 2000)))))) (XC (CNum (RInt I32) (NInt 2))));
  (270, SCmp CEq (XNumber (XRelative (XCast (XsRep (RInt I32)) (XDeduce FPoint (XC (CFlt "si" "m" (S754_finite false 11344747605331374244 (-63)))))))) (XC (CNum (RInt I32) (NInt 1))));
  (271, SCmp CEq (XNumber (XRelative (XCast (XsDimUnit "si::dim_speed" "si::kilometre_per_hour") (XDeduce FPoint (XBin CDiv (XC (CFlt "si" "m" (S754_finite false 18014398509481984000 (-53)))) (XC (CFlt "si" "s" (S754_finite false 16212958658533785600 (-52))))))))) (XC (CNum (RInt I32) (NInt 2))));
  (275, SIll (XCast (XsType (XP (OrDynamic "si::dim_time") (UrName "si::second") (RInt I32))) (XDeduce FPoint (XBin CMul (XC (CNum (RInt I32) (NInt 1))) (XC (CRef "si" "m"))))));
  (276, SIll (XCast (XsType (XP (OrDynamic "si::dim_length") (UrName "si::metre") (RInt I32))) (XMake (XP (OrUser "sea_level_origin" "si::dim_length") (UrName "si::metre") (RInt I32)) (XBin CMul (XC (CNum (RInt I32) (NInt 1))) (XC (CRef "si" "m"))))));
  (282, SCmp CEq (XDeduce FPoint (XC (CLit "si" "h" 1))) (XDeduce FPoint (XC (CLit "si" "s" 3600))));
  (294, SCmp CNe (XDeduce FPoint (XC (CLit "si" "km" 1))) (XDeduce FPoint (XC (CLit "si" "m" 1))));
  (295, SCmp CEq (XDeduce FPoint (XC (CLit "si" "km" 1))) (XDeduce FPoint (XC (CLit "si" "m" 1000))));
  (296, SCmp CEq (XBin CAdd (XDeduce FPoint (XC (CLit "si" "km" 1))) (XC (CLit "si" "m" 1))) (XDeduce FPoint (XC (CLit "si" "m" 1001))));
  (297, SCmp CEq (XBin CAdd (XC (CLit "si" "km" 1)) (XDeduce FPoint (XC (CLit "si" "m" 1)))) (XDeduce FPoint (XC (CLit "si" "m" 1001))))].
Example quantity_point_conforms : forall est, match compile est On ["isq/si/length.h"; "isq/si/speed.h"; "isq/si/uscs/length.h"; "isq/si/volume.h"; "isq/si/time.h"] with Ok e => failing_kinds no_rebinding est e quantity_point_declarations quantity_point_test | _ => [-1] end = [].
Proof. intros est. vm_compute. reflexivity. Qed.

(** test/unit_test/static/chrono_test.cpp: 40 assertions. *)
Definition chrono_declarations : list kdecl := [].
Definition chrono_test : list (Z * xassert) := [
  (45, SWell (XMake (XQ (TNamed "si::dim_time" "si::second" (RInt I64))) (XDur 1 1 (RInt I64) (NInt 1))));
  (46, SIll (XImplicit (XQ (TNamed "si::dim_time" "si::second" (RInt I64))) (XDur 1 1 (RInt I64) (NInt 1))));
  (47, SWell (XMake (XQ (TNamed "si::dim_time" "si::hour" (RInt I64))) (XDur 3600 1 (RInt I64) (NInt 1))));
  (48, SIll (XImplicit (XQ (TNamed "si::dim_time" "si::hour" (RInt I64))) (XDur 3600 1 (RInt I64) (NInt 1))));
  (49, SWell (XMake (XQ (TNamed "si::dim_time" "si::second" (RInt I64))) (XDur 3600 1 (RInt I64) (NInt 1))));
  (50, SIll (XImplicit (XQ (TNamed "si::dim_time" "si::second" (RInt I64))) (XDur 3600 1 (RInt I64) (NInt 1))));
  (51, SIll (XMake (XQ (TNamed "si::dim_time" "si::hour" (RInt I64))) (XDur 1 1 (RInt I64) (NInt 1))));
  (52, SIll (XImplicit (XQ (TNamed "si::dim_time" "si::hour" (RInt I64))) (XDur 1 1 (RInt I64) (NInt 1))));
  (53, SWell (XMake (XP (OrClock "system_clock") (UrName "si::second") (RInt I64)) (XTime "system_clock" (XDur 1 1 (RInt I64) (NInt 1)))));
  (54, SIll (XMake (XP (OrClock "steady_clock") (UrName "si::second") (RInt I64)) (XTime "system_clock" (XDur 1 1 (RInt I64) (NInt 1)))));
  (55, SIll (XImplicit (XP (OrClock "system_clock") (UrName "si::second") (RInt I64)) (XTime "system_clock" (XDur 1 1 (RInt I64) (NInt 1)))));
  (56, SWell (XMake (XP (OrClock "system_clock") (UrName "si::day") (RInt I64)) (XTime "system_clock" (XDur 86400 1 (RInt I64) (NInt 1)))));
  (57, SIll (XMake (XP (OrClock "steady_clock") (UrName "si::day") (RInt I64)) (XTime "system_clock" (XDur 86400 1 (RInt I64) (NInt 1)))));
  (58, SIll (XImplicit (XP (OrClock "system_clock") (UrName "si::day") (RInt I64)) (XTime "system_clock" (XDur 86400 1 (RInt I64) (NInt 1)))));
  (59, SWell (XMake (XP (OrClock "system_clock") (UrName "si::second") (RInt I64)) (XTime "system_clock" (XDur 86400 1 (RInt I64) (NInt 1)))));
  (60, SIll (XMake (XP (OrClock "steady_clock") (UrName "si::second") (RInt I64)) (XTime "system_clock" (XDur 86400 1 (RInt I64) (NInt 1)))));
  (61, SIll (XImplicit (XP (OrClock "system_clock") (UrName "si::second") (RInt I64)) (XTime "system_clock" (XDur 86400 1 (RInt I64) (NInt 1)))));
  (62, SIll (XMake (XP (OrClock "system_clock") (UrName "si::day") (RInt I64)) (XTime "system_clock" (XDur 1 1 (RInt I64) (NInt 1)))));
  (63, SIll (XImplicit (XP (OrClock "system_clock") (UrName "si::day") (RInt I64)) (XTime "system_clock" (XDur 1 1 (RInt I64) (NInt 1)))));
  (66, SWell (XMake (XQ (TNamed "si::dim_time" "si::second" (RFlt F64))) (XDur 1 1 (RInt I64) (NInt 1))));
  (67, SIll (XImplicit (XQ (TNamed "si::dim_time" "si::second" (RFlt F64))) (XDur 1 1 (RInt I64) (NInt 1))));
  (68, SWell (XMake (XQ (TNamed "si::dim_time" "si::second" (RFlt F64))) (XDur 3600 1 (RInt I64) (NInt 1))));
  (69, SIll (XImplicit (XQ (TNamed "si::dim_time" "si::second" (RFlt F64))) (XDur 3600 1 (RInt I64) (NInt 1))));
  (70, SWell (XMake (XQ (TNamed "si::dim_time" "si::hour" (RFlt F64))) (XDur 1 1 (RInt I64) (NInt 1))));
  (71, SIll (XImplicit (XQ (TNamed "si::dim_time" "si::hour" (RFlt F64))) (XDur 1 1 (RInt I64) (NInt 1))));
  (72, SWell (XMake (XP (OrClock "system_clock") (UrName "si::second") (RFlt F64)) (XTime "system_clock" (XDur 1 1 (RInt I64) (NInt 1)))));
  (73, SIll (XImplicit (XP (OrClock "system_clock") (UrName "si::second") (RFlt F64)) (XTime "system_clock" (XDur 1 1 (RInt I64) (NInt 1)))));
  (74, SWell (XMake (XP (OrClock "system_clock") (UrName "si::second") (RFlt F64)) (XTime "system_clock" (XDur 86400 1 (RInt I64) (NInt 1)))));
  (75, SIll (XImplicit (XP (OrClock "system_clock") (UrName "si::second") (RFlt F64)) (XTime "system_clock" (XDur 86400 1 (RInt I64) (NInt 1)))));
  (76, SWell (XMake (XP (OrClock "system_clock") (UrName "si::day") (RFlt F64)) (XTime "system_clock" (XDur 1 1 (RInt I64) (NInt 1)))));
  (77, SIll (XImplicit (XP (OrClock "system_clock") (UrName "si::day") (RFlt F64)) (XTime "system_clock" (XDur 1 1 (RInt I64) (NInt 1)))));
  (81, SType (XDeduce FQuantity (XDur 1 1 (RInt I64) (NInt 1))) (XQ (TNamed "si::dim_time" "si::second" (RInt I64))));
  (82, SType (XDeduce FQuantity (XDur 3600 1 (RInt I64) (NInt 1))) (XQ (TNamed "si::dim_time" "si::hour" (RInt I64))));
  (83, SType (XDeduce FPoint (XTime "system_clock" (XDur 1 1 (RInt I64) (NInt 1)))) (XP (OrClock "system_clock") (UrName "si::second") (RInt I64)));
  (84, SType (XDeduce FPoint (XTime "system_clock" (XDur 86400 1 (RInt I64) (NInt 1)))) (XP (OrClock "system_clock") (UrName "si::day") (RInt I64)));
  (87, SCmp CEq (XBin CAdd (XDeduce FQuantity (XDur 1 1 (RInt I64) (NInt 1))) (XC (CLit "si" "s" 1))) (XC (CLit "si" "s" 2)));
  (88, SCmp CEq (XBin CAdd (XDeduce FQuantity (XDur 1 1 (RInt I64) (NInt 1))) (XC (CLit "si" "min" 1))) (XC (CLit "si" "s" 61)));
  (89, SCmp CEq (XBin CDiv (XC (CLit "si" "m" 10)) (XDeduce FQuantity (XDur 1 1 (RInt I64) (NInt 2)))) (XC (CLit "si" "m_per_s" 5)));
  (90, SCmp CEq (XBin CAdd (XDeduce FPoint (XTime "system_clock" (XDur 1 1 (RInt I64) (NInt 1)))) (XC (CLit "si" "s" 1))) (XMake (XP (OrClock "system_clock") (UrName "si::second") (RFlt F64)) (XC (CLit "si" "s" 2))));
  (91, SCmp CEq (XBin CAdd (XDeduce FPoint (XTime "system_clock" (XDur 1 1 (RInt I64) (NInt 1)))) (XC (CLit "si" "min" 1))) (XMake (XP (OrClock "system_clock") (UrName "si::second") (RFlt F64)) (XC (CLit "si" "s" 61))))].
Example chrono_conforms : forall est, match compile est On ["isq/si/length.h"; "isq/si/speed.h"; "isq/si/time.h"] with Ok e => failing_kinds no_rebinding est e chrono_declarations chrono_test | _ => [-1] end = [].
Proof. intros est. vm_compute. reflexivity. Qed.

