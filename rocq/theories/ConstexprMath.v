(** Model of [src/core/include/units/bits/constexpr_math.h] and of [iroot_compile] in
    [src/core/include/units/bits/root.h]: logarithm, exponential and power evaluated by the
    compiler.

    [double] is the IEEE format of 53 digits, every operation rounded to nearest, no excess
    precision and no contraction.  The header calls [abs] without qualification; it is taken to
    be the one for [double] (which overloads are visible depends on the headers included
    before). *)

From Coq Require Import ZArith List SpecFloat.
From Verif Require Import Outcome CInt Pow Root Rep.
Import ListNotations.
Local Open Scope Z_scope.
Local Open Scope res_scope.

Definition dadd (x y : spec_float) : spec_float := SFadd (fprec F64) (femax F64) x y.
Definition dsub (x y : spec_float) : spec_float := SFsub (fprec F64) (femax F64) x y.
Definition dmul (x y : spec_float) : spec_float := SFmul (fprec F64) (femax F64) x y.
Definition ddiv (x y : spec_float) : spec_float := SFdiv (fprec F64) (femax F64) x y.
Definition dint (z : Z) : spec_float := float_of_int F64 z.
Definition dtrunc (t : ity) (x : spec_float) : res Z :=
  match n_convert (RInt t) (NFlt x) with Ok (NInt z) => Ok z | _ => Undef end.

(** [while (significant < 1) { significant *= 10.0; --exponent; }], constexpr_math.h:46-49. *)
Fixpoint scale_up (fuel : nat) (s : spec_float) (e : Z) : res (spec_float * Z) :=
  if SFltb s (dint 1) then
    match fuel with O => Stuck | S n => e' <- csub I64 e 1; scale_up n (dmul s (dint 10)) e' end
  else Ok (s, e).
(** [while (significant >= 10) { significant /= 10.0; ++exponent; }], constexpr_math.h:51-54. *)
Fixpoint scale_down (fuel : nat) (s : spec_float) (e : Z) : res (spec_float * Z) :=
  if SFleb (dint 10) s then
    match fuel with O => Stuck | S n => e' <- cadd I64 e 1; scale_down n (ddiv s (dint 10)) e' end
  else Ok (s, e).
(** Enough for every finite number; an infinity never leaves the loop. *)
Definition decimal_fuel : nat := 400.

(** [to_decimal], constexpr_math.h:37-61. *)
Definition to_decimal (v : spec_float) : res (spec_float * Z) :=
  if SFeqb v (dint 0) then Ok (dint 0, 0)
  else
    p <- scale_up decimal_fuel (SFabs v) 0;
    p <- scale_down decimal_fuel (fst p) (snd p);
    Ok (if SFltb v (dint 0) then SFopp (fst p) else fst p, snd p).

(** The literals of [log_table], constexpr_math.h:78-178, in units of 10^-16. *)
Definition log_literals : list positive := [
   6931471805599453; 10986122886681098; 13862943611198906; 16094379124341003; 17917594692280550;
   19459101490553132; 20794415416798357; 21972245773362196; 23025850929940459; 23978952727983707; 24849066497880004;
   25649493574615367; 26390573296152584; 27080502011022101; 27725887222397811; 28332133440562162; 28903717578961645;
   29444389791664403; 29957322735539909; 30445224377234230; 30910424533583161; 31354942159291497; 31780538303479458;
   32188758248682006; 32580965380214821; 32958368660043291; 33322045101752038; 33672958299864741; 34011973816621555;
   34339872044851463; 34657359027997265; 34965075614664802; 35263605246161616; 35553480614894135; 35835189384561099;
   36109179126442243; 36375861597263857; 36635616461296463; 36888794541139363; 37135720667043080; 37376696182833684;
   37612001156935624; 37841896339182610; 38066624897703196; 38286413964890951; 38501476017100584; 38712010109078911;
   38918202981106265; 39120230054281460; 39318256327243257; 39512437185814275; 39702919135521220; 39889840465642745;
   40073331852324712; 40253516907351496; 40430512678345503; 40604430105464191; 40775374439057197; 40943445622221004;
   41108738641733114; 41271343850450917; 41431347263915326; 41588830833596715; 41743872698956368; 41896547420264252;
   42046926193909657; 42195077051761070; 42341065045972597; 42484952420493594; 42626798770413155; 42766661190160553;
   42904594411483910; 43040650932041702; 43174881135363101; 43307333402863311; 43438054218536841; 43567088266895917;
   43694478524670215; 43820266346738812; 43944491546724391; 44067192472642533; 44188406077965983; 44308167988433134;
   44426512564903167; 44543472962535073; 44659081186545837; 44773368144782069; 44886363697321396; 44998096703302650;
   45108595065168497; 45217885770490405; 45325994931532563; 45432947822700038; 45538768916005408; 45643481914678361;
   45747109785033828; 45849674786705723; 45951198501345898
]%positive.
(** The first literal is zero.  The others are quotients of whole numbers, rounded once. *)
Definition literal (n : positive) : spec_float := ddiv (S754_finite false n 0) (S754_finite false (10 ^ 16) 0).
Definition log_table : list spec_float := dint 0 :: map literal log_literals.
(** [log_table[i]]: outside the array, undefined. *)
Definition log_entry (i : Z) : res spec_float :=
  if i <? 0 then Undef else match nth_error log_table (Z.to_nat i) with Some x => Ok x | None => Undef end.

(** The loop [for (int k = 4; k > 0; --k)], constexpr_math.h:192-194. *)
Fixpoint log_series (k : nat) (y_squared sum : spec_float) : spec_float :=
  match k with
  | O => sum
  | S k' => log_series k' y_squared
      (dmul y_squared (dadd (ddiv (dint 1) (dadd (dmul (dint 2) (dint (Z.of_nat k))) (dint 1))) sum))
  end.

(** [constexpr_log], constexpr_math.h:66-197.  [gsl_Expects(v > 0)] first. *)
Definition constexpr_log (v : spec_float) : res spec_float :=
  _ <- expects (SFltb (dint 0) v);
  x <- to_decimal v;
  let s10 := dmul (fst x) (dint 10) in
  i <- dtrunc U64 s10;
  let s := ddiv s10 (dint i) in
  e1 <- csub I64 (snd x) 1;
  ten <- log_entry 9;
  t <- log_entry (i - 1);
  let result := dadd (dmul (dint e1) ten) t in
  let y := ddiv (dsub s (dint 1)) (dadd s (dint 1)) in
  let y_squared := dmul y y in
  let sum := log_series 4 y_squared (dint 0) in
  let sum := dmul (dmul (dint 2) y) (dadd (dint 1) sum) in
  Ok (dadd result sum).

(** The coefficients, constexpr_math.h:211-219: [1.0 / factorial], from the [i]-th on; the
    factorial is of type [std::size_t]. *)
Fixpoint coefficients (n : nat) (i : Z) (factorial : Z) : list spec_float :=
  match n with
  | O => []
  | S n' => let f := wrap U64 (factorial * (i + 1)) in ddiv (dint 1) (dint f) :: coefficients n' (i + 1) f
  end.
(** The loop constexpr_math.h:223-225, from the last coefficient to the first. *)
Fixpoint horner (x : spec_float) (cs : list spec_float) : spec_float :=
  match cs with
  | [] => dint 0
  | c :: r => dmul x (dadd c (horner x r))
  end.
(** [constexpr_exp<N, Factor>], constexpr_math.h:204-230. *)
Definition constexpr_exp (n : nat) (factor : positive) (v : spec_float) : res spec_float :=
  match n with
  | O => Ok (dint 1)
  | _ =>
      let x := ddiv v (dint (Zpos factor)) in
      pow_impl_pos (fun a b => Ok (dmul a b)) factor (dadd (dint 1) (horner x (coefficients n 0 1)))
  end.
(** [constexpr_pow<ExpOrder, Factor>], constexpr_math.h:234-239. *)
Definition constexpr_pow (n : nat) (factor : positive) (v exponent : spec_float) : res spec_float :=
  l <- constexpr_log v;
  constexpr_exp n factor (dmul exponent l).

(** [iroot_compile<N>], root.h:65-70, with its default orders: the argument of [iroot]. *)
Definition compile_estimate : estimate := fun n v =>
  p <- constexpr_pow 12 64 (dint v) (ddiv (dint 1) (dint (Zpos n)));
  dtrunc I64 p.
