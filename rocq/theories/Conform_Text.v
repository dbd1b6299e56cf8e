(** The texts the library's own tests expect of [fmt::format] and of streams, on the model
    (/repo/test/unit_test/runtime/fmt_test.cpp and fmt_units_test.cpp).  Checks of the model, not
    properties.

    How fmt and the standard library write numbers is a parameter of [Format] and [QuantityIo];
    the tests need one, so this file has the conversions of C++ for the cases that occur:
    integers in base 2, 8, 10 and 16, and [f], [e] and [g] for floating-point numbers. *)

From Coq Require Import ZArith Ascii String List Bool SpecFloat.
From Verif Require Import Outcome CInt Root Ratio FixedString Unit Downcast Dim DimOp UnitText Rep QuantityCast Quantity System Catalogue Includes
  QuantityIo Format Conform.
Import ListNotations.
Local Open Scope string_scope.
Local Open Scope Z_scope.

(** ** Numbers *)

Definition digit (upper : bool) (d : Z) : Ascii.ascii :=
  ascii_of_nat (Z.to_nat (if d <? 10 then 48 + d else (if upper then 55 else 87) + d)).
Fixpoint digits (fuel : nat) (upper : bool) (base n : Z) (acc : string) : string :=
  match fuel with
  | O => acc
  | S k => let acc := String (digit upper (n mod base)) acc in if n / base =? 0 then acc else digits k upper base (n / base) acc
  end.
Definition natural (n : Z) : string := digits 80 false 10 n "".
Fixpoint zeros (n : nat) : string := match n with O => "" | S k => "0" ++ zeros k end.
Definition at_least (k : nat) (s : string) : string := zeros (k - String.length s) ++ s.

(** A fraction [a/b], rounded to a whole number, ties to even. *)
Definition rounded (a b : Z) : Z :=
  let q := a / b in let r := a mod b in
  if 2 * r <? b then q else if b <? 2 * r then q + 1 else if Z.even q then q else q + 1.
(** The fraction [a/b] times [10^k], rounded. *)
Definition scaled (a b k : Z) : Z := if 0 <=? k then rounded (a * 10 ^ k) b else rounded a (b * 10 ^ (- k)).
(** The decimal exponent of [a/b > 0] when [p + 1] digits are written. *)
Fixpoint exponent_from (fuel : nat) (a b p x : Z) : Z :=
  match fuel with
  | O => x
  | S k => let n := scaled a b (p - x) in
           if n <? 10 ^ p then exponent_from k a b p (x - 1) else if 10 ^ (p + 1) <=? n then exponent_from k a b p (x + 1) else x
  end.
Fixpoint strip (s : string) : string :=
  match s with
  | EmptyString => ""
  | String c r => match strip r with
                  | EmptyString => if Ascii.eqb c "0" then "" else String c ""
                  | t => String c t end
  end.
Definition with_fraction (n : Z) (p : nat) (stripped : bool) : string :=
  let f := at_least p (if Nat.eqb p 0 then "" else natural (n mod 10 ^ Z.of_nat p)) in
  let f := if stripped then strip f else f in
  natural (n / 10 ^ Z.of_nat p) ++ (if String.eqb f "" then "" else "." ++ f).
Definition put_f (a b : Z) (p : Z) (stripped : bool) : string := with_fraction (scaled a b p) (Z.to_nat p) stripped.
Definition put_e (a b : Z) (p : Z) (upper stripped : bool) : string :=
  let x := if a =? 0 then 0 else exponent_from 400 a b p 0 in
  with_fraction (scaled a b (p - x)) (Z.to_nat p) stripped ++ (if upper then "E" else "e") ++ (if x <? 0 then "-" else "+")
  ++ at_least 2 (natural (Z.abs x)).
Definition put_g (a b : Z) (p : Z) (upper : bool) : string :=
  let p := Z.max p 1 in
  let x := if a =? 0 then 0 else exponent_from 400 a b (p - 1) 0 in
  if (x <? p) && (-4 <=? x) then put_f a b (p - 1 - x) true else put_e a b (p - 1) upper true.

(** A replacement field for a number: [{:][sign][#][.precision][type][L][}]. *)
Definition put_sign (sign : option Ascii.ascii) (negative : bool) : string :=
  if negative then "-" else match sign with Some c => if Ascii.eqb c "-" then "" else String c "" | None => "" end.
Definition put_number (f : string) (n : number) : fres string :=
  let s := drop 2 f in
  let sp := match s with
            | String c r => if mem_char c "+- " then (Some c, r) else (None, s)
            | EmptyString => (None, s) end in
  let alt := match snd sp with String c r => if Ascii.eqb c "#" then (true, r) else (false, snd sp) | _ => (false, snd sp) end in
  let prec := match snd alt with
              | String c r => if Ascii.eqb c "." then (match parse_int 0 r (Z.of_nat (String.length r)) with FOk (p, t, _) => (Some p, t) | _ => (None, r) end)
                              else (None, snd alt)
              | _ => (None, snd alt) end in
  let type := match snd prec with String c _ => c | _ => zero end in
  match n with
  | NInt z =>
      let sign := put_sign (fst sp) (z <? 0) in
      let n := Z.abs z in
      let is c := Ascii.eqb type c in
      if is "b"%char || is "B"%char then FOk (sign ++ (if fst alt then "0" ++ String type "" else "") ++ digits 80 false 2 n "")
      else if is "o"%char then FOk (sign ++ (if fst alt then "0" else "") ++ digits 80 false 8 n "")
      else if is "x"%char || is "X"%char then FOk (sign ++ (if fst alt then "0" ++ String type "" else "") ++ digits 80 (is "X"%char) 16 n "")
      else FOk (sign ++ natural n)
  | NFlt S754_nan => FOk (put_sign (fst sp) false ++ "nan")
  | NFlt (S754_infinity neg) => FOk (put_sign (fst sp) neg ++ "inf")
  | NFlt x =>
      let '(neg, a, b) := match x with
                          | S754_finite s m e => (s, if 0 <=? e then Zpos m * 2 ^ e else Zpos m, if 0 <=? e then 1 else 2 ^ (- e))
                          | S754_zero s => (s, 0, 1) | _ => (false, 0, 1) end in
      let p := match fst prec with Some p => p | None => 6 end in
      let sign := put_sign (fst sp) neg in
      let is c := Ascii.eqb type c in
      if is "f"%char || is "F"%char then FOk (sign ++ put_f a b p false)
      else if is "e"%char || is "E"%char then FOk (sign ++ put_e a b p (is "E"%char) false)
      else if is "g"%char || is "G"%char then FOk (sign ++ put_g a b p (is "G"%char))
      else FError
  end.
Definition put_stream (_ : unit) (n : number) : string :=
  match put_number (match n with NInt _ => "{:}" | NFlt _ => "{:g}" end) n with FOk s => s | _ => "?" end.

(** ** Texts *)

Inductive tassert :=
| TFormat (f : string) (x : cexpr) (t : string)                       (* fmt::format(f, x) == t *)
| TThrows (f : string) (x : cexpr)                                    (* fmt::format(f, x) throws *)
| TStream (w : Z) (fill : Ascii.ascii) (left : bool) (x : cexpr) (t : string)  (* os << setw(w) << setfill(fill) << left << x *)
| TBoth (f : string) (x : cexpr).                                     (* fmt::format(f, x) == os.str() after os << x *)

(** fmt's own part: text is copied, a field [{}], [{:spec}], [{0:spec}] is given to the formatter. *)
Fixpoint fmt (fuel : nat) (floats : bool) (n : number) (s : symbol_text) (f : string) : fres string :=
  match fuel, f with
  | O, _ => FStuck
  | _, EmptyString => FOk ""
  | S k, String c r =>
      if Ascii.eqb c "{" then
        let r := match r with String d t => if is_digit_char d then t else r | _ => r end in
        let r := match r with String d t => if Ascii.eqb d ":" then t else r | _ => r end in
        fbind (parse floats r) (fun p => let '(sp, str, rest) := p in
        fbind (format put_number String.length floats sp str n s) (fun out =>
        match rest with
        | String d t => if Ascii.eqb d "}" then fbind (fmt k floats n s t) (fun u => FOk (out ++ u)) else FError
        | EmptyString => FError
        end))
      else fbind (fmt k floats n s r) (fun u => FOk (String c u))
  end.

Definition t_check (est : estimate) (e : env) (a : tassert) : bool :=
  let shown f x := match c_eval est e x with
    | Ok (VQ q) => match unit_text (en_guides e) (en_units e) (q_dim (q_type q)) (q_unit (q_type q)) with
                   | Ok s => Some (fmt 200 (floating (q_rep (q_type q))) (q_num q) s f)
                   | _ => None end
    | _ => None end in
  let streamed w fill left x := match c_eval est e x with
    | Ok (VQ q) => match output put_stream tt (en_guides e) (en_units e) (Stream w fill left tt "") q with
                   | Ok os => Some (os_out os) | _ => None end
    | _ => None end in
  match a with
  | TFormat f x t => match shown f x with Some (FOk s) => String.eqb s t | _ => false end
  | TThrows f x => match shown f x with Some FError => true | _ => false end
  | TStream w fill l x t => match streamed w fill l x with Some s => String.eqb s t | _ => false end
  | TBoth f x => match shown f x, streamed 0 " "%char false x with Some (FOk s), Some t => String.eqb s t | _, _ => false end
  end.
Definition failing_texts (est : estimate) (e : env) (l : list (Z * tassert)) : list Z :=
  map fst (filter (fun x => negb (t_check est e (snd x))) l).
