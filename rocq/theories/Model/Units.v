(** * Units.v: sizes with a unit (yaml/unit.go), i.e. RAMInBytes and BytesSize of
    docker/go-units 0.3.3 (size.go) with the parts of strconv and fmt they use.
    [ramInBytes] is the parameter of [Decode.v] and [bytesSize] the one of [Pretty.v]. *)
From Verif Require Import Model.Go.
Open Scope Z_scope.

(** The integer nearest to num/den (den > 0), halves to even: the rounding of IEEE arithmetic and
    of strconv's decimals. *)
Definition roundHalfEven (num den : Z) : Z :=
  let q := num / den in
  let r := num mod den in
  if 2 * r <? den then q
  else if den <? 2 * r then q + 1
  else if Z.even q then q else q + 1.
(** The float64 nearest to num/den (num, den > 0), as mantissa and exponent of 2. Simplification:
    there is no least exponent; sizes that small are truncated to 0 all the same. *)
Definition nearestDouble (num den : Z) : Z * Z :=
  let e := Z.log2 num - Z.log2 den in
  let e := if num * 2 ^ Z.max 0 (- e) <? den * 2 ^ Z.max 0 e then e - 1 else e in
  let x := e - 52 in
  (roundHalfEven (num * 2 ^ Z.max 0 (- x)) (den * 2 ^ Z.max 0 x), x).
(** The integer part of m * 2^x. *)
Definition truncated (m x : Z) : Z := if x <? 0 then m / 2 ^ (- x) else m * 2 ^ x.

Fixpoint spanDigits (s : string) : string * string :=
  match s with
  | String c s' => if isDigit c then let (d, r) := spanDigits s' in (String c d, r) else ("", s)
  | "" => ("", "")
  end.
Fixpoint digitsValue (acc : Z) (s : string) : Z :=
  match s with
  | "" => acc
  | String c s' => digitsValue (10 * acc + (Z.of_N (code c) - 48)) s'
  end.
(** An optional byte of a class of a regular expression. *)
Definition optChar (class s : string) : string * string :=
  match s with
  | String c s' => if hasChar c class then (String c "", s') else ("", s)
  | "" => ("", "")
  end.
(** sizeRegex, ^(\d+(\.\d+)* ) ?([kKmMgGtTpP])?[iI]?[bB]?$ : whole part, fraction and unit.
    A number with two points matches the expression but is refused by strconv.ParseFloat; here it
    is refused at once. *)
Definition sizeMatch (s : string) : option (string * string * string) :=
  let (whole, r) := spanDigits s in
  if isEmpty whole then None else
  let number :=
    match r with
    | String "." r' => let (f, r'') := spanDigits r' in if isEmpty f then None else Some (f, r'')
    | _ => Some ("", r)
    end in
  match number with
  | None => None
  | Some (frac, r) =>
      let (_, r) := optChar " " r in
      let (unit, r) := optChar "kKmMgGtTpP" r in
      let (_, r) := optChar "iI" r in
      let (_, r) := optChar "bB" r in
      if isEmpty r then Some (whole, frac, unit) else None
  end.
(** binaryMap: the exponents of 1024. *)
Definition unitExponent (unit : string) : Z :=
  let u := toLower unit in
  if String.eqb u "k" then 1 else if String.eqb u "m" then 2 else if String.eqb u "g" then 3
  else if String.eqb u "t" then 4 else if String.eqb u "p" then 5 else 0.
(** RAMInBytes, i.e. parseSize with binaryMap; called in yaml/unit.go 40. [None] is an error.
    The conversion of a float64 of 2^63 or more to int64 is the one of amd64, which yields -2^63;
    Go leaves it open. *)
Definition ramInBytes (s : string) : option Z :=
  match sizeMatch s with
  | None => None
  | Some (whole, frac, unit) =>
      let num := digitsValue 0 (whole +++ frac) in
      let den := 10 ^ Z.of_nat (String.length frac) in
      if num =? 0 then Some 0 else
      let (m, x) := nearestDouble num den in
      if 2 ^ 1024 <=? truncated m x then None else
      let size := truncated m (x + 10 * unitExponent unit) in
      Some (if size <? 2 ^ 63 then size else - 2 ^ 63)
  end.

(** The conversion of an int64 to float64. *)
Definition doubleOf (z : Z) : Z :=
  if z =? 0 then 0 else
  let (m, x) := nearestDouble (Z.abs z) 1 in Z.sgn z * truncated m x.
(** getSizeAndUnit with base 1024: the divisor 1024^i and the unit reached. Dividing a float64 by
    1024 is exact. *)
Fixpoint sizeAndUnit (num den : Z) (unit : string) (units : list string) : Z * string :=
  match units with
  | [] => (den, unit)
  | u :: us => if den * 1024 <=? num then sizeAndUnit num (den * 1024) u us else (den, unit)
  end.

(** The digits of a number, at least [width] of them. *)
Fixpoint digitsOf (width : nat) (z : Z) : string :=
  match width with
  | O => ""
  | S w => (digitsOf w (z / 10) +++ String (byte (Z.to_N (48 + z mod 10))) "")%string
  end.
Fixpoint trimZeros (s : string) : string :=
  match s with
  | "" => ""
  | String c s' => let t := trimZeros s' in
      if (Ascii.eqb c "0" && isEmpty t)%bool then "" else String c t
  end.
Definition pointed (frac : string) : string := if isEmpty frac then "" else ("." +++ frac)%string.
(** The exponent e with 10^e <= num/den < 10^(e+1), for num/den >= 1. *)
Fixpoint exponent10 (fuel : nat) (num den : Z) : Z :=
  match fuel with
  | O => 0
  | S f => if num <? 10 * den then 0 else 1 + exponent10 f num (den * 10)
  end.
(** fmt's %.4g of num/den, for num/den >= 1: four significant digits without trailing zeros, with
    an exponent from 10000 on. The fuel suffices below 10^20. *)
Definition format4g (num den : Z) : string :=
  let e := exponent10 20 num den in
  let m := roundHalfEven (num * 1000) (den * 10 ^ e) in
  let (m, e) := if m <? 10000 then (m, e) else (1000, e + 1) in
  if e <? 4 then
    let unit := 10 ^ (3 - e) in
    (itoa (m / unit) +++ pointed (trimZeros (digitsOf (Z.to_nat (3 - e)) (m mod unit))))%string
  else (itoa (m / 1000) +++ pointed (trimZeros (digitsOf 3 (m mod 1000))) +++ "e+" +++ digitsOf 2 e)%string.

(** size.go binaryAbbrs. *)
Definition binaryAbbrs : list string := ["KiB"; "MiB"; "GiB"; "TiB"; "PiB"; "EiB"; "ZiB"; "YiB"].
(** BytesSize, i.e. CustomSize with "%.4g%s"; called in yaml/unit.go 49-51. *)
Definition bytesSize (z : Z) : string :=
  let d := doubleOf z in
  let (den, unit) := sizeAndUnit d 1 "B" binaryAbbrs in
  let text :=
    if d =? 0 then "0"
    else if d <? 0 then ("-" +++ format4g (- d) den)%string
    else format4g d den in
  (text +++ unit)%string.
