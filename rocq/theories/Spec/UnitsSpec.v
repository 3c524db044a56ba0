(** * UnitsSpec.v: what a size with a unit is worth, and how a size is written. *)
From Verif Require Import Model.Go.
Open Scope Z_scope.

(** ** Numerals *)
Definition Digits (s : string) : Prop := forall c, In c (list_ascii_of_string s) -> In c (list_ascii_of_string "0123456789").
Definition digitValue (c : ascii) : Z := Z.of_nat (nat_of_ascii c - nat_of_ascii "0").
Fixpoint numeral (s : string) : Z :=
  match s with
  | "" => 0
  | String c s' => digitValue c * 10 ^ Z.of_nat (String.length s') + numeral s'
  end.
(** A numeral with an optional fraction. *)
Definition Number (whole frac s : string) : Prop :=
  whole <> "" /\ Digits whole /\ Digits frac /\
  (frac = "" /\ s = whole \/ frac <> "" /\ s = whole +++ "." +++ frac)%string.

(** ** Rounding *)
(** c is the integer nearest to num/den, the even one of two. *)
Definition Nearest (num den c : Z) : Prop :=
  2 * Z.abs (c * den - num) <= den /\ (2 * Z.abs (c * den - num) = den -> Z.even c = true).
(** p/q is 2^x. *)
Definition PowerOfTwo (x p q : Z) : Prop := p = 2 ^ Z.max 0 x /\ q = 2 ^ Z.max 0 (- x).
(** m * 2^x is the number with 53 bits nearest to num/den: m is num/den divided by 2^x, rounded,
    where x is such that the quotient has 53 bits before the point. *)
Definition NearestDouble (num den m x : Z) : Prop :=
  exists p q, PowerOfTwo x p q /\ 2 ^ 52 * (den * p) <= num * q < 2 ^ 53 * (den * p) /\
              Nearest (num * q) (den * p) m.
(** z is m * 2^x without its fraction. *)
Definition IntegerPart (m x z : Z) : Prop :=
  exists p q, PowerOfTwo x p q /\ z * q <= m * p < (z + 1) * q.

(** ** Reading *)
Definition unitTable : list (string * Z) :=
  [("", 0); ("k", 1); ("K", 1); ("m", 2); ("M", 2); ("g", 3); ("G", 3); ("t", 4); ("T", 4); ("p", 5); ("P", 5)].
(** num/den units of 1024^k bytes, in double precision and then in 64 bits. *)
Definition Worth (num den k z : Z) : Prop :=
  num = 0 /\ z = 0 \/
  0 < num /\ exists m x whole size,
    NearestDouble num den m x /\ IntegerPart m x whole /\ whole < 2 ^ 1024 /\
    IntegerPart m (x + 10 * k) size /\
    (size < 2 ^ 63 /\ z = size \/ 2 ^ 63 <= size /\ z = - 2 ^ 63).
Definition IsSize (s : string) (z : Z) : Prop :=
  exists whole frac number space unit k i b,
    s = (number +++ space +++ unit +++ i +++ b)%string /\
    Number whole frac number /\ In space [""; " "] /\ In (unit, k) unitTable /\
    In i [""; "i"; "I"] /\ In b [""; "b"; "B"] /\
    Worth (numeral (whole +++ frac)) (10 ^ Z.of_nat (String.length frac)) k z.

(** ** Writing *)
Definition sizeUnits : list string := ["B"; "KiB"; "MiB"; "GiB"; "TiB"; "PiB"; "EiB"].
(** d is z in double precision. *)
Definition DoubleOf (z d : Z) : Prop :=
  z = 0 /\ d = 0 \/
  z <> 0 /\ exists m x a, NearestDouble (Z.abs z) 1 m x /\ IntegerPart m x a /\ d = Z.sgn z * a.
(** t is c/10^places, with neither leading zeros nor zeros at the end of the fraction. *)
Definition DecimalText (c places : Z) (t : string) : Prop :=
  exists whole frac, Number whole frac t /\
    (forall w, whole = String "0" w -> w = "") /\ (forall f, frac <> (f +++ "0")%string) /\
    Z.of_nat (String.length frac) <= places /\
    numeral whole * 10 ^ places + numeral frac * 10 ^ (places - Z.of_nat (String.length frac)) = c.
(** num/den to four significant digits: c * 10^(e-3), where e is the decimal exponent. *)
Definition FourDigits (num den c e : Z) : Prop :=
  exists c0 e0, 0 <= e0 /\ 10 ^ e0 * den <= num < 10 ^ (e0 + 1) * den /\
    Nearest (num * 1000) (den * 10 ^ e0) c0 /\
    (c0 < 10000 /\ c = c0 /\ e = e0 \/ c0 = 10000 /\ c = 1000 /\ e = e0 + 1).
Definition Written (num den : Z) (t : string) : Prop :=
  exists c e, FourDigits num den c e /\
    (e < 4 /\ DecimalText c (3 - e) t \/
     4 <= e /\ exists n x, DecimalText c 3 n /\ String.length x = 2%nat /\ Digits x /\ numeral x = e /\
                          t = (n +++ "e+" +++ x)%string).
(** How the size z is written: in the greatest unit of which there is at least one. *)
Definition PrintedSize (z : Z) (t : string) : Prop :=
  exists d, DoubleOf z d /\
    (d = 0 /\ t = "0B" \/
     d < 0 /\ (exists n, Written (- d) 1 n /\ t = ("-" +++ n +++ "B")%string) \/
     0 < d /\ exists i u n, nth_error sizeUnits i = Some u /\
       (i = 0%nat \/ 1024 ^ Z.of_nat i <= d) /\ d < 1024 ^ (Z.of_nat i + 1) /\
       Written d (1024 ^ Z.of_nat i) n /\ t = (n +++ u)%string).
