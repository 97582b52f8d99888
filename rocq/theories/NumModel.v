(** Model of how numbers are written to and read from files: sprintf "%d" and "%.9e"
    (src/gearxml/tinyxml.cc 730-743), the stream output of GearParametersXML.cc 154-160 and
    176-186, atoi and atof (tinyxml.cc 681-707, GearParametersXML.cc 17-24).
    Simplifications: a double is a real number; reading a number rounds the decimal number to
    the nearest binary64 number (ties to even, gradual underflow), without an upper bound on the
    exponent.  Infinities, NaN, the sign of zero and hexadecimal input are left out. *)
From Coq Require Import ZArith Reals List String Ascii Bool.
From Flocq Require Import Core.
From Verif Require Import Base XmlModel.
Open Scope Z_scope.

Definition digit (z : Z) : ascii := chr (48 + z).

(** the last [n] decimal digits of [z] *)
Fixpoint dec (n : nat) (z : Z) : string :=
  match n with
  | O => ""
  | S n' => dec n' (z / 10) +++ String (digit (z mod 10)) ""
  end.

(** number of decimal digits of [z >= 0], at least 1; [n] bounds it *)
Fixpoint ndigits (n : nat) (z : Z) : nat :=
  match n with
  | O => 1
  | S n' => if z <? 10 then 1 else S (ndigits n' (z / 10))
  end.

Definition print_uint (z : Z) : string := dec (ndigits (Z.to_nat (Z.log2 z)) z) z.

(** sprintf "%d" (tinyxml.cc 733) and operator<<(int) (GearParametersXML.cc 159) *)
Definition print_int (z : Z) : string :=
  if z <? 0 then String "-"%char (print_uint (- z)) else print_uint z.

Definition isdigit (c : ascii) : bool := isdigit_b (byte c).

(** reads digits: the number so far, how many digits there were, and the rest *)
Fixpoint read_digits (s : string) (acc : Z) (n : nat) : Z * nat * string :=
  match s with
  | String c t => if isdigit c then read_digits t (10 * acc + (byte c - 48)) (S n) else (acc, n, s)
  | EmptyString => (acc, n, s)
  end.

Definition read_sign (s : string) : bool * string :=
  match s with
  | String c t => if ceqb c "-" then (true, t) else if ceqb c "+" then (false, t) else (false, s)
  | EmptyString => (false, s)
  end.

(** atoi (C11 7.22.1.2: undefined if the value is not an int) *)
Definition atoi (s : string) : result Z :=
  let (neg, t) := read_sign (skip_ws s) in
  let '(v, _, _) := read_digits t 0 0 in
  let z := if neg then - v else v in
  if (-2147483648 <=? z) && (z <=? 2147483647) then Ok z else UB.

(** the exponent part, if there is one *)
Definition read_exp (s : string) : Z :=
  match s with
  | String c t =>
      if ceqb c "e" || ceqb c "E" then
        let (neg, u) := read_sign t in
        let '(v, _, _) := read_digits u 0 0 in
        if neg then - v else v
      else 0
  | EmptyString => 0
  end.

(** what a decimal number in a file says: mantissa and power of ten *)
Definition read_decimal (s : string) : Z * Z :=
  let (neg, t) := read_sign (skip_ws s) in
  let '(v, n, r) := read_digits t 0 0 in
  let '(w, m, r2) := match r with
                     | String c u => if ceqb c "." then read_digits u v 0 else (v, 0%nat, r)
                     | EmptyString => (v, 0%nat, r)
                     end in
  if Nat.eqb (n + m) 0 then (0, 0)
  else ((if neg then - w else w), read_exp r2 - Z.of_nat m).

Definition radix10 : radix := Build_radix 10 eq_refl.

(** the double nearest to a real number *)
Definition to_double (x : R) : R := round radix2 (FLT_exp (-1074) 53) ZnearestE x.

(** atof *)
Definition atof (s : string) : R :=
  let (m, e) := read_decimal s in to_double (F2R (Float radix10 m e)).

(** the nearest number with ten significant digits (C11 7.21.6.1, correct rounding) *)
Definition ten_digits (x : R) : R := round radix10 (FLX_exp 10) ZnearestE x.

(** the exponent: a sign and at least two digits *)
Definition print_exp (e : Z) : string :=
  String (if e <? 0 then "-"%char else "+"%char)
    (if Z.abs e <? 10 then dec 2 (Z.abs e) else print_uint (Z.abs e)).

(** mantissa of ten digits and exponent as "%.9e" prints them *)
Definition print_sci (m e : Z) : string :=
  dec 1 (m / 1000000000) +++ "." +++ dec 9 m +++ "e" +++ print_exp (e + 9).

(** sprintf "%.9e" (tinyxml.cc 741); scientific and setprecision(9) (GearParametersXML.cc 180) *)
Definition print_double (x : R) : string :=
  let r := ten_digits x in
  let m := Ztrunc (scaled_mantissa radix10 (FLX_exp 10) r) in
  if m =? 0 then "0.000000000e+00"
  else
    (if m <? 0 then "-" else "") +++ print_sci (Z.abs m) (cexp radix10 (FLX_exp 10) r).
