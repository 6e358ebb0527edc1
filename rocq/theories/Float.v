(* Binary64 arithmetic as used by the modelled code, for non-negative values,
   on integers.  CPython floats are IEEE-754 binary64 with round to nearest,
   ties to even.  Subnormals do not occur (the smallest positive value used is
   1/1000); overflow to infinity is made visible by [fl_finite]. *)
From Coq Require Import ZArith Bool.
Open Scope Z_scope.

(* The float with value fm * 2^fe, 0 <= fm <= 2^53. *)
Record fl := mkFl { fm : Z; fe : Z }.

(* numerator and denominator of the exact value of a float *)
Definition fl_num (f : fl) : Z := fm f * 2 ^ (Z.max 0 (fe f)).
Definition fl_den (f : fl) : Z := 2 ^ (Z.max 0 (- fe f)).

(* round to nearest integer of a/b (b > 0), ties to even *)
Definition rne (a b : Z) : Z :=
  let q := a / b in
  let r := a mod b in
  if 2 * r <? b then q
  else if b <? 2 * r then q + 1
  else if Z.even q then q else q + 1.

(* the exponent e with 2^52 <= (a/b) / 2^e < 2^53, for a, b > 0 *)
Definition fl_exp (a b : Z) : Z :=
  let e := Z.log2 a - Z.log2 b - 52 in
  (* a * 2^-e < b * 2^52 ? *)
  if a * 2 ^ (Z.max 0 (- e)) <? b * 2 ^ (Z.max 0 e) * 2 ^ 52 then e - 1 else e.

(* the binary64 nearest to a/b (a >= 0, b > 0) *)
Definition fl_round (a b : Z) : fl :=
  if a =? 0 then mkFl 0 0 else
  let e := fl_exp a b in
  mkFl (rne (a * 2 ^ (Z.max 0 (- e))) (b * 2 ^ (Z.max 0 e))) e.

(* float(n), int-to-float conversion *)
Definition fl_of_Z (n : Z) : fl := fl_round n 1.
(* f / n and f * n for an integer-valued float constant n *)
Definition fl_div_Z (f : fl) (n : Z) : fl := fl_round (fl_num f) (fl_den f * n).
Definition fl_mul_Z (f : fl) (n : Z) : fl := fl_round (fl_num f * n) (fl_den f).
(* int(f) for f >= 0 *)
Definition fl_trunc (f : fl) : Z := fl_num f / fl_den f.
(* below 2^1024, i.e. not rounded to infinity *)
Definition fl_finite (f : fl) : bool := fl_num f <? 2 ^ 1024 * fl_den f.

(* a / b on Python ints: the exact quotient correctly rounded (true division) *)
Definition int_truediv (a b : Z) : fl := fl_round a b.
