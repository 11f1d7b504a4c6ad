(* randomgen/src/distributions/distributions.orig.c (a source file that setup.py does not compile): random_zipf and
   random_wald. Real numbers stand for doubles, without rounding, except that (double)RAND_INT_MAX is 2^63. *)
From Verif Require Import Word.
From Coq Require Import Reals.
Open Scope R_scope.

(* distributions.orig.c:1079-1105, one round; u, V: the two values of random_double. ZMore: another round; ZUndef: a
   number too large for int64_t is converted *)
Inductive zres := ZMore | ZUndef | ZVal (k : Z).
Definition zipf_try (a u V : R) : zres :=
  let am1 := a - 1 in
  let b := Rpower 2 am1 in
  let U := 1 - u in
  let X := IZR (Int_part (Rpower U (-1 / am1))) in
  if Rlt_dec (IZR (2 ^ 63)) X then ZMore
  else if Rlt_dec X 1 then ZMore
  else let T := Rpower (1 + 1 / X) am1 in
    if Rle_dec (V * X * (T - 1) / (b - 1)) (T / b)
    then (if (Int_part X <? 2 ^ 63)%Z then ZVal (Int_part X) else ZUndef)
    else ZMore.
(* distributions.orig.c:943-957; n: the value of random_gauss_zig *)
Definition wald_X (mean scale n : R) : R :=
  let mu_2l := mean / (2 * scale) in
  let Y := mean * n * n in
  mean + mu_2l * (Y - sqrt (4 * scale * Y + Y * Y)).
Definition wald (mean scale n U : R) : R :=
  let X := wald_X mean scale n in
  if Rle_dec U (mean / (mean + X)) then X else mean * mean / X.
