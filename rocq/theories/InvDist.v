(* randomgen/src/distributions/distributions.orig.c (a source file that setup.py does not compile): the samplers that
   transform one uniform or exponential number or search a distribution function. Real numbers stand for
   doubles, without rounding. U: the value of next_double, 0 <= U < 1. *)
From Verif Require Import Word HyperLem.
From Coq Require Import Reals.
Open Scope R_scope.

(* distributions.orig.c:19-21 next_standard_exponential *)
Definition std_exponential (U : R) : R := - ln (1 - U).
(* distributions.orig.c:516-518 *)
Definition uniform (lower range U : R) : R := lower + range * U.
(* distributions.orig.c:576-578, 580-585, 587-589; E: the standard exponential number. pow of 0 is 0. *)
Definition powr (x y : R) : R := if Req_EM_T x 0 then 0 else Rpower x y.
Definition pareto (a E : R) : R := exp (E / a) - 1.
Definition weibull (a E : R) : R := if Req_EM_T a 0 then 0 else powr E (1 / a).
Definition power (a E : R) : R := powr (1 - exp (- E)) (1 / a).
(* distributions.orig.c:591-604, 606-615, 617-626; None: U is rejected and another one drawn *)
Definition laplace (loc scale U : R) : option R :=
  if Rle_dec (1 / 2) U then Some (loc - scale * ln (2 - U - U))
  else if Rlt_dec 0 U then Some (loc + scale * ln (U + U)) else None.
Definition gumbel (loc scale U : R) : option R :=
  let U := 1 - U in if Rlt_dec U 1 then Some (loc - scale * ln (- ln U)) else None.
Definition logistic (loc scale U : R) : option R :=
  if Rlt_dec 0 U then Some (loc + scale * ln (U / (1 - U))) else None.
(* distributions.orig.c:632-634 *)
Definition rayleigh (mode U : R) : R := mode * sqrt (-2 * ln (1 - U)).
(* distributions.orig.c:1107-1124 *)
Definition triangular (left mode right U : R) : R :=
  let base := right - left in
  let leftbase := mode - left in
  let ratio := leftbase / base in
  let leftprod := leftbase * base in
  let rightprod := (right - mode) * base in
  if Rle_dec U ratio then left + sqrt (U * leftprod) else right - sqrt ((1 - U) * rightprod).

(* distributions.orig.c:1050-1065 random_geometric_search: the loop, at most fuel rounds; None: it is still
   running *)
Fixpoint geo_loop (fuel : nat) (U q sum prod : R) (X : Z) : option Z :=
  if Rlt_dec sum U then
    match fuel with
    | O => None
    | S fuel => let prod := prod * q in geo_loop fuel U q (sum + prod) prod (X + 1)%Z
    end
  else Some X.
Definition geometric_search (fuel : nat) (p U : R) : option Z := geo_loop fuel U (1 - p) p p 1.
(* distributions.orig.c:1067-1069; ceil x = - floor (- x) *)
Definition geometric_inversion (p U : R) : Z := (- Int_part (- (ln (1 - U) / ln (1 - p))))%Z.
(* distributions.orig.c:1071-1077 *)
Definition geometric (fuel : nat) (p U : R) : option Z :=
  if Rle_dec (333333333333333333333333 / 1000000000000000000000000) p then geometric_search fuel p U else Some (geometric_inversion p U).

(* distributions.orig.c:644-660 random_poisson_mult; us: the uniform numbers; None: more are needed *)
Fixpoint poisson_loop (enlam prod : R) (X : Z) (us : list R) : option Z :=
  match us with
  | [] => None
  | U :: us => let prod := prod * U in if Rlt_dec enlam prod then poisson_loop enlam prod (X + 1)%Z us else Some X
  end.
Definition poisson_mult (lam : R) (us : list R) : option Z := poisson_loop (exp (- lam)) 1 0 us.

(* distributions.orig.c:859-895 random_binomial_inversion, one U: BVal X, or BMore when X passes the bound
   and another U is drawn. todo: rounds left, bound - X. (exp(n log q) is q^n.) *)
Inductive bres := BMore | BVal (X : nat).
Definition binomial_bound (n : nat) (p : R) : Z := Int_part (Rmin (INR n) (INR n * p + 10 * sqrt (INR n * p * (1 - p) + 1))).
Fixpoint binom_loop (n : nat) (p : R) (todo X : nat) (px U : R) : bres :=
  if Rlt_dec px U then
    match todo with
    | O => BMore
    | S todo => let X := S X in binom_loop n p todo X (((INR n - INR X + 1) * p * px) / (INR X * (1 - p))) (U - px)
    end
  else BVal X.
Definition binomial_inversion (n : nat) (p U : R) : bres := binom_loop n p (Z.to_nat (binomial_bound n p)) 0 ((1 - p) ^ n) U.

(* distributions.orig.c:1022-1048 random_logseries, one round: LUndef: infinity or nan is converted to an integer;
   LMore: another round *)
Inductive lres := LUndef | LMore | LVal (k : Z).
Definition logseries_try (p V U : R) : lres :=
  if Rle_dec p V then LVal 1
  else let q := 1 - exp (ln (1 - p) * U) in
    if Rle_dec V (q * q) then
      if Req_EM_T V 0 then LUndef
      else let result := Int_part (1 + ln V / ln q) in if (result <? 1)%Z then LMore else LVal result
    else if Rle_dec q V then LVal 1 else LVal 2.
