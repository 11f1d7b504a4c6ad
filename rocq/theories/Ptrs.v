(* randomgen/src/distributions/distributions.orig.c:662-708 (a source file that setup.py does not compile): random_poisson_ptrs and
   random_poisson. Real numbers stand for doubles, without rounding; loggam (k + 1) is taken to be log k!, and a finite
   number is always converted to an integer, however large it is. *)
From Verif Require Import Word InvDist.
From Coq Require Import Reals.
Open Scope R_scope.

Section Setup.
  Variable lam : R.
  (* distributions.orig.c:673-678 *)
  Definition pb : R := 931 / 1000 + 253 / 100 * sqrt lam.
  Definition pa : R := -59 / 1000 + 2483 / 100000 * pb.
  Definition invalpha : R := 11239 / 10000 + (11328 / 10000) / (pb - 34 / 10).
  Definition pvr : R := 9277 / 10000 - (36224 / 10000) / (pb - 2).
  (* distributions.orig.c:681-684: U in [-1/2, 1/2) and the number whose floor is proposed *)
  Definition us (U : R) : R := 1 / 2 - Rabs U.
  Definition px (U : R) : R := (2 * pa / us U + pb) * U + lam + 43 / 100.
  (* distributions.orig.c:693-696; V = 0: log V is minus infinity *)
  Definition last_test (k : nat) (U V : R) : bool :=
    if Req_EM_T V 0 then true
    else if Rle_dec (ln V + ln invalpha - ln (pa / (us U * us U) + pb)) (- lam + INR k * ln lam - ln (INR (fact k))) then true else false.
  (* distributions.orig.c:680-698 one round, u, V: the uniform numbers. PUndef: infinity is converted to an integer *)
  Inductive pres := PUndef | PMore | PVal (k : Z).
  Definition ptrs (u V : R) : pres :=
    let U := u - 1 / 2 in
    if Req_EM_T (us U) 0 then PUndef
    else
      let k := Int_part (px U) in
      if Rle_dec (7 / 100) (us U) then
        if Rle_dec V pvr then PVal k
        else if (k <? 0)%Z then PMore
        else if last_test (Z.to_nat k) U V then PVal k else PMore
      else if (k <? 0)%Z then PMore
      else if Rlt_dec (us U) (13 / 1000) then
        if Rlt_dec (us U) V then PMore
        else if last_test (Z.to_nat k) U V then PVal k else PMore
      else if last_test (Z.to_nat k) U V then PVal k else PMore.
End Setup.
(* distributions.orig.c:700-708 random_poisson, for lam >= 10 one round; us: the numbers used when lam < 10 *)
Inductive qres := QPtrs (r : pres) | QMult (x : option Z).
Definition random_poisson (lam : R) (u V : R) (us : list R) : qres :=
  if Rle_dec 10 lam then QPtrs (ptrs lam u V)
  else if Req_EM_T lam 0 then QMult (Some 0%Z)
  else QMult (poisson_mult lam us).
