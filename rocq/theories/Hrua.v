(* src/distributions/hypergeometric.c: hypergeometric_hrua and random_hypergeometric (a source file that
   setup.py does not compile). Real numbers stand for doubles, without rounding; a division by zero is
   treated as IEEE 754 does. *)
From Verif Require Import Word Bounded HyperLem.
From Coq Require Import Reals ZifyBool ZifyNat ZifyN.
Ltac Zify.zify_post_hook ::= idtac.
Open Scope R_scope.

(* logfactorial.c:142-158: a table of log(k!) and a truncated Stirling series; here the exact value *)
Definition logfactorial (k : Z) : R := ln (IZR (fac (Z.to_nat k))).
(* hypergeometric.c:94-95 *)
Definition D1 : R := 17155277699214135 / 10000000000000000.
Definition D2 : R := 8989161620588988 / 10000000000000000.
(* random_double: iu / 2^53 with 0 <= iu < 2^53 *)
Definition dbl (iu : Z) : R := IZR iu / IZR (2 ^ 53).

(* what one round of the loop, or the function, does: an undefined conversion of nan to int64_t; another
   round; a value *)
Inductive hres := HUndef | HMore | HVal (k : Z).

Section Hrua.
  Variables good bad sample : Z.
  (* hypergeometric.c:129-132 *)
  Definition popsize : Z := (good + bad)%Z.
  Definition computed : Z := Z.min sample (popsize - sample).
  Definition mingb : Z := Z.min good bad.
  Definition maxgb : Z := Z.max good bad.
  (* hypergeometric.c:143-165 *)
  Definition hp : R := IZR mingb / IZR popsize.
  Definition hq : R := IZR maxgb / IZR popsize.
  Definition hmu : R := IZR computed * hp.
  Definition ha : R := hmu + 1 / 2.
  Definition hvar : R := IZR (popsize - computed) * IZR computed * hp * hq / IZR (popsize - 1).
  Definition hc : R := sqrt (hvar + 1 / 2).
  Definition hh : R := D1 * hc + D2.
  (* hypergeometric.c:167-173 *)
  Definition hm : Z := Int_part (IZR (computed + 1) * IZR (mingb + 1) / IZR (popsize + 2)).
  Definition lf4 (k : Z) : R := logfactorial k + logfactorial (mingb - k) + logfactorial (computed - k) + logfactorial (maxgb - computed + k).
  Definition hg : R := lf4 hm.
  (* hypergeometric.c:188 *)
  Definition hb : R := Rmin (IZR (Z.min computed mingb + 1)) (IZR (Int_part (ha + 16 * hc))).
  (* hypergeometric.c:195, U not 0 *)
  Definition hX (iu iv : Z) : R := ha + hh * (dbl iv - 1 / 2) / dbl iu.
  (* hypergeometric.c:203-224: the decision about K, true: break *)
  Definition accept (U : R) (K : Z) : bool :=
    let T := hg - lf4 K in
    if Rle_dec (U * (4 - U) - 3) T then true
    else if Rle_dec 1 (U * (U - T)) then false
    else if Rle_dec (2 * ln U) T then true else false.
  (* hypergeometric.c:190-225, one round. For U = 0 X is minus or plus infinity, which is turned
     down in line 198, or nan when V = 1/2: both comparisons are false and line 202 converts it. *)
  Definition hrua_try (iu iv : Z) : hres :=
    if (iu =? 0)%Z then (if (iv =? 2 ^ 52)%Z then HUndef else HMore)
    else let X := hX iu iv in
      if Rlt_dec X 0 then HMore
      else if Rle_dec hb X then HMore
      else let K := Int_part X in
        if accept (dbl iu) K then HVal K else HMore.
  (* hypergeometric.c:227-233 *)
  Definition fixup (K : Z) : Z :=
    let K := if (bad <? good)%Z then (computed - K)%Z else K in
    if (computed <? sample)%Z then (good - K)%Z else K.
  (* the function, with the pairs of doubles drawn; HMore: more of them are needed *)
  Fixpoint hrua (l : list (Z * Z)) : hres :=
    match l with
    | [] => HMore
    | (iu, iv) :: l => match hrua_try iu iv with HUndef => HUndef | HMore => hrua l | HVal K => HVal (fixup K) end
    end.
End Hrua.
(* hypergeometric.c:246-260 random_hypergeometric; r: the numbers random_interval gives, l: the pairs of
   doubles *)
Definition random_hypergeometric (r : list Z) (l : list (Z * Z)) (good bad sample : Z) : hres :=
  if (10 <=? sample)%Z && (sample <=? good + bad - 10)%Z then hrua good bad sample l
  else match hypergeometric r good bad sample with Some k => HVal k | None => HMore end.
