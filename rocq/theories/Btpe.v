(* randomgen/src/distributions/distributions.orig.c:716-857 (a source file that setup.py does not compile): random_binomial_btpe.
   Real numbers stand for doubles, without rounding; n: the number of trials. The saved values of binomial_t are those
   computed here, lines 722-758. Line 852 (p > 0.5) is not reached: random_binomial calls with p <= 1/2. *)
From Verif Require Import Word.
From Coq Require Import Reals.
Open Scope R_scope.

Section Setup.
  Variables (n : nat) (r : R). (* r = p = min (p, 1 - p) *)
  (* distributions.orig.c:728-743 *)
  Definition bq : R := 1 - r.
  Definition bfm : R := INR n * r + r.
  Definition bm : Z := Int_part bfm.
  Definition bp1 : R := IZR (Int_part (2195 / 1000 * sqrt (INR n * r * bq) - 46 / 10 * bq)) + 1 / 2.
  Definition bxm : R := IZR bm + 1 / 2.
  Definition bxl : R := bxm - bp1.
  Definition bxr : R := bxm + bp1.
  Definition bc : R := 134 / 1000 + (205 / 10) / (153 / 10 + IZR bm).
  Definition blaml : R := let a := (bfm - bxl) / (bfm - bxl * r) in a * (1 + a / 2).
  Definition blamr : R := let a := (bxr - bfm) / (bxr * bq) in a * (1 + a / 2).
  Definition bp2 : R := bp1 * (1 + 2 * bc).
  Definition bp3 : R := bp2 + bc / blaml.
  Definition bp4 : R := bp3 + bc / blamr.
  Definition nrq : R := INR n * r * bq.

  (* distributions.orig.c:803-814: F; the loops over i = lo + 1, ..., lo + k *)
  Fixpoint times (a s : R) (lo : Z) (k : nat) (F : R) : R :=
    match k with O => F | S k => times a s (lo + 1) k (F * (a / IZR (lo + 1) - s)) end.
  Fixpoint over (a s : R) (lo : Z) (k : nat) (F : R) : R :=
    match k with O => F | S k => over a s (lo + 1) k (F / (a / IZR (lo + 1) - s)) end.
  Definition ratio (y : Z) : R :=
    let s := r / bq in
    let a := s * (INR n + 1) in
    if (bm <? y)%Z then times a s bm (Z.to_nat (y - bm)) 1 else if (y <? bm)%Z then over a s y (Z.to_nat (bm - y)) 1 else 1.

  (* distributions.orig.c:819-849 Step52; v > 0 *)
  Definition stirling (z : R) : R := (13680 - (462 - (132 - (99 - 140 / (z * z)) / (z * z)) / (z * z)) / (z * z)) / z / 166320.
  Definition bound52 (y : Z) : R :=
    let x1 := IZR y + 1 in
    let f1 := IZR bm + 1 in
    let z := INR n + 1 - IZR bm in
    let w := INR n - IZR y + 1 in
    bxm * ln (f1 / x1) + (INR n - IZR bm + 1 / 2) * ln (z / w) + (IZR y - IZR bm) * ln (w * r / (x1 * bq)) +
    stirling f1 + stirling z + stirling x1 + stirling w.
  Definition step52 (y : Z) (v : R) : bool :=
    let k := IZR (Z.abs (y - bm)) in
    let rho := k / nrq * ((k * (k / 3 + 625 / 1000) + 16666666666666666 / 100000000000000000) / nrq + 1 / 2) in
    let t := - k * k / (2 * nrq) in
    if Req_EM_T v 0 then true (* log 0 is minus infinity *)
    else let A := ln v in
      if Rlt_dec A (t - rho) then true
      else if Rlt_dec (t + rho) A then false
      else if Rlt_dec (bound52 y) A then false else true.
  (* distributions.orig.c:798-817 Step50: true: y is returned, false: another round *)
  Definition step50 (y : Z) (v : R) : bool :=
    let k := Z.abs (y - bm) in
    if (20 <? k)%Z then
      if Rlt_dec (IZR k) (nrq / 2 - 1) then step52 y v
      else if Rlt_dec (ratio y) v then false else true
    else if Rlt_dec (ratio y) v then false else true.

  (* distributions.orig.c:762-796 one round with the uniform numbers u, v. BpUndef: infinity is converted to an integer *)
  Inductive bpres := BpUndef | BpMore | BpVal (y : Z).
  Definition accept (y : Z) (v : R) : bpres := if step50 y v then BpVal y else BpMore.
  Definition btpe (u v : R) : bpres :=
    let u := u * bp4 in
    if Rle_dec u bp1 then BpVal (Int_part (bxm - bp1 * v + u))
    else if Rle_dec u bp2 then
      let x := bxl + (u - bp1) / bc in
      let v := v * bc + 1 - Rabs (IZR bm - x + 1 / 2) / bp1 in
      if Rlt_dec 1 v then BpMore else accept (Int_part x) v
    else if Rle_dec u bp3 then
      if Req_EM_T v 0 then BpUndef
      else let y := Int_part (bxl + ln v / blaml) in
        if (y <? 0)%Z then BpMore else accept y (v * (u - bp2) * blaml)
    else
      if Req_EM_T v 0 then BpUndef
      else let y := Int_part (bxr - ln v / blamr) in
        if (Z.of_nat n <? y)%Z then BpMore else accept y (v * (u - bp3) * blamr).
End Setup.
