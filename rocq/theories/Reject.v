(* randomgen/src/distributions/distributions.orig.c (a source file that setup.py does not compile): random_vonmises,
   random_beta (Johnk's algorithm) and random_binomial. Real numbers stand for doubles, without rounding.
   U, V: values of next_double, 0 <= U < 1. *)
From Verif Require Import Word HyperLem InvDist.
From Coq Require Import Reals.
Open Scope R_scope.

(* distributions.orig.c:970-982 s, for kappa >= 1e-8 *)
Definition vm_s (kappa : R) : R :=
  if Rlt_dec kappa (1 / 100000) then 1 / kappa + kappa
  else
    let r := 1 + sqrt (1 + 4 * kappa * kappa) in
    let rho := (r - sqrt (2 * r)) / (2 * kappa) in
    (1 + rho * rho) / (2 * rho).
(* distributions.orig.c:985-988: W and Y *)
Definition vm_W (s U : R) : R := let Z := cos (PI * U) in (1 + s * Z) / (s + Z).
Definition vm_Y (kappa s U : R) : R := kappa * (s - vm_W s U).
(* distributions.orig.c:994; V = 0: log (Y / V) is infinity *)
Definition vm_accepts (Y V : R) : bool :=
  if Rle_dec 0 (Y * (2 - Y) - V) then true
  else if Req_EM_T V 0 then true
  else if Rle_dec 0 (ln (Y / V) + 1 - Y) then true else false.
(* the C function fmod, for x >= 0 and m > 0 *)
Definition fmod (x m : R) : R := x - m * IZR (Int_part (x / m)).
(* distributions.orig.c:999-1012 *)
Definition vm_result (mu W U : R) : R :=
  let result := acos W in
  let result := if Rlt_dec U (1 / 2) then - result else result in
  let result := result + mu in
  let md := fmod (Rabs result + PI) (2 * PI) - PI in
  if Rlt_dec result 0 then md * -1 else md.
(* distributions.orig.c:984-999: the loop; us: the uniform numbers; None: more are needed *)
Fixpoint vm_loop (mu kappa s : R) (us : list R) : option R :=
  match us with
  | U :: V :: us => if vm_accepts (vm_Y kappa s U) V then
        match us with T :: _ => Some (vm_result mu (vm_W s U) T) | [] => None end
      else vm_loop mu kappa s us
  | _ => None
  end.
(* distributions.orig.c:959-1014 random_vonmises (kappa is a number) *)
Definition vonmises (mu kappa : R) (us : list R) : option R :=
  if Rlt_dec kappa (1 / 100000000) then match us with U :: _ => Some (PI * (2 * U - 1)) | [] => None end
  else vm_loop mu kappa (vm_s kappa) us.

(* distributions.orig.c:535-556 random_beta, a <= 1 and b <= 1: one round, None: another round. pw: the C function pow *)
Definition johnk (pw : R -> R -> R) (a b U V : R) : option R :=
  let X := pw U (1 / a) in
  let Y := pw V (1 / b) in
  let XpY := X + Y in
  if Rle_dec XpY 1 then
    if Rlt_dec 0 XpY then
      if Rlt_dec 0 (X + Y) then Some (X / XpY)
      else
        let logX := ln U / a in
        let logY := ln V / b in
        let logM := if Rlt_dec logY logX then logX else logY in
        let logX := logX - logM in
        let logY := logY - logM in
        Some (exp (logX - ln (exp logX + exp logY)))
    else None
  else None.
(* the while loop at line 535; None: more uniform numbers are needed *)
Fixpoint johnk_loop (pw : R -> R -> R) (a b : R) (us : list (R * R)) : option R :=
  match us with
  | [] => None
  | (U, V) :: us => match johnk pw a b U V with Some x => Some x | None => johnk_loop pw a b us end
  end.
(* distributions.orig.c:557-560; Ga, Gb: the two gamma numbers *)
Definition beta_gamma (Ga Gb : R) : R := Ga / (Ga + Gb).

(* distributions.orig.c:896-918 random_binomial, one U: NBtpe: the other algorithm is called; NMore: another U is drawn *)
Inductive nres := NBtpe | NMore | NVal (X : Z).
Definition random_binomial (p : R) (n : nat) (U : R) : nres :=
  if Nat.eqb n 0 then NVal 0
  else if Req_EM_T p 0 then NVal 0
  else if Rle_dec p (1 / 2) then
    if Rle_dec (p * INR n) 30 then match binomial_inversion n p U with BVal X => NVal (Z.of_nat X) | BMore => NMore end
    else NBtpe
  else
    let q := 1 - p in
    if Rle_dec (q * INR n) 30 then
      match binomial_inversion n q U with BVal X => NVal (Z.of_nat n - Z.of_nat X) | BMore => NMore end
    else NBtpe.
