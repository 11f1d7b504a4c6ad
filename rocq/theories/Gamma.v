(* randomgen/src/distributions/distributions.orig.c (a source file that setup.py does not compile): standard_gamma_zig.
   Real numbers stand for doubles, without rounding. The float version, lines 430-474, is the same program. *)
From Verif Require Import Word InvDist.
From Coq Require Import Reals.
Open Scope R_scope.

(* distributions.orig.c:395-409, 0 < shape < 1: one round; U: next_double, V: the standard exponential number; None: another round *)
Definition gamma_small (shape U V : R) : option R :=
  if Rle_dec U (1 - shape) then
    let X := powr U (1 / shape) in
    if Rle_dec X V then Some X else None
  else
    let Y := - ln ((1 - U) / shape) in
    let X := powr (1 - shape + shape * Y) (1 / shape) in
    if Rle_dec X (V + Y) then Some X else None.

(* distributions.orig.c:411-413 *)
Definition gb (shape : R) : R := shape - 1 / 3.
Definition gc (shape : R) : R := 1 / sqrt (9 * gb shape).
(* distributions.orig.c:414-427, shape > 1: one round; X: the standard normal number, U: next_double.
   GNormal: another normal number is drawn (U is not drawn); GMore: another round *)
Inductive gres := GNormal | GMore | GVal (g : R).
Definition squeeze (X U : R) : bool := if Rlt_dec U (1 - 331 / 10000 * (X * X) * (X * X)) then true else false.
Definition gamma_exact (b V X U : R) : bool :=
  if Req_EM_T U 0 then true (* log 0 is minus infinity *)
  else if Rlt_dec (ln U) (1 / 2 * X * X + b * (1 - V + ln V)) then true else false.
Definition gamma_large (shape X U : R) : gres :=
  let b := gb shape in
  let c := gc shape in
  let V := 1 + c * X in
  if Rle_dec V 0 then GNormal
  else
    let V := V * V * V in
    if squeeze X U then GVal (b * V)
    else if gamma_exact b V X U then GVal (b * V) else GMore.
