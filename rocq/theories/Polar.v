(* randomgen/src/legacy/legacy-distributions.c:8-30 legacy_gauss and randomgen/src/distributions/distributions.orig.c:83-105
   random_gauss, the same text. Real numbers stand for doubles, without rounding. *)
From Verif Require Import Word.
From Coq Require Import Reals.
Open Scope R_scope.

(* legacy-distributions.c:17-21 the loop; us: the uniform numbers; None: more are needed *)
Fixpoint polar_loop (us : list R) : option (R * R * R * list R) :=
  match us with
  | u1 :: u2 :: us =>
      let x1 := 2 * u1 - 1 in
      let x2 := 2 * u2 - 1 in
      let r2 := x1 * x1 + x2 * x2 in
      if Rle_dec 1 r2 then polar_loop us else if Req_EM_T r2 0 then polar_loop us else Some (x1, x2, r2, us)
  | _ => None
  end.
(* legacy-distributions.c:24 *)
Definition polar_f (r2 : R) : R := sqrt (-2 * ln r2 / r2).
(* legacy-distributions.c:8-30; kept: None when has_gauss is false (gauss is then 0), else gauss *)
Definition gauss (kept : option R) (us : list R) : option (R * option R * list R) :=
  match kept with
  | Some g => Some (g, None, us)
  | None =>
      match polar_loop us with
      | Some (x1, x2, r2, us) => Some (polar_f r2 * x2, Some (polar_f r2 * x1), us)
      | None => None
      end
  end.
