(* BitGenerator._benchmark: common.pyx:128-129, 184-196. *)
From Verif Require Import Word Buffer32 Convert.
From Verif Require Py.
From Coq Require Import String.
Open Scope string_scope.
Section Bench.
  Context {A : Type} (n64 nd : A -> A * N).
  (* common.pyx:184-196. cnt: Py_ssize_t, range(cnt) is empty if it is negative; method: a string (anything else is
     like an unknown one) *)
  Definition benchmark (cnt : Z) (method : string) (a : A) : A * Py.outcome unit :=
    if String.eqb method "uint64" then (fst (raws n64 (Z.to_nat cnt) a), Py.Ok tt)
    else if String.eqb method "double" then (fst (raws nd (Z.to_nat cnt) a), Py.Ok tt)
    else (a, Py.Raise Py.ValueError).
End Bench.
