(* wrapper.pyx: UserBitGenerator built from a Python function *)
From Verif Require Import Word.
From Coq Require Import ZifyBool ZifyNat ZifyN.
Open Scope Z_scope.
Ltac Zify.zify_post_hook ::= idtac.

Section User.
  (* the Python callable next_raw: a state change of its own and a Python integer.
     A callable that raises is not modelled (the class docstring excludes it). *)
  Context {A : Type} (raw : A -> A * Z).
  (* ctypes.c_uint64, ctypes.c_uint32 return types keep the low bits *)
  Definition c_u64 (z : Z) : Z := z mod 2 ^ 64.
  Definition c_u32 (z : Z) : Z := z mod 2 ^ 32.
  (* wrapper.pyx:12-15: Python evaluates the left call first *)
  Definition raw_32_to_64 (a : A) : A * Z :=
    let '(a1, u) := raw a in let '(a2, v) := raw a1 in (a2, Z.lor (Z.shiftl u 32) v).
  (* wrapper.pyx:18-21 *)
  Definition raw_64_to_32 (a : A) : A * Z := let '(a1, u) := raw a in (a1, Z.shiftr u 32).
  (* wrapper.pyx:24-27 and 30-36: the numerator over 2^53 (exact, Doubles.v) *)
  Definition raw_64_to_double (a : A) : A * Z := let '(a1, u) := raw a in (a1, Z.shiftr u 11).
  Definition raw_32_to_double (a : A) : A * Z :=
    let '(a1, u) := raw a in let '(a2, v) := raw a1 in (a2, Z.shiftr u 5 * 67108864 + Z.shiftr v 6).
  (* wrapper.pyx:176-203 with no function but next_raw given; bits is not checked *)
  Definition u_raw (a : A) : A * Z := let '(a1, u) := raw a in (a1, c_u64 u).
  Definition u_next64 (bits : Z) (a : A) : A * Z :=
    if bits =? 64 then u_raw a else let '(a1, v) := raw_32_to_64 a in (a1, c_u64 v).
  (* with bits 32 the 64-bit callback is called through a uint32_t pointer *)
  Definition u_next32 (bits : Z) (a : A) : A * Z :=
    if bits =? 32 then let '(a1, v) := u_raw a in (a1, c_u32 v) else let '(a1, v) := raw_64_to_32 a in (a1, c_u32 v).
  Definition u_double (bits : Z) (a : A) : A * Z :=
    if bits =? 64 then raw_64_to_double a else raw_32_to_double a.
  (* the state property: wrapper.pyx:146-165; None: NotImplementedError *)
End User.
