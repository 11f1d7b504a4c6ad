(* Shared pieces of the state setters of all 64-bit generators *)
From Verif Require Import Word Buffer32 Py.
From Coq Require Import String ZifyBool ZifyNat ZifyN.
Open Scope N_scope.

(* The last two assignments of the setters, e.g. xoshiro256.pyx:271-272:
     self.rng_state.has_uint32 = value["has_uint32"]
     self.rng_state.uinteger = value["uinteger"]
   A C int other than 0 is treated as true by every reader; it is modelled by
   its truth value. *)
Definition set_half {A} (v : pyval) : M (buffered A) unit := (
  h <- lift (obind (getitem v "has_uint32") to_cint);;
  modify (fun b => Buf (core b) (nonzero h) (u32 b));;
  u <- lift (obind (getitem v "uinteger") (to_uint 32));;
  modify (fun b => Buf (core b) (has32 b) u))%py.
Definition set_core {A} (a : A) (b : buffered A) : buffered A := Buf a (has32 b) (u32 b).
Lemma set_half_run {A} l h u (b : buffered A) :
  assoc "has_uint32" l = Some (bool_int h) -> assoc "uinteger" l = Some (PInt (Z.of_N u)) -> wf 32 u ->
  set_half (PDict l) b = (Buf (core b) h u, Ok tt).
Proof.
  intros H1 H2 Hu. unfold set_half, getitem. rewrite H1, H2. cbn [obind]. pyrun. reflexivity.
Qed.
Arguments set_half : simpl never.

