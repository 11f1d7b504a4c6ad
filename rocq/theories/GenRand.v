(* The inline generating functions of sfmt.h and dsfmt.h, which draw from the state
   array itself (randomgen/src/sfmt/sfmt.h:146-305, randomgen/src/dsfmt/dsfmt.h:246-374) *)
From Coq Require Import QArith.
From Verif Require Import Word Arr Half Lagged LaggedBuf Sfmt SfmtFacts Dsfmt Doubles FillArr FillC.
From Coq Require Import List ZArith NArith Lia ZifyBool ZifyNat ZifyN.
Import ListNotations.
Open Scope N_scope.
Ltac Zify.zify_post_hook ::= idtac.

(* the array and idx *)
Definition sgst : Type := list N * Z.
(* sfmt.h:150-153 and 176-179: the refill, the same in every function *)
Definition sg_refill (s : sgst) : option sgst :=
  if (624 <=? snd s)%Z then match lg_block sfK sfP sf_f sf_g (fst s) 0 with Some (st, _) => Some (st, 0%Z) | None => None end else Some s.
(* sfmt.h:146-156; psfmt32 is the array read as 32-bit words *)
Definition sg32 (s : sgst) : option (sgst * N) :=
  match sg_refill s with
  | Some (st, idx) => match rd (unquads st) idx with Some v => Some ((st, (idx + 1)%Z), v) | None => None end
  | None => None
  end.
(* sfmt.h:166-194, little endian; psfmt64 is the array read as 64-bit words; dbg:
   compiled with the assertion *)
Definition sg64 (dbg : bool) (s : sgst) : option (sgst * N) :=
  if (dbg && negb (Z.rem (snd s) 2 =? 0)%Z)%bool then None else
  match sg_refill s with
  | Some (st, idx) => match rd (halves st) (Z.quot idx 2) with Some v => Some ((st, (idx + 2)%Z), v) | None => None end
  | None => None
  end.
(* calls one after another; true: sfmt_genrand_uint64 *)
Fixpoint sg_draws (dbg : bool) (ds : list bool) (s : sgst) : option (sgst * list N) :=
  match ds with
  | [] => Some (s, [])
  | d :: ds => match (if d then sg64 dbg s else sg32 s) with
               | Some (s, v) => match sg_draws dbg ds s with Some (s, vs) => Some (s, v :: vs) | None => None end
               | None => None
               end
  end.
(* sfmt.h:287-305 sfmt_to_res53_mix and sfmt_genrand_res53_mix: the 64-bit number
   passed to sfmt_to_res53; the two calls are separate statements *)
Definition sg_mix (s : sgst) : option (sgst * N) :=
  match sg32 s with
  | Some (s, x) => match sg32 s with Some (s, y) => Some (s, N.lor x (N.shiftl y 32)) | None => None end
  | None => None
  end.
(* sfmt.h:200-204, 221-225, 242-246 and 264-267: conversions of a drawn number; c1 is
   the constant 1.0/4294967295.0 as the compiler rounds it *)
Definition to_real1 (rnd : Q -> Q) (c1 : Q) (v : N) : Q := fmul rnd (fint rnd (Z.of_N v)) c1.
Definition to_real2 (rnd : Q -> Q) (v : N) : Q := scale_mul rnd 0 32 (Z.of_N v).
Definition to_real3 (rnd : Q -> Q) (v : N) : Q := fmul rnd (fadd rnd (fint rnd (Z.of_N v)) (1 # 2)) (fdiv rnd 1 (fint rnd (2 ^ 32))).
Definition to_res53 (rnd : Q -> Q) (v : N) : Q := scale_mul rnd 11 53 (Z.of_N v).

(* the array, lung and idx *)
Definition dgst : Type := list N * N * Z.
(* dsfmt.h:267-277 dsfmt_genrand_close1_open2: the bits of the double. The other
   functions draw with the same code: 246-256 dsfmt_genrand_uint32 keeps 32 bits,
   309-311, 332-334 and 355-369 convert to [0,1), (0,1] and (0,1). *)
Definition dg64 (s : dgst) : option (dgst * N) :=
  let '(st, u, idx) := s in
  match (if (382 <=? idx)%Z then match lg_block dsK dsP ds_f ds_g st u with Some (st, u) => Some (st, u, 0%Z) | None => None end else Some (st, u, idx)) with
  | Some (st, u, idx) => match rd (halves st) idx with Some v => Some ((st, u, (idx + 1)%Z), v) | None => None end
  | None => None
  end.
Definition dg_map (f : N -> N) (s : dgst) : option (dgst * N) := match dg64 s with Some (s, v) => Some (s, f v) | None => None end.
Definition dg_uint32 : dgst -> option (dgst * N) := dg_map (fun v => N.land v 0xffffffff).
(* numerators over 2^52, see FillC.v *)
Definition dg_close_open : dgst -> option (dgst * N) := dg_map mant.
Definition dg_open_close : dgst -> option (dgst * N) := dg_map (fun v => 2 ^ 52 - mant v).
Definition dg_open_open : dgst -> option (dgst * N) := dg_map (fun v => mant (N.lor v 1)).
Fixpoint dg_draws (draw : dgst -> option (dgst * N)) (n : nat) (s : dgst) : option (dgst * list N) :=
  match n with
  | O => Some (s, [])
  | S n => match draw s with
           | Some (s, v) => match dg_draws draw n s with Some (s, vs) => Some (s, v :: vs) | None => None end
           | None => None
           end
  end.

(* ------------------------------------------------ reading the arrays *)
Lemma unquads_nth l : forall i, (i < 4 * List.length l)%nat -> nth_error (unquads l) i = Some (lane (N.of_nat (i mod 4)) (nth (i / 4) l 0)).
Proof.
  induction l as [|a l IH]; intros i Hi; [cbn in Hi; lia|]. cbn [List.length] in Hi. unfold unquads in *. cbn [flat_map app].
  destruct i as [|[|[|[|i]]]]; [reflexivity|reflexivity|reflexivity|reflexivity|]. cbn [nth_error]. rewrite IH by lia.
  replace (S (S (S (S i)))) with (i + 1 * 4)%nat by lia. rewrite Nat.mod_add, Nat.div_add by lia. rewrite Nat.add_1_r. reflexivity.
Qed.
