(* seed(seed, counter, key) of the counter-based classes: which key and counter reach the generator.
   AESCounter, SPECK128, ChaCha, Philox and ThreeFry. *)
From Verif Require Import Word MultiWord Common Py Convert Ctr CtrPy.
From Coq Require Import String ZifyBool ZifyNat ZifyN.
Open Scope N_scope.
Ltac Zify.zify_post_hook ::= idtac.

(* n, w: number and width *)
Inductive ckind := KAes | KSpeck | KChaCha | KCtr (c : cls) (n w : N).
(* the bits of key and counter: aes.pyx:233-234, speck128.pyx:221-222, chacha.pyx:234-235,
   philox.pyx:292-293, threefry.pyx:281-282 *)
Definition key_bits (k : ckind) : N := match k with KAes => 128 | KSpeck | KChaCha => 256 | KCtr Philox n w => n / 2 * w | KCtr ThreeFry n w => n * w end.
Definition ctr_bits (k : ckind) : N := match k with KAes | KSpeck | KChaCha => 128 | KCtr _ n w => n * w end.
(* _seed_from_seq: the words taken from the SeedSequence, aes.pyx:183, speck128.pyx:175,
   chacha.pyx:159, philox.pyx:233-237, threefry.pyx:229 *)
Definition seq_words (k : ckind) : N := match k with KAes => 2 | KSpeck | KChaCha => 4 | KCtr Philox n w => N.max (n * w / 128) 1 | KCtr ThreeFry n w => n * w / 64 end.
Definition seq_state (k : ckind) (words : N -> list N) : list N :=
  let l := words (seq_words k) in
  match k with KCtr Philox 2 32 => map (fun x => x mod 2 ^ 32) l | _ => l end.
(* seed(key=key, counter=counter): aes.pyx:233-246, speck128.pyx:221-230, chacha.pyx:234-247,
   philox.pyx:292-319, threefry.pyx:281-310; the key and the counter as integers. None: undefined.
   A key that object_to_int turns into None is not passed here. *)
Definition install (k : ckind) (key counter : objv) : option (outcome (N * N)) :=
  match object_to_int 64 true false (Some (key_bits k)) key with
  | None => None
  | Some (Raise e) => Some (Raise e)
  | Some (Ok None) => None
  | Some (Ok (Some kv)) =>
      match object_to_int 64 true false (Some (ctr_bits k)) counter with
      | None => None
      | Some (Raise e) => Some (Raise e)
      | Some (Ok None) => Some (Ok (Z.to_N kv, 0))
      | Some (Ok (Some cv)) => Some (Ok (Z.to_N kv, Z.to_N cv))
      end
  end.
(* seed(seed, counter, key). seeded: seed is not None; words n: SeedSequence(seed).generate_state(n,
   np.uint64); numpy: self.mode == "numpy" (Philox only). common.pyx:79-87
   _seed_with_seed_sequence; philox.pyx:242-245 _seed_from_seq_numpy_compat drops the counter *)
Definition py_seed (k : ckind) (numpy : bool) (words : N -> list N) (seeded : bool) (counter key : objv) : option (outcome (N * N)) :=
  match key with
  | ONone =>
      if numpy then
        match k with
        | KCtr Philox 4 64 => install k (OArr 64 (seq_state k words)) ONone
        | _ => Some (Raise ValueError)
        end
      else install k (OArr 64 (seq_state k words)) counter
  | _ => if seeded then Some (Raise ValueError) else install k key counter
  end.
