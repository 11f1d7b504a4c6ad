(* All bit generator classes as one family, the registry of names, and pickling of an
   ExtendedGenerator.

   Model of _pickle.py:32-101, generator.pyx:189-200 (__getstate__, __setstate__,
   __reduce__) and common.pyx:487-502 (fully_qualified_name). A pickle holds the name
   found under state["bit_generator"] and the state dictionary; loading looks the name
   up, calls the class without arguments and assigns the state. The byte format of
   pickle is not modelled: the name and the dictionary arrive unchanged. *)
From Verif Require Import Word Py AesPy ChaCha Dsfmt Efiix Hc128 Jsf Xoshiro Mt19937 Mt64 Pcg Ctr CtrPy Rdrand Romu Sfc Sfmt Speck Squares Tyche Buffer32 LaggedBuf.
From Coq Require Import String.
Open Scope N_scope.

Inductive klass := KAESCounter | KChaCha | KDSFMT | KEFIIX64 | KHC128 | KJSF | KLCG128Mix | KLXM | KMT19937 | KMT64 | KPCG32 | KPCG64 | KPCG64DXSM
  | KPhilox | KRDRAND | KRomu | KSFC64 | KSFMT | KSPECK128 | KSquares | KThreeFry | KTyche | KXoroshiro128 | KXorshift1024 | KXoshiro256 | KXoshiro512.
(* the objects of a class *)
Definition obj (k : klass) : Type :=
  match k with
  | KAESCounter => aes | KChaCha => chacha | KDSFMT => lb | KEFIIX64 => efpy | KHC128 => hc | KJSF => jsfpy | KLCG128Mix => lcgpy | KLXM => lxm
  | KMT19937 => mt | KMT64 => buffered m64 | KPCG32 => pcg32 | KPCG64 | KPCG64DXSM => pcg64 | KPhilox | KThreeFry => cobj | KRDRAND => rdrand
  | KRomu => romupy | KSFC64 => sfcpy | KSFMT => buffered lb | KSPECK128 => speck | KSquares => sqpy | KTyche => tychepy | KXoroshiro128 => xoroshiro128
  | KXorshift1024 => xorshift1024 | KXoshiro256 => xoshiro256 | KXoshiro512 => xoshiro512
  end.
(* the state property: getter and setter. None: undefined behaviour in the setter. *)
Definition kget (k : klass) : obj k -> pyval :=
  match k with
  | KAESCounter => aes_get | KChaCha => cc_get | KDSFMT => ds_get | KEFIIX64 => ef_get | KHC128 => hc_get | KJSF => jsf_get | KLCG128Mix => lcg_get | KLXM => lxm_get
  | KMT19937 => mt_get | KMT64 => m64_get | KPCG32 => pcg32_get | KPCG64 => pcg64_get | KPCG64DXSM => dxsm_get | KPhilox => c_get Philox | KThreeFry => c_get ThreeFry | KRDRAND => rd_get
  | KRomu => romu_get | KSFC64 => sfc_get | KSFMT => sf_get | KSPECK128 => sp_get | KSquares => sq_get | KTyche => ty_get | KXoroshiro128 => xoroshiro128_get
  | KXorshift1024 => xorshift1024_get | KXoshiro256 => xoshiro256_get | KXoshiro512 => xoshiro512_get
  end.
Definition always {S A : Type} (m : S -> A) (s : S) : option A := Some (m s).
Definition kset (k : klass) (v : pyval) : obj k -> option (obj k * outcome unit) :=
  match k with
  | KAESCounter => always (aes_set v) | KChaCha => always (cc_set v) | KDSFMT => always (ds_set v) | KEFIIX64 => always (ef_set v) | KHC128 => always (hc_set v)
  | KJSF => always (jsf_set v) | KLCG128Mix => always (lcg_set v) | KLXM => always (lxm_set v) | KMT19937 => always (mt_setst v) | KMT64 => always (m64_setst v)
  | KPCG32 => always (pcg32_set v) | KPCG64 => always (pcg64_set v) | KPCG64DXSM => always (dxsm_set v) | KPhilox => c_set Philox v | KThreeFry => c_set ThreeFry v
  | KRDRAND => always (rd_set v) | KRomu => always (romu_set v) | KSFC64 => always (sfc_set v) | KSFMT => always (sf_set v) | KSPECK128 => always (sp_set v)
  | KSquares => always (sq_set v) | KTyche => always (ty_set v) | KXoroshiro128 => always (xoroshiro128_set v) | KXorshift1024 => always (xorshift1024_set v)
  | KXoshiro256 => always (xoshiro256_set v) | KXoshiro512 => always (xoshiro512_set v)
  end.

(* _pickle.py:32-59 *)
Definition short_names : list (string * klass) :=
  [("AESCounter", KAESCounter); ("ChaCha", KChaCha); ("DSFMT", KDSFMT); ("EFIIX64", KEFIIX64); ("HC128", KHC128); ("JSF", KJSF); ("LCG128Mix", KLCG128Mix);
   ("LXM", KLXM); ("MT19937", KMT19937); ("MT64", KMT64); ("PCG32", KPCG32); ("PCG64", KPCG64); ("PCG64DXSM", KPCG64DXSM); ("Philox", KPhilox); ("RDRAND", KRDRAND);
   ("Romu", KRomu); ("SFC64", KSFC64); ("SFMT", KSFMT); ("SPECK128", KSPECK128); ("Squares", KSquares); ("ThreeFry", KThreeFry); ("Tyche", KTyche);
   ("Xoroshiro128", KXoroshiro128); ("Xorshift1024", KXorshift1024); ("Xoshiro256", KXoshiro256); ("Xoshiro512", KXoshiro512)]%string.
(* type(self).__name__ and type(self).__module__: the class statement and the file *)
Definition kname (k : klass) : string :=
  match k with
  | KAESCounter => "AESCounter" | KChaCha => "ChaCha" | KDSFMT => "DSFMT" | KEFIIX64 => "EFIIX64" | KHC128 => "HC128" | KJSF => "JSF" | KLCG128Mix => "LCG128Mix"
  | KLXM => "LXM" | KMT19937 => "MT19937" | KMT64 => "MT64" | KPCG32 => "PCG32" | KPCG64 => "PCG64" | KPCG64DXSM => "PCG64DXSM" | KPhilox => "Philox" | KRDRAND => "RDRAND"
  | KRomu => "Romu" | KSFC64 => "SFC64" | KSFMT => "SFMT" | KSPECK128 => "SPECK128" | KSquares => "Squares" | KThreeFry => "ThreeFry" | KTyche => "Tyche"
  | KXoroshiro128 => "Xoroshiro128" | KXorshift1024 => "Xorshift1024" | KXoshiro256 => "Xoshiro256" | KXoshiro512 => "Xoshiro512"
  end%string.
Definition kmod (k : klass) : string :=
  match k with
  | KAESCounter => "randomgen.aes" | KChaCha => "randomgen.chacha" | KDSFMT => "randomgen.dsfmt" | KEFIIX64 => "randomgen.efiix64" | KHC128 => "randomgen.hc128"
  | KJSF => "randomgen.jsf" | KLCG128Mix => "randomgen.pcg64" | KLXM => "randomgen.lxm" | KMT19937 => "randomgen.mt19937" | KMT64 => "randomgen.mt64" | KPCG32 => "randomgen.pcg32"
  | KPCG64 => "randomgen.pcg64" | KPCG64DXSM => "randomgen.pcg64" | KPhilox => "randomgen.philox" | KRDRAND => "randomgen.rdrand" | KRomu => "randomgen.romu" | KSFC64 => "randomgen.sfc"
  | KSFMT => "randomgen.sfmt" | KSPECK128 => "randomgen.speck128" | KSquares => "randomgen.squares" | KThreeFry => "randomgen.threefry" | KTyche => "randomgen.tyche"
  | KXoroshiro128 => "randomgen.xoroshiro128" | KXorshift1024 => "randomgen.xorshift1024" | KXoshiro256 => "randomgen.xoshiro256" | KXoshiro512 => "randomgen.xoshiro512"
  end%string.
Definition kfqn (k : klass) : string := (kmod k ++ "." ++ kname k)%string.
(* _pickle.py:61-63: the loop adds the fully qualified name of every value *)
Definition registry : list (string * klass) := (short_names ++ map (fun p => (kfqn (snd p), snd p)) short_names)%list.
(* dictionary look-up (no key occurs twice) *)
Fixpoint find_class (l : list (string * klass)) (x : string) : option klass :=
  match l with [] => None | (y, k) :: l => if String.eqb x y then Some k else find_class l x end.

(* _pickle.py:66-76 and 86-110, generator.pyx:193-194. fresh: what the constructors
   without arguments return (they seed from the system's entropy). KeyError stands for
   a state without a name; None: undefined behaviour in the setter. *)
Definition pickle_name (st : pyval) : outcome string :=
  match getitem st "bit_generator" with Ok (PStr x) => Ok x | Ok _ => Raise TypeError | Raise e => Raise e end.
Definition unpickle (fresh : forall k, obj k) (st : pyval) : option (outcome {k : klass & obj k}) :=
  match pickle_name st with
  | Raise e => Some (Raise e)
  | Ok x => match find_class registry x with
            | None => Some (Raise ValueError)
            | Some k => match kset k st (fresh k) with
                        | None => None
                        | Some (o, Ok tt) => Some (Ok (existT _ k o))
                        | Some (_, Raise e) => Some (Raise e)
                        end
            end
  end.
