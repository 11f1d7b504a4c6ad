(* The choice between portable code and special instructions: src/common/cpu_features.c, the three
   global switches RANDOMGEN_USE_AESNI, RANDOMGEN_USE_SSE41 and RANDOMGEN_USE_SIMD, and the properties
   use_aesni, use_sse41 and use_simd of AESCounter, SPECK128 and ChaCha. *)
From Verif Require Import Word Arr LaneCtr Aes AesPy Speck ChaCha Py.
From Coq Require Import ZifyBool ZifyNat ZifyN.
Open Scope N_scope.
Ltac Zify.zify_post_hook ::= idtac.

(* the processor: the highest CPUID leaf and the registers of leaf 1 *)
Record cpu := Cpu { c_leaf : N; c_eax : N; c_ebx : N; c_ecx : N; c_edx : N }.
(* the compiler: whether CPUID can be read (cpu_features.h:11-22), MSVC's signed registers
   (cpu_features.c:15-29) or the unsigned ones of GCC and clang, and the instruction sets __AES__,
   __SSE2__, __SSSE3__, __RDRND__ it was told to use *)
Record build := Build { b_cpuid : bool; b_msc : bool; b_aes : bool; b_sse2 : bool; b_ssse3 : bool; b_rdrnd : bool }.

(* cpu_features.c:3-54 feature_flags: the 32 flags of register number major. reg is uint32_t, or int
   with MSVC, where >> of a negative value is arithmetic. *)
Definition reg_signed (x : N) : Z := if x <? 2 ^ 31 then Z.of_N x else (Z.of_N x - 2 ^ 32)%Z.
Definition feature_reg (c : cpu) (major : N) : N :=
  match major with 0 => c_eax c | 1 => c_ebx c | 2 => c_ecx c | 3 => c_edx c | _ => 0 end.
Definition feature_flags (b : build) (c : cpu) (major : N) : list Z :=
  let known := b_cpuid b && (1 <=? (if b_msc b then reg_signed (c_leaf c) else Z.of_N (c_leaf c)))%Z in
  let reg := if known then feature_reg c major else 0 in
  map (fun i => if b_msc b then Z.land (Z.shiftr (reg_signed reg) (Z.of_nat i)) 1 else Z.of_N (N.land (N.shiftr reg (N.of_nat i)) 1)) (seq 0 32).

(* the global switches, 0 when the program starts. (The three are in three extension modules.) *)
Record switches := Sw { g_aes : Z; g_sse41 : Z; g_simd : Z }.
Definition sw0 : switches := Sw 0 0 0.
Inductive fam := FAes | FSpeck | FChaCha.
Definition get_sw (f : fam) (g : switches) : Z := match f with FAes => g_aes g | FSpeck => g_sse41 g | FChaCha => g_simd g end.
Definition set_sw (f : fam) (v : Z) (g : switches) : switches :=
  match f with FAes => Sw v (g_sse41 g) (g_simd g) | FSpeck => Sw (g_aes g) v (g_simd g) | FChaCha => Sw (g_aes g) (g_sse41 g) v end.
(* aesctr.c:4-19 aes_capable, speck-128.c:4-19 speck_sse41_capable, chacha.c:10-32
   chacha_simd_capable: the value returned, which is also stored in the switch *)
Definition capable (b : build) (c : cpu) (f : fam) : Z :=
  match f with
  | FAes => if b_aes b then nth 25 (feature_flags b c 2) 0%Z else 0%Z
  | FSpeck => if b_ssse3 b then nth 19 (feature_flags b c 2) 0%Z else 0%Z
  | FChaCha => if b_sse2 b then (if b_ssse3 b then nth 9 (feature_flags b c 2) 0%Z else nth 26 (feature_flags b c 3) 0%Z) else 0%Z
  end.
(* rdrand.c:4-17 *)
Definition rdrand_capable (b : build) (c : cpu) : Z := if b_rdrnd b then nth 30 (feature_flags b c 2) 0%Z else 0%Z.

(* a value assigned to a property: what bool() and int() make of it *)
Record sval := SV { sv_truth : outcome bool; sv_int : outcome Z }.
Definition sv_bool (t : bool) : sval := SV (Ok t) (Ok (if t then 1 else 0)%Z).
Definition sv_z (z : Z) : sval := SV (Ok (negb (z =? 0)%Z)) (Ok z).
(* the float n/d: int() truncates *)
Definition sv_rat (n : Z) (d : positive) : sval := SV (Ok (negb (n =? 0)%Z)) (Ok (Z.quot n (Zpos d))).
Definition sv_none : sval := SV (Ok false) (Raise TypeError).
(* What happens to the switches. Seed f: an object of class f is constructed, seeded or jumped
   (aesctr.c:36, speck-128.c:24, chacha.c:38: the seeding functions call ..._capable). Assign f v:
   x.use_... = v on any object x of class f (aes.pyx:175-180, speck128.pyx:254-259,
   chacha.pyx:184-189). *)
Inductive ev := Seed (f : fam) | Assign (f : fam) (v : sval).
Definition sw_step (b : build) (c : cpu) (e : ev) (g : switches) : switches * outcome unit :=
  match e with
  | Seed f => (set_sw f (capable b c f) g, Ok tt)
  | Assign f v =>
      let cap := capable b c f in
      let g := set_sw f cap g in
      match sv_truth v with
      | Raise e => (g, Raise e)
      | Ok t =>
          if t && (cap =? 0)%Z then (g, Raise ValueError)
          else match f with
               | FSpeck => match obind (sv_int v) (fun z => to_cint (PInt z)) with Ok z => (set_sw f z g, Ok tt) | Raise e => (g, Raise e) end
               | _ => (set_sw f (if t then 1 else 0)%Z g, Ok tt)
               end
      end
  end.
Definition sw_run (b : build) (c : cpu) (l : list ev) (g : switches) : switches := fold_left (fun g e => fst (sw_step b c e g)) l g.
(* the value of the property: aes.pyx:173, speck128.pyx:252, chacha.pyx:182; an int, for SPECK128 a
   bool *)
Definition sw_read (f : fam) (g : switches) : Z := match f with FSpeck => if (g_sse41 g =? 0)%Z then 0%Z else 1%Z | _ => get_sw f g end.

(* The code that produces a block: aesctr.h:51-97 (AES-NI, nothing at all when the switch is on in a
   build without it, or the software cipher), speck-128.h:105-119, chacha.h:182-190 *)
Inductive code := Portable | Instr | Nothing.
Definition block_code (b : build) (f : fam) (g : switches) : code :=
  match f with
  | FAes => if (g_aes g =? 0)%Z then Portable else if b_aes b then Instr else Nothing
  | FSpeck => if b_ssse3 b && (g_sse41 g =? 1)%Z then Instr else Portable
  | FChaCha => if b_sse2 b && (0 <? g_simd g)%Z then Instr else Portable
  end.

(* one generator of class f draws while the switches change: Some e: the event e, None: a draw. The
   code used by each draw. *)
Fixpoint codes (b : build) (c : cpu) (f : fam) (l : list (option ev)) (g : switches) : list code :=
  match l with
  | [] => []
  | Some e :: l => codes b c f l (fst (sw_step b c e g))
  | None :: l => block_code b f g :: codes b c f l g
  end.
(* the draws of an AESCounter, SPECK128 and ChaCha (32-bit) object with these codes *)
Fixpoint aes_by (ks : list code) (s : aes_core) : option (aes_core * list N) :=
  match ks with
  | [] => Some (s, [])
  | k :: ks => match (match k with Portable => aes_next s | Instr => ni_next s | Nothing => None end) with
               | Some (s1, v) => match aes_by ks s1 with Some (s2, vs) => Some (s2, v :: vs) | None => None end
               | None => None end
  end.
Definition speck_by (ks : list code) (s : sp_core) : option (sp_core * list N) := mixed_draws (map (fun k => match k with Instr => true | _ => false end) ks) s.
Definition chacha_by (b : build) (ks : list code) (s : chacha) : option (chacha * list N) :=
  cc_draws (map (fun k => match k with Instr => if b_ssse3 b then Ssse3 else Sse2 | _ => Scalar end) ks) s.
