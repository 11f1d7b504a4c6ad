(* Known answers: the models give the first values of tests/data/<name>-testset-1.csv
   and the constants of tests/test_direct.py. Checks of the transcription, not
   claims about all inputs. *)
From Verif Require Import Word Arr Buffer32 Py MultiWord Half SeedSeq SeedSeqFacts PcgSeed Pcg Xoshiro Ctr Blocks CtrPy Aes LaneCtr AesPy Speck ChaCha Squares Mt19937.
From Coq Require Import String.
Open Scope N_scope.

(* generate_state(n, uint64) and generate_state(n, uint32) of SeedSequence(seed) *)
Definition k64 (seed : Z) (n : nat) : list N := match ss_pool (SS (SInt seed) [] 4 0) with Some p => generate64 n p | None => [] end.
Fixpoint opt_raws {A} (f : A -> option (A * N)) (n : nat) (s : A) : list N :=
  match n with O => [] | Datatypes.S n => match f s with Some (s, v) => v :: opt_raws f n s | None => [] end end.
(* two words, the most significant first *)
Definition be2 (l : list N) : N := match l with a :: b :: _ => a * 2 ^ 64 + b | _ => 0 end.
Definition beaf : Z := 0xdeadbeaf.

Example kat_pcg64 : let w := k64 0 4 in
  snd (raws pcg64_next64 3 (pcg64_seed XslRr (be2 w) (be2 (skipn 2 w)))) = [0xa30febcfd9c2825f; 0x4510bdf882d9d721; 0xa7d3da94ecde8b8].
Proof. vm_compute. reflexivity. Qed.
Example kat_pcg64_dxsm : let w := k64 0 2 in
  snd (raws pcg64_next64 3 (pcg64_seed Dxsm128 (be2 w) 0)) = [0x3e8c8a3f7acfb7c7; 0x4ff241e54decae4; 0xb5a18bc6228755de].
Proof. vm_compute. reflexivity. Qed.
Example kat_pcg64_cm_dxsm : let w := k64 0 2 in
  snd (raws pcg64_next64 3 (pcg64_seed CmDxsm (be2 w) 0)) = [0x397dbf7c0360842d; 0x9f0b7c8fbde4da90; 0x135d1beece5795f8].
Proof. vm_compute. reflexivity. Qed.
Example kat_xoshiro256 : snd (raws xoshiro256_next64 3 (xoshiro256_seed (k64 beaf 4))) = [0xc41249470d6076a0; 0xfe08d0d48bc91abb; 0x680aaf1117d268cf].
Proof. vm_compute. reflexivity. Qed.
Example kat_xoshiro512 : snd (raws xoshiro512_next64 3 (xoshiro512_seed (k64 beaf 8))) = [0xc41249470d6076a0; 0xfe08d0d48bc91abb; 0x94a399e98a024821].
Proof. vm_compute. reflexivity. Qed.
Example kat_xoroshiro128 : snd (raws xoroshiro128_next64 3 (xoroshiro128_new false (k64 beaf 2))) = [0x9094e6ef9f5bbec1; 0xcfb766fa7591ec1a; 0x3d73491a89a7dcd7]
  /\ snd (raws xoroshiro128_next64 3 (xoroshiro128_new true (k64 beaf 2))) = [0x1e10691b529a0373; 0xb2897430732ab86; 0xf2efb28fb579fc71].
Proof. vm_compute. split; reflexivity. Qed.
Example kat_xorshift1024 : opt_raws xorshift1024_next 3 (core (xorshift1024_new (k64 beaf 16))) = [0xd1f261787fcf6c0b; 0x6421a19abf38c110; 0x871fc25dc9fa23f6].
Proof. vm_compute. reflexivity. Qed.
Example kat_lxm : match lxm_new 3037000493 (k64 beaf 5) with Some s => snd (raws lxm_next64 3 s) | None => [] end = [0xc262a4f74fd51497; 0x703bdc352480c56; 0xac52a3da0c283220].
Proof. vm_compute. reflexivity. Qed.
Example kat_aes : opt_raws aes_next 3 (core (aes_seed (lv 64 (k64 beaf 2)) 0 aes_zero)) = [0x4fbc4bbb0c2d02d4; 0xf32bc865ef910a06; 0x92484ec9a1037c65].
Proof. vm_compute. reflexivity. Qed.
Example kat_speck : opt_raws sp_next 3 (core (sp_seed (lv 64 (k64 0 4)) 0 (sp_zero 34))) = [10504129596355372223; 1318022532533367005; 6998045227391158025].
Proof. vm_compute. reflexivity. Qed.
(* test_large_advance, test_direct.py:1918-1924 and 1934-1935 *)
Example kat_dxsm_advance : let s := pcg64_seed Dxsm128 (be2 (k64 0 2)) 1 in
  p_state (core s) = 262626489767919729675955844831248137855 /\
  p_state (core (pcg64_advance (2 ^ 96 - 1) s)) = 326675794918500479020985263602132957772.
Proof. vm_compute. split; reflexivity. Qed.
Example kat_cm_dxsm_advance : let s := pcg64_seed CmDxsm (be2 (k64 0 2)) 1 in
  p_state (core s) = 159934576226003702342121456273047082943 /\
  p_state (core (pcg64_advance (2 ^ 96 - 1) s)) = 43406923282132296644520456716700203596.
Proof. vm_compute. split; reflexivity. Qed.
Example kat_pcg32 : let w := k64 beaf 2 in
  snd (raws pcg32_next32 3 (pcg32_srandom (nth 0 w 0) (nth 1 w 0))) = [0x46aed67f; 0x67882fa3; 0xc9456368].
Proof. vm_compute. reflexivity. Qed.
Example kat_philox : opt_raws (cnext 64 2 (blockfn Philox (4, 64))) 3 (o_st (seed_key Philox (4, 64) (lv 64 (k64 beaf 2)) 0))
  = [0xedc95200e2bd66a5; 0x581d4e43b7682352; 0x4be7278f5e373eab].
Proof. vm_compute. reflexivity. Qed.
Example kat_philox4x32 : opt_raws (cnext 32 2 (blockfn Philox (4, 32))) 3 (o_st (seed_key Philox (4, 32) (lv 64 (k64 beaf 1)) 0))
  = [0x9b9ea98c; 0x2e2a2293; 0xa5a1576d].
Proof. vm_compute. reflexivity. Qed.
Example kat_threefry : opt_raws (cnext 64 2 (blockfn ThreeFry (4, 64))) 3 (o_st (seed_key ThreeFry (4, 64) (lv 64 (k64 beaf 4)) 0))
  = [0xbefa8ee31e27c265; 0xb04e9d22a0abdb95; 0xca84aabb77c40820].
Proof. vm_compute. reflexivity. Qed.
Example kat_threefry32 : opt_raws (cnext 32 2 (blockfn ThreeFry (4, 32))) 3 (o_st (seed_key ThreeFry (4, 32) (lv 64 (k64 beaf 2)) 0))
  = [0xd781a948; 0xce47e3a3; 0x75f50a9c].
Proof. vm_compute. reflexivity. Qed.
Definition sq_of (v64 : bool) : sqpy :=
  match key_from_seq (fun n => k64 beaf (N.to_nat n)) 200 with Val key => sq_seed key 0 v64 (Buf (SQ 0 0 true) false 0) | _ => Buf (SQ 0 0 true) false 0 end.
Example kat_squares : snd (raws (sq_raw true) 3 (sq_of true)) = [0x5167ea8b7923d95b; 0xe03102be2db8c20; 0xe59f61d7beb27f5d]
  /\ snd (raws (sq_raw true) 3 (sq_of false)) = [0xe03102b5167ea8b; 0x943ac4d0e59f61d7; 0x8de3053855a66612].
Proof. vm_compute. split; reflexivity. Qed.
Example kat_chacha : opt_raws (cc_next64 Scalar true) 3 (cc_seed Scalar (lv 64 (k64 0 4)) 0 (CC [] [] 0 0 20))
  = [15924121123453604757; 17858368093403800153; 4583268340135613611].
Proof. vm_compute. reflexivity. Qed.
Example kat_mt19937 : opt_raws mt_next 3 (mt_seed (match ss_pool (SS (SInt beaf) [] 4 0) with Some p => generate32 624 p | None => [] end))
  = [0x572606f5; 0xf42053df; 0xa9e87d40].
Proof. vm_compute. reflexivity. Qed.
(* the first output of SplitMix64 with seed 0 is the same mixing of its increment *)
Example kat_murmur3 : out_murmur3 0x9e3779b97f4a7c15 0 = 0xe220a8397b1dcdaf.
Proof. vm_compute. reflexivity. Qed.
