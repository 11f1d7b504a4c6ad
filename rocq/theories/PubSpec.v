(* The published definitions of the block functions behind the counter-based
   generators, written from the papers and standards and not from the code.
   Nothing here models /repo; PubFacts.v and PropPub.v prove that the model
   of the code computes these functions.

   - Philox, Threefry: Salmon, Moraes, Dror, Shaw, "Parallel random numbers:
     as easy as 1, 2, 3" (SC11), sections 3 and 4; Threefry is Threefish of
     the Skein 1.3 submission without the tweak
   - AES-128: FIPS 197
   - SPECK128/256: Beaulieu et al., "The SIMON and SPECK families" (2013)
   - ChaCha: Bernstein, "ChaCha, a variant of Salsa20" (2008) *)
From Coq Require Import Arith NArith List Bool.
Import ListNotations.
Open Scope N_scope.

(* rotations as arithmetic *)
Definition rol (w x r : N) : N := (x * 2 ^ r) mod 2 ^ w + x / 2 ^ (w - r).
Definition ror (w x r : N) : N := x / 2 ^ r + (x mod 2 ^ r) * 2 ^ (w - r).
Definition zip (f : N -> N -> N) (a b : list N) : list N := map (fun p => f (fst p) (snd p)) (combine a b).
Definition at_ (l : list N) (i : nat) : N := nth i l 0.

(* ------------------------------------------------------------------ Philox *)
(* round i uses the key words k + i*W (a Weyl sequence) *)
Definition philox2_round (w M W k : N) (x : list N) (i : nat) : list N :=
  let p := M * at_ x 0 in
  let ki := (k + N.of_nat i * W) mod 2 ^ w in
  [N.lxor (N.lxor (p / 2 ^ w) ki) (at_ x 1); p mod 2 ^ w].
Definition philox2_pub (w M W : N) (rounds : nat) (key ctr : list N) : list N :=
  fold_left (philox2_round w M W (at_ key 0)) (seq 0 rounds) ctr.
Definition philox4_round (w M0 M1 W0 W1 : N) (key : list N) (x : list N) (i : nat) : list N :=
  let p0 := M0 * at_ x 0 in let p1 := M1 * at_ x 2 in
  let k0 := (at_ key 0 + N.of_nat i * W0) mod 2 ^ w in let k1 := (at_ key 1 + N.of_nat i * W1) mod 2 ^ w in
  [N.lxor (N.lxor (p1 / 2 ^ w) k0) (at_ x 1); p1 mod 2 ^ w;
   N.lxor (N.lxor (p0 / 2 ^ w) k1) (at_ x 3); p0 mod 2 ^ w].
Definition philox4_pub (w M0 M1 W0 W1 : N) (rounds : nat) (key ctr : list N) : list N :=
  fold_left (philox4_round w M0 M1 W0 W1 key) (seq 0 rounds) ctr.

(* ---------------------------------------------------------------- Threefry *)
(* n words; subkey s is k[(s+i) mod (n+1)], with s added to the last word *)
Definition tf_subkey (w : N) (n : nat) (ks : list N) (s : nat) : list N :=
  map (fun i => (at_ ks ((s + i) mod (n + 1))%nat + (if Nat.eqb i (n - 1)%nat then N.of_nat s else 0)) mod 2 ^ w) (seq 0 n).
Definition tf_add (w : N) : list N -> list N -> list N := zip (fun a b => (a + b) mod 2 ^ w).
Definition tf_MIX (w r a b : N) : list N := let y0 := (a + b) mod 2 ^ w in [y0; N.lxor (rol w b r) y0].
(* one round: add a subkey when the round number is a multiple of four, mix
   neighbouring words, permute the words *)
Definition tf_pub_round (w : N) (n : nat) (R : nat -> nat -> N) (pi : list nat) (ks v : list N) (d : nat) : list N :=
  let e := if Nat.eqb (d mod 4)%nat 0 then tf_add w v (tf_subkey w n ks (d / 4)%nat) else v in
  let f := flat_map (fun j => tf_MIX w (R (d mod 8)%nat j) (at_ e (2 * j)%nat) (at_ e (2 * j + 1)%nat)) (seq 0 (n / 2)%nat) in
  map (at_ f) pi.
(* the last key word is the parity constant xor all key words; after the last
   round one more subkey is added *)
Definition threefry_pub (w C : N) (n : nat) (R : nat -> nat -> N) (pi : list nat) (rounds : nat) (key ctr : list N) : list N :=
  let ks := key ++ [fold_right N.lxor C key] in
  tf_add w (fold_left (tf_pub_round w n R pi ks) (seq 0 rounds) ctr) (tf_subkey w n ks (rounds / 4)%nat).

(* ----------------------------------------------------------------- AES-128 *)
(* GF(2^8) modulo x^8 + x^4 + x^3 + x + 1 *)
Definition gf_x (a : N) : N := let b := 2 * a in if b <? 256 then b else N.lxor b 0x11b.
(* Horner over the bits of a, from the top *)
Definition gf_mul (a b : N) : N :=
  fold_left (fun acc i => N.lxor (gf_x acc) (if N.testbit a i then b else 0)) [7; 6; 5; 4; 3; 2; 1; 0] 0.
Definition gf_pow (a : N) (n : nat) : N := Nat.iter n (gf_mul a) 1.
(* SubBytes: the inverse (a^254, which is 0 for 0), then the affine map on bits *)
Definition gf_inv (a : N) : N :=
  let sq x := gf_mul x x in
  let a2 := sq a in let a4 := sq a2 in let a8 := sq a4 in let a16 := sq a8 in
  let a32 := sq a16 in let a64 := sq a32 in let a128 := sq a64 in
  gf_mul a128 (gf_mul a64 (gf_mul a32 (gf_mul a16 (gf_mul a8 (gf_mul a4 a2))))).
Definition aes_affine (b : N) : N :=
  fold_left (fun acc i => acc + 2 ^ i * N.b2n
    (xorb (xorb (xorb (N.testbit b i) (N.testbit b ((i + 4) mod 8))) (xorb (N.testbit b ((i + 5) mod 8)) (N.testbit b ((i + 6) mod 8))))
          (xorb (N.testbit b ((i + 7) mod 8)) (N.testbit 0x63 i)))) [0; 1; 2; 3; 4; 5; 6; 7] 0.
Definition aes_sbox (a : N) : N := aes_affine (gf_inv a).
(* the state s[r, c] is byte r + 4c *)
Definition aes_shift (s : list N) : list N :=
  map (fun p => let r := (p mod 4)%nat in let c := (p / 4)%nat in at_ s (r + 4 * ((c + r) mod 4))%nat) (seq 0 16).
Definition aes_mixc (s : list N) : list N :=
  map (fun p => let r := (p mod 4)%nat in let c := (p / 4)%nat in
                let e k := at_ s ((r + k) mod 4 + 4 * c)%nat in
                N.lxor (N.lxor (gf_mul 2 (e 0%nat)) (gf_mul 3 (e 1%nat))) (N.lxor (e 2%nat) (e 3%nat))) (seq 0 16).
(* key expansion, Nk = 4: words w[0..43], a word is four bytes *)
Definition aes_kword (W : list (list N)) (i : nat) : list N :=
  let temp := nth (i - 1)%nat W [] in
  let temp := if Nat.eqb (i mod 4)%nat 0
              then zip N.lxor (map aes_sbox [at_ temp 1; at_ temp 2; at_ temp 3; at_ temp 0]) [gf_pow 2 (i / 4 - 1)%nat; 0; 0; 0]
              else temp in
  zip N.lxor (nth (i - 4)%nat W []) temp.
Definition aes_kexp (key : list N) : list (list N) :=
  fold_left (fun W i => W ++ [aes_kword W i]) (seq 4 40)
    [firstn 4 key; firstn 4 (skipn 4 key); firstn 4 (skipn 8 key); firstn 4 (skipn 12 key)].
Definition aes_rkey (W : list (list N)) (r : nat) : list N := concat (firstn 4 (skipn (4 * r)%nat W)).
Definition aes128 (key blk : list N) : list N :=
  let W := aes_kexp key in
  let s := zip N.lxor blk (aes_rkey W 0) in
  let s := fold_left (fun s r => zip N.lxor (aes_mixc (aes_shift (map aes_sbox s))) (aes_rkey W r)) (seq 1 9) s in
  zip N.lxor (aes_shift (map aes_sbox s)) (aes_rkey W 10).

(* ------------------------------------------------------------ SPECK128/256 *)
(* (k[0..i], l[0..i+2]) -> (k[0..i+1], l[0..i+3]) *)
Definition speck_kstep (kl : list N * list N) (i : nat) : list N * list N :=
  let '(k, l) := kl in
  let l3 := N.lxor ((at_ k i + ror 64 (at_ l i) 8) mod 2 ^ 64) (N.of_nat i) in
  (k ++ [N.lxor (rol 64 (at_ k i) 3) l3], l ++ [l3]).
Definition speck_keys (K0 K1 K2 K3 : N) (T : nat) : list N := fst (fold_left speck_kstep (seq 0 (T - 1)%nat) ([K0], [K1; K2; K3])).
(* the round function on (x, y) *)
Definition speck_round (xy : N * N) (k : N) : N * N :=
  let '(x, y) := xy in
  let x := N.lxor ((ror 64 x 8 + y) mod 2 ^ 64) k in
  (x, N.lxor (rol 64 y 3) x).
Definition speck_pub (K0 K1 K2 K3 : N) (T : nat) (xy : N * N) : N * N := fold_left speck_round (speck_keys K0 K1 K2 K3 T) xy.

(* ------------------------------------------------------------------ ChaCha *)
Definition cc_quarter (a b c d : N) : list N :=
  let add x y := (x + y) mod 2 ^ 32 in
  let a := add a b in let d := rol 32 (N.lxor d a) 16 in
  let c := add c d in let b := rol 32 (N.lxor b c) 12 in
  let a := add a b in let d := rol 32 (N.lxor d a) 8 in
  let c := add c d in let b := rol 32 (N.lxor b c) 7 in
  [a; b; c; d].
(* a 4 by 4 matrix by rows; round number r works on the diagonals that start
   at the top and move s columns to the right per row, s = 0 for even r and 1
   for odd r. Word (row, col) of the result belongs to diagonal col - s*row. *)
Definition cc_pub_round (x : list N) (r : nat) : list N :=
  let s := (r mod 2)%nat in
  map (fun p => let row := (p / 4)%nat in let col := (p mod 4)%nat in
                let j := ((col + 3 * s * row) mod 4)%nat in
                let m k := at_ x (4 * k + (j + s * k) mod 4)%nat in
                at_ (cc_quarter (m 0%nat) (m 1%nat) (m 2%nat) (m 3%nat)) row) (seq 0 16).
(* "expand 32-byte k", eight key words, a 128-bit block number *)
Definition chacha_pub (rounds : nat) (key ctr : list N) : list N :=
  let x := [0x61707865; 0x3320646e; 0x79622d32; 0x6b206574] ++ key ++ ctr in
  zip (fun a b => (a + b) mod 2 ^ 32) (fold_left cc_pub_round (seq 0 rounds) x) x.
