(* AES-128 as used by AESCounter: the software implementation, the AES-NI code
   path, and the standard they both implement.

   Model of src/aesctr/softaes.h and of the key expansion and encryption parts
   of src/aesctr/aesctr.c:21-67 and aesctr.h:54-74.
   A block is the list of its 16 bytes; state_t[i][j] is byte 4*i + j. *)
From Verif Require Import Word Arr MultiWord Blocks.
From Coq Require Import ZifyBool ZifyNat ZifyN Ring.
Open Scope N_scope.

(* softaes.h:22-48 *)
Definition sbox : list N :=
  [0x63; 0x7c; 0x77; 0x7b; 0xf2; 0x6b; 0x6f; 0xc5; 0x30; 0x01; 0x67; 0x2b; 0xfe; 0xd7; 0xab; 0x76;
   0xca; 0x82; 0xc9; 0x7d; 0xfa; 0x59; 0x47; 0xf0; 0xad; 0xd4; 0xa2; 0xaf; 0x9c; 0xa4; 0x72; 0xc0;
   0xb7; 0xfd; 0x93; 0x26; 0x36; 0x3f; 0xf7; 0xcc; 0x34; 0xa5; 0xe5; 0xf1; 0x71; 0xd8; 0x31; 0x15;
   0x04; 0xc7; 0x23; 0xc3; 0x18; 0x96; 0x05; 0x9a; 0x07; 0x12; 0x80; 0xe2; 0xeb; 0x27; 0xb2; 0x75;
   0x09; 0x83; 0x2c; 0x1a; 0x1b; 0x6e; 0x5a; 0xa0; 0x52; 0x3b; 0xd6; 0xb3; 0x29; 0xe3; 0x2f; 0x84;
   0x53; 0xd1; 0x00; 0xed; 0x20; 0xfc; 0xb1; 0x5b; 0x6a; 0xcb; 0xbe; 0x39; 0x4a; 0x4c; 0x58; 0xcf;
   0xd0; 0xef; 0xaa; 0xfb; 0x43; 0x4d; 0x33; 0x85; 0x45; 0xf9; 0x02; 0x7f; 0x50; 0x3c; 0x9f; 0xa8;
   0x51; 0xa3; 0x40; 0x8f; 0x92; 0x9d; 0x38; 0xf5; 0xbc; 0xb6; 0xda; 0x21; 0x10; 0xff; 0xf3; 0xd2;
   0xcd; 0x0c; 0x13; 0xec; 0x5f; 0x97; 0x44; 0x17; 0xc4; 0xa7; 0x7e; 0x3d; 0x64; 0x5d; 0x19; 0x73;
   0x60; 0x81; 0x4f; 0xdc; 0x22; 0x2a; 0x90; 0x88; 0x46; 0xee; 0xb8; 0x14; 0xde; 0x5e; 0x0b; 0xdb;
   0xe0; 0x32; 0x3a; 0x0a; 0x49; 0x06; 0x24; 0x5c; 0xc2; 0xd3; 0xac; 0x62; 0x91; 0x95; 0xe4; 0x79;
   0xe7; 0xc8; 0x37; 0x6d; 0x8d; 0xd5; 0x4e; 0xa9; 0x6c; 0x56; 0xf4; 0xea; 0x65; 0x7a; 0xae; 0x08;
   0xba; 0x78; 0x25; 0x2e; 0x1c; 0xa6; 0xb4; 0xc6; 0xe8; 0xdd; 0x74; 0x1f; 0x4b; 0xbd; 0x8b; 0x8a;
   0x70; 0x3e; 0xb5; 0x66; 0x48; 0x03; 0xf6; 0x0e; 0x61; 0x35; 0x57; 0xb9; 0x86; 0xc1; 0x1d; 0x9e;
   0xe1; 0xf8; 0x98; 0x11; 0x69; 0xd9; 0x8e; 0x94; 0x9b; 0x1e; 0x87; 0xe9; 0xce; 0x55; 0x28; 0xdf;
   0x8c; 0xa1; 0x89; 0x0d; 0xbf; 0xe6; 0x42; 0x68; 0x41; 0x99; 0x2d; 0x0f; 0xb0; 0x54; 0xbb; 0x16].
Definition inv_sbox : list N :=
  [0x52; 0x09; 0x6a; 0xd5; 0x30; 0x36; 0xa5; 0x38; 0xbf; 0x40; 0xa3; 0x9e; 0x81; 0xf3; 0xd7; 0xfb;
   0x7c; 0xe3; 0x39; 0x82; 0x9b; 0x2f; 0xff; 0x87; 0x34; 0x8e; 0x43; 0x44; 0xc4; 0xde; 0xe9; 0xcb;
   0x54; 0x7b; 0x94; 0x32; 0xa6; 0xc2; 0x23; 0x3d; 0xee; 0x4c; 0x95; 0x0b; 0x42; 0xfa; 0xc3; 0x4e;
   0x08; 0x2e; 0xa1; 0x66; 0x28; 0xd9; 0x24; 0xb2; 0x76; 0x5b; 0xa2; 0x49; 0x6d; 0x8b; 0xd1; 0x25;
   0x72; 0xf8; 0xf6; 0x64; 0x86; 0x68; 0x98; 0x16; 0xd4; 0xa4; 0x5c; 0xcc; 0x5d; 0x65; 0xb6; 0x92;
   0x6c; 0x70; 0x48; 0x50; 0xfd; 0xed; 0xb9; 0xda; 0x5e; 0x15; 0x46; 0x57; 0xa7; 0x8d; 0x9d; 0x84;
   0x90; 0xd8; 0xab; 0x00; 0x8c; 0xbc; 0xd3; 0x0a; 0xf7; 0xe4; 0x58; 0x05; 0xb8; 0xb3; 0x45; 0x06;
   0xd0; 0x2c; 0x1e; 0x8f; 0xca; 0x3f; 0x0f; 0x02; 0xc1; 0xaf; 0xbd; 0x03; 0x01; 0x13; 0x8a; 0x6b;
   0x3a; 0x91; 0x11; 0x41; 0x4f; 0x67; 0xdc; 0xea; 0x97; 0xf2; 0xcf; 0xce; 0xf0; 0xb4; 0xe6; 0x73;
   0x96; 0xac; 0x74; 0x22; 0xe7; 0xad; 0x35; 0x85; 0xe2; 0xf9; 0x37; 0xe8; 0x1c; 0x75; 0xdf; 0x6e;
   0x47; 0xf1; 0x1a; 0x71; 0x1d; 0x29; 0xc5; 0x89; 0x6f; 0xb7; 0x62; 0x0e; 0xaa; 0x18; 0xbe; 0x1b;
   0xfc; 0x56; 0x3e; 0x4b; 0xc6; 0xd2; 0x79; 0x20; 0x9a; 0xdb; 0xc0; 0xfe; 0x78; 0xcd; 0x5a; 0xf4;
   0x1f; 0xdd; 0xa8; 0x33; 0x88; 0x07; 0xc7; 0x31; 0xb1; 0x12; 0x10; 0x59; 0x27; 0x80; 0xec; 0x5f;
   0x60; 0x51; 0x7f; 0xa9; 0x19; 0xb5; 0x4a; 0x0d; 0x2d; 0xe5; 0x7a; 0x9f; 0x93; 0xc9; 0x9c; 0xef;
   0xa0; 0xe0; 0x3b; 0x4d; 0xae; 0x2a; 0xf5; 0xb0; 0xc8; 0xeb; 0xbb; 0x3c; 0x83; 0x53; 0x99; 0x61;
   0x17; 0x2b; 0x04; 0x7e; 0xba; 0x77; 0xd6; 0x26; 0xe1; 0x69; 0x14; 0x63; 0x55; 0x21; 0x0c; 0x7d].
Definition sub (x : N) : N := nth (N.to_nat x) sbox 0.
Definition inv_sub (x : N) : N := nth (N.to_nat x) inv_sbox 0.
(* softaes.h:53-54 *)
Definition Rcon : list N := [0x8d; 0x01; 0x02; 0x04; 0x08; 0x10; 0x20; 0x40; 0x80; 0x1b; 0x36].

(* softaes.h:116-123 SubBytes *)
Definition SubBytes (s : list N) : list N := map sub s.
(* softaes.h:128-153 ShiftRows *)
Definition ShiftRows (s : list N) : list N :=
  match s with
  | [a0; a1; a2; a3; b0; b1; b2; b3; c0; c1; c2; c3; d0; d1; d2; d3] =>
    [a0; b1; c2; d3; b0; c1; d2; a3; c0; d1; a2; b3; d0; a1; b2; c3]
  | _ => s
  end.
(* softaes.h:155-157 *)
Definition xtime (x : N) : N := N.lxor (wshl 8 x 1) (N.land (N.shiftr x 7) 1 * 0x1b).
(* softaes.h:160-179, one value of i *)
Definition mix4 (c : list N) : list N :=
  match c with
  | [s0; s1; s2; s3] =>
    let t := s0 in
    let Tmp := N.lxor (N.lxor (N.lxor s0 s1) s2) s3 in
    [N.lxor s0 (N.lxor (xtime (N.lxor s0 s1)) Tmp); N.lxor s1 (N.lxor (xtime (N.lxor s1 s2)) Tmp);
     N.lxor s2 (N.lxor (xtime (N.lxor s2 s3)) Tmp); N.lxor s3 (N.lxor (xtime (N.lxor s3 t)) Tmp)]
  | _ => c
  end.
Definition cols (f : list N -> list N) (s : list N) : list N :=
  match s with
  | [a0; a1; a2; a3; b0; b1; b2; b3; c0; c1; c2; c3; d0; d1; d2; d3] =>
    f [a0; a1; a2; a3] ++ f [b0; b1; b2; b3] ++ f [c0; c1; c2; c3] ++ f [d0; d1; d2; d3]
  | _ => s
  end.
Definition MixColumns (s : list N) : list N := cols mix4 s.
Fixpoint xors (s k : list N) : list N :=
  match s, k with
  | x :: s, y :: k => N.lxor x y :: xors s k
  | _, _ => s
  end.
(* softaes.h:183-191; RoundKey is 176 bytes *)
Definition AddRoundKey (round : nat) (s rk : list N) : list N := xors s (firstn 16 (skipn (16 * round) rk)).
(* softaes.h:194-215 *)
Definition tiny_round (rk s : list N) (r : nat) : list N := AddRoundKey r (MixColumns (ShiftRows (SubBytes s))) rk.
Definition tiny_encrypt (rk s : list N) : list N :=
  AddRoundKey 10 (ShiftRows (SubBytes (fold_left (tiny_round rk) (seq 1 9) (AddRoundKey 0 s rk)))) rk.

(* softaes.h:56-112 tinyaes_expand_key, the body of the loop for index i; the
   array is built by appending *)
Definition rk_step (rk : list N) (i : nat) : list N :=
  let t := map (fun j => nth (4 * (i - 1) + j) rk 0) [0; 1; 2; 3]%nat in
  let t := if Nat.eqb (i mod 4) 0 then
             let t := tl t ++ [hd 0 t] in
             let t := map sub t in
             N.lxor (hd 0 t) (nth (i / 4) Rcon 0) :: tl t
           else t in
  rk ++ map (fun j => N.lxor (nth (4 * (i - 4) + j) rk 0) (nth j t 0)) [0; 1; 2; 3]%nat.
Definition tiny_expand (key : list N) : list N := fold_left rk_step (seq 4 40) key.

(* ---------------------------------------------- the AES-NI code path.
   Instructions after the Intel manual (Vol. 2A): AESENC is ShiftRows,
   SubBytes, MixColumns, xor key; AESENCLAST the same without MixColumns;
   AESKEYGENASSIST puts RotWord(SubWord(X3)) xor RCON in the top doubleword.
   MixColumns is the matrix product of FIPS 197, with multiplication in
   GF(2^8) modulo x^8+x^4+x^3+x+1. *)
Fixpoint gmul (n : nat) (a b : N) : N :=
  match n with
  | O => 0
  | S n => N.lxor (if N.odd b then a else 0) (gmul n (if 128 <=? a then N.lxor (2 * a) 0x11b else 2 * a) (N.div2 b))
  end.
Definition fips_mul := gmul 8.
Definition fips_mix (c : list N) : list N :=
  match c with
  | [s0; s1; s2; s3] =>
    [N.lxor (N.lxor (fips_mul s0 2) (fips_mul s1 3)) (N.lxor s2 s3);
     N.lxor (N.lxor s0 (fips_mul s1 2)) (N.lxor (fips_mul s2 3) s3);
     N.lxor (N.lxor s0 s1) (N.lxor (fips_mul s2 2) (fips_mul s3 3));
     N.lxor (N.lxor (fips_mul s0 3) s1) (N.lxor s2 (fips_mul s3 2))]
  | _ => c
  end.
(* FIPS 197 S-box: inverse in GF(2^8) (a^254), then the affine map *)
Definition fips_inv (a : N) : N :=
  let sq x := fips_mul x x in
  let a2 := sq a in let a4 := sq a2 in let a8 := sq a4 in let a16 := sq a8 in
  let a32 := sq a16 in let a64 := sq a32 in let a128 := sq a64 in
  fips_mul a128 (fips_mul a64 (fips_mul a32 (fips_mul a16 (fips_mul a8 (fips_mul a4 a2))))).
Definition fips_sub (a : N) : N :=
  let b := fips_inv a in
  N.lxor (N.lxor (N.lxor b (rotl 8 b 1)) (N.lxor (rotl 8 b 2) (rotl 8 b 3))) (N.lxor (rotl 8 b 4) 0x63).
Definition aesenc (s k : list N) : list N := xors (cols fips_mix (map fips_sub (ShiftRows s))) k.
Definition aesenclast (s k : list N) : list N := xors (map fips_sub (ShiftRows s)) k.
Definition rk_at (rk : list N) (r : nat) : list N := firstn 16 (skipn (16 * r) rk).
(* aesctr.h:55-63 and 72-74, one lane *)
Definition ni_encrypt (rk s : list N) : list N :=
  aesenclast (fold_left (fun s r => aesenc s (rk_at rk r)) (seq 1 9) (xors s (rk_at rk 0))) (rk_at rk 10).
(* aesctr.c:21-30 AES_ROUND *)
Definition slli4 (k : list N) : list N := [0; 0; 0; 0] ++ firstn 12 k.
Definition keygenassist3 (k : list N) (rcon : N) : list N :=
  match map fips_sub (skipn 12 k) with
  | [x0; x1; x2; x3] => [N.lxor x1 rcon; x2; x3; x0]
  | l => l
  end.
Definition ni_round (k : list N) (rcon : N) : list N :=
  let k2 := keygenassist3 k rcon in
  let k := xors k (slli4 k) in
  let k := xors k (slli4 k) in
  let k := xors k (slli4 k) in
  xors k (k2 ++ k2 ++ k2 ++ k2).
(* aesctr.c:45-67 *)
Fixpoint ni_rounds (k : list N) (rcons : list N) : list N :=
  match rcons with
  | [] => []
  | r :: rcons => let k := ni_round k r in k ++ ni_rounds k rcons
  end.
Definition ni_expand (key : list N) : list N := key ++ ni_rounds key [0x01; 0x02; 0x04; 0x08; 0x10; 0x20; 0x40; 0x80; 0x1b; 0x36].

(* ------------------------------------------------------------- proofs *)
Definition all_bytes : list N := map N.of_nat (seq 0 256).
Lemma byte_in x : wf 8 x -> In x all_bytes.
Proof.
  intros H. unfold wf in H. change (2 ^ 8) with 256 in H. apply in_map_iff. exists (N.to_nat x). split; [apply N2Nat.id|]. apply in_seq. lia.
Qed.
Lemma all_bytes_ok (p : N -> bool) : forallb p all_bytes = true -> forall x, wf 8 x -> p x = true.
Proof. intros H x Hx. rewrite forallb_forall in H. apply H, byte_in, Hx. Qed.
Lemma sub_wf x : wf 8 x -> wf 8 (sub x).
Proof. intros H. apply N.ltb_lt. exact (all_bytes_ok (fun x => sub x <? 256) ltac:(vm_compute; reflexivity) x H). Qed.
Lemma inv_sub_wf x : wf 8 x -> wf 8 (inv_sub x).
Proof. intros H. apply N.ltb_lt. exact (all_bytes_ok (fun x => inv_sub x <? 256) ltac:(vm_compute; reflexivity) x H). Qed.
Lemma sub_inv x : wf 8 x -> inv_sub (sub x) = x.
Proof. intros H. apply N.eqb_eq. exact (all_bytes_ok (fun x => inv_sub (sub x) =? x) ltac:(vm_compute; reflexivity) x H). Qed.
Lemma inv_sub_sub x : wf 8 x -> sub (inv_sub x) = x.
Proof. intros H. apply N.eqb_eq. exact (all_bytes_ok (fun x => sub (inv_sub x) =? x) ltac:(vm_compute; reflexivity) x H). Qed.
(* the table is the S-box of the standard *)
Lemma sub_fips x : wf 8 x -> fips_sub x = sub x.
Proof. intros H. apply N.eqb_eq. exact (all_bytes_ok (fun x => fips_sub x =? sub x) ltac:(vm_compute; reflexivity) x H). Qed.
Lemma mul2_fips x : wf 8 x -> fips_mul x 2 = xtime x.
Proof. intros H. apply N.eqb_eq. exact (all_bytes_ok (fun x => fips_mul x 2 =? xtime x) ltac:(vm_compute; reflexivity) x H). Qed.
Lemma mul3_fips x : wf 8 x -> fips_mul x 3 = N.lxor (xtime x) x.
Proof. intros H. apply N.eqb_eq. exact (all_bytes_ok (fun x => fips_mul x 3 =? N.lxor (xtime x) x) ltac:(vm_compute; reflexivity) x H). Qed.

Lemma bit7 x : N.land (N.shiftr x 7) 1 = N.b2n (N.testbit x 7).
Proof.
  change 1 with (N.ones 1). rewrite N.land_ones. change (2 ^ 1) with 2. rewrite <- N.bit0_mod. f_equal.
  rewrite N.shiftr_spec by apply N.le_0_l. reflexivity.
Qed.
Lemma xtime_lxor x y : xtime (N.lxor x y) = N.lxor (xtime x) (xtime y).
Proof.
  unfold xtime. rewrite wshl_lxor, !bit7, N.lxor_spec.
  replace (N.b2n (xorb (N.testbit x 7) (N.testbit y 7)) * 27) with (N.lxor (N.b2n (N.testbit x 7) * 27) (N.b2n (N.testbit y 7) * 27))
    by (destruct (N.testbit x 7), (N.testbit y 7); reflexivity).
  generalize (wshl 8 x 1) (wshl 8 y 1) (N.b2n (N.testbit x 7) * 27) (N.b2n (N.testbit y 7) * 27). clear. intros a b c d.
  apply N.bits_inj. intros i. rewrite !N.lxor_spec. ring.
Qed.
Lemma xtime_wf x : wf 8 (xtime x).
Proof. unfold xtime. apply wf_lxor; [apply wf_wshl|]. rewrite bit7. destruct (N.testbit x 7); reflexivity. Qed.
Ltac xring := apply N.bits_inj; intros ?i; rewrite ?N.lxor_spec, ?N.bits_0; ring.

(* inverse of MixColumns: the matrix 14 11 13 9 *)
Definition inv_mix (c : list N) : list N :=
  let m9 x := N.lxor (xtime (xtime (xtime x))) x in
  let m11 x := N.lxor (N.lxor (xtime (xtime (xtime x))) (xtime x)) x in
  let m13 x := N.lxor (N.lxor (xtime (xtime (xtime x))) (xtime (xtime x))) x in
  let m14 x := N.lxor (N.lxor (xtime (xtime (xtime x))) (xtime (xtime x))) (xtime x) in
  match c with
  | [s0; s1; s2; s3] =>
    [N.lxor (N.lxor (m14 s0) (m11 s1)) (N.lxor (m13 s2) (m9 s3));
     N.lxor (N.lxor (m9 s0) (m14 s1)) (N.lxor (m11 s2) (m13 s3));
     N.lxor (N.lxor (m13 s0) (m9 s1)) (N.lxor (m14 s2) (m11 s3));
     N.lxor (N.lxor (m11 s0) (m13 s1)) (N.lxor (m9 s2) (m14 s3))]
  | _ => c
  end.
Lemma list4_eq (a b c d a' b' c' d' : N) : a = a' -> b = b' -> c = c' -> d = d' -> [a; b; c; d] = [a'; b'; c'; d'].
Proof. now intros -> -> -> ->. Qed.
Lemma inv_mix_mix s0 s1 s2 s3 : inv_mix (mix4 [s0; s1; s2; s3]) = [s0; s1; s2; s3].
Proof. cbn [mix4 inv_mix]. apply list4_eq; rewrite ?xtime_lxor; xring. Qed.
Lemma mix_inv_mix s0 s1 s2 s3 : mix4 (inv_mix [s0; s1; s2; s3]) = [s0; s1; s2; s3].
Proof. cbn [mix4 inv_mix]. apply list4_eq; rewrite ?xtime_lxor; xring. Qed.
Lemma mix_fips s0 s1 s2 s3 : Forall (wf 8) [s0; s1; s2; s3] -> fips_mix [s0; s1; s2; s3] = mix4 [s0; s1; s2; s3].
Proof.
  intros H. inversion_clear H as [|? ? A H0]. inversion_clear H0 as [|? ? B H1]. inversion_clear H1 as [|? ? C H2]. inversion_clear H2 as [|? ? D _].
  cbn [fips_mix mix4]. rewrite !mul2_fips, !mul3_fips by assumption. apply list4_eq; rewrite ?xtime_lxor; xring.
Qed.

Ltac b16 s H := destruct H as [H ?]; do 16 (destruct s as [|? s]; [discriminate H|]); destruct s; [|discriminate H].
Ltac inv_Forall := repeat match goal with H : Forall _ (_ :: _) |- _ => inversion_clear H end.
Lemma xors_length s : forall k, length (xors s k) = length s.
Proof. induction s as [|x s IH]; intros [|y k]; cbn; auto. Qed.
Lemma xors_wf w s : forall k, Forall (wf w) s -> Forall (wf w) k -> Forall (wf w) (xors s k).
Proof. induction s as [|x s IH]; intros [|y k] Hs Hk; cbn [xors]; auto. inversion Hs; inversion Hk; subst. constructor; [now apply wf_lxor|auto]. Qed.
Lemma xors_xors s : forall k, xors (xors s k) k = s.
Proof. induction s as [|x s IH]; intros [|y k]; cbn [xors]; [reflexivity..|]. now rewrite lxor_cancel, IH. Qed.
Lemma xors_permutes k : Forall (wf 8) k -> permutes (words 8 16) (fun s => xors s k).
Proof.
  intros Hk. assert (X : forall s, words 8 16 s -> words 8 16 (xors s k)) by (intros s [A B]; split; [now rewrite xors_length|now apply xors_wf]).
  split; [exact X|]. exists (fun s => xors s k). refine (conj X (conj _ _)); intros; apply xors_xors.
Qed.
Lemma map_words (h : N -> N) n s : (forall x, wf 8 x -> wf 8 (h x)) -> words 8 n s -> words 8 n (map h s).
Proof.
  intros Hh [A B]. split; [now rewrite map_length|]. clear A. induction B; cbn [map]; constructor; auto.
Qed.
Lemma map_cancel (f g : N -> N) s : (forall x, wf 8 x -> g (f x) = x) -> Forall (wf 8) s -> map g (map f s) = s.
Proof. intros H. induction 1 as [|x s Hx Hs IH]; cbn [map]; [reflexivity|]. now rewrite H, IH. Qed.
Lemma SubBytes_permutes : permutes (words 8 16) SubBytes.
Proof.
  split; [intros s; apply map_words, sub_wf|]. exists (map inv_sub). refine (conj _ (conj _ _)).
  - intros s. apply map_words, inv_sub_wf.
  - intros s [_ H]. apply map_cancel; [exact sub_inv|exact H].
  - intros s [_ H]. apply map_cancel; [exact inv_sub_sub|exact H].
Qed.
Definition inv_ShiftRows (s : list N) : list N :=
  match s with
  | [a0; a1; a2; a3; b0; b1; b2; b3; c0; c1; c2; c3; d0; d1; d2; d3] =>
    [a0; d1; c2; b3; b0; a1; d2; c3; c0; b1; a2; d3; d0; c1; b2; a3]
  | _ => s
  end.
Lemma ShiftRows_words s : words 8 16 s -> words 8 16 (ShiftRows s).
Proof. intros H. b16 s H. cbn [ShiftRows]. split; [reflexivity|]. inv_Forall. repeat (constructor; [assumption|]). constructor. Qed.
Lemma inv_ShiftRows_words s : words 8 16 s -> words 8 16 (inv_ShiftRows s).
Proof. intros H. b16 s H. cbn [inv_ShiftRows]. split; [reflexivity|]. inv_Forall. repeat (constructor; [assumption|]). constructor. Qed.
Lemma ShiftRows_permutes : permutes (words 8 16) ShiftRows.
Proof.
  split; [exact ShiftRows_words|]. exists inv_ShiftRows. refine (conj inv_ShiftRows_words (conj _ _)); intros s H; b16 s H; reflexivity.
Qed.
Lemma mix4_words s : words 8 4 s -> words 8 4 (mix4 s).
Proof.
  intros [H F]. do 4 (destruct s as [|? s]; [discriminate H|]). destruct s; [|discriminate H]. cbn [mix4]. split; [reflexivity|].
  inv_Forall. repeat (constructor; [auto 10 using wf_lxor, xtime_wf|]). constructor.
Qed.
Lemma inv_mix_words s : words 8 4 s -> words 8 4 (inv_mix s).
Proof.
  intros [H F]. do 4 (destruct s as [|? s]; [discriminate H|]). destruct s; [|discriminate H]. cbn [inv_mix]. split; [reflexivity|].
  inv_Forall. repeat (constructor; [auto 10 using wf_lxor, xtime_wf|]). constructor.
Qed.
Lemma cols_words f s : (forall c, words 8 4 c -> words 8 4 (f c)) -> words 8 16 s -> words 8 16 (cols f s).
Proof.
  intros Hf H. b16 s H. cbn [cols]. inv_Forall.
  match goal with |- words 8 16 (f ?a ++ f ?b ++ f ?c ++ f ?d) =>
    destruct (Hf a) as [La Wa]; [split; [reflexivity|auto]|]; destruct (Hf b) as [Lb Wb]; [split; [reflexivity|auto]|];
    destruct (Hf c) as [Lc Wc]; [split; [reflexivity|auto]|]; destruct (Hf d) as [Ld Wd]; [split; [reflexivity|auto]|] end.
  split; [rewrite !app_length, La, Lb, Lc, Ld; reflexivity|]. rewrite !Forall_app. auto.
Qed.
Lemma cols_cancel f g s : (forall c, words 8 4 c -> words 8 4 (f c)) -> (forall c, words 8 4 c -> g (f c) = c) -> words 8 16 s -> cols g (cols f s) = s.
Proof.
  intros Hf Hg H. b16 s H. cbn [cols]. inv_Forall.
  match goal with |- cols g (f ?a ++ f ?b ++ f ?c ++ f ?d) = _ =>
    assert (A : words 8 4 a) by (split; [reflexivity|auto]); assert (B : words 8 4 b) by (split; [reflexivity|auto]);
    assert (C : words 8 4 c) by (split; [reflexivity|auto]); assert (D : words 8 4 d) by (split; [reflexivity|auto]);
    pose proof (Hf a A) as [La _]; pose proof (Hf b B) as [Lb _]; pose proof (Hf c C) as [Lc _]; pose proof (Hf d D) as [Ld _];
    pose proof (Hg a A) as Ga; pose proof (Hg b B) as Gb; pose proof (Hg c C) as Gc; pose proof (Hg d D) as Gd;
    generalize dependent (f a); generalize dependent (f b); generalize dependent (f c); generalize dependent (f d) end.
  intros l3 L3 G3 l2 L2 G2 l1 L1 G1 l0 L0 G0.
  do 4 (destruct l0 as [|? l0]; [discriminate L0|]). destruct l0; [|discriminate L0].
  do 4 (destruct l1 as [|? l1]; [discriminate L1|]). destruct l1; [|discriminate L1].
  do 4 (destruct l2 as [|? l2]; [discriminate L2|]). destruct l2; [|discriminate L2].
  do 4 (destruct l3 as [|? l3]; [discriminate L3|]). destruct l3; [|discriminate L3].
  cbn [app cols]. rewrite G0, G1, G2, G3. reflexivity.
Qed.
Lemma words4 c : words 8 4 c -> exists a b d e, c = [a; b; d; e].
Proof. intros [H _]. do 4 (destruct c as [|? c]; [discriminate H|]). destruct c; [|discriminate H]. eauto. Qed.
Lemma MixColumns_permutes : permutes (words 8 16) MixColumns.
Proof.
  split; [intros s; apply cols_words, mix4_words|]. exists (cols inv_mix). refine (conj _ (conj _ _)).
  - intros s. apply cols_words, inv_mix_words.
  - intros s. apply cols_cancel; [exact mix4_words|]. intros c Hc. destruct (words4 c Hc) as (a & b & d & e & ->). apply inv_mix_mix.
  - intros s. apply cols_cancel; [exact inv_mix_words|]. intros c Hc. destruct (words4 c Hc) as (a & b & d & e & ->). apply mix_inv_mix.
Qed.
Lemma rk_wf rk r : Forall (wf 8) rk -> Forall (wf 8) (firstn 16 (skipn (16 * r) rk)).
Proof.
  intros H. rewrite <- (firstn_skipn (16 * r) rk) in H. apply Forall_app in H. destruct H as [_ H].
  rewrite <- (firstn_skipn 16 (skipn (16 * r) rk)) in H. apply Forall_app in H. apply H.
Qed.
Lemma AddRoundKey_permutes r rk : Forall (wf 8) rk -> permutes (words 8 16) (fun s => AddRoundKey r s rk).
Proof. intros H. exact (xors_permutes _ (rk_wf rk r H)). Qed.
Theorem tiny_encrypt_permutes rk : Forall (wf 8) rk -> permutes (words 8 16) (tiny_encrypt rk).
Proof.
  intros H. unfold tiny_encrypt.
  apply (permutes_comp _ (fun s => ShiftRows (SubBytes (fold_left (tiny_round rk) (seq 1 9) (AddRoundKey 0 s rk)))) (fun s => AddRoundKey 10 s rk)); [|now apply AddRoundKey_permutes].
  apply (permutes_comp _ (fun s => SubBytes (fold_left (tiny_round rk) (seq 1 9) (AddRoundKey 0 s rk))) ShiftRows); [|apply ShiftRows_permutes].
  apply (permutes_comp _ (fun s => fold_left (tiny_round rk) (seq 1 9) (AddRoundKey 0 s rk)) SubBytes); [|apply SubBytes_permutes].
  apply (permutes_comp _ (fun s => AddRoundKey 0 s rk) (fold_left (tiny_round rk) (seq 1 9))); [now apply AddRoundKey_permutes|].
  apply fold_permutes. intros q. unfold tiny_round.
  apply (permutes_comp _ (fun s => MixColumns (ShiftRows (SubBytes s))) (fun s => AddRoundKey q s rk)); [|now apply AddRoundKey_permutes].
  apply (permutes_comp _ (fun s => ShiftRows (SubBytes s)) MixColumns); [|apply MixColumns_permutes].
  apply (permutes_comp _ SubBytes ShiftRows); [apply SubBytes_permutes|apply ShiftRows_permutes].
Qed.
(* software and AES-NI encryption agree *)
Lemma sub_shift s : words 8 16 s -> map fips_sub (ShiftRows s) = ShiftRows (SubBytes s).
Proof.
  intros H. pose proof H as W. b16 s W. inv_Forall. cbn [ShiftRows SubBytes map]. rewrite !sub_fips by assumption. reflexivity.
Qed.
Lemma cols_ext f g s : (forall c, words 8 4 c -> f c = g c) -> words 8 16 s -> cols f s = cols g s.
Proof. intros E H. b16 s H. inv_Forall. cbn [cols]. rewrite !E by (split; [reflexivity|auto]). reflexivity. Qed.
Lemma aesenc_tiny rk r s : words 8 16 s -> aesenc s (rk_at rk r) = tiny_round rk s r.
Proof.
  intros H. unfold aesenc, tiny_round, AddRoundKey, rk_at. f_equal. rewrite sub_shift by exact H. unfold MixColumns. apply cols_ext.
  - intros c Hc. pose proof Hc as [_ F]. destruct (words4 c Hc) as (a & b & d & e & ->). now apply mix_fips.
  - apply ShiftRows_words, map_words; [exact sub_wf|exact H].
Qed.
Lemma tiny_round_words rk s r : Forall (wf 8) rk -> words 8 16 s -> words 8 16 (tiny_round rk s r).
Proof.
  intros Hr Hs. unfold tiny_round. apply AddRoundKey_permutes; [exact Hr|]. apply MixColumns_permutes, ShiftRows_permutes, SubBytes_permutes, Hs.
Qed.
Theorem ni_encrypt_tiny rk s : Forall (wf 8) rk -> words 8 16 s -> ni_encrypt rk s = tiny_encrypt rk s.
Proof.
  intros Hr Hs. unfold ni_encrypt, tiny_encrypt.
  assert (F : forall l s, words 8 16 s -> fold_left (fun s r => aesenc s (rk_at rk r)) l s = fold_left (tiny_round rk) l s /\ words 8 16 (fold_left (tiny_round rk) l s)).
  { induction l as [|r l IH]; intros t Ht; cbn [fold_left]; [auto|]. rewrite aesenc_tiny by exact Ht. apply IH, tiny_round_words; assumption. }
  assert (W0 : words 8 16 (xors s (rk_at rk 0))) by (apply (AddRoundKey_permutes 0 rk Hr), Hs).
  destruct (F (seq 1 9) _ W0) as [E W]. unfold aesenclast. rewrite E, sub_shift by exact W.
  unfold AddRoundKey, rk_at. exact (eq_refl _).
Qed.
(* ... and so does the key expansion *)
Definition rk_loc (l : list N) (rcon : N) (q : nat) : list N :=
  let t := map (fun j => nth (12 + 4 * q + j) l 0) [0; 1; 2; 3]%nat in
  let t := if Nat.eqb q 0 then
             let t := tl t ++ [hd 0 t] in
             let t := map sub t in
             N.lxor (hd 0 t) rcon :: tl t
           else t in
  l ++ map (fun j => N.lxor (nth (4 * q + j) l 0) (nth j t 0)) [0; 1; 2; 3]%nat.
Lemma rk_step_app p l r q : (1 <= r)%nat -> (q < 4)%nat -> length p = (16 * (r - 1))%nat -> rk_step (p ++ l) (4 * r + q) = p ++ rk_loc l (nth r Rcon 0) q.
Proof.
  intros Hr Hq Hp. unfold rk_step, rk_loc.
  assert (M : Nat.eqb ((4 * r + q) mod 4) 0 = Nat.eqb q 0).
  { rewrite Nat.add_comm, Nat.mul_comm, Nat.mod_add, Nat.mod_small by lia. reflexivity. }
  assert (D : ((4 * r + q) / 4 = r)%nat) by (rewrite Nat.add_comm, Nat.mul_comm, Nat.div_add, Nat.div_small by lia; reflexivity).
  rewrite M, D. rewrite <- app_assoc. f_equal. f_equal.
  assert (R1 : forall j, nth (4 * (4 * r + q - 1) + j) (p ++ l) 0 = nth (12 + 4 * q + j) l 0).
  { intros j. rewrite app_nth2 by lia. f_equal. lia. }
  assert (R2 : forall j, nth (4 * (4 * r + q - 4) + j) (p ++ l) 0 = nth (4 * q + j) l 0).
  { intros j. rewrite app_nth2 by lia. f_equal. lia. }
  cbn [map]. rewrite !R1, !R2. reflexivity.
Qed.
Lemma rk_quad k c : words 8 16 k -> rk_loc (rk_loc (rk_loc (rk_loc k c 0) c 1) c 2) c 3 = k ++ ni_round k c.
Proof.
  intros H. pose proof H as W. b16 k W. inv_Forall.
  unfold ni_round, keygenassist3. cbn [skipn map]. rewrite !sub_fips by assumption.
  cbv beta iota zeta delta [rk_loc Nat.eqb map tl hd app nth Nat.mul Nat.add slli4 firstn xors].
  repeat (apply (f_equal2 (@cons N)); [xring|]). reflexivity.
Qed.
Lemma ni_round_words k c : words 8 16 k -> wf 8 c -> words 8 16 (ni_round k c).
Proof.
  intros H Hc. pose proof H as W. b16 k W. inv_Forall. unfold ni_round, keygenassist3. cbn [skipn map slli4 firstn app xors].
  rewrite !sub_fips by assumption. split; [reflexivity|].
  repeat (constructor; [auto 12 using wf_lxor, sub_wf, wf_0|]). constructor.
Qed.
Definition quad (r : nat) : list nat := [4 * r + 0; 4 * r + 1; 4 * r + 2; 4 * r + 3]%nat.
Lemma Rcon_wf r : wf 8 (nth r Rcon 0).
Proof. assert (F : Forall (wf 8) Rcon) by (repeat constructor). destruct (nth_in_or_default r Rcon 0) as [I| ->]; [|reflexivity]. rewrite Forall_forall in F. now apply F. Qed.
Lemma expand_rounds n : forall a p k, (1 <= a)%nat -> length p = (16 * (a - 1))%nat -> words 8 16 k ->
  fold_left rk_step (flat_map quad (seq a n)) (p ++ k) = p ++ k ++ ni_rounds k (map (fun r => nth r Rcon 0) (seq a n)).
Proof.
  induction n as [|n IH]; intros a p k Ha Hp Hk; [cbn; now rewrite app_nil_r|].
  cbn [seq flat_map map ni_rounds]. rewrite fold_left_app. unfold quad at 2. cbn [fold_left].
  rewrite !rk_step_app by lia. rewrite rk_quad by exact Hk.
  assert (Hr : words 8 16 (ni_round k (nth a Rcon 0))) by (apply ni_round_words; [exact Hk|apply Rcon_wf]).
  rewrite app_assoc, IH; [now rewrite <- !app_assoc|lia| |exact Hr].
  rewrite app_length, Hp, (proj1 Hk). lia.
Qed.
Theorem ni_expand_tiny key : words 8 16 key -> ni_expand key = tiny_expand key.
Proof.
  intros H. unfold ni_expand, tiny_expand.
  exact (eq_sym (expand_rounds 10 1 [] key (le_n 1) eq_refl H)).
Qed.
Lemma tiny_expand_words key : words 8 16 key -> words 8 176 (tiny_expand key).
Proof.
  intros H. rewrite <- ni_expand_tiny by exact H. unfold ni_expand.
  assert (R : forall cs k, words 8 16 k -> Forall (wf 8) cs -> words 8 (16 * length cs) (ni_rounds k cs)).
  { induction cs as [|c cs IH]; intros k Hk Hc; [split; [reflexivity|constructor]|]. inversion Hc as [|? ? Hc0 Hcs]; subst. cbn [ni_rounds].
    pose proof (ni_round_words k c Hk Hc0) as Hr. destruct (IH _ Hr Hcs) as [L F]. destruct Hr as [L0 F0].
    split; [rewrite app_length, L, L0; cbn [length]; lia|]. now apply Forall_app. }
  destruct (R [1; 2; 4; 8; 16; 32; 64; 128; 27; 54] key H ltac:(repeat constructor)) as [L F]. destruct H as [L0 F0].
  refine (conj _ _); [rewrite app_length, L0, L; reflexivity|]. apply Forall_app. exact (conj F0 F).
Qed.
(* FIPS 197 appendix C.1 *)
Example aes_fips_vector :
  tiny_encrypt (tiny_expand [0; 1; 2; 3; 4; 5; 6; 7; 8; 9; 10; 11; 12; 13; 14; 15])
    [0x00; 0x11; 0x22; 0x33; 0x44; 0x55; 0x66; 0x77; 0x88; 0x99; 0xaa; 0xbb; 0xcc; 0xdd; 0xee; 0xff]
  = [0x69; 0xc4; 0xe0; 0xd8; 0x6a; 0x7b; 0x04; 0x30; 0xd8; 0xcd; 0xb7; 0x80; 0x70; 0xb4; 0xc5; 0x5a].
Proof. vm_compute. reflexivity. Qed.
