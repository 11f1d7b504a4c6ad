(* HC128: model of src/hc-128/hc-128.h, src/hc-128/hc-128.c and hc128.pyx *)
From Verif Require Import Word Arr Buffer32 Py MultiWord.
From Coq Require Import String ZifyBool ZifyNat ZifyN.
Open Scope N_scope.

(* hc-128.h:10-16; hc_idx and buffer_idx are C ints *)
Record hc := HC { hc_p : list N; hc_q : list N; hc_buf : list N; hc_idx : Z; hc_bidx : Z }.
(* hc-128.h:26-28: the macros G1, G2 *)
Definition G1 (x y z : N) : N := wadd 32 (N.lxor (rotl 32 x 22) (rotl 32 z 9)) (rotl 32 y 24).
Definition G2 (x y z : N) : N := wadd 32 (N.lxor (rotl 32 x 10) (rotl 32 z 23)) (rotl 32 y 8).
(* an array read; None: out of bounds *)
Definition rdN (l : list N) (i : N) : option N := rd l (Z.of_N i).
(* hc-128.h:30 macro H *)
Definition Hm (qp : list N) (x : N) : option N :=
  match rdN qp (N.land x 0xff), rdN qp (256 + N.land (N.shiftr x 16) 0xff) with
  | Some a, Some b => Some (wadd 32 a b)
  | _, _ => None
  end.
(* hc-128.h:33 *)
Definition m512 (x : N) : N := N.land x 0x1ff.
(* hc-128.h:35-45 round_expression_pq (g = G1) and round_expression_qp (g = G2):
   the table after the update and the word returned. i - 3u etc. are unsigned
   32-bit. None: an index out of bounds. *)
Definition rnd (g : N -> N -> N -> N) (pq qp : list N) (i : N) : option (list N * N) :=
  match rdN pq i, rdN pq (m512 (wsub 32 i 3)), rdN pq (m512 (wsub 32 i 10)), rdN pq (m512 (wadd 32 i 1)) with
  | Some a, Some x, Some y, Some z =>
      let pq := upd pq (N.to_nat i) (wadd 32 a (g x y z)) in
      match rdN pq i, rdN pq (m512 (wsub 32 i 12)) with
      | Some b, Some c => match Hm qp c with Some h => Some (pq, N.lxor b h) | None => None end
      | _, _ => None
      end
  | _, _, _, _ => None
  end.
(* hc-128.h:47-86: k rounds from index i on. The first half passes i + k
   converted to uint16_t, the second half masks it. *)
Fixpoint rounds (g : N -> N -> N -> N) (mask : bool) (k : nat) (pq qp : list N) (i : N) : option (list N * list N) :=
  match k with
  | O => Some (pq, [])
  | S k =>
      match rnd g pq qp (if mask then m512 i else trunc 16 i) with
      | Some (pq, v) => match rounds g mask k pq qp (i + 1) with Some (pq, vs) => Some (pq, v :: vs) | None => None end
      | None => None
      end
  end.
(* hc-128.h:47-86 hc128_extract_unroll; hc_idx is converted to uint16_t *)
Definition hc_extract (s : hc) : option hc :=
  let i := Z.to_N (hc_idx s mod 2 ^ 16) in
  let idx := Z.of_N (N.land (wadd 32 (Z.to_N (hc_idx s mod 2 ^ 32)) 16) 1023) in
  if i <? 512 then
    match rounds G1 false 16 (hc_p s) (hc_q s) i with Some (p, b) => Some (HC p (hc_q s) b idx 0) | None => None end
  else
    match rounds G2 true 16 (hc_q s) (hc_p s) i with Some (q, b) => Some (HC (hc_p s) q b idx 0) | None => None end.
(* hc-128.h:88-96 (C's % is Z.rem) *)
Definition hc_next32 (s : hc) : option (hc * N) :=
  match (if (Z.rem (hc_bidx s) 16 =? 0)%Z then hc_extract s else Some s) with
  | None => None
  | Some s =>
      match rd (hc_buf s) (hc_bidx s) with
      | Some v => Some (HC (hc_p s) (hc_q s) (hc_buf s) (hc_idx s) (hc_bidx s + 1), v)
      | None => None
      end
  end.
(* hc-128.h:98-101: two calls in one expression; lr: the left one, which gives
   the low half, is made first *)
Definition hc_next64 (lr : bool) (s : hc) : option (hc * N) :=
  match hc_next32 s with
  | None => None
  | Some (s1, u) =>
      match hc_next32 s1 with
      | None => None
      | Some (s2, v) => Some (s2, if lr then N.lor u (wshl 64 v 32) else N.lor v (wshl 64 u 32))
      end
  end.

(* hc-128.c:14-15 *)
Definition hf1 (x : N) : N := N.lxor (N.lxor (rotl 32 x 25) (rotl 32 x 14)) (N.shiftr x 3).
Definition hf2 (x : N) : N := N.lxor (N.lxor (rotl 32 x 15) (rotl 32 x 13)) (N.shiftr x 10).
(* hc-128.c:28-31: the array w, newest word first, so that w[i - j] is element
   j - 1; n words more, the next of which has number i *)
Fixpoint expand (n : nat) (w : list N) (i : N) : list N :=
  match n with
  | O => w
  | S n => expand n (wadd 32 (wadd 32 (wadd 32 (wadd 32 (hf2 (nth 1 w 0)) (nth 6 w 0)) (hf1 (nth 14 w 0))) (nth 15 w 0)) i :: w) (i + 1)
  end.
(* hc-128.c:42-46: p[i] = round(p, q, i) for the n indices from i on *)
Fixpoint mixin (g : N -> N -> N -> N) (n : nat) (pq qp : list N) (i : N) : option (list N) :=
  match n with
  | O => Some pq
  | S n =>
      match rnd g pq qp i with
      | Some (pq, v) => mixin g n (upd pq (N.to_nat i) v) qp (i + 1)
      | None => None
      end
  end.
(* hc-128.c:22-26: the sixteen first words, newest first *)
Definition first16 (k : list N) : list N :=
  match k with
  | [a; b; c; d; e; f; g; h] => rev [a; b; c; d; a; b; c; d; e; f; g; h; e; f; g; h]
  | _ => []
  end.
(* hc-128.c:17-49 hc128_init; buffer and buffer_idx are not touched *)
Definition hc_init (k : list N) (s : hc) : option hc :=
  let w := expand 1264 (first16 k) 16 in
  let p := rev (firstn 512 (skipn 512 w)) in
  let q := rev (firstn 512 w) in
  match mixin G1 512 p q 0 with
  | None => None
  | Some p => match mixin G2 512 q p 0 with
              | None => None
              | Some q => Some (HC p q (hc_buf s) 0 (hc_bidx s))
              end
  end.
(* hc128.pyx:161-166, hc-128.c:51-54: seed(key=...); key < 2^256. With a seed,
   the key is made of the four 64-bit words of the seed sequence. *)
Definition hc_seed (key : N) (s : hc) : option hc := hc_init (to_words 32 8 key) s.
(* a new object: zeroed memory, then seeded *)
Definition hc_zero : hc := HC (repeat 0 512) (repeat 0 512) (repeat 0 16) 0 0.

(* hc128.pyx:168-201 *)
Definition hc_get (s : hc) : pyval :=
  PDict [("bit_generator", PStr "randomgen.hc128.HC128");
         ("state", PDict [("p", PArr 32 (hc_p s)); ("q", PArr 32 (hc_q s)); ("hc_idx", PInt (hc_idx s));
                          ("buffer", PArr 32 (hc_buf s)); ("buffer_idx", PInt (hc_bidx s))])]%string.
(* hc128.pyx:203-230. Arrays are taken by value (see C52 for their layout). *)
Definition hc_set (v : pyval) : M hc unit := (
  lift (preamble "HC128" "randomgen.hc128.HC128" v);;
  st <- lift (getitem v "state");;
  p <- lift (obind (getitem st "p") (check_arr 512 32));;
  q <- lift (obind (getitem st "q") (check_arr 512 32));;
  b <- lift (obind (getitem st "buffer") (check_arr 16 32));;
  modify (fun s => HC p q b (hc_idx s) (hc_bidx s));;
  i <- lift (obind (getitem st "hc_idx") to_cint);;
  modify (fun s => HC (hc_p s) (hc_q s) (hc_buf s) i (hc_bidx s));;
  i <- lift (obind (getitem st "buffer_idx") to_cint);;
  modify (fun s => HC (hc_p s) (hc_q s) (hc_buf s) (hc_idx s) i))%py.

(* ------------------------------------------------------- HC-128 as published *)
(* Hongjun Wu, The Stream Cipher HC-128, section 2: >>> is rotation to the
   right, boxminus subtraction modulo 512, tables are updated one word per step *)
Record wu := WU { wu_P : list N; wu_Q : list N; wu_i : N }.
Definition g1 (x y z : N) : N := wadd 32 (N.lxor (rotr 32 x 10) (rotr 32 z 23)) (rotr 32 y 8).
Definition g2 (x y z : N) : N := wadd 32 (N.lxor (rotl 32 x 10) (rotl 32 z 23)) (rotl 32 y 8).
Definition boxminus (a b : N) : N := (a + 512 - b) mod 512.
Definition tbl (t : list N) (i : N) : N := nth (N.to_nat i) t 0.
(* the byte x0 and the byte x2 of x *)
Definition hh (t : list N) (x : N) : N := wadd 32 (tbl t (x mod 256)) (tbl t (256 + x / 2 ^ 16 mod 256)).
Definition wu_round (g : N -> N -> N -> N) (P Q : list N) (j : N) : list N * N :=
  let P' := upd P (N.to_nat j) (wadd 32 (tbl P j) (g (tbl P (boxminus j 3)) (tbl P (boxminus j 10)) (tbl P (boxminus j 511)))) in
  (P', N.lxor (hh Q (tbl P' (boxminus j 12))) (tbl P' j)).
Definition wu_next (s : wu) : wu * N :=
  let j := wu_i s mod 512 in
  let i' := (wu_i s + 1) mod 1024 in
  if wu_i s mod 1024 <? 512 then
    let '(P, v) := wu_round g1 (wu_P s) (wu_Q s) j in (WU P (wu_Q s) i', v)
  else
    let '(Q, v) := wu_round g2 (wu_Q s) (wu_P s) j in (WU (wu_P s) Q i', v).
(* the initialisation and key expansion, as a function of the array W *)
Definition wu_mix (g : N -> N -> N -> N) (P Q : list N) (j : N) : list N :=
  let '(P', v) := wu_round g P Q j in upd P' (N.to_nat j) v.
Definition f1 (x : N) : N := N.lxor (N.lxor (rotr 32 x 7) (rotr 32 x 18)) (N.shiftr x 3).
Definition f2 (x : N) : N := N.lxor (N.lxor (rotr 32 x 17) (rotr 32 x 19)) (N.shiftr x 10).
(* W is the array of the key K (four words) and the initialisation vector V *)
Definition wu_array (K V : N -> N) (W : N -> N) : Prop :=
  (forall i, i < 8 -> W i = K (i mod 4)) /\ (forall i, 8 <= i < 16 -> W i = V (i mod 4))
  /\ forall i, 16 <= i < 1280 ->
       W i = (f2 (W (i - 2)) + W (i - 7) + f1 (W (i - 15)) + W (i - 16) + i) mod 2 ^ 32.
Definition upto512 : list N := map N.of_nat (seq 0 512).
Definition wu_start (W : N -> N) : wu :=
  let P := fold_left (fun P j => wu_mix g1 P (map (fun j => W (768 + j)) upto512) j) upto512 (map (fun j => W (256 + j)) upto512) in
  WU P (fold_left (fun Q j => wu_mix g2 Q P j) upto512 (map (fun j => W (768 + j)) upto512)) 0.
