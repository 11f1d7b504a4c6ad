(* The checks on the certificate of SFMT19937 (SfmtCert.v): every bit of a word is a
   fixed polynomial in the shift applied to the lowest bit, these polynomials satisfy the
   recurrence modulo sf_chi, and the polynomials of sfmt-poly.h are powers of the shift
   modulo sf_chi. *)
From Coq Require Import Uint63.
From Verif Require Import Word Gf2 Limb MtChar Poly63 PolyK LinCert SfmtCert PolyText SfmtPoly.
From Coq Require Import ZifyBool ZifyNat ZifyN.
Open Scope N_scope.

Definition sf_hrow (j : nat) : row := nth j sf_h [].
(* the recurrence for bit j: x_n, x_(n+156), x_n << 8, x_(n+122) >> 11 in lanes and
   masked, x_(n+154) >> 8, x_(n+155) << 18 in lanes *)
Definition gterms (h : nat -> row) (j : nat) : list row :=
  h j :: mulx 2 30 33 (h j)
  :: (if (8 <=? j)%nat then [h (j - 8)%nat] else [])
  ++ (if (j mod 32 <? 21)%nat && N.testbit 0xbffffff6bffaffffddfecb7fdfffffef (N.of_nat j) then [mulx 1 59 4 (h (j + 11)%nat)] else [])
  ++ (if (j <? 120)%nat then [mulx 2 28 35 (h (j + 8)%nat)] else [])
  ++ (if (18 <=? j mod 32)%nat then [mulx 2 29 34 (h (j - 18)%nat)] else []).
Definition rels_ok (t : tab) (h : nat -> row) (q : list row) : bool := forallb (fun j => rel_ok t (gterms h j) (nth j q [])) (seq 0 128).
Lemma sf_rels_ok : rels_ok (table sf_chi) sf_hrow sf_rel = true. Proof. vm_cast_no_check (eq_refl true). Qed.
(* x^(2^14), then squares *)
Definition sf_start : row := zeros 260 [16%uint63].
Definition sf_q (k : nat) : list row :=
  match k with
  | 0 => firstn 114 sf_quo | 1 => firstn 4 (skipn 114 sf_quo) | 2 => firstn 4 (skipn 118 sf_quo) | 3 => firstn 4 (skipn 122 sf_quo) | _ => skipn 126 sf_quo
  end%nat.
Definition sf_p (k : nat) : row := nth k sf_pow [].
Definition sf_groups : list (list row * row) := [(sf_q 0, sf_p 0); (sf_q 1, sf_p 1); (sf_q 2, sf_p 2); (sf_q 3, sf_p 3); (sf_q 4, sf_p 4)].
Lemma sf_stages_ok : stages_ok 5 4 sf_chi sf_groups sf_start = true. Proof. vm_cast_no_check (eq_refl true). Qed.
Lemma sf_q0_length : N.of_nat (List.length (sf_q 0)) = 114. Proof. vm_cast_no_check (eq_refl 114). Qed.
Lemma sf_q1_length : N.of_nat (List.length (sf_q 1)) = 4. Proof. vm_cast_no_check (eq_refl 4). Qed.
Lemma sf_q2_length : N.of_nat (List.length (sf_q 2)) = 4. Proof. vm_cast_no_check (eq_refl 4). Qed.
Lemma sf_q3_length : N.of_nat (List.length (sf_q 3)) = 4. Proof. vm_cast_no_check (eq_refl 4). Qed.
Lemma sf_q4_length : N.of_nat (List.length (sf_q 4)) = 4. Proof. vm_cast_no_check (eq_refl 4). Qed.
(* chi is monic of degree 19968 *)
Definition sf_low : list bool := firstn (N.to_nat 19968) (rbits sf_chi).
Lemma sf_low_length : N.of_nat (List.length sf_low) = 19968. Proof. vm_cast_no_check (eq_refl 19968). Qed.
Lemma sf_low_ok : bsame (rbits sf_chi) (sf_low ++ [true]) = true. Proof. vm_cast_no_check (eq_refl true). Qed.
Lemma sf_h0 : rzero (lx (sf_hrow 0) [1%uint63]) = true. Proof. vm_cast_no_check (eq_refl true). Qed.
(* the powers are the polynomials of the header *)
Lemma sf_text0_ok : bsame (rbits (sf_p 0)) (text_bits sfmt_poly_128) = true. Proof. vm_cast_no_check (eq_refl true). Qed.
Lemma sf_text1_ok : bsame (rbits (sf_p 1)) (text_bits sfmt_poly_132) = true. Proof. vm_cast_no_check (eq_refl true). Qed.
Lemma sf_text2_ok : bsame (rbits (sf_p 2)) (text_bits sfmt_poly_136) = true. Proof. vm_cast_no_check (eq_refl true). Qed.
Lemma sf_text3_ok : bsame (rbits (sf_p 3)) (text_bits sfmt_poly_140) = true. Proof. vm_cast_no_check (eq_refl true). Qed.
Lemma sf_text4_ok : bsame (rbits (sf_p 4)) (text_bits sfmt_poly_144) = true. Proof. vm_cast_no_check (eq_refl true). Qed.
Lemma sf_text_hex : forallb text_hex [sfmt_poly_128; sfmt_poly_132; sfmt_poly_136; sfmt_poly_140; sfmt_poly_144] = true.
Proof. vm_cast_no_check (eq_refl true). Qed.
