(* The checks on the certificate of dSFMT19937 (DsfmtCert.v): the bits of the words and
   of the lung are fixed polynomials in the shift applied to bit 115 of the words, these
   satisfy the recurrence modulo ds_chi, and the polynomials of dSFMT-poly.h are powers of
   the shift modulo ds_chi. *)
From Coq Require Import Uint63.
From Verif Require Import Word Gf2 Limb MtChar Poly63 PolyK LinCert DsfmtCert PolyText DsfmtPoly.
From Coq Require Import ZifyBool ZifyNat ZifyN.
Open Scope N_scope.

Definition ds_hurow (k : nat) : row := nth k ds_hu [].
(* bits 52 to 61 of a half are the constant, 62 and 63 are zero *)
Definition xrow (hx : nat -> row) (hc : row) (k : nat) : row :=
  let m := (k mod 64)%nat in if (m <? 52)%nat then hx (52 * (k / 64) + m)%nat else if (m <? 62)%nat then hc else [].
Definition ds_hx0 (j : nat) : row := nth j ds_hx [].
(* the recurrence of the lung: u_(n+1), x_n << 19 in halves, u_n reversed in lanes, x_(n+117) *)
Definition uterms (h hu : nat -> row) (k : nat) : list row :=
  mulx 0 1 62 (hu k) :: mulx 1 54 9 (h k) :: hu (32 * (3 - k / 32) + k mod 32)%nat :: (if (19 <=? k mod 64)%nat then [h (k - 19)%nat] else []).
(* of the words: x_(n+191), x_n, u_(n+1) >> 12 in halves, u_(n+1) masked *)
Definition xterms (h hu : nat -> row) (k : nat) : list row :=
  mulx 3 2 61 (h k) :: h k :: (if (k mod 64 <? 52)%nat then [mulx 0 1 62 (hu (k + 12)%nat)] else [])
  ++ (if N.testbit 0xffdfffc90fffd000ffafffffffb3f (N.of_nat k) then [mulx 0 1 62 (hu k)] else []).
Definition drels_ok (t : tab) (h hu : nat -> row) (hc : row) (qu qx : list row) (qc : row) : bool :=
  forallb (fun k => rel_ok t (uterms h hu k) (nth k qu []) && rel_ok t (xterms h hu k) (nth k qx [])) (seq 0 128) && rel_ok t [mulx 0 1 62 hc; hc] qc.
Lemma ds_rels_ok : drels_ok (table ds_chi) (xrow ds_hx0 ds_hc) ds_hurow ds_hc ds_relu ds_relx ds_relc = true. Proof. vm_cast_no_check (eq_refl true). Qed.
(* x^(2^14), then squares *)
Definition ds_start : row := zeros 260 [16%uint63].
Definition ds_q (k : nat) : list row :=
  match k with
  | 0 => firstn 114 ds_quo | 1 => firstn 4 (skipn 114 ds_quo) | 2 => firstn 4 (skipn 118 ds_quo) | 3 => firstn 4 (skipn 122 ds_quo) | _ => skipn 126 ds_quo
  end%nat.
Definition ds_p (k : nat) : row := nth k ds_pow [].
Definition ds_groups : list (list row * row) := [(ds_q 0, ds_p 0); (ds_q 1, ds_p 1); (ds_q 2, ds_p 2); (ds_q 3, ds_p 3); (ds_q 4, ds_p 4)].
Lemma ds_stages_ok : stages_ok 5 4 ds_chi ds_groups ds_start = true. Proof. vm_cast_no_check (eq_refl true). Qed.
Lemma ds_q0_length : N.of_nat (List.length (ds_q 0)) = 114. Proof. vm_cast_no_check (eq_refl 114). Qed.
Lemma ds_q1_length : N.of_nat (List.length (ds_q 1)) = 4. Proof. vm_cast_no_check (eq_refl 4). Qed.
Lemma ds_q2_length : N.of_nat (List.length (ds_q 2)) = 4. Proof. vm_cast_no_check (eq_refl 4). Qed.
Lemma ds_q3_length : N.of_nat (List.length (ds_q 3)) = 4. Proof. vm_cast_no_check (eq_refl 4). Qed.
Lemma ds_q4_length : N.of_nat (List.length (ds_q 4)) = 4. Proof. vm_cast_no_check (eq_refl 4). Qed.
(* chi is monic of degree 19993 *)
Definition ds_low : list bool := firstn (N.to_nat 19993) (rbits ds_chi).
Lemma ds_low_length : N.of_nat (List.length ds_low) = 19993. Proof. vm_cast_no_check (eq_refl 19993). Qed.
Lemma ds_low_ok : bsame (rbits ds_chi) (ds_low ++ [true]) = true. Proof. vm_cast_no_check (eq_refl true). Qed.
Lemma ds_h115 : rzero (lx (xrow ds_hx0 ds_hc 115) [1%uint63]) = true. Proof. vm_cast_no_check (eq_refl true). Qed.
(* the powers are the polynomials of the header, up to multiples of chi *)
Definition plus (t : tab) (l q : row) : row := lx l (mulw t q).
Definition ds_c (k : nat) : row := nth k ds_cof [].
Lemma ds_text0_ok : bsame (rbits (plus (table ds_chi) (ds_p 0) (ds_c 0))) (text_bits dsfmt_poly_128) = true. Proof. vm_cast_no_check (eq_refl true). Qed.
Lemma ds_text1_ok : bsame (rbits (plus (table ds_chi) (ds_p 1) (ds_c 1))) (text_bits dsfmt_poly_132) = true. Proof. vm_cast_no_check (eq_refl true). Qed.
Lemma ds_text2_ok : bsame (rbits (plus (table ds_chi) (ds_p 2) (ds_c 2))) (text_bits dsfmt_poly_136) = true. Proof. vm_cast_no_check (eq_refl true). Qed.
Lemma ds_text3_ok : bsame (rbits (plus (table ds_chi) (ds_p 3) (ds_c 3))) (text_bits dsfmt_poly_140) = true. Proof. vm_cast_no_check (eq_refl true). Qed.
Lemma ds_text4_ok : bsame (rbits (plus (table ds_chi) (ds_p 4) (ds_c 4))) (text_bits dsfmt_poly_144) = true. Proof. vm_cast_no_check (eq_refl true). Qed.
Lemma ds_text_hex : forallb text_hex [dsfmt_poly_128; dsfmt_poly_132; dsfmt_poly_136; dsfmt_poly_140; dsfmt_poly_144] = true.
Proof. vm_cast_no_check (eq_refl true). Qed.
