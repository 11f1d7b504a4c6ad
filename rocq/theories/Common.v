(* Integer helpers of common.pyx. Python integers are Z. *)
From Verif Require Import Word.
From Coq Require Import ZArith ZifyBool ZifyNat ZifyN.
Open Scope Z_scope.

(* common.pyx:391-397 wrap_int:
     upper = 2**bits
     if not 0 <= val < upper: divisor = val // upper; val = val - upper*divisor
   Python // is floor division, as Z.div. *)
Definition wrap_int (val : Z) (bits : N) : Z :=
  let upper := 2 ^ Z.of_N bits in
  if negb ((0 <=? val) && (val <? upper)) then val - upper * (val / upper) else val.

Lemma wrap_int_mod val bits : wrap_int val bits = val mod 2 ^ Z.of_N bits.
Proof.
  unfold wrap_int. pose proof (Zpow2_pos bits) as Hp.
  set (u := 2 ^ Z.of_N bits) in *. clearbody u.
  destruct (Z.leb_spec 0 val) as [H0|H0]; cbn [andb negb].
  - destruct (Z.ltb_spec val u) as [H1|H1]; cbn [negb].
    + symmetry. apply Z.mod_small. lia.
    + rewrite Z.mod_eq by lia. reflexivity.
  - rewrite Z.mod_eq by lia. reflexivity.
Qed.
Lemma wrap_int_range val bits : 0 <= wrap_int val bits < 2 ^ Z.of_N bits.
Proof. rewrite wrap_int_mod. apply Z.mod_pos_bound, Zpow2_pos. Qed.
