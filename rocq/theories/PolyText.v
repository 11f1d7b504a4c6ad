(* Jump polynomials as hexadecimal strings: the reading loop of sfmt-jump.c:105-120 and
   dSFMT-jump.c:159-176 (the same code) *)
From Coq Require Import List Bool NArith String Ascii.
Import ListNotations.
Open Scope N_scope.

(* tolower in the C locale *)
Definition lower (c : N) : N := if (65 <=? c) && (c <=? 90) then c + 32 else c.
(* isxdigit, which the loop asserts *)
Definition is_hex (c : N) : bool := ((48 <=? c) && (c <=? 57)) || ((65 <=? c) && (c <=? 70)) || ((97 <=? c) && (c <=? 102)).
(* bits after "bits & 0x0f", for a hexadecimal digit *)
Definition digit (c : N) : N := let b := lower c in N.land (if (97 <=? b) && (b <=? 102) then b - 97 + 10 else b - 48) 15.
(* the four turns of the inner loop: the lowest bit first *)
Definition digit_bits (c : N) : list bool := let b := digit c in [N.testbit b 0; N.testbit b 1; N.testbit b 2; N.testbit b 3].
(* the bits in the order in which the loops meet them: whether add() is called before
   each next_state() *)
Fixpoint text_bits (s : string) : list bool :=
  match s with EmptyString => [] | String c s => digit_bits (N_of_ascii c) ++ text_bits s end.
Fixpoint text_hex (s : string) : bool := match s with EmptyString => true | String c s => is_hex (N_of_ascii c) && text_hex s end.
(* a string literal written in pieces *)
Definition pieces : list string -> string := String.concat "".
Example text_bits_case : text_bits (pieces ["c5"; "E"]%string) = [false; false; true; true; true; false; true; false; false; true; true; true].
Proof. reflexivity. Qed.
