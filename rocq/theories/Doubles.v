(* Conversion of random integers to floating-point numbers in [0, 1). *)
From Coq Require Import QArith Qpower Lqa ZifyBool ZifyNat ZifyN.
From Verif Require Import Word.
Ltac Zify.zify_post_hook ::= idtac.
Open Scope Z_scope.

(* A binary floating-point format: the numbers m * 2^e with |m| < 2^p and
   emin <= e <= emax. Arithmetic returns the exact result rounded into the format
   by some function that leaves the numbers of the format as they are; nothing
   else is assumed of it, so the theorems hold in every rounding mode and for
   formats with or without extra precision. The exponent ranges used: binary32
   (24, -149, 104), binary64 (53, -1074, 971), x87 extended (64, -16445, 16320),
   IBM double-double (106, -1074, 918), binary128 (113, -16494, 16271). *)
Definition p2 (e : Z) : Q := Qpower (inject_Z 2) e.
Definition rep (p emin emax : Z) (x : Q) : Prop :=
  exists m e, Z.abs m < 2 ^ p /\ emin <= e <= emax /\ (x == inject_Z m * p2 e)%Q.
Section Round.
  Variables (p emin emax : Z) (rnd : Q -> Q).
  Definition fint (a : Z) : Q := rnd (inject_Z a).
  Definition fmul (x y : Q) : Q := rnd (x * y)%Q.
  Definition fadd (x y : Q) : Q := rnd (x + y)%Q.
  Definition fdiv (x y : Q) : Q := rnd (x / y)%Q.

  (* (x >> s) * (1.0 / 2^k): distributions and bit generators:
     (next64 >> 11) * (1.0 / 9007199254740992.0)         s = 11, k = 53
     (next32 >> 9) * (1.0f / 8388608.0f), rg-distributions.h:31-33   s = 9, k = 23
     next64 * (1.0L / 18446744073709551616.0L), rg-distributions.c:31-34  s = 0, k = 64 *)
  Definition scale_mul (s k : Z) (x : Z) : Q := fmul (fint (x / 2 ^ s)) (fdiv 1 (fint (2 ^ k))).
  (* (x >> s) / 2^k, wrapper.pyx:24-27 *)
  Definition scale_div (s k : Z) (x : Z) : Q := fdiv (fint (x / 2 ^ s)) (fint (2 ^ k)).
  (* a = x >> s, b = y >> t; (a * 2^h + b) / 2^k:
     s = 5, t = 6, h = 26, k = 53: mt19937.h:53-56, pcg32.h:73-77, tyche.h:70-73,
     101-105, squares.h:70-73, jsf.h:114-117, philox.h:475-479, threefry.h:848-852,
     wrapper.pyx:30-36
     s = t = 11, h = 53, k = 106: rg-distributions.c:35-39
     s = 7, t = 8, h = 56, k = 113: rg-distributions.c:40-44 *)
  Definition scale2 (s t h k : Z) (x y : Z) : Q :=
    fdiv (fadd (fmul (fint (x / 2 ^ s)) (fint (2 ^ h))) (fint (y / 2 ^ t))) (fint (2 ^ k)).
End Round.

Lemma p2_nz e : ~ (p2 e == 0)%Q.
Proof. unfold p2. apply Qpower_not_0. discriminate. Qed.
Lemma p2_add a b : (p2 (a + b) == p2 a * p2 b)%Q.
Proof. unfold p2. apply Qpower_plus. discriminate. Qed.
Lemma p2_opp a : (p2 (- a) == / p2 a)%Q.
Proof. unfold p2. apply Qpower_opp. Qed.
Lemma p2_int k : 0 <= k -> (p2 k == inject_Z (2 ^ k))%Q.
Proof. intros H. unfold p2. rewrite Zpower_Qpower by exact H. reflexivity. Qed.
Lemma p2_pos e : (0 < p2 e)%Q.
Proof. unfold p2. apply Qpower_0_lt. reflexivity. Qed.
Lemma pow_pos k : 0 <= k -> 0 < 2 ^ k.
Proof. intros. apply Z.pow_pos_nonneg; lia. Qed.

(* the exact value *)
Definition frac (n k : Z) : Q := (inject_Z n * p2 (- k))%Q.
Lemma frac_bounds n k : 0 <= k -> 0 <= n < 2 ^ k -> (0 <= frac n k)%Q /\ (frac n k < 1)%Q.
Proof.
  intros Hk [H0 H1]. unfold frac. pose proof (p2_pos (- k)) as P. split.
  - apply Qmult_le_0_compat; [unfold Qle; cbn; lia|now apply Qlt_le_weak].
  - apply Qlt_le_trans with (inject_Z (2 ^ k) * p2 (- k))%Q.
    + apply Qmult_lt_r; [exact P|]. rewrite <- Zlt_Qlt. exact H1.
    + rewrite <- p2_int, <- p2_add, Z.add_opp_diag_r by exact Hk. apply Qle_refl.
Qed.
Lemma frac_inj n m k : (frac n k == frac m k)%Q <-> n = m.
Proof.
  split; [|intros ->; apply Qeq_refl]. unfold frac. intros H. apply Qmult_inj_r in H; [|apply p2_nz]. unfold Qeq in H; cbn in H; lia.
Qed.

Section Exact.
  Variables (p emin emax : Z) (rnd : Q -> Q).
  Hypothesis Hp : 0 < p.
  Hypothesis Hmin : emin <= 0.
  Hypothesis Hrnd : forall x, rep p emin emax x -> (rnd x == x)%Q.
  Lemma rnd_rep x m e : (x == inject_Z m * p2 e)%Q -> Z.abs m < 2 ^ p -> emin <= e <= emax -> (rnd x == inject_Z m * p2 e)%Q.
  Proof. intros E Hm He. rewrite Hrnd; [exact E|]. now exists m, e. Qed.
  Lemma fint_small a : 0 <= emax -> 0 <= a < 2 ^ p -> (fint rnd a == inject_Z a)%Q.
  Proof.
    intros He Ha. unfold fint. rewrite (rnd_rep _ a 0); [change (p2 0) with 1%Q; ring|change (p2 0) with 1%Q; ring|lia|lia].
  Qed.
  Lemma fint_pow k : 0 <= k <= emax -> (fint rnd (2 ^ k) == p2 k)%Q.
  Proof.
    intros Hk. unfold fint. rewrite (rnd_rep _ 1 k); [ring|rewrite p2_int by lia; ring|cbn; apply Z.pow_gt_1; lia|lia].
  Qed.
  Lemma one_lt : 1 < 2 ^ p. Proof. apply Z.pow_gt_1; lia. Qed.
  Lemma scale_mul_exact s k x : 0 <= k <= emax -> emin <= - k -> 0 <= x / 2 ^ s < 2 ^ p -> (scale_mul rnd s k x == frac (x / 2 ^ s) k)%Q.
  Proof.
    intros Hk He Hx. unfold scale_mul, fmul, fdiv.
    assert (E : (rnd (1 / fint rnd (2 ^ k)) == inject_Z 1 * p2 (- k))%Q).
    { apply rnd_rep; [|cbn; apply one_lt|lia]. rewrite fint_pow, p2_opp by lia. unfold Qdiv. ring. }
    apply rnd_rep; [|lia|lia]. rewrite fint_small by lia. rewrite E. ring.
  Qed.
  Lemma scale_div_exact s k x : 0 <= k <= emax -> emin <= - k -> 0 <= x / 2 ^ s < 2 ^ p -> (scale_div rnd s k x == frac (x / 2 ^ s) k)%Q.
  Proof.
    intros Hk He Hx. unfold scale_div, fdiv.
    apply rnd_rep; [|lia|lia]. rewrite fint_small, fint_pow by lia. rewrite p2_opp. reflexivity.
  Qed.
  Lemma scale2_exact s t h k x y : 0 <= h <= emax -> 0 <= k <= emax -> emin <= - k ->
    0 <= x / 2 ^ s < 2 ^ (p - h) -> h <= p -> 0 <= y / 2 ^ t < 2 ^ h ->
    (scale2 rnd s t h k x y == frac (x / 2 ^ s * 2 ^ h + y / 2 ^ t) k)%Q.
  Proof.
    intros Hh Hk He Hx Hhp Hy. unfold scale2, fdiv, fadd, fmul.
    assert (S : 2 ^ p = 2 ^ (p - h) * 2 ^ h) by (rewrite <- Z.pow_add_r by lia; f_equal; lia).
    pose proof (pow_pos h ltac:(lia)) as P1. pose proof (pow_pos (p - h) ltac:(lia)) as P2.
    set (a := x / 2 ^ s) in *. set (b := y / 2 ^ t) in *. clearbody a b.
    assert (Ha : 0 <= a < 2 ^ p) by nia. assert (Hb : 0 <= b < 2 ^ p) by nia.
    assert (Hm : 0 <= a * 2 ^ h + b < 2 ^ p) by nia.
    assert (E1 : (rnd (fint rnd a * fint rnd (2 ^ h)) == inject_Z a * p2 h)%Q).
    { apply rnd_rep; [|lia|lia]. rewrite fint_small, fint_pow by lia. reflexivity. }
    assert (E2 : (rnd (rnd (fint rnd a * fint rnd (2 ^ h)) + fint rnd b) == inject_Z (a * 2 ^ h + b) * p2 0)%Q).
    { apply rnd_rep; [|lia|lia]. rewrite E1, fint_small by lia. rewrite p2_int by lia. rewrite inject_Z_plus, inject_Z_mult. change (p2 0) with 1%Q. ring. }
    apply rnd_rep; [|lia|lia]. rewrite E2, fint_pow by lia. rewrite p2_opp. change (p2 0) with 1%Q. unfold Qdiv. ring.
  Qed.
End Exact.

(* ------------------------------------------------- random_long_double_fill *)
(* rg-distributions.c:54-58: "for (int i = 0; i < cnt; i++)" with npy_intp cnt.
   The number of elements written, None when the int counter overflows (undefined:
   it wraps in practice, so the comparison never fails and out[i] is written with a
   negative index). Induction on the number of elements left. *)
Definition INT_MAX : Z := 2 ^ 31 - 1.
Fixpoint ld_fill (left : nat) (i : Z) : option Z :=
  match left with
  | O => Some i
  | S n => if i =? INT_MAX then None else ld_fill n (i + 1)
  end.
