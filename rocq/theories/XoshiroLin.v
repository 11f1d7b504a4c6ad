(* The linear engines are linear maps over GF(2): their characteristic
   polynomials annihilate them, so the jump tables can be compared with powers
   of x modulo those polynomials. *)
From Verif Require Import Word Buffer32 Gf2 Lcg Py Xoshiro Limb BitSlice.
From Coq Require Import ZifyBool ZifyNat ZifyN.
Open Scope N_scope.

Lemma rotl_lxor w a b k : wf w a -> wf w b -> k < w ->
  rotl w (N.lxor a b) k = N.lxor (rotl w a k) (rotl w b k).
Proof.
  intros Ha Hb Hk. rewrite !rotl_xor by (auto using wf_lxor).
  rewrite wshl_lxor, shiftr_lxor. rewrite !N.lxor_assoc. f_equal.
  rewrite <- !N.lxor_assoc. f_equal. apply N.lxor_comm.
Qed.
Lemma lxor_swap a b c d : N.lxor (N.lxor a b) (N.lxor c d) = N.lxor (N.lxor a c) (N.lxor b d).
Proof.
  rewrite !N.lxor_assoc. f_equal. rewrite <- !N.lxor_assoc. f_equal. apply N.lxor_comm.
Qed.
Ltac wf_tac :=
  repeat first [ assumption | apply wf_lxor | apply wf_wshl | apply wf_rotl | apply wf_shr
               | apply wf_wadd | apply wf_wmul | apply wf_wsub | apply wf_trunc | apply wf_0 ].
(* equality of exclusive ors up to associativity and commutativity, bit by bit *)
Ltac lxor_eq :=
  apply N.bits_inj; intros ?i; rewrite ?N.lxor_spec;
  repeat match goal with |- context [N.testbit ?a ?i] => destruct (N.testbit a i) end; reflexivity.

(* ------------------------------------------------------------- four words *)
Lemma v4_add_comm a b : v4_add a b = v4_add b a.
Proof. unfold v4_add. f_equal; apply N.lxor_comm. Qed.
Lemma v4_add_assoc a b c : v4_add a (v4_add b c) = v4_add (v4_add a b) c.
Proof. unfold v4_add; cbn. f_equal; symmetry; apply N.lxor_assoc. Qed.
Lemma v4_add_0 a : v4_add a v4_zero = a.
Proof. destruct a. unfold v4_add, v4_zero; cbn. now rewrite !N.lxor_0_r. Qed.
Lemma v4_add_self a : v4_add a a = v4_zero.
Proof. unfold v4_add, v4_zero. now rewrite !N.lxor_nilpotent. Qed.
Lemma v4_wf_0 : v4_wf v4_zero.
Proof. repeat split; reflexivity. Qed.
Lemma v4_wf_add a b : v4_wf a -> v4_wf b -> v4_wf (v4_add a b).
Proof. intros (?&?&?&?) (?&?&?&?). repeat split; cbn; wf_tac. Qed.
Ltac refine_conj := repeat match goal with |- _ /\ _ => refine (conj _ _) end.
(* the state as symbolic bits *)
Definition b4 : Type := list (list PrimInt63.int) * list (list PrimInt63.int) * list (list PrimInt63.int) * list (list PrimInt63.int).
Definition b4_add (a b : b4) : b4 :=
  let '(a0, a1, a2, a3) := a in let '(c0, c1, c2, c3) := b in
  (bxor a0 c0, bxor a1 c1, bxor a2 c2, bxor a3 c3).
Definition R4 (s : N) (b : b4) (v : v4) : Prop :=
  let '(b0, b1, b2, b3) := b in rel s b0 (v4_0 v) /\ rel s b1 (v4_1 v) /\ rel s b2 (v4_2 v) /\ rel s b3 (v4_3 v).
Definition b4_unit : b4 := (bunit 8 0, bunit 8 1, bunit 8 2, bunit 8 3).
Definition b4_zero (b : b4) : bool :=
  let '(b0, b1, b2, b3) := b in bzero b0 && bzero b1 && bzero b2 && bzero b3.
Lemma R4_add s a b x y : R4 s a x -> R4 s b y -> R4 s (b4_add a b) (v4_add x y).
Proof.
  destruct a as [[[a0 a1] a2] a3], b as [[[c0 c1] c2] c3].
  unfold R4, b4_add. intros (?&?&?&?) (?&?&?&?). refine_conj; cbn; apply rel_xor; assumption.
Qed.
(* a polynomial that annihilates the symbolic state annihilates everything *)
Lemma v4_annihilates T bT phi :
  (forall s b v, R4 s b v -> R4 s (bT b) (T v)) ->
  b4_zero (ev b4_add b4_unit bT phi b4_unit) = true ->
  forall v, v4_wf v -> ev v4_add v4_zero T phi v = v4_zero.
Proof.
  destruct phi as [|p]; [reflexivity|]. cbn [ev]. intros HT Hz v (H0 & H1 & H2 & H3).
  set (l := [v4_0 v; v4_1 v; v4_2 v; v4_3 v]).
  assert (Hl : Forall (wf 64) l) by (repeat constructor; assumption).
  assert (R0 : R4 (packw l) b4_unit v).
  { unfold R4, b4_unit.
    pose proof (fun j => rel_unit (packw l) 8 j l eq_refl Hl) as U.
    refine_conj; [apply (U 0%nat); clear; lia|apply (U 1%nat); clear; lia|apply (U 2%nat); clear; lia|apply (U 3%nat); clear; lia]. }
  pose proof (evp_rel (R4 (packw l)) b4_add bT v4_add T p (R4_add _) (HT _) _ _ R0) as R1.
  destruct (evp b4_add bT p b4_unit) as [[[e0 e1] e2] e3].
  unfold R4 in R1. destruct R1 as (E0 & E1 & E2 & E3).
  unfold b4_zero in Hz. repeat (apply andb_prop in Hz as [Hz ?]).
  destruct (evp v4_add T p v) as [x0 x1 x2 x3]. cbn [v4_0 v4_1 v4_2 v4_3] in *. unfold v4_zero.
  f_equal; eapply rel_zero; eassumption.
Qed.

Lemma xoshiro256_step_wf a : v4_wf a -> v4_wf (xoshiro256_step a).
Proof. intros (?&?&?&?). unfold xoshiro256_step. repeat split; cbn; wf_tac. Qed.
Lemma xoshiro256_step_add a b : v4_wf a -> v4_wf b ->
  xoshiro256_step (v4_add a b) = v4_add (xoshiro256_step a) (xoshiro256_step b).
Proof.
  intros (?&?&?&?) (?&?&?&?). unfold xoshiro256_step, v4_add; cbn.
  f_equal; rewrite ?wshl_lxor; try lxor_eq.
  rewrite <- rotl_lxor; try wf_tac; [|reflexivity]. f_equal. lxor_eq.
Qed.
Definition b256_step (s : b4) : b4 :=
  let '(a, b, c, d) := s in
  let t := bshl 17 b in
  let c := bxor c a in
  let d := bxor d b in
  (bxor a d, bxor b c, bxor c t, brotl 45 d).
Ltac rel_tac := repeat first [assumption | apply rel_xor | apply (rel_shl _ 17) | apply (rel_rotl _ 45)
  | apply (rel_shl _ 11) | apply (rel_rotl _ 21) | apply (rel_rotl _ 49) | apply (rel_shl _ 21) | apply (rel_rotl _ 28)
  | apply (rel_rotl _ 24) | apply (rel_shl _ 16) | apply (rel_rotl _ 37) | lia].
Lemma b256_rel s b v : R4 s b v -> R4 s (b256_step b) (xoshiro256_step v).
Proof.
  destruct b as [[[b0 b1] b2] b3], v as [v0 v1 v2 v3]. unfold R4, b256_step, xoshiro256_step. cbn [v4_0 v4_1 v4_2 v4_3].
  intros (?&?&?&?). refine_conj; rel_tac.
Qed.
Lemma xoshiro256_step_linear : linear v4_add v4_zero xoshiro256_step v4_wf.
Proof.
  constructor; auto using v4_add_comm, v4_add_assoc, v4_add_0, v4_add_self, v4_wf_0, v4_wf_add,
    xoshiro256_step_wf, xoshiro256_step_add.
Qed.
Definition phi256 : N := 0x10003c03c3f3ecb1904b4edcf26259f850280002bcefd1a5e9d116f2bb0f0f001.
Lemma phi256_basis : b4_zero (ev b4_add b4_unit b256_step phi256 b4_unit) = true.
Proof. vm_cast_no_check (eq_refl true). Qed.
Lemma phi256_annihilates s : v4_wf s -> ev v4_add v4_zero xoshiro256_step phi256 s = v4_zero.
Proof. exact (v4_annihilates xoshiro256_step b256_step phi256 b256_rel phi256_basis s). Qed.
Lemma phi256_table : sq_check 8 phi256 128 2 (words_val 64 XOSHIRO256_JUMP) = true.
Proof. vm_cast_no_check (eq_refl true). Qed.
Lemma xoshiro256_jump_steps s : v4_wf s -> xoshiro256_jump s = N.iter (2 ^ 128) xoshiro256_step s.
Proof.
  intros H.
  exact (jump_check 8 phi256 _ _ _ _ xoshiro256_step_linear phi256_annihilates 64 XOSHIRO256_JUMP 128 s eq_refl phi256_table H).
Qed.

(* ------------------------------------------------------------- 8 words *)
Lemma v8_add_comm a b : v8_add a b = v8_add b a.
Proof. unfold v8_add. f_equal; apply N.lxor_comm. Qed.
Lemma v8_add_assoc a b c : v8_add a (v8_add b c) = v8_add (v8_add a b) c.
Proof. unfold v8_add; cbn. f_equal; symmetry; apply N.lxor_assoc. Qed.
Lemma v8_add_0 a : v8_add a v8_zero = a.
Proof. destruct a. unfold v8_add, v8_zero; cbn. now rewrite !N.lxor_0_r. Qed.
Lemma v8_add_self a : v8_add a a = v8_zero.
Proof. unfold v8_add, v8_zero. now rewrite !N.lxor_nilpotent. Qed.
Lemma v8_wf_0 : v8_wf v8_zero.
Proof. repeat split; reflexivity. Qed.
Lemma v8_wf_add a b : v8_wf a -> v8_wf b -> v8_wf (v8_add a b).
Proof. intros (?&?&?&?&?&?&?&?) (?&?&?&?&?&?&?&?). repeat split; cbn; wf_tac. Qed.
(* the state as symbolic bits *)
Definition b8 : Type := list (list PrimInt63.int) * list (list PrimInt63.int) * list (list PrimInt63.int) * list (list PrimInt63.int) * list (list PrimInt63.int) * list (list PrimInt63.int) * list (list PrimInt63.int) * list (list PrimInt63.int).
Definition b8_add (a b : b8) : b8 :=
  let '(a0, a1, a2, a3, a4, a5, a6, a7) := a in let '(c0, c1, c2, c3, c4, c5, c6, c7) := b in
  (bxor a0 c0, bxor a1 c1, bxor a2 c2, bxor a3 c3, bxor a4 c4, bxor a5 c5, bxor a6 c6, bxor a7 c7).
Definition R8 (s : N) (b : b8) (v : v8) : Prop :=
  let '(b0, b1, b2, b3, b4, b5, b6, b7) := b in rel s b0 (v8_0 v) /\ rel s b1 (v8_1 v) /\ rel s b2 (v8_2 v) /\ rel s b3 (v8_3 v) /\ rel s b4 (v8_4 v) /\ rel s b5 (v8_5 v) /\ rel s b6 (v8_6 v) /\ rel s b7 (v8_7 v).
Definition b8_unit : b8 := (bunit 16 0, bunit 16 1, bunit 16 2, bunit 16 3, bunit 16 4, bunit 16 5, bunit 16 6, bunit 16 7).
Definition b8_zero (b : b8) : bool :=
  let '(b0, b1, b2, b3, b4, b5, b6, b7) := b in bzero b0 && bzero b1 && bzero b2 && bzero b3 && bzero b4 && bzero b5 && bzero b6 && bzero b7.
Lemma R8_add s a b x y : R8 s a x -> R8 s b y -> R8 s (b8_add a b) (v8_add x y).
Proof.
  destruct a as [[[[[[[a0 a1] a2] a3] a4] a5] a6] a7], b as [[[[[[[c0 c1] c2] c3] c4] c5] c6] c7].
  unfold R8, b8_add. intros (?&?&?&?&?&?&?&?) (?&?&?&?&?&?&?&?). refine_conj; cbn; apply rel_xor; assumption.
Qed.
(* a polynomial that annihilates the symbolic state annihilates everything *)
Lemma v8_annihilates T bT phi :
  (forall s b v, R8 s b v -> R8 s (bT b) (T v)) ->
  b8_zero (ev b8_add b8_unit bT phi b8_unit) = true ->
  forall v, v8_wf v -> ev v8_add v8_zero T phi v = v8_zero.
Proof.
  destruct phi as [|p]; [reflexivity|]. cbn [ev]. intros HT Hz v (H0 & H1 & H2 & H3 & H4 & H5 & H6 & H7).
  set (l := [v8_0 v; v8_1 v; v8_2 v; v8_3 v; v8_4 v; v8_5 v; v8_6 v; v8_7 v]).
  assert (Hl : Forall (wf 64) l) by (repeat constructor; assumption).
  assert (R0 : R8 (packw l) b8_unit v).
  { unfold R8, b8_unit.
    pose proof (fun j => rel_unit (packw l) 16 j l eq_refl Hl) as U.
    refine_conj; [apply (U 0%nat); clear; lia|apply (U 1%nat); clear; lia|apply (U 2%nat); clear; lia|apply (U 3%nat); clear; lia|apply (U 4%nat); clear; lia|apply (U 5%nat); clear; lia|apply (U 6%nat); clear; lia|apply (U 7%nat); clear; lia]. }
  pose proof (evp_rel (R8 (packw l)) b8_add bT v8_add T p (R8_add _) (HT _) _ _ R0) as R1.
  destruct (evp b8_add bT p b8_unit) as [[[[[[[e0 e1] e2] e3] e4] e5] e6] e7].
  unfold R8 in R1. destruct R1 as (E0 & E1 & E2 & E3 & E4 & E5 & E6 & E7).
  unfold b8_zero in Hz. repeat (apply andb_prop in Hz as [Hz ?]).
  destruct (evp v8_add T p v) as [x0 x1 x2 x3 x4 x5 x6 x7]. cbn [v8_0 v8_1 v8_2 v8_3 v8_4 v8_5 v8_6 v8_7] in *. unfold v8_zero.
  f_equal; eapply rel_zero; eassumption.
Qed.

Lemma xoshiro512_step_wf a : v8_wf a -> v8_wf (xoshiro512_step a).
Proof. intros (?&?&?&?&?&?&?&?). unfold xoshiro512_step. repeat split; cbn; wf_tac. Qed.
Lemma xoshiro512_step_add a b : v8_wf a -> v8_wf b ->
  xoshiro512_step (v8_add a b) = v8_add (xoshiro512_step a) (xoshiro512_step b).
Proof.
  intros (?&?&?&?&?&?&?&?) (?&?&?&?&?&?&?&?). unfold xoshiro512_step, v8_add; cbn.
  f_equal; rewrite ?wshl_lxor; try lxor_eq.
  rewrite <- rotl_lxor; try wf_tac; [|reflexivity]. f_equal. lxor_eq.
Qed.
Definition b512_step (s : b8) : b8 :=
  let '(s0, s1, s2, s3, s4, s5, s6, s7) := s in
  let t := bshl 11 s1 in
  let s2 := bxor s2 s0 in
  let s5 := bxor s5 s1 in
  let s7 := bxor s7 s3 in
  (bxor s0 s6, bxor s1 s2, s2, bxor s3 s4, bxor s4 s5, s5, bxor (bxor s6 s7) t, brotl 21 s7).
Lemma b512_rel s b v : R8 s b v -> R8 s (b512_step b) (xoshiro512_step v).
Proof.
  destruct b as [[[[[[[b0 b1] b2] b3] b4] b5] b6] b7], v as [v0 v1 v2 v3 v4 v5 v6 v7].
  unfold R8, b512_step, xoshiro512_step. cbn [v8_0 v8_1 v8_2 v8_3 v8_4 v8_5 v8_6 v8_7].
  intros (?&?&?&?&?&?&?&?). refine_conj; rel_tac.
Qed.
Lemma xoshiro512_step_linear : linear v8_add v8_zero xoshiro512_step v8_wf.
Proof.
  constructor; auto using v8_add_comm, v8_add_assoc, v8_add_0, v8_add_self, v8_wf_0, v8_wf_add,
    xoshiro512_step_wf, xoshiro512_step_add.
Qed.
Definition phi512 : N := 0x10000500055d8b77f8f2d27268ce4b20b51ba7c47edc758adf11eef832e32518f7a67058e7bbab6f0f05e63fca6d7b7817fdc78d886f00c63cf3cff0c00000001.
Lemma phi512_basis : b8_zero (ev b8_add b8_unit b512_step phi512 b8_unit) = true.
Proof. vm_cast_no_check (eq_refl true). Qed.
Lemma phi512_annihilates s : v8_wf s -> ev v8_add v8_zero xoshiro512_step phi512 s = v8_zero.
Proof. exact (v8_annihilates xoshiro512_step b512_step phi512 b512_rel phi512_basis s). Qed.
Lemma phi512_table : sq_check 16 phi512 256 2 (words_val 64 XOSHIRO512_JUMP) = true.
Proof. vm_cast_no_check (eq_refl true). Qed.
Lemma xoshiro512_jump_steps s : v8_wf s -> xoshiro512_jump s = N.iter (2 ^ 256) xoshiro512_step s.
Proof.
  intros H.
  exact (jump_check 16 phi512 _ _ _ _ xoshiro512_step_linear phi512_annihilates 64 XOSHIRO512_JUMP 256 s eq_refl phi512_table H).
Qed.

(* ------------------------------------------------------------- 2 words *)
Lemma v2_add_comm a b : v2_add a b = v2_add b a.
Proof. unfold v2_add. f_equal; apply N.lxor_comm. Qed.
Lemma v2_add_assoc a b c : v2_add a (v2_add b c) = v2_add (v2_add a b) c.
Proof. unfold v2_add; cbn. f_equal; symmetry; apply N.lxor_assoc. Qed.
Lemma v2_add_0 a : v2_add a v2_zero = a.
Proof. destruct a. unfold v2_add, v2_zero; cbn. now rewrite !N.lxor_0_r. Qed.
Lemma v2_add_self a : v2_add a a = v2_zero.
Proof. unfold v2_add, v2_zero. now rewrite !N.lxor_nilpotent. Qed.
Lemma v2_wf_0 : v2_wf v2_zero.
Proof. repeat split; reflexivity. Qed.
Lemma v2_wf_add a b : v2_wf a -> v2_wf b -> v2_wf (v2_add a b).
Proof. intros (?&?) (?&?). repeat split; cbn; wf_tac. Qed.
(* the state as symbolic bits *)
Definition b2 : Type := list (list PrimInt63.int) * list (list PrimInt63.int).
Definition b2_add (a b : b2) : b2 :=
  let '(a0, a1) := a in let '(c0, c1) := b in
  (bxor a0 c0, bxor a1 c1).
Definition R2 (s : N) (b : b2) (v : v2) : Prop :=
  let '(b0, b1) := b in rel s b0 (v2_0 v) /\ rel s b1 (v2_1 v).
Definition b2_unit : b2 := (bunit 4 0, bunit 4 1).
Definition b2_zero (b : b2) : bool :=
  let '(b0, b1) := b in bzero b0 && bzero b1.
Lemma R2_add s a b x y : R2 s a x -> R2 s b y -> R2 s (b2_add a b) (v2_add x y).
Proof.
  destruct a as [a0 a1], b as [c0 c1].
  unfold R2, b2_add. intros (?&?) (?&?). refine_conj; cbn; apply rel_xor; assumption.
Qed.
(* a polynomial that annihilates the symbolic state annihilates everything *)
Lemma v2_annihilates T bT phi :
  (forall s b v, R2 s b v -> R2 s (bT b) (T v)) ->
  b2_zero (ev b2_add b2_unit bT phi b2_unit) = true ->
  forall v, v2_wf v -> ev v2_add v2_zero T phi v = v2_zero.
Proof.
  destruct phi as [|p]; [reflexivity|]. cbn [ev]. intros HT Hz v (H0 & H1).
  set (l := [v2_0 v; v2_1 v]).
  assert (Hl : Forall (wf 64) l) by (repeat constructor; assumption).
  assert (R0 : R2 (packw l) b2_unit v).
  { unfold R2, b2_unit.
    pose proof (fun j => rel_unit (packw l) 4 j l eq_refl Hl) as U.
    refine_conj; [apply (U 0%nat); clear; lia|apply (U 1%nat); clear; lia]. }
  pose proof (evp_rel (R2 (packw l)) b2_add bT v2_add T p (R2_add _) (HT _) _ _ R0) as R1.
  destruct (evp b2_add bT p b2_unit) as [e0 e1].
  unfold R2 in R1. destruct R1 as (E0 & E1).
  unfold b2_zero in Hz. repeat (apply andb_prop in Hz as [Hz ?]).
  destruct (evp v2_add T p v) as [x0 x1]. cbn [v2_0 v2_1] in *. unfold v2_zero.
  f_equal; eapply rel_zero; eassumption.
Qed.

Lemma xoroshiro_step_wf pp a : v2_wf a -> v2_wf (xoroshiro_step pp a).
Proof. intros (?&?). unfold xoroshiro_step. destruct pp; repeat split; cbn; wf_tac. Qed.
Lemma xoroshiro_step_add pp a b : v2_wf a -> v2_wf b ->
  xoroshiro_step pp (v2_add a b) = v2_add (xoroshiro_step pp a) (xoroshiro_step pp b).
Proof.
  intros (?&?) (?&?). unfold xoroshiro_step, v2_add.
  destruct pp; cbn; (f_equal;
   [ rewrite !wshl_lxor, rotl_lxor by (assumption || reflexivity); lxor_eq
   | rewrite <- rotl_lxor; try wf_tac; [|reflexivity]; f_equal; lxor_eq ]).
Qed.
Definition b128_step (pp : bool) (s : b2) : b2 :=
  let '(s0, s1) := s in
  let s1 := bxor s1 s0 in
  if pp then (bxor (bxor (brotl 49 s0) s1) (bshl 21 s1), brotl 28 s1)
  else (bxor (bxor (brotl 24 s0) s1) (bshl 16 s1), brotl 37 s1).
Lemma b128_rel pp s b v : R2 s b v -> R2 s (b128_step pp b) (xoroshiro_step pp v).
Proof.
  destruct b as [b0 b1], v as [v0 v1]. unfold R2, b128_step, xoroshiro_step. cbn [v2_0 v2_1].
  intros (?&?). destruct pp; cbn [v2_0 v2_1]; refine_conj; rel_tac.
Qed.
Lemma xoroshiro_step_false_linear : linear v2_add v2_zero (xoroshiro_step false) v2_wf.
Proof.
  constructor; auto using v2_add_comm, v2_add_assoc, v2_add_0, v2_add_self, v2_wf_0, v2_wf_add,
    xoroshiro_step_wf, xoroshiro_step_add.
Qed.
Definition phi128 : N := 0x10008828e513b43d5095b8f76579aa001.
Lemma phi128_basis : b2_zero (ev b2_add b2_unit (b128_step false) phi128 b2_unit) = true.
Proof. vm_cast_no_check (eq_refl true). Qed.
Lemma phi128_annihilates s : v2_wf s -> ev v2_add v2_zero (xoroshiro_step false) phi128 s = v2_zero.
Proof. exact (v2_annihilates (xoroshiro_step false) (b128_step false) phi128 (b128_rel false) phi128_basis s). Qed.
Lemma phi128_table : sq_check 4 phi128 64 2 (words_val 64 (XOROSHIRO_JUMP false)) = true.
Proof. vm_cast_no_check (eq_refl true). Qed.
Lemma xoroshiro_jump_false_steps s : v2_wf s -> (xoroshiro_jump false) s = N.iter (2 ^ 64) (xoroshiro_step false) s.
Proof.
  intros H.
  exact (jump_check 4 phi128 _ _ _ _ xoroshiro_step_false_linear phi128_annihilates 64 (XOROSHIRO_JUMP false) 64 s eq_refl phi128_table H).
Qed.
Lemma xoroshiro_step_true_linear : linear v2_add v2_zero (xoroshiro_step true) v2_wf.
Proof.
  constructor; auto using v2_add_comm, v2_add_assoc, v2_add_0, v2_add_self, v2_wf_0, v2_wf_add,
    xoroshiro_step_wf, xoroshiro_step_add.
Qed.
Definition phi128pp : N := 0x10031bcf2f855d6e58dae70779760b081.
Lemma phi128pp_basis : b2_zero (ev b2_add b2_unit (b128_step true) phi128pp b2_unit) = true.
Proof. vm_cast_no_check (eq_refl true). Qed.
Lemma phi128pp_annihilates s : v2_wf s -> ev v2_add v2_zero (xoroshiro_step true) phi128pp s = v2_zero.
Proof. exact (v2_annihilates (xoroshiro_step true) (b128_step true) phi128pp (b128_rel true) phi128pp_basis s). Qed.
Lemma phi128pp_table : sq_check 4 phi128pp 64 2 (words_val 64 (XOROSHIRO_JUMP true)) = true.
Proof. vm_cast_no_check (eq_refl true). Qed.
Lemma xoroshiro_jump_true_steps s : v2_wf s -> (xoroshiro_jump true) s = N.iter (2 ^ 64) (xoroshiro_step true) s.
Proof.
  intros H.
  exact (jump_check 4 phi128pp _ _ _ _ xoroshiro_step_true_linear phi128pp_annihilates 64 (XOROSHIRO_JUMP true) 64 s eq_refl phi128pp_table H).
Qed.
