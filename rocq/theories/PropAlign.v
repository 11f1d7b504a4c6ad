(* C75: aligned memory. *)
From Coq Require Import Arith NArith List Lia Bool ZifyBool ZifyNat ZifyN.
From Verif Require Import Word Align.
Ltac Zify.zify_post_hook ::= idtac.
Open Scope N_scope.

(* PyMem_Malloc and PyMem_Realloc: a block of the size asked for, not at 0 and not past the end of the
   address space; realloc keeps the contents up to the smaller of the sizes *)
Definition gives (alloc : N -> N -> option (N * mem)) (size : N) : Prop :=
  forall p1 m', alloc 0 size = Some (p1, m') -> 0 < p1 /\ p1 + size <= 2 ^ 64.
Definition keeps (alloc : N -> N -> option (N * mem)) (m : mem) (base old size : N) : Prop :=
  forall p1 m', alloc base size = Some (p1, m') -> 0 < p1 /\ p1 + size <= 2 ^ 64 /\ forall i, i < old -> i < size -> m' (p1 + i) = m (base + i).

Lemma get_put m a v : v < 2 ^ 64 -> get_ptr (put_ptr m a v) a = v.
Proof.
  intros H. unfold get_ptr, put_ptr.
  assert (K : forall j, j < 8 -> (a <=? a + j) && (a + j <? a + 8) = true) by (intros j J; lia).
  pose proof (K 0 ltac:(lia)) as K0. rewrite N.add_0_r in K0. rewrite K0, !K by lia. rewrite N.sub_diag.
  rewrite !(N.add_comm a), !N.add_sub.
  change (256 ^ 0) with 1. change (256 ^ 1) with 256. change (256 ^ 2) with (256 * 256). change (256 ^ 3) with (256 * 256 * 256). change (256 ^ 4) with (256 * 256 * 256 * 256).
  change (256 ^ 5) with (256 * 256 * 256 * 256 * 256). change (256 ^ 6) with (256 * 256 * 256 * 256 * 256 * 256). change (256 ^ 7) with (256 * 256 * 256 * 256 * 256 * 256 * 256).
  rewrite <- !N.div_div by lia. rewrite N.div_1_r.
  assert (D : forall x, x mod 256 + 256 * (x / 256) = x) by (intros x; pose proof (N.div_mod x 256 ltac:(lia)); lia).
  set (v1 := v / 256). set (v2 := v1 / 256). set (v3 := v2 / 256). set (v4 := v3 / 256). set (v5 := v4 / 256). set (v6 := v5 / 256). set (v7 := v6 / 256).
  assert (B : v7 < 256).
  { unfold v7, v6, v5, v4, v3, v2, v1. rewrite !N.div_div by lia. apply N.div_lt_upper_bound; [lia|]. change (2 ^ 64) with 18446744073709551616 in H. lia. }
  rewrite (N.mod_small v7) by exact B. unfold v7. rewrite D. unfold v6. rewrite D. unfold v5. rewrite D. unfold v4. rewrite D. unfold v3. rewrite D. unfold v2. rewrite D. unfold v1. now rewrite D.
Qed.
Lemma get_ptr_ext m m' a : (forall i, i < 8 -> m (a + i) = m' (a + i)) -> get_ptr m a = get_ptr m' a.
Proof. intros H. unfold get_ptr. pose proof (H 0 ltac:(lia)) as H0. rewrite N.add_0_r in H0. rewrite H0, !H by lia. reflexivity. Qed.
Lemma align_up_spec p1 : p1 + offs < 2 ^ 64 -> align_up p1 = (p1 + offs) / 64 * 64.
Proof.
  intros H. unfold align_up. rewrite N.mod_small by exact H. set (x := p1 + offs) in *. replace (x / 64 * 64) with (N.shiftl (N.shiftr x 6) 6) by (rewrite N.shiftl_mul_pow2, N.shiftr_div_pow2; reflexivity).
  apply N.bits_inj. intros i. rewrite N.land_spec. change (2 ^ 64 - 64) with (N.shiftl (N.ones 58) 6).
  destruct (N.ltb_spec i 6) as [L|L].
  - rewrite !N.shiftl_spec_low by exact L. apply andb_false_r.
  - rewrite !N.shiftl_spec_high' by exact L. rewrite N.shiftr_spec'. replace (i - 6 + 6) with i by lia.
    destruct (N.ltb_spec i 64) as [M|M].
    + rewrite N.ones_spec_low by lia. apply andb_true_r.
    + rewrite N.ones_spec_high by lia. rewrite andb_false_r. symmetry. destruct (N.eq_dec x 0) as [->|Z]; [apply N.bits_0|]. apply N.bits_above_log2. apply N.log2_lt_pow2; [lia|].
      apply N.lt_le_trans with (2 ^ 64); [exact H|]. apply N.pow_le_mono_r; lia.
Qed.
Lemma align_up_bounds p1 n : p1 + (n + offs) <= 2 ^ 64 -> 0 < n -> align_up p1 mod 64 = 0 /\ p1 + 8 <= align_up p1 /\ align_up p1 + n <= p1 + (n + offs).
Proof.
  intros H N0. rewrite align_up_spec by lia. split; [apply N.mod_mul; lia|]. pose proof (N.div_mod (p1 + offs) 64 ltac:(lia)) as D. pose proof (N.mod_lt (p1 + offs) 64 ltac:(lia)) as L. unfold offs in *. lia.
Qed.

(* malloc: the block is aligned, inside the memory obtained, and does not reach the stored pointer *)
Theorem C75_malloc : forall alloc m n p m', 0 < n -> n + offs < 2 ^ 64 -> gives alloc (n + offs) -> malloc_aligned alloc m n = Some (p, m') ->
  exists p1 m1, alloc 0 (n + offs) = Some (p1, m1) /\ p mod 64 = 0 /\ p1 <= p - 8 /\ 8 <= p /\ p + n <= p1 + (n + offs) /\ free_aligned m' p = p1.
Proof.
  intros alloc m n p m' N0 S G. unfold malloc_aligned, realloc_aligned. rewrite N.eqb_refl. unfold block_size. rewrite N.mod_small by exact S.
  destruct (alloc 0 (n + offs)) as [[p1 m1]|] eqn:E; [|discriminate]. intros H. injection H as <- <-. destruct (G p1 m1 E) as [P Q].
  destruct (align_up_bounds p1 n Q N0) as (A & B & C). exists p1, m1. split; [reflexivity|]. split; [exact A|]. split; [lia|]. split; [lia|]. split; [exact C|].
  unfold free_aligned. apply get_put. unfold offs in *. lia.
Qed.
(* whatever the owner writes into its n bytes, free releases the block that was obtained *)
Theorem C75_free : forall alloc m n p m' m'', 0 < n -> n + offs < 2 ^ 64 -> gives alloc (n + offs) -> malloc_aligned alloc m n = Some (p, m') ->
  (forall x, x < p \/ p + n <= x -> m'' x = m' x) -> exists m1, alloc 0 (n + offs) = Some (free_aligned m'' p, m1).
Proof.
  intros alloc m n p m' m'' N0 S G M W. destruct (C75_malloc alloc m n p m' N0 S G M) as (p1 & m1 & E & _ & _ & P8 & _ & F). exists m1. rewrite E. f_equal. f_equal.
  rewrite <- F. unfold free_aligned. apply get_ptr_ext. intros i I. symmetry. apply W. left. lia.
Qed.
(* calloc: the same with all bytes 0 *)
Theorem C75_calloc : forall alloc m n s p m', 0 < n * s -> n * s + offs < 2 ^ 64 -> gives alloc (n * s + offs) -> calloc_aligned alloc m n s = Some (p, m') ->
  (forall i, i < n * s -> m' (p + i) = 0) /\
  exists p1 m1, alloc 0 (n * s + offs) = Some (p1, m1) /\ p mod 64 = 0 /\ p1 <= p - 8 /\ 8 <= p /\ p + n * s <= p1 + (n * s + offs) /\ free_aligned m' p = p1.
Proof.
  intros alloc m n s p m' N0 S G. unfold calloc_aligned. rewrite (N.mod_small (n * s)) by lia. destruct (realloc_aligned alloc m 0 (n * s)) as [[p0 m0]|] eqn:E; [|discriminate].
  intros H. injection H as <- <-. destruct (C75_malloc alloc m (n * s) p0 m0 N0 S G E) as (p1 & m1 & A & B & C & D & F & Q). split.
  - intros i I. unfold memzero. replace ((p0 <=? p0 + i) && (p0 + i <? p0 + n * s)) with true by lia. reflexivity.
  - exists p1, m1. split; [exact A|]. split; [exact B|]. split; [exact C|]. split; [exact D|]. split; [exact F|]. rewrite <- Q. unfold free_aligned. apply get_ptr_ext. intros i I. unfold memzero.
    replace ((p0 <=? p0 - 8 + i) && (p0 - 8 + i <? p0 + n * s)) with false by lia. reflexivity.
Qed.
(* realloc: p as malloc_aligned leaves it, in a block of old + offs bytes; the contents are kept and
   the result can be freed and reallocated again. (If the block stays where it is, p is returned.) *)
Theorem C75_realloc : forall alloc m p old n p' m' base, base = get_ptr m (p - 8) -> p mod 64 = 0 -> 0 < base -> base + 8 <= p -> p + old <= base + (old + offs) -> 
  0 < n -> n + offs < 2 ^ 64 -> keeps alloc m base (old + offs) (n + offs) -> realloc_aligned alloc m p n = Some (p', m') ->
  (forall i, i < old -> i < n -> m' (p' + i) = m (p + i)) /\
  exists p1 m1, alloc base (n + offs) = Some (p1, m1) /\ p' mod 64 = 0 /\ p1 <= p' - 8 /\ 8 <= p' /\ p' + n <= p1 + (n + offs) /\ free_aligned m' p' = p1.
Proof.
  intros alloc m p old n p' m' base Hb A B0 B1 B2 N0 S K. unfold realloc_aligned. destruct (p =? 0) eqn:Z; [lia|]. rewrite <- Hb. unfold block_size. rewrite N.mod_small by exact S.
  destruct (alloc base (n + offs)) as [[p1 m1]|] eqn:E; [|discriminate]. destruct (K p1 m1 E) as (P & Q & R). destruct (p1 =? base) eqn:Y.
  - assert (p1 = base) by lia. subst p1. intros H. injection H as <- <-. split.
    + intros i I J. replace (p + i) with (base + (p - base + i)) by lia. apply R; unfold offs in *; lia.
    + exists base, m1. split; [reflexivity|]. split; [exact A|]. split; [lia|]. split; [lia|]. split; [unfold offs in *; lia|]. unfold free_aligned. rewrite Hb. apply get_ptr_ext. intros i I.
      replace (p - 8 + i) with (base + (p - 8 + i - base)) by lia. apply R; unfold offs in *; lia.
  - intros H. injection H as <- <-. destruct (align_up_bounds p1 n Q N0) as (U & V & W). set (p2 := align_up p1) in *. split.
    + intros i I J. unfold put_ptr, memmove. replace ((p2 - 8 <=? p2 + i) && (p2 + i <? p2 - 8 + 8)) with false by lia. replace ((p2 <=? p2 + i) && (p2 + i <? p2 + n)) with true by lia.
      replace (p1 + (p - base) + (p2 + i - p2)) with (p1 + (p - base + i)) by lia. rewrite R by (unfold offs in *; lia). f_equal. lia.
    + exists p1, m1. split; [reflexivity|]. split; [exact U|]. split; [lia|]. split; [lia|]. split; [exact W|]. unfold free_aligned. apply get_put. unfold offs in *. lia.
Qed.
(* Sizes near the end of size_t are not refused: n + offs wraps, and a pointer to a block with fewer
   than n bytes is returned *)
Theorem C75_size_wraps_refuted : forall n, 2 ^ 64 - offs <= n < 2 ^ 64 -> block_size n < offs /\ block_size n < n /\
  forall alloc m p1 m1, alloc 0 (block_size n) = Some (p1, m1) -> exists p m', malloc_aligned alloc m n = Some (p, m').
Proof.
  intros n H. assert (E : block_size n = n + offs - 2 ^ 64).
  { unfold block_size. replace (n + offs) with (n + offs - 2 ^ 64 + 1 * 2 ^ 64) at 1 by lia. rewrite N.mod_add by lia. apply N.mod_small. unfold offs in *. lia. }
  split; [lia|]. split; [unfold offs in *; lia|]. intros alloc m p1 m1 A. unfold malloc_aligned, realloc_aligned. rewrite N.eqb_refl, A. eexists. eexists. reflexivity.
Qed.
(* calloc with n * s of 2^64 or more: a block for (n * s) mod 2^64 bytes *)
Theorem C75_calloc_wraps_refuted : exists n s, 2 ^ 64 <= n * s /\ forall alloc m, calloc_aligned alloc m n s = calloc_aligned alloc m 1 16.
Proof. exists (2 ^ 60 + 1), 16. split; [vm_compute; discriminate|]. intros alloc m. unfold calloc_aligned. change ((2 ^ 60 + 1) * 16 mod 2 ^ 64) with (1 * 16 mod 2 ^ 64). reflexivity. Qed.
(* an allocator for the example: always the block at 1000 *)
Example C75_case : let alloc (_ _ : N) := Some (1000, fun _ => 7) in
  gives alloc (100 + offs) /\ match malloc_aligned alloc (fun _ => 0) 100 with Some (p, m) => p = 1024 /\ free_aligned m p = 1000 | None => False end.
Proof. split; [intros p1 m' H; injection H as <- <-; vm_compute; split; [reflexivity|discriminate]|vm_compute; split; reflexivity]. Qed.

Print Assumptions C75_malloc.
Print Assumptions C75_free.
Print Assumptions C75_calloc.
Print Assumptions C75_realloc.
Print Assumptions C75_size_wraps_refuted.
Print Assumptions C75_calloc_wraps_refuted.
