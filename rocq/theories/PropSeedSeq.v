(* Properties of SeedSequence.

   le32 reads a list of words as a little-endian number. ss_pool is the pool of
   a constructed SeedSequence (None: ValueError). frun root cs is the list of all
   SeedSequence objects obtained from root by the spawn calls cs, each of which
   names the object and the number of children. *)
From Verif Require Import Word Arr Lcg Buffer32 Xoshiro SeedSeq SeedSeqFacts SeedSpawn.
Open Scope N_scope.

(* ------------------------------------------------------------------ C28 *)
Theorem C28_int_round_trip :
  forall n, exists l, int_to_words (Z.of_N n) = Some l /\ le32 l = n /\ l <> [] /\ Forall (wf 32) l /\
  ((1 < List.length l)%nat -> last l 0 <> 0).
Proof.
  intros n. pose proof (int_to_words_val n) as V. destruct (int_to_words (Z.of_N n)) as [l|] eqn:E; [|discriminate].
  injection V as V. destruct (int_to_words_wf _ _ E) as [W H]. exists l. repeat split; auto.
  apply (int_to_words_canon _ _ E).
Qed.
Theorem C28_int_injective :
  forall a b, int_to_words (Z.of_N a) = int_to_words (Z.of_N b) -> a = b.
Proof. exact int_to_words_inj. Qed.
Theorem C28_negative_rejected : forall z, (z < 0)%Z -> int_to_words z = None.
Proof. exact int_to_words_neg. Qed.
(* a list of integers is not kept apart from one long integer *)
Theorem C28_sequence_injective_refuted :
  exists a b, a <> b /\ coerce a = coerce b /\ coerce a <> None.
Proof. exists (SSeq [SInt 1; SInt 2]), (SInt (1 + 2 * 2 ^ 32)). repeat split; discriminate. Qed.
Example C28_case : int_to_words (2 ^ 64 + 5) = Some [5; 0; 1] /\ int_to_words 0 = Some [0] /\ int_to_words (-1) = None.
Proof. vm_compute. auto. Qed.

(* ------------------------------------------------------------------ C29 *)
(* integers below 2^(32 * pool_size): the default pool keeps 128 bits *)
Theorem C29_int_entropy :
  forall P a b c c' p, a < 2 ^ (32 * N.of_nat P) -> b < 2 ^ (32 * N.of_nat P) ->
  ss_pool (SS (SInt (Z.of_N a)) [] P c) = Some p -> ss_pool (SS (SInt (Z.of_N b)) [] P c') = Some p -> a = b.
Proof.
  intros P a b c c' p Ha Hb. unfold ss_pool. cbn [ss_pool_size ss_entropy ss_key coerce map fold_right].
  destruct (Nat.ltb_spec P 4) as [|HP]; [discriminate|].
  destruct (int_to_words (Z.of_N a)) as [la|] eqn:Ea; [|discriminate].
  destruct (int_to_words (Z.of_N b)) as [lb|] eqn:Eb; [|discriminate].
  intros E1 E2. rewrite <- E2 in E1. injection E1 as E1. unfold assemble in E1. rewrite !app_nil_r in E1.
  pose proof (int_to_words_val a) as Va. pose proof (int_to_words_val b) as Vb. rewrite Ea in Va. rewrite Eb in Vb.
  injection Va as <-. injection Vb as <-.
  apply (mix_entropy_short_inj P); try assumption.
  - apply (int_to_words_length P (le32 la)); [lia|exact Ha|exact Ea].
  - apply (int_to_words_length P (le32 lb)); [lia|exact Hb|exact Eb].
  - apply (int_to_words_wf _ _ Ea).
  - apply (int_to_words_wf _ _ Eb).
Qed.
(* hence the generated words differ, in a request at least as long as the pool *)
Theorem C29_int_entropy_states :
  forall P k a b c c' p q, a < 2 ^ (32 * N.of_nat P) -> b < 2 ^ (32 * N.of_nat P) -> (P <= k)%nat ->
  ss_pool (SS (SInt (Z.of_N a)) [] P c) = Some p -> ss_pool (SS (SInt (Z.of_N b)) [] P c') = Some q ->
  generate32 k p = generate32 k q -> a = b.
Proof.
  intros P k a b c c' p q Ha Hb Hk Ep Eq E.
  apply (C29_int_entropy P a b c c' p Ha Hb Ep). rewrite Eq. f_equal. symmetry.
  assert (O : forall s r, ss_pool s = Some r -> okm (ss_pool_size s) r).
  { intros s r. unfold ss_pool. destruct (_ <? _)%nat; [discriminate|].
    destruct (coerce (ss_entropy s)); [|discriminate]. destruct (coerce (SSeq _)); [|discriminate].
    intros [= <-]. apply mix_entropy_ok. }
  apply (generate32_inj P k p q Hk (O _ _ Ep) (O _ _ Eq) E).
Qed.
(* lists of words: the first pool_size words are kept, whatever follows them *)
Theorem C29_word_entropy :
  forall P e1 e2 tail, List.length e1 = P -> List.length e2 = P -> Forall (wf 32) e1 -> Forall (wf 32) e2 ->
  mix_entropy P (e1 ++ tail) = mix_entropy P (e2 ++ tail) -> e1 = e2.
Proof. exact mix_entropy_inj. Qed.
(* one word past the pool is kept when the others are equal *)
Theorem C29_tail_entropy :
  forall P a x y b, (0 < P)%nat -> (P <= List.length a)%nat -> wf 32 x -> wf 32 y ->
  mix_entropy P (a ++ x :: b) = mix_entropy P (a ++ y :: b) -> x = y.
Proof. exact mix_entropy_tail. Qed.
(* a trailing zero word is lost *)
Theorem C29_trailing_zero_refuted :
  ss_pool (SS (SSeq [SInt 1]) [] 4 0) = ss_pool (SS (SSeq [SInt 1; SInt 0]) [] 4 0).
Proof. vm_compute. reflexivity. Qed.
(* entropy longer than the pool is confused with a spawn key *)
Theorem C29_long_entropy_is_child_refuted :
  ss_pool (SS (SSeq [SInt 1; SInt 2; SInt 3; SInt 4; SInt 5]) [] 4 0) =
  ss_pool (SS (SSeq [SInt 1; SInt 2; SInt 3; SInt 4]) [5%Z] 4 0).
Proof. vm_compute. reflexivity. Qed.
Example C29_case : 12345 < 2 ^ (32 * N.of_nat 4) /\
  ss_pool (SS (SInt 12345) [] 4 0) = Some (mix_entropy 4 [12345]) /\
  ss_pool (SS (SInt 12345) [] 4 0) <> ss_pool (SS (SInt 54321) [] 4 0).
Proof. vm_compute. repeat split; discriminate. Qed.

(* ------------------------------------------------------------------ C30 *)
Theorem C30_prefix32 : forall k m pool, (k <= m)%nat -> firstn k (generate32 m pool) = generate32 k pool.
Proof. exact generate32_prefix. Qed.
Theorem C30_prefix64 : forall k m pool, (k <= m)%nat -> firstn k (generate64 m pool) = generate64 k pool.
Proof. exact generate64_prefix. Qed.
Theorem C30_length : forall k pool, List.length (generate32 k pool) = k /\ List.length (generate64 k pool) = k.
Proof. intros k pool. split; [apply gen32_length|apply generate64_length]. Qed.
Theorem C30_pairing : forall k j pool, (j < k)%nat ->
  nth j (generate64 k pool) 0 = nth (2 * j) (generate32 (2 * k) pool) 0 + 2 ^ 32 * nth (2 * j + 1) (generate32 (2 * k) pool) 0.
Proof. intros k j pool H. apply (pair64_nth _ k); [apply gen32_length|exact H]. Qed.
(* every word, in closed form: pool word i mod pool_size, hashed with the i-th constant *)
Theorem C30_words : forall k j pool, (j < k)%nat ->
  let hc := (INIT_B * MULT_B ^ N.of_nat j) mod 2 ^ 32 in
  let d := (N.lxor (nth (j mod List.length pool) pool 0) hc * ((hc * MULT_B) mod 2 ^ 32)) mod 2 ^ 32 in
  nth j (generate32 k pool) 0 = N.lxor d (N.shiftr d 16).
Proof.
  intros k j pool Hj hc d. unfold generate32. rewrite gen32_nth by exact Hj.
  assert (E : hcB j INIT_B = hc).
  { unfold hc. rewrite <- wmul_pow. symmetry. apply N.mod_small. now apply hcB_wf. }
  rewrite E. reflexivity.
Qed.
Example C30_case : firstn 2 (generate64 3 [1;2;3;4]) = generate64 2 [1;2;3;4] /\ generate64 2 [1;2;3;4] <> [0;0].
Proof. vm_compute. split; [reflexivity|discriminate]. Qed.

(* ------------------------------------------------------------------ C31 *)
Theorem C31_spawn_keys_distinct :
  forall root cs, Forall (fun c => (0 <= snd c)%Z) cs -> NoDup (map ss_key (frun root cs)).
Proof. intros root cs H. apply (fi_nodup root), frun_inv, H. Qed.
Theorem C31_spawn_splits :
  forall a b s s1 k1 s2 k2, (0 <= a)%Z -> (0 <= b)%Z ->
  spawn a s = Some (s1, k1) -> spawn b s1 = Some (s2, k2) -> spawn (a + b) s = Some (s2, k1 ++ k2).
Proof. exact spawn_add. Qed.
(* spawn keys of equal length that differ in one entry give different pools:
   siblings, and the descendants of siblings reached by the same path *)
Theorem C31_sibling_pools_distinct :
  forall e P k x y l c c' p, key_ok k -> (0 <= x < 2 ^ 32)%Z -> (0 <= y < 2 ^ 32)%Z -> key_ok l ->
  ss_pool (SS e (k ++ x :: l) P c) = Some p -> ss_pool (SS e (k ++ y :: l) P c') = Some p -> x = y.
Proof. exact ss_pool_key_inj. Qed.
(* an entry of 2^32 or more, which spawn never makes, is confused with two entries *)
Theorem C31_wide_key_refuted :
  ss_pool (SS (SInt 7) [2 ^ 32]%Z 4 0) = ss_pool (SS (SInt 7) [0; 1]%Z 4 0).
Proof. vm_compute. reflexivity. Qed.
(* spawn accepts a negative number of children and then hands out the same keys
   again *)
Theorem C31_negative_spawn_refuted :
  exists root cs, ~ NoDup (map ss_key (frun root cs)).
Proof.
  exists (SS (SInt 7) [] 4 0), [(0%nat, 2%Z); (0%nat, (-1)%Z); (0%nat, 1%Z)].
  vm_compute. intros H. inversion H as [|? ? _ H1]; subst. inversion H1 as [|? ? _ H2]; subst.
  inversion H2 as [|? ? H3 _]; subst. apply H3. now left.
Qed.
Example C31_case :
  map ss_key (frun (SS (SInt 7) [] 4 0) [(0%nat, 2%Z); (1%nat, 1%Z); (0%nat, 1%Z)]) = [[]; [0]; [1]; [0; 0]; [2]]%Z /\
  ss_pool (SS (SInt 7) [0]%Z 4 0) <> None.
Proof. vm_compute. split; [reflexivity|discriminate]. Qed.

(* ------------------------------------------------------------------ C32 *)
Theorem C32_never_all_zero :
  forall s p k, ss_pool s = Some p -> N.of_nat (ss_pool_size s) < 2 ^ 30 -> (ss_pool_size s < k)%nat ->
  generate32 k p <> repeat 0 k.
Proof.
  intros s p k Hs HP Hk. unfold ss_pool in Hs. destruct (Nat.ltb_spec (ss_pool_size s) 4) as [|H4]; [discriminate|].
  destruct (coerce (ss_entropy s)); [|discriminate]. destruct (coerce (SSeq _)); [|discriminate].
  injection Hs as <-. apply (generate32_not_zero (ss_pool_size s)); [lia|exact HP|apply mix_entropy_ok|exact Hk].
Qed.
Theorem C32_never_all_zero_64 :
  forall s p k, ss_pool s = Some p -> ss_pool_size s = 4%nat -> (3 <= k)%nat -> generate64 k p <> repeat 0 k.
Proof.
  intros s p k Hs HP Hk. unfold ss_pool in Hs. rewrite HP in Hs. cbn [Nat.ltb Nat.leb] in Hs.
  destruct (coerce (ss_entropy s)); [|discriminate]. destruct (coerce (SSeq _)); [|discriminate].
  injection Hs as <-. apply (generate64_not_zero 4); [lia|reflexivity|apply mix_entropy_ok|lia].
Qed.
(* two 64-bit words are not enough: this seed gives Xoroshiro128 (either variant)
   the all-zero state, and every output is then zero *)
Definition bad_seed : Z := 317152452167715789935752102952713236406.
Theorem C32_xoroshiro128_zero_refuted :
  exists p, ss_pool (SS (SInt bad_seed) [] 4 0) = Some p /\ generate64 2 p = [0; 0] /\
  forall pp n, snd (xoroshiro128_next64 (N.iter n (fun s => fst (xoroshiro128_next64 s)) (xoroshiro128_new pp (generate64 2 p)))) = 0.
Proof.
  eexists. split; [vm_compute; reflexivity|]. split; [vm_compute; reflexivity|]. intros pp n.
  assert (E : N.iter n (fun s => fst (xoroshiro128_next64 s)) (xoroshiro128_new pp [0; 0]) = xoroshiro128_new pp [0; 0]).
  { induction n as [|n IH] using N.peano_ind; [reflexivity|]. rewrite N.iter_succ, IH. destruct pp; reflexivity. }
  match goal with |- context [generate64 2 ?p] => replace (generate64 2 p) with [0; 0] by (vm_compute; reflexivity) end.
  rewrite E. destruct pp; reflexivity.
Qed.
(* the same four words, one word short of the bound of C32_never_all_zero *)
Theorem C32_bound_is_sharp :
  exists s p, ss_pool s = Some p /\ ss_pool_size s = 4%nat /\ generate32 4 p = repeat 0 4.
Proof. exists (SS (SInt bad_seed) [] 4 0). eexists. vm_compute. auto. Qed.
Example C32_case : exists p, ss_pool (SS (SInt 1) [] 4 0) = Some p /\ generate32 5 p <> repeat 0 5 /\ generate64 4 p <> repeat 0 4.
Proof. eexists. vm_compute. repeat split; discriminate. Qed.

Print Assumptions C28_int_round_trip.
Print Assumptions C28_int_injective.
Print Assumptions C28_negative_rejected.
Print Assumptions C28_sequence_injective_refuted.
Print Assumptions C29_int_entropy.
Print Assumptions C29_int_entropy_states.
Print Assumptions C29_word_entropy.
Print Assumptions C29_tail_entropy.
Print Assumptions C29_trailing_zero_refuted.
Print Assumptions C29_long_entropy_is_child_refuted.
Print Assumptions C30_prefix32.
Print Assumptions C30_prefix64.
Print Assumptions C30_length.
Print Assumptions C30_pairing.
Print Assumptions C30_words.
Print Assumptions C31_spawn_keys_distinct.
Print Assumptions C31_spawn_splits.
Print Assumptions C31_sibling_pools_distinct.
Print Assumptions C31_wide_key_refuted.
Print Assumptions C31_negative_spawn_refuted.
Print Assumptions C32_never_all_zero.
Print Assumptions C32_never_all_zero_64.
Print Assumptions C32_xoroshiro128_zero_refuted.
Print Assumptions C32_bound_is_sharp.
