(* Properties of ChaCha.

   cc_draws ps s: the 32-bit values of length ps draws from s, the i-th one
   computed by the code path ps[i] (portable C, SSE2 or SSSE3: use_simd can be
   switched between draws), and the state after them (None: the block is read
   out of bounds). cc_stream rounds key i: word i mod 16 of the ChaCha block
   (constants, key, counter; core plus input) at block counter (i mod 2^128) / 16.
   cc_pos: the 128-bit counter, which counts 32-bit words. cc_inv: the states
   seeding and drawing produce. *)
From Verif Require Import Word MultiWord Blocks ChaCha Py PyLoop Arr.
From Coq Require Import String.
Open Scope N_scope.

Definition cc_zero (rounds : Z) : chacha := CC (repeat 0 16) (repeat 0 8) 0 0 rounds.
Definition ex_cc : chacha := cc_seed Scalar 0x1f1e1d1c1b1a191817161514131211100f0e0d0c0b0a09080706050403020100 (2 ^ 128 - 3) (cc_zero 20).
Lemma ex_cc_inv : cc_inv ex_cc.
Proof. apply cc_seed_inv. reflexivity. Qed.

(* ------------------------------------------------------------------- C47 *)
(* word number k after seeding with counter c is word c + k mod 2^128 *)
Theorem C47_chacha_seeded_stream :
  forall p key c b ps, c < 2 ^ 128 ->
  option_map snd (cc_draws ps (cc_seed p key c b))
  = Some (map (fun k => cc_stream (cc_rounds b) (to_words 32 8 key) (c + N.of_nat k)) (seq 0 (List.length ps))).
Proof.
  intros p key c b ps Hc. destruct (cc_seed_inv p key c b Hc) as (I & P & K & R).
  destruct (cc_draws_spec ps _ I) as (s' & E & _). rewrite E, P, K, R. reflexivity.
Qed.
Theorem C47_chacha_counter_after_draws :
  forall p key c b ps, c < 2 ^ 128 ->
  option_map (fun r => cc_pos (fst r)) (cc_draws ps (cc_seed p key c b)) = Some ((c + N.of_nat (List.length ps)) mod 2 ^ 128).
Proof.
  intros p key c b ps Hc. destruct (cc_seed_inv p key c b Hc) as (I & P & _).
  destruct (cc_draws_spec ps _ I) as (s' & E & _ & _ & _ & P'). rewrite E. cbn [option_map fst]. now rewrite P', P.
Qed.
(* a state saved after any draws and set in any ChaCha resumes the stream there *)
Theorem C47_chacha_restore_resumes :
  forall p key c b ps qs t s, c < 2 ^ 128 -> (0 < cc_rounds b < 2 ^ 31)%Z -> cc_ok t ->
  option_map fst (cc_draws ps (cc_seed p key c b)) = Some s ->
  snd (cc_set (cc_get s) t) = Ok tt
  /\ option_map snd (cc_draws qs (fst (cc_set (cc_get s) t)))
     = Some (map (fun k => cc_stream (cc_rounds b) (to_words 32 8 key) (c + N.of_nat (List.length ps + k))) (seq 0 (List.length qs))).
Proof.
  intros p key c b ps qs t s Hc Hr Ht Hs. destruct (cc_seed_inv p key c b Hc) as (I & P & K & R).
  destruct (cc_draws_spec ps _ I) as (s' & E & I' & K' & R' & P'). rewrite E in Hs. cbn [option_map fst] in Hs. injection Hs as <-.
  rewrite cc_set_get; [|exact (proj1 I')|rewrite R', R; split; [apply (Z.le_trans _ 0); [discriminate|apply Z.lt_le_incl, Hr]|apply Hr]|exact Ht].
  split; [reflexivity|]. cbn [fst]. destruct (cc_draws_spec qs _ I') as (s2 & E2 & _). rewrite E2. cbn [option_map snd]. f_equal. apply map_ext.
  intros i. rewrite K', R', P', K, R, P. unfold cc_stream.
  assert (X : ((c + N.of_nat (List.length ps)) mod 2 ^ 128 + N.of_nat i) mod 2 ^ 128 = (c + N.of_nat (List.length ps + i)) mod 2 ^ 128).
  { rewrite N.add_mod_idemp_l by apply pow2_nz. f_equal. clear. lia. }
  assert (Y : forall x, x mod 16 = (x mod 2 ^ 128) mod 16).
  { intros x. change (2 ^ 128) with (16 * 2 ^ 124). rewrite N.mod_mul_r by discriminate. rewrite (N.mul_comm 16 (_ mod _)), N.mod_add, N.mod_mod by discriminate. reflexivity. }
  rewrite (Y (_ + N.of_nat i)), X, <- Y. reflexivity.
Qed.
Example C47_case : (2 ^ 128 - 3 < 2 ^ 128) /\ cc_ok (cc_zero 20)
  /\ option_map (fun r => cc_pos (fst r)) (cc_draws [Scalar; Sse2; Ssse3; Scalar; Ssse3] ex_cc) = Some 2.
Proof. refine (conj eq_refl (conj _ _)); [refine (conj _ (conj _ _)); repeat constructor|vm_compute; reflexivity]. Qed.
(* RFC 7539 appendix A.1, test vector 1: key 0, counter 0 *)
Example C47_rfc7539 : option_map snd (cc_draws (repeat Scalar 16) (cc_seed Sse2 0 0 (cc_zero 20)))
  = Some [0xade0b876; 0x903df1a0; 0xe56a5d40; 0x28bd8653; 0xb819d2bd; 0x1aed8da0; 0xccef36a8; 0xc70d778b;
          0x7c5941da; 0x8d485751; 0x3fe02477; 0x374ad8b8; 0xf4b8436a; 0x1ca11815; 0x69b687c3; 0x8665eeb2].
Proof. vm_compute. reflexivity. Qed.

(* the C function chacha_advance (exported by chacha.h, not used by the class,
   whose documentation promises advance and jump): from inside a block it is
   right while ctr[0] % 16 + delta[0] < 2^64 *)
Theorem C47_chacha_c_advance_partial :
  forall p d0 d1 s ps, cc_inv s -> wf 64 d0 -> wf 64 d1 -> cc_ctr0 s mod 16 <> 0 -> cc_ctr0 s mod 16 + d0 < 2 ^ 64 ->
  option_map snd (cc_draws ps (cc_advance_c p d0 d1 s))
  = Some (map (fun k => cc_stream (cc_rounds s) (cc_key s) ((cc_pos s + (d0 + 2 ^ 64 * d1)) mod 2 ^ 128 + N.of_nat k)) (seq 0 (List.length ps))).
Proof.
  intros p d0 d1 s ps I W0 W1 NZ Hov. destruct (cc_advance_c_spec p d0 d1 s I W0 W1 NZ Hov) as (I' & P & K & R).
  destruct (cc_draws_spec ps _ I') as (s' & E & _). rewrite E, P, K, R. reflexivity.
Qed.
Example C47_c_advance_case : cc_ctr0 ex_cc mod 16 <> 0 /\ cc_ctr0 ex_cc mod 16 + 40 < 2 ^ 64.
Proof. split; [discriminate|reflexivity]. Qed.
(* at a block boundary it moves into a block that was never generated: after 16
   draws, advance by 3 repeats word 3 instead of giving word 19 *)
Theorem C47_chacha_c_advance_boundary_refuted :
  exists s d, cc_inv s /\ cc_pos s = 16 /\ d = 3
  /\ option_map snd (cc_next32 Scalar (cc_advance_c Scalar d 0 s)) = Some (cc_stream (cc_rounds s) (cc_key s) 3)
  /\ cc_stream (cc_rounds s) (cc_key s) 3 <> cc_stream (cc_rounds s) (cc_key s) 19.
Proof.
  destruct (cc_draws_spec (repeat Scalar 16) (cc_seed Scalar 0 0 (cc_zero 8)) (proj1 (cc_seed_inv Scalar 0 0 (cc_zero 8) eq_refl))) as (s & E & I & K & R & P).
  exists s, 3. refine (conj I (conj _ (conj eq_refl _))); [rewrite P; vm_compute; reflexivity|].
  assert (S : Some s = option_map fst (cc_draws (repeat Scalar 16) (cc_seed Scalar 0 0 (cc_zero 8)))) by now rewrite E.
  vm_compute in S. injection S as S. subst s. split; [vm_compute; reflexivity|]. vm_compute. discriminate.
Qed.
(* idx + delta[0] wraps to a small number: from word 5, advance by 2^64 - 2
   gives a word of the old block *)
Theorem C47_chacha_c_advance_wrap_refuted :
  exists s d, cc_inv s /\ cc_pos s = 5 /\ d = 2 ^ 64 - 2
  /\ option_map snd (cc_next32 Scalar (cc_advance_c Scalar d 0 s)) = Some (cc_stream (cc_rounds s) (cc_key s) 3)
  /\ cc_stream (cc_rounds s) (cc_key s) 3 <> cc_stream (cc_rounds s) (cc_key s) (5 + d).
Proof.
  exists (cc_seed Scalar 0 5 (cc_zero 8)), (2 ^ 64 - 2). refine (conj (proj1 (cc_seed_inv Scalar 0 5 (cc_zero 8) eq_refl)) _).
  split; [vm_compute; reflexivity|]. split; [reflexivity|]. split; [vm_compute; reflexivity|]. vm_compute. discriminate.
Qed.

(* ------------------------------------------------------------------- C53 *)
(* the same seed gives the same stream whichever code path seeds, generates, or
   is switched to between draws *)
Theorem C53_chacha_simd_same_stream :
  forall p q key c b ps qs, c < 2 ^ 128 -> List.length ps = List.length qs ->
  option_map snd (cc_draws ps (cc_seed p key c b)) = option_map snd (cc_draws qs (cc_seed q key c b)).
Proof. intros p q key c b ps qs Hc L. now rewrite !C47_chacha_seeded_stream, L. Qed.
(* the SSE2 and SSSE3 cores compute the portable core on any input and rounds *)
Theorem C53_chacha_simd_core :
  forall ss rounds x, words 32 16 x -> core_simd ss rounds x = core_scalar rounds x.
Proof. exact core_simd_eq. Qed.
Example C53_case : words 32 16 (cc_input (to_words 32 8 (2 ^ 200 + 7)) 5 6)
  /\ core_simd true 20 (cc_input (to_words 32 8 (2 ^ 200 + 7)) 5 6) <> cc_input (to_words 32 8 (2 ^ 200 + 7)) 5 6.
Proof. split; [split; [reflexivity|repeat constructor]|vm_compute; discriminate]. Qed.

(* ------------------------------------------------------------------- C18 *)
Theorem C18_chacha_restore :
  forall s t, cc_ok s -> (- 2 ^ 31 <= cc_rounds s < 2 ^ 31)%Z -> cc_ok t -> cc_set (cc_get s) t = (s, Ok tt).
Proof. exact cc_set_get. Qed.
Example C18_chacha_case : cc_ok ex_cc /\ (- 2 ^ 31 <= cc_rounds ex_cc < 2 ^ 31)%Z /\ cc_ok (cc_zero 8).
Proof. refine (conj (proj1 ex_cc_inv) (conj _ _)); [split; [discriminate|reflexivity]|refine (conj _ (conj _ _)); repeat constructor]. Qed.

(* ------------------------------------------------------------------- C19 *)
(* block and keysetup are stored before ctr and rounds are looked at *)
Theorem C19_chacha_not_atomic_refuted : ~ atomic cc_set.
Proof.
  intros A. specialize (A (PDict [("bit_generator", PStr "ChaCha");
    ("state", PDict [("block", PArr 32 (repeat 1 16)); ("keysetup", PArr 32 (repeat 2 8))])]%string) (cc_zero 20)).
  revert A. vm_compute. intros A. specialize (A _ _ eq_refl). discriminate.
Qed.

(* ------------------------------------------------------------------- C20 *)
Theorem C20_chacha_draws_safe :
  forall s ps, cc_inv s -> exists s' vs, cc_draws ps s = Some (s', vs) /\ cc_inv s'.
Proof. intros s ps I. destruct (cc_draws_spec ps s I) as (s' & E & I' & _). eauto. Qed.
(* also from any state the setter accepts: only the array sizes matter *)
Theorem C20_chacha_any_state_safe :
  forall p s, List.length (cc_block s) = 16%nat -> words 32 8 (cc_key s) -> wf 64 (cc_ctr0 s) -> wf 64 (cc_ctr1 s) -> cc_next32 p s <> None.
Proof.
  intros p s Lb Hk H0 H1. unfold cc_next32.
  assert (L : List.length (cc_block (if cc_ctr0 s mod 16 =? 0 then cc_generate p s else s)) = 16%nat).
  { destruct (cc_ctr0 s mod 16 =? 0); [|exact Lb]. rewrite cc_generate_blk by assumption. exact (proj1 (blk_words _ _ _ Hk)). }
  assert (Hi : cc_ctr0 s mod 16 < 16) by now apply N.mod_lt.
  cbn [cc_block]. rewrite (rd_nth _ _ 0) by (rewrite L; clear - Hi; lia). discriminate.
Qed.
Example C20_chacha_case : cc_inv ex_cc.
Proof. exact ex_cc_inv. Qed.

(* ------------------------------------------------------------------- C22 *)
(* a 64-bit draw is made of the next two 32-bit draws, in an order the C
   standard leaves to the compiler *)
Theorem C22_chacha_64_from_32 :
  forall p lr s, cc_inv s ->
  let u := cc_stream (cc_rounds s) (cc_key s) (cc_pos s) in
  let v := cc_stream (cc_rounds s) (cc_key s) ((cc_pos s + 1) mod 2 ^ 128) in
  option_map snd (cc_next64 p lr s) = Some (if lr then N.lor u (wshl 64 v 32) else N.lor v (wshl 64 u 32)).
Proof. intros p lr s I. destruct (cc_next64_spec p lr s I) as (s' & E & _). now rewrite E. Qed.

(* ------------------------------------------------------------------- C54 *)
(* so the 64-bit stream of a fixed seed is not determined by the C source *)
Theorem C54_chacha_order_dependent_refuted :
  exists key, option_map snd (cc_next64 Scalar true (cc_seed Scalar key 0 (cc_zero 20)))
           <> option_map snd (cc_next64 Scalar false (cc_seed Scalar key 0 (cc_zero 20))).
Proof. exists 0. vm_compute. discriminate. Qed.
(* the 32-bit stream is (C47), and both compilers leave the same state *)
Theorem C54_chacha_order_same_state :
  forall p s, option_map fst (cc_next64 p true s) = option_map fst (cc_next64 p false s).
Proof. intros p s. unfold cc_next64. destruct (cc_next32 p s) as [[s1 u]|]; [|reflexivity]. now destruct (cc_next32 p s1) as [[s2 v]|]. Qed.

Print Assumptions C47_chacha_seeded_stream.
Print Assumptions C47_chacha_counter_after_draws.
Print Assumptions C47_chacha_restore_resumes.
Print Assumptions C47_chacha_c_advance_partial.
Print Assumptions C47_chacha_c_advance_boundary_refuted.
Print Assumptions C47_chacha_c_advance_wrap_refuted.
Print Assumptions C53_chacha_simd_same_stream.
Print Assumptions C53_chacha_simd_core.
Print Assumptions C18_chacha_restore.
Print Assumptions C19_chacha_not_atomic_refuted.
Print Assumptions C20_chacha_draws_safe.
Print Assumptions C20_chacha_any_state_safe.
Print Assumptions C22_chacha_64_from_32.
Print Assumptions C54_chacha_order_dependent_refuted.
Print Assumptions C54_chacha_order_same_state.
