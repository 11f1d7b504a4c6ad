(* C76: the counter given to a counter-based generator. *)
From Verif Require Import Word MultiWord Common Buffer32 Blocks Py Convert Ctr CtrPy CtrFacts LaneCtr Aes AesPy Speck ChaCha SeedPy PropCtr PropLane PropChaCha.
From Coq Require Import String ZifyBool ZifyNat ZifyN.
Open Scope N_scope.
Ltac Zify.zify_post_hook ::= idtac.

(* kinds that can be constructed, and what a SeedSequence returns *)
Definition kind_ok (k : ckind) : Prop := match k with KCtr _ n w => In (n, w) variants | _ => True end.
Definition seq_ok (words : N -> list N) : Prop := forall n, List.length (words n) = N.to_nat n /\ Forall (fun x => x < 2 ^ 64) (words n).
(* the key a SeedSequence gives: its words, least significant first (for Philox with two 32-bit
   words, the low half of the one word) *)
Definition seq_key (k : ckind) (words : N -> list N) : N := lv 64 (seq_state k words).

Lemma lv_bound l : Forall (fun x => x < 2 ^ 64) l -> lv 64 l < 2 ^ (64 * N.of_nat (List.length l)).
Proof.
  induction 1 as [|x l H F IH]; [reflexivity|]. cbn [lv List.length]. replace (64 * N.of_nat (Datatypes.S (List.length l))) with (64 + 64 * N.of_nat (List.length l)) by lia.
  rewrite N.pow_add_r. revert H IH. generalize (2 ^ (64 * N.of_nat (List.length l))) as P. generalize (lv 64 l) as L. change (2 ^ 64) with 18446744073709551616. intros L P H IH. nia.
Qed.
Lemma seq_key_bound k words : kind_ok k -> seq_ok words -> seq_state k words <> [] /\ seq_key k words < 2 ^ key_bits k.
Proof.
  intros K W. unfold seq_key.
  assert (G : forall m, 0 < m -> words m <> [] /\ lv 64 (words m) < 2 ^ (64 * m)).
  { intros m M. destruct (W m) as [L F]. split; [intros E; rewrite E in L; cbn in L; lia|]. pose proof (lv_bound _ F) as B. now rewrite L, N2Nat.id in B. }
  destruct k as [| | |c n w]; [exact (G 2 eq_refl)|exact (G 4 eq_refl)|exact (G 4 eq_refl)|].
  cbn [kind_ok] in K. unfold variants in K. destruct c, K as [K|[K|[K|[K|[]]]]]; injection K as <- <-; try exact (G 1 eq_refl); try exact (G 2 eq_refl); try exact (G 4 eq_refl).
  cbn [seq_state]. change (seq_words (KCtr Philox 2 32)) with 1. change (key_bits (KCtr Philox 2 32)) with 32. destruct (W 1) as [L F]. destruct (words 1) as [|x [|y l]]; try discriminate L.
  split; [discriminate|]. cbn [map lv]. pose proof (N.mod_lt x (2 ^ 32) ltac:(lia)). lia.
Qed.
Lemma install_seq k words counter : kind_ok k -> seq_ok words -> install k (OArr 64 (seq_state k words)) counter = install k (OInt (Z.of_N (seq_key k words))) counter.
Proof.
  intros K W. destruct (seq_key_bound k words K W) as [NE B]. unfold install. cbn [object_to_int]. cbn [andb orb N.eqb Pos.eqb].
  unfold arr_value. destruct (seq_state k words) eqn:E; [congruence|]. unfold seq_key. rewrite E. reflexivity.
Qed.
Lemma range_in bits z : (0 <= z < 2 ^ Z.of_N bits)%Z -> int_range (Some bits) z = Ok (Some z).
Proof. intros H. unfold int_range. replace ((z <? 0) || (2 ^ Z.of_N bits <=? z))%Z with false by lia. reflexivity. Qed.
Lemma range_out bits z : ~ (0 <= z < 2 ^ Z.of_N bits)%Z -> int_range (Some bits) z = Raise ValueError.
Proof. intros H. unfold int_range. replace ((z <? 0) || (2 ^ Z.of_N bits <=? z))%Z with true by lia. reflexivity. Qed.
Lemma pow_ZN n : (2 ^ Z.of_N n)%Z = Z.of_N (2 ^ n).
Proof. rewrite N2Z.inj_pow. reflexivity. Qed.

(* The key of the SeedSequence and the counter given reach the generator *)
Theorem C76_seed_with_counter : forall k words seeded c, kind_ok k -> seq_ok words -> (0 <= c < 2 ^ Z.of_N (ctr_bits k))%Z ->
  py_seed k false words seeded (OInt c) ONone = Some (Ok (seq_key k words, Z.to_N c)).
Proof.
  intros k words seeded c K W C. cbn [py_seed]. rewrite install_seq by assumption. destruct (seq_key_bound k words K W) as [_ B]. unfold install. cbn [object_to_int].
  rewrite range_in by (rewrite pow_ZN; lia). rewrite (range_in _ c C). now rewrite N2Z.id.
Qed.
Theorem C76_seed_without_counter : forall k words seeded, kind_ok k -> seq_ok words -> py_seed k false words seeded ONone ONone = Some (Ok (seq_key k words, 0)).
Proof.
  intros k words seeded K W. cbn [py_seed]. rewrite install_seq by assumption. destruct (seq_key_bound k words K W) as [_ B]. unfold install. cbn [object_to_int].
  rewrite range_in by (rewrite pow_ZN; lia). now rewrite N2Z.id.
Qed.
(* a key given directly behaves in the same way, with any counter *)
Theorem C76_key_with_counter : forall k numpy words key counter, (0 <= key < 2 ^ Z.of_N (key_bits k))%Z ->
  py_seed k numpy words false counter (OInt key) = match object_to_int 64 true false (Some (ctr_bits k)) counter with
    | None => None | Some (Raise e) => Some (Raise e) | Some (Ok None) => Some (Ok (Z.to_N key, 0)) | Some (Ok (Some c)) => Some (Ok (Z.to_N key, Z.to_N c)) end.
Proof. intros k numpy words key counter H. cbn [py_seed]. unfold install. cbn [object_to_int]. now rewrite range_in. Qed.
Theorem C76_seed_is_its_key : forall k words seeded counter, kind_ok k -> seq_ok words ->
  py_seed k false words seeded counter ONone = py_seed k false words false counter (OInt (Z.of_N (seq_key k words))).
Proof. intros k words seeded counter K W. cbn [py_seed]. now apply install_seq. Qed.
(* both a seed and a key, or a counter or key out of range: ValueError *)
Theorem C76_seed_and_key : forall k numpy words counter key, key <> ONone -> py_seed k numpy words true counter key = Some (Raise ValueError).
Proof. intros k numpy words counter key N. destruct key; [congruence| | | | | | |]; reflexivity. Qed.
Theorem C76_out_of_range : forall k words seeded c, kind_ok k -> seq_ok words -> ~ (0 <= c < 2 ^ Z.of_N (ctr_bits k))%Z ->
  py_seed k false words seeded (OInt c) ONone = Some (Raise ValueError) /\
  forall key, (0 <= key)%Z -> py_seed k false words false (OInt c) (OInt key) = Some (Raise ValueError).
Proof.
  intros k words seeded c K W C. split.
  - cbn [py_seed]. rewrite install_seq by assumption. destruct (seq_key_bound k words K W) as [_ B]. unfold install. cbn [object_to_int]. rewrite range_in by (rewrite pow_ZN; lia). now rewrite (range_out _ c C).
  - intros key P. cbn [py_seed]. unfold install. cbn [object_to_int]. destruct (Z_lt_dec key (2 ^ Z.of_N (key_bits k))) as [H|H].
    + rewrite range_in by lia. now rewrite (range_out _ c C).
    + now rewrite range_out by lia.
Qed.
(* the limits, class by class *)
Theorem C76_limits : ctr_bits KAes = 128 /\ ctr_bits KSpeck = 128 /\ ctr_bits KChaCha = 128 /\ key_bits KAes = 128 /\ key_bits KSpeck = 256 /\ key_bits KChaCha = 256 /\
  (forall n w, ctr_bits (KCtr Philox n w) = n * w /\ ctr_bits (KCtr ThreeFry n w) = n * w /\ key_bits (KCtr ThreeFry n w) = n * w) /\
  (forall n w, In (n, w) variants -> 2 * key_bits (KCtr Philox n w) = n * w).
Proof. do 6 (split; [reflexivity|]). split; [repeat split; reflexivity|]. intros n w [H|[H|[H|[H|[]]]]]; injection H as <- <-; reflexivity. Qed.
(* The key made from a seed is made of key_bits bits of the SeedSequence, no more and no fewer:
   with K/64 words, least significant first, and one half of a word for Philox with a 32-bit key *)
Theorem C76_seed_key_words : forall k words, kind_ok k -> seq_ok words ->
  (k <> KCtr Philox 2 32 -> key_bits k mod 64 = 0 /\ seq_key k words = lv 64 (words (key_bits k / 64))) /\
  (k = KCtr Philox 2 32 -> exists x, words 1 = [x] /\ seq_key k words = x mod 2 ^ 32).
Proof.
  intros k words K W. split.
  - intros NE. unfold seq_key. destruct k as [| | |c n w]; try (split; reflexivity).
    cbn [kind_ok] in K. unfold variants in K. destruct c, K as [K|[K|[K|[K|[]]]]]; injection K as <- <-; try (split; reflexivity). now contradict NE.
  - intros ->. destruct (W 1) as [L F]. destruct (words 1) as [|x [|y l]] eqn:E; try discriminate L. exists x. split; [reflexivity|].
    unfold seq_key. cbn [seq_state]. change (seq_words (KCtr Philox 2 32)) with 1. rewrite E. cbn [map lv]. lia.
Qed.
(* In the mode that follows NumPy's seeding, Philox ignores the counter: any value, even one out of
   range, gives the stream from counter 0 *)
Theorem C76_philox_numpy_counter_refuted : forall words seeded counter, seq_ok words ->
  py_seed (KCtr Philox 4 64) true words seeded counter ONone = Some (Ok (seq_key (KCtr Philox 4 64) words, 0)).
Proof. intros words seeded counter W. exact (C76_seed_without_counter (KCtr Philox 4 64) words seeded (or_introl eq_refl) W). Qed.

(* What the counter does: the stream from counter c is the stream from counter 0 after 2 c (AESCounter,
   SPECK128), n c (Philox, ThreeFry) or c 32-bit (ChaCha) numbers *)
Lemma seq_shift_by a k : seq a k = map (fun i => (a + i)%nat) (seq 0 k).
Proof. revert a. induction k as [|k IH]; intros a; [reflexivity|]. cbn [seq map]. f_equal; [lia|]. rewrite (IH (Datatypes.S a)), (IH 1%nat), map_map. apply map_ext. intros i. lia. Qed.
Lemma map_seq_skip {A} (f : nat -> A) a k : skipn a (map f (seq 0 (a + k))) = map (fun i => f (a + i)%nat) (seq 0 k).
Proof.
  rewrite seq_app, map_app, skipn_app, skipn_all2 by (rewrite map_length, seq_length; lia). rewrite map_length, seq_length, Nat.sub_diag. cbn [skipn app Nat.add].
  now rewrite (seq_shift_by a k), map_map.
Qed.
Lemma skip_stream {A S} (f g : nat -> A) a k (x y : option (S * list A)) : option_map snd x = Some (map g (seq 0 k)) -> option_map snd y = Some (map f (seq 0 (a + k))) ->
  (forall i, g i = f (a + i)%nat) -> option_map snd x = option_map (fun r => skipn a (snd r)) y.
Proof.
  intros E F G. rewrite E. destruct y as [[s l]|]; [|discriminate F]. cbn [option_map snd] in *. injection F as ->. rewrite map_seq_skip. f_equal. apply map_ext. exact G.
Qed.
Theorem C76_aes_counter_position : forall key c k b, c < 2 ^ 128 -> List.length (l_buf (core b)) = 64%nat ->
  option_map snd (aes_draws k (core (aes_seed key c b))) = option_map (fun r => skipn (N.to_nat (2 * c)) (snd r)) (aes_draws (N.to_nat (2 * c) + k) (core (aes_seed key 0 b))).
Proof.
  intros key c k b C B. apply (skip_stream _ _ _ k _ _ (C05_aes_seeded_stream key c k b C B) (C05_aes_seeded_stream key 0 (N.to_nat (2 * c) + k) b eq_refl B)).
  intros i. cbv beta. replace (2 * 0 + N.of_nat (N.to_nat (2 * c) + i)) with (2 * c + N.of_nat i) by lia. reflexivity.
Qed.
Theorem C76_speck_counter_position : forall key c k b, c < 2 ^ 128 -> List.length (l_buf (core b)) = 96%nat -> (0 < sk_rounds (l_key (core b)) <= 34)%Z ->
  option_map snd (sp_draws k (core (sp_seed key c b))) = option_map (fun r => skipn (N.to_nat (2 * c)) (snd r)) (sp_draws (N.to_nat (2 * c) + k) (core (sp_seed key 0 b))).
Proof.
  intros key c k b C B R. apply (skip_stream _ _ _ k _ _ (C06_speck_seeded_stream key c k b C B R) (C06_speck_seeded_stream key 0 (N.to_nat (2 * c) + k) b eq_refl B R)).
  intros i. cbv beta. replace (2 * 0 + N.of_nat (N.to_nat (2 * c) + i)) with (2 * c + N.of_nat i) by lia. reflexivity.
Qed.
Theorem C76_philox_counter_position : forall n w key c k, In (n, w) variants -> c < 2 ^ (w * n) ->
  option_map snd (vdraws Philox n w k (o_st (seed_key Philox (n, w) key c))) = option_map (fun r => skipn (N.to_nat (n * c)) (snd r)) (vdraws Philox n w (n * c + k) (o_st (seed_key Philox (n, w) key 0))).
Proof.
  intros n w key c k V C. assert (Z : 0 < 2 ^ (w * n)) by (apply N.neq_0_lt_0, N.pow_nonzero; discriminate).
  pose proof (C07_philox_seeded_stream n w key 0 (n * c + k) V Z) as E. rewrite N2Nat.inj_add in E.
  apply (skip_stream _ _ _ (N.to_nat k) _ _ (C07_philox_seeded_stream n w key c k V C) E).
  intros i. cbv beta. replace (n * (0 + 1) + N.of_nat (N.to_nat (n * c) + i)) with (n * (c + 1) + N.of_nat i) by lia. reflexivity.
Qed.
Theorem C76_threefry_counter_position : forall n w key c k, In (n, w) variants -> c < 2 ^ (w * n) ->
  option_map snd (vdraws ThreeFry n w k (o_st (seed_key ThreeFry (n, w) key c))) = option_map (fun r => skipn (N.to_nat (n * c)) (snd r)) (vdraws ThreeFry n w (n * c + k) (o_st (seed_key ThreeFry (n, w) key 0))).
Proof.
  intros n w key c k V C. assert (Z : 0 < 2 ^ (w * n)) by (apply N.neq_0_lt_0, N.pow_nonzero; discriminate).
  pose proof (C08_threefry_seeded_stream n w key 0 (n * c + k) V Z) as E. rewrite N2Nat.inj_add in E.
  apply (skip_stream _ _ _ (N.to_nat k) _ _ (C08_threefry_seeded_stream n w key c k V C) E).
  intros i. cbv beta. replace (n * (0 + 1) + N.of_nat (N.to_nat (n * c) + i)) with (n * (c + 1) + N.of_nat i) by lia. reflexivity.
Qed.
Theorem C76_chacha_counter_position : forall p key c b ps qs, c < 2 ^ 128 -> List.length qs = N.to_nat c ->
  option_map snd (cc_draws ps (cc_seed p key c b)) = option_map (fun r => skipn (N.to_nat c) (snd r)) (cc_draws (qs ++ ps) (cc_seed p key 0 b)).
Proof.
  intros p key c b ps qs C Q. pose proof (C47_chacha_seeded_stream p key 0 b (qs ++ ps) eq_refl) as E. rewrite app_length, Q in E.
  apply (skip_stream _ _ _ (List.length ps) _ _ (C47_chacha_seeded_stream p key c b ps C) E).
  intros i. cbv beta. replace (0 + N.of_nat (N.to_nat c + i)) with (c + N.of_nat i) by lia. reflexivity.
Qed.
Example C76_case : seq_ok (fun n => repeat 7 (N.to_nat n)) /\
  py_seed (KCtr Philox 4 64) false (fun n => repeat 7 (N.to_nat n)) true (OInt 5) ONone = Some (Ok (7 + 7 * 2 ^ 64, 5)) /\
  py_seed (KCtr Philox 4 64) true (fun n => repeat 7 (N.to_nat n)) true (OInt 5) ONone = Some (Ok (7 + 7 * 2 ^ 64, 0)).
Proof.
  split; [|split; reflexivity]. intros n. split; [apply repeat_length|]. apply Forall_forall. intros x H. apply repeat_spec in H. subst x. reflexivity.
Qed.

Print Assumptions C76_seed_with_counter.
Print Assumptions C76_seed_without_counter.
Print Assumptions C76_key_with_counter.
Print Assumptions C76_seed_is_its_key.
Print Assumptions C76_seed_and_key.
Print Assumptions C76_out_of_range.
Print Assumptions C76_limits.
Print Assumptions C76_seed_key_words.
Print Assumptions C76_philox_numpy_counter_refuted.
Print Assumptions C76_aes_counter_position.
Print Assumptions C76_speck_counter_position.
Print Assumptions C76_philox_counter_position.
Print Assumptions C76_threefry_counter_position.
Print Assumptions C76_chacha_counter_position.
