(* C44: seed_by_array. C45, C62: random_entropy. C49: SplitMix64 and the hash. *)
From Verif Require Import Word Finite Py Convert Entropy Rdrand.
From Coq Require Import String ZifyBool ZifyNat ZifyN.
Open Scope N_scope.
Ltac Zify.zify_post_hook ::= idtac.

(* ------------------------------------------------------------------- C44 *)
Theorem C44_distinct_seeds :
  forall l m n g, Forall (wf 64) l -> Forall (wf 64) m -> List.length l = List.length m -> (Z.of_nat (List.length l) <= n)%Z -> Z.of_nat (List.length g) = n ->
  seed_by_array (SVArr l) n g = seed_by_array (SVArr m) n g -> l = m.
Proof.
  intros l m n g Hl Hm E L G. unfold seed_by_array, sba_convert. rewrite !(proj2 (Z.ltb_ge _ _)) by lia.
  rewrite !sba_short by lia. intros [= Q]. apply (sm_outs_inj (Z.to_nat n) l m 0); [reflexivity|exact Hl|exact Hm|exact E|lia|exact Q].
Qed.
Theorem C44_distinct_integers :
  forall a b n g, (0 <= a < 2 ^ 64)%Z -> (0 <= b < 2 ^ 64)%Z -> (1 <= n)%Z -> Z.of_nat (List.length g) = n ->
  seed_by_array (SVInt a) n g = seed_by_array (SVInt b) n g -> a = b.
Proof.
  intros a b n g Ha Hb Hn G. unfold seed_by_array, sba_convert.
  replace ((a <? 0) || (2 ^ 64 - 1 <? a))%Z with false by lia. replace ((b <? 0) || (2 ^ 64 - 1 <? b))%Z with false by lia.
  rewrite !(proj2 (Z.ltb_ge n 0)) by lia. rewrite !sba_short by (cbn [List.length]; lia). intros [= Q].
  apply (sm_outs_inj (Z.to_nat n) [Z.to_N a] [Z.to_N b] 0) in Q; [injection Q as Q; lia|reflexivity| | |reflexivity|cbn; lia];
  repeat constructor; unfold wf; change (2 ^ 64) with (Z.to_N (2 ^ 64)); lia.
Qed.
(* the vectors of tests/test_common.py:83-100 *)
Example C44_case :
  seed_by_array (SVArr [3735928495]) 2 [7; 7] = Ok [4555448849277713929; 5170625396769938207] /\
  seed_by_array (SVArr [9223372045444710403; 536870914; 2; 9223372036854775808]) 4 [7; 7; 7; 7] =
  Ok [7178927994527075522; 9215441430954639631; 7276951224970988593; 1810038055801910983].
Proof. split; vm_compute; reflexivity. Qed.
(* the result has n words and does not depend on what np.empty contains *)
Theorem C44_defined :
  forall v n g g', (0 < n)%Z -> Z.of_nat (List.length g) = n -> Z.of_nat (List.length g') = n ->
  seed_by_array v n g = seed_by_array v n g' /\
  match seed_by_array v n g with Ok l => Z.of_nat (List.length l) = n /\ (Forall (wf 64) g -> Forall (wf 64) l) | Raise e => e = TypeError \/ e = ValueError end.
Proof.
  intros v n g g' Hn G G'. unfold seed_by_array. destruct (sba_convert v) as [seed|e] eqn:C.
  - rewrite (proj2 (Z.ltb_ge n 0)) by lia. rewrite (sba_no_garbage seed (Z.to_nat n) g g') by lia. split; [reflexivity|].
    rewrite <- (sba_no_garbage seed (Z.to_nat n) g g') by lia. unfold sba_words.
    destruct (sba_total (if Nat.ltb (List.length seed) (Z.to_nat n) then Z.to_nat n else List.length seed) seed (Z.to_nat n) 0 0 g) as (l & E & L & W); [lia|lia|].
    rewrite E. split; [lia|exact W].
  - split; [reflexivity|]. unfold sba_convert in C. destruct v as [z|l|l| |].
    + destruct ((z <? 0) || (2 ^ 64 - 1 <? z))%Z; [injection C as <-; auto|discriminate].
    + discriminate.
    + destruct (np_array l); destruct (existsb _ _); try discriminate; injection C as <-; auto.
    + injection C as <-; auto.
    + injection C as <-; auto.
Qed.
(* n = 0 is an IndexError unless the seed is empty too *)
Theorem C44_no_words :
  forall x l, seed_by_array (SVArr (x :: l)) 0 [] = Raise IndexError /\ seed_by_array (SVArr []) 0 [] = Ok [].
Proof. intros x l. split; reflexivity. Qed.
(* seeds of different lengths: trailing zeros make no difference *)
Theorem C44_trailing_zero :
  forall l n g, (Z.of_nat (List.length l) < n)%Z -> Z.of_nat (List.length g) = n ->
  seed_by_array (SVArr (l ++ [0])) n g = seed_by_array (SVArr l) n g.
Proof.
  intros l n g L G. unfold seed_by_array, sba_convert. rewrite !(proj2 (Z.ltb_ge n 0)) by lia. rewrite !sba_short by (rewrite ?app_length; cbn [List.length]; lia).
  f_equal. assert (H : forall k m c, sm_outs k (m ++ [0])%list c = sm_outs k m c).
  { induction k as [|k IH]; intros m c; [reflexivity|]. destruct m as [|x m]; cbn [sm_outs List.app List.tl].
    - rewrite N.lxor_0_r. reflexivity.
    - destruct (splitmix64_next _). now rewrite IH. }
  apply H.
Qed.
(* a list is the array of its elements when these are all below 2^63 or all from
   2^63 on *)
Theorem C44_list_partial :
  forall l n g, Forall (fun z => (0 <= z < 2 ^ 63)%Z) l \/ Forall (fun z => (2 ^ 63 <= z < 2 ^ 64)%Z) l ->
  seed_by_array (SVList l) n g = seed_by_array (SVArr (map Z.to_N l)) n g.
Proof.
  intros l n g H. unfold seed_by_array, sba_convert.
  assert (E : np_array l = NpInt l).
  { unfold np_array. destruct H as [H|H].
    - replace (forallb fits_i64 l) with true; [reflexivity|]. symmetry. apply forallb_forall. rewrite Forall_forall in H. intros x Hx. specialize (H x Hx). unfold fits_i64. lia.
    - replace (forallb fits_u64_only l) with true; [now rewrite orb_true_r|]. symmetry. apply forallb_forall. rewrite Forall_forall in H. intros x Hx. specialize (H x Hx). unfold fits_u64_only. lia. }
  rewrite E. replace (existsb _ l) with false; [reflexivity|]. symmetry. apply not_true_iff_false. intros X. apply existsb_exists in X. destruct X as (x & Hx & B).
  destruct H as [H|H]; rewrite Forall_forall in H; specialize (H x Hx); lia.
Qed.
(* otherwise the elements become doubles: different lists give the same state, and
   2^64 - 1 is rejected as out of range *)
Theorem C44_list_refuted :
  seed_by_array (SVList [1; 2 ^ 63 + 1]%Z) 2 [0; 0] = seed_by_array (SVList [1; 2 ^ 63]%Z) 2 [0; 0] /\
  seed_by_array (SVList [1; 2 ^ 63 + 1]%Z) 2 [0; 0] <> seed_by_array (SVArr [1; 2 ^ 63 + 1]) 2 [0; 0] /\
  seed_by_array (SVList [1; 2 ^ 64 - 1]%Z) 2 [0; 0] = Raise ValueError.
Proof. split; [vm_compute; reflexivity|]. split; [vm_compute; discriminate|vm_compute; reflexivity]. Qed.
(* an integer seed never gives an all-zero state of two or more words *)
Lemma mix_zero z : wf 64 z -> sm_mix z = 0 -> z = 0.
Proof. intros H E. apply (sm_mix_inj z 0 H); [apply wf_0|exact E]. Qed.
Theorem C44_integer_not_zero :
  forall a n g l, (0 <= a < 2 ^ 64)%Z -> (2 <= n)%Z -> Z.of_nat (List.length g) = n ->
  seed_by_array (SVInt a) n g = Ok l -> exists x, In x l /\ x <> 0.
Proof.
  intros a n g l Ha Hn G. unfold seed_by_array, sba_convert. replace ((a <? 0) || (2 ^ 64 - 1 <? a))%Z with false by lia.
  rewrite (proj2 (Z.ltb_ge n 0)) by lia. rewrite sba_short by (cbn [List.length]; lia). intros [= <-].
  destruct (Z.to_nat n) as [|[|k]] eqn:K; [lia..|]. cbn [sm_outs List.tl]. unfold splitmix64_next.
  set (c := wadd 64 _ SM_GAMMA). destruct (N.eq_dec (sm_mix c) 0) as [Z0|NZ]; [|exists (sm_mix c); split; [now left|exact NZ]].
  apply mix_zero in Z0; [|apply wf_wadd]. exists (sm_mix (wadd 64 c SM_GAMMA)). split; [right; now left|]. rewrite Z0. vm_compute. discriminate.
Qed.
(* but an array may *)
Theorem C44_array_zero_refuted :
  exists x, x < 2 ^ 64 /\ seed_by_array (SVArr [x; x; x; x]) 4 [9; 9; 9; 9] = Ok [0; 0; 0; 0].
Proof. exists (2 ^ 64 - SM_GAMMA). split; [reflexivity|vm_compute; reflexivity]. Qed.

(* ------------------------------------------------------------------- C49 *)
Theorem C49_splitmix64_bijective :
  forall v, v < 2 ^ 64 -> exists s, s < 2 ^ 64 /\ snd (splitmix64_next s) = v /\ forall t, t < 2 ^ 64 -> snd (splitmix64_next t) = v -> t = s.
Proof.
  intros v Hv. destruct (inj_surj (2 ^ 64) (fun s => snd (splitmix64_next s))) with (y := v) as (s & Hs & E).
  - intros i Hi. apply sm_mix_wf, wf_wadd.
  - intros i j Hi Hj. now apply splitmix_inj.
  - exact Hv.
  - exists s. split; [exact Hs|]. split; [exact E|]. intros t Ht Et. apply splitmix_inj; [exact Ht|exact Hs|congruence].
Qed.
(* Wang's hash of the fallback source is a bijection of 32-bit words *)
Lemma wnot_sub a : wf 32 a -> wnot 32 a = 2 ^ 32 - 1 - a.
Proof.
  intros H. unfold wnot. change (N.lxor a (N.ones 32)) with (N.lnot a 32). destruct (N.eq_dec a 0) as [->|N0]; [reflexivity|].
  rewrite N.lnot_sub_low; [reflexivity|]. apply N.log2_lt_pow2; [lia|exact H].
Qed.
Lemma add_not_shl k a : k < 32 -> wadd 32 a (wnot 32 (wshl 32 a k)) = wsub 32 (wmul 32 (2 ^ 32 + 1 - 2 ^ k) a) 1.
Proof.
  intros Hk. assert (P : 2 ^ k < 2 ^ 32) by (apply N.pow_lt_mono_r; lia).
  rewrite wnot_sub by apply wf_wshl. apply N2Z.inj. rewrite Zwadd, Zwsub, Zwmul. pose proof (wf_wshl 32 a k) as W. unfold wf in W.
  rewrite !N2Z.inj_sub by lia. unfold wshl. rewrite Ztrunc, N.shiftl_mul_pow2, N2Z.inj_mul, N2Z.inj_add.
  change (Z.of_N 1) with 1%Z. change (Z.of_N (2 ^ 32)) with (2 ^ Z.of_N 32)%Z. set (M := (2 ^ Z.of_N 32)%Z). set (A := Z.of_N a). set (Q := Z.of_N (2 ^ k)).
  rewrite Zminus_mod_idemp_l. replace (A + (M - 1 - (A * Q) mod M))%Z with (A + (M - 1) - (A * Q) mod M)%Z by lia. rewrite Zminus_mod_idemp_r.
  replace ((M + 1 - Q) * A - 1)%Z with (A + (M - 1) - A * Q + (A - 1) * M)%Z by lia. rewrite Z_mod_plus_full. reflexivity.
Qed.
Lemma add_not_shl_inj k a b : 0 < k -> k < 32 -> wf 32 a -> wf 32 b ->
  wadd 32 a (wnot 32 (wshl 32 a k)) = wadd 32 b (wnot 32 (wshl 32 b k)) -> a = b.
Proof.
  intros K0 Hk Ha Hb H. rewrite !add_not_shl in H by exact Hk. apply (f_equal (fun x => wadd 32 x 1)) in H. rewrite !wadd_wsub in H by apply wf_wmul.
  apply odd_mul_inj in H; [exact H| |exact Ha|exact Hb].
  assert (P : 2 ^ k < 2 ^ 32) by (apply N.pow_lt_mono_r; lia). rewrite N.odd_sub by lia. rewrite N.odd_add, !N.odd_pow by lia. reflexivity.
Qed.
Lemma add_shl3_inj a b : wf 32 a -> wf 32 b -> wadd 32 a (wshl 32 a 3) = wadd 32 b (wshl 32 b 3) -> a = b.
Proof.
  assert (E : forall x, wadd 32 x (wshl 32 x 3) = wmul 32 9 x).
  { intros x. unfold wadd, wshl, wmul. rewrite N.add_mod_idemp_r by discriminate. rewrite N.shiftl_mul_pow2. f_equal. change (2 ^ 3) with 8. lia. }
  intros Ha Hb H. rewrite !E in H. apply odd_mul_inj in H; [exact H|reflexivity|exact Ha|exact Hb].
Qed.
Theorem C49_entropy_hash_32_injective : forall a b, a < 2 ^ 32 -> b < 2 ^ 32 -> entropy_hash_32 a = entropy_hash_32 b -> a = b.
Proof.
  intros a b Ha Hb H. unfold entropy_hash_32 in H.
  apply xsr_inj in H; [|lia]. apply add_not_shl_inj in H; [|lia|lia|auto using wf_lxor, wf_shr, wf_wadd..].
  apply xsr_inj in H; [|lia]. apply add_shl3_inj in H; [|auto using wf_lxor, wf_shr, wf_wadd..].
  apply xsr_inj in H; [|lia]. apply add_not_shl_inj in H; [exact H|lia|lia|exact Ha|exact Hb].
Qed.

(* -------------------------------------------------------------- C45, C62 *)
Lemma words_length bs k : List.length bs = (4 * k)%nat -> List.length (words_of_bytes bs) = k.
Proof.
  intros L. unfold words_of_bytes. rewrite L, Nat.mul_comm, Nat.div_mul by lia.
  assert (H : forall k m, List.length (words_from false 4 k m) = k) by (induction k0 as [|j IH]; intros m; [reflexivity|]; cbn [words_from List.length]; now rewrite IH).
  apply H.
Qed.
(* with a source that fills the buffer, size None gives a scalar and every size
   with at least one element an array of that shape and as many elements *)
Theorem C45_shape_partial :
  forall sys fb s src, (forall n, exists bs, sys n = (true, bs) /\ List.length bs = N.to_nat n) ->
  (src = SrcSystem \/ src = SrcAuto) -> (s = SzNone \/ (1 <= compute_numel s)%Z) ->
  match s with
  | SzNone => exists v, random_entropy sys fb s src = Some (Ok (RScalar v))
  | _ => exists l, random_entropy sys fb s src = Some (Ok (RArray (shape_of s) l)) /\ Z.of_nat (List.length l) = compute_numel s
  end.
Proof.
  intros sys fb s src H Hs Hn. destruct s as [|n|l].
  - unfold random_entropy, read_size. destruct (H 4) as (bs & E & L). rewrite E. destruct Hs as [-> | ->]; eexists; reflexivity.
  - destruct Hn as [Hn|Hn]; [discriminate|]. unfold random_entropy, read_size. cbn [compute_numel] in *.
    replace (n <? 0)%Z with false by lia. replace (n =? 0)%Z with false by lia. destruct (H (4 * Z.to_N n)) as (bs & E & L). rewrite E.
    exists (words_of_bytes bs). split; [destruct Hs as [-> | ->]; reflexivity|]. rewrite (words_length bs (Z.to_nat n)) by lia. lia.
  - destruct Hn as [Hn|Hn]; [discriminate|]. unfold random_entropy, read_size. cbn [compute_numel] in *.
    set (n := fold_right Z.mul 1%Z l) in *. replace (n <? 0)%Z with false by lia. replace (n =? 0)%Z with false by lia. destruct (H (4 * Z.to_N n)) as (bs & E & L). rewrite E.
    exists (words_of_bytes bs). split; [destruct Hs as [-> | ->]; reflexivity|]. rewrite (words_length bs (Z.to_nat n)) by lia. lia.
Qed.
Example C45_case :
  random_entropy (fun n => (true, repeat 1 (N.to_nat n))) (fun _ => None) (SzTuple [2; 1]%Z) SrcAuto =
  Some (Ok (RArray [2; 1]%Z [0x01010101; 0x01010101])).
Proof. vm_compute. reflexivity. Qed.
(* a size without elements is not answered with an empty array *)
Theorem C45_empty_refuted :
  forall sys fb src, src <> SrcOther ->
  random_entropy sys fb (SzInt 0) src = Some (Raise IndexError) /\ random_entropy sys fb (SzTuple [3; 0]%Z) src = Some (Raise IndexError).
Proof. intros sys fb src H. destruct src; try congruence; split; reflexivity. Qed.

(* entropy_getbytes reports success on Unix only when the whole buffer was read *)
Theorem C62_unix_reports_failure :
  forall o size, fst (getbytes_unix o size) = true -> os_open o = true /\ os_close o = true /\ (Z.of_N size <= os_sz o)%Z.
Proof.
  intros [op sz bs cl] size. unfold getbytes_unix. cbn [os_open os_sz os_bytes os_close]. destruct op; cbn [negb fst]; [|discriminate].
  destruct ((sz <? 0) || (sz <? Z.of_N size))%Z eqn:E; cbn [fst]; [discriminate|]. intros ->. repeat split; lia.
Qed.
Theorem C62_unix_bytes :
  forall o size, fst (getbytes_unix o size) = true -> Z.of_nat (List.length (os_bytes o)) = os_sz o ->
  snd (getbytes_unix o size) = firstn (N.to_nat size) (os_bytes o).
Proof.
  intros o size H L. pose proof (C62_unix_reports_failure o size H) as (O & C & S). destruct o as [op sz bs cl]. cbn [os_open os_sz os_bytes os_close] in *. subst op.
  unfold getbytes_unix. cbn [os_open os_sz os_bytes os_close negb]. replace ((sz <? 0) || (sz <? Z.of_N size))%Z with false by lia. cbn [snd].
  rewrite (firstn_all2 bs) by lia. rewrite firstn_length_le by lia. rewrite Nat.sub_diag. apply app_nil_r.
Qed.
(* so random_entropy either raises or returns bytes of the system *)
Theorem C62_system_bytes :
  forall o fb s v, Z.of_nat (List.length (os_bytes o)) = os_sz o ->
  random_entropy (getbytes_unix o) fb s SrcSystem = Some (Ok v) ->
  exists n, v = deliver s (firstn n (os_bytes o)).
Proof.
  intros o fb s v L. unfold random_entropy. destruct (read_size s) as [sz|e]; [|discriminate].
  pose proof (C62_unix_bytes o sz) as B. destruct (getbytes_unix o sz) as [ok buf]. cbn [fst snd] in B.
  destruct ok; [|discriminate]. intros [= <-]. exists (N.to_nat sz). now rewrite B.
Qed.
(* a short read raises with source "system" *)
Theorem C62_short_read_raises :
  forall o fb s sz, read_size s = Ok sz -> (os_sz o < Z.of_N sz)%Z -> random_entropy (getbytes_unix o) fb s SrcSystem = Some (Raise RuntimeErr).
Proof.
  intros o fb s sz R H. unfold random_entropy. rewrite R. pose proof (C62_unix_reports_failure o sz) as B. destruct (getbytes_unix o sz) as [ok buf].
  destruct ok; [|reflexivity]. destruct (B eq_refl) as (_ & _ & Q). lia.
Qed.
Example C62_case : random_entropy (getbytes_unix (OS true 4 [1;2;3;4] true)) (fun _ => None) SzNone SrcSystem = Some (Ok (RScalar 0x04030201)).
Proof. vm_compute. reflexivity. Qed.
(* Windows: what CryptGenRandom delivered, when it did; its failure is reported *)
Theorem C62_windows_bytes :
  forall bytes fb s sz, read_size s = Ok sz ->
  random_entropy (getbytes_win true true bytes) fb s SrcSystem = Some (Ok (deliver s (firstn (N.to_nat sz) bytes))) /\
  random_entropy (getbytes_win true false bytes) fb s SrcSystem = Some (Raise RuntimeErr).
Proof. intros bytes fb s sz R. unfold random_entropy. rewrite R. split; reflexivity. Qed.
(* On Windows, when no provider can be acquired, zeros are returned as entropy *)
Theorem C62_windows_refuted :
  forall done bytes fb, random_entropy (getbytes_win false done bytes) fb SzNone SrcSystem = Some (Ok (RScalar 0)) /\
  random_entropy (getbytes_win false done bytes) fb (SzInt 3) SrcAuto = Some (Ok (RArray [3]%Z [0; 0; 0])).
Proof. intros. split; reflexivity. Qed.

(* the fallback source stays inside its block for sizes up to 2^31 - 1 bytes *)
Lemma flat_word_length (rnd : nat -> N) l : List.length (flat_map (fun i => word_bytes (rnd i)) l) = (4 * List.length l)%nat.
Proof. induction l as [|x l IH]; [reflexivity|]. cbn [flat_map List.length]. rewrite app_length, IH. cbn [word_bytes List.length]. lia. Qed.
Theorem C63_fallback_safe_partial :
  forall rnd size, size < 2 ^ 31 -> exists bs, fallback_getbytes rnd size = Some bs /\ List.length bs = N.to_nat size.
Proof.
  intros rnd size H. unfold fallback_getbytes, to_int32. rewrite Z.mod_small by lia.
  replace (Z.of_N size + 2 ^ 31 - 2 ^ 31)%Z with (Z.of_N size) by lia.
  replace (Z.of_N size <? 0)%Z with false by lia. replace (4 * Z.of_N size <? Z.of_N size)%Z with false by lia.
  eexists. split; [reflexivity|]. rewrite firstn_length_le; [reflexivity|]. rewrite flat_word_length, seq_length. lia.
Qed.
(* 2^29 values or 2^30 + 1 values: negative, or four words for 4 GiB *)
Theorem C63_fallback_refuted : forall rnd, fallback_getbytes rnd (4 * 2 ^ 29) = None /\ fallback_getbytes rnd (4 * (2 ^ 30 + 1)) = None.
Proof. intros. split; reflexivity. Qed.
Example C63_case : fallback_getbytes (fun _ => 0x01020304) 4 = Some [4; 3; 2; 1].
Proof. vm_compute. reflexivity. Qed.

Print Assumptions C44_distinct_seeds.
Print Assumptions C44_distinct_integers.
Print Assumptions C44_defined.
Print Assumptions C44_no_words.
Print Assumptions C44_trailing_zero.
Print Assumptions C44_list_partial.
Print Assumptions C44_list_refuted.
Print Assumptions C44_integer_not_zero.
Print Assumptions C44_array_zero_refuted.
Print Assumptions C49_splitmix64_bijective.
Print Assumptions C49_entropy_hash_32_injective.
Print Assumptions C45_shape_partial.
Print Assumptions C45_empty_refuted.
Print Assumptions C62_unix_reports_failure.
Print Assumptions C62_unix_bytes.
Print Assumptions C62_system_bytes.
Print Assumptions C62_short_read_raises.
Print Assumptions C62_windows_bytes.
Print Assumptions C62_windows_refuted.
Print Assumptions C63_fallback_safe_partial.
Print Assumptions C63_fallback_refuted.
