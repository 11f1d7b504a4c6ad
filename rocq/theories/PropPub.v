(* C81: the counter-based generators produce the blocks of the published
   functions of PubSpec.v. The constants are typed again from the papers. *)
From Verif Require Import Word Arr MultiWord Blocks Buffer32 LaneCtr Aes AesPy Speck ChaCha Py CtrPy CtrFacts PubSpec PubFacts PropCtr PropLane PropChaCha.
From Coq Require Import ZifyBool ZifyNat ZifyN.
Open Scope N_scope.
Ltac Zify.zify_post_hook ::= idtac.
Notation length := List.length.

(* ------------------------------------------------------ published parameters *)
(* SC11 section 4.3, table 2 and the Random123 constants *)
Definition philox_pub (n w : N) : list N -> list N -> list N :=
  match n, w with
  | 2, 32 => philox2_pub 32 0xd256d193 0x9e3779b9 10
  | 2, 64 => philox2_pub 64 0xd2b74407b1ce6e93 0x9e3779b97f4a7c15 10
  | 4, 32 => philox4_pub 32 0xd2511f53 0xcd9e8d57 0x9e3779b9 0xbb67ae85 10
  | 4, 64 => philox4_pub 64 0xd2e7470ee14c6c93 0xca5a826395121157 0x9e3779b97f4a7c15 0xbb67ae8584caa73b 10
  | _, _ => fun _ x => x
  end.
(* rotation amounts by round (mod 8) and pair *)
Definition tf_tab (t : list (list N)) (d j : nat) : N := nth j (nth d t []) 0.
Definition threefry_std (n w : N) : list N -> list N -> list N :=
  match n, w with
  | 2, 32 => threefry_pub 32 0x1bd11bda 2 (tf_tab [[13]; [15]; [26]; [6]; [17]; [29]; [16]; [24]]) [0; 1]%nat 20
  | 2, 64 => threefry_pub 64 0x1bd11bdaa9fc1a22 2 (tf_tab [[16]; [42]; [12]; [31]; [16]; [32]; [24]; [21]]) [0; 1]%nat 20
  | 4, 32 => threefry_pub 32 0x1bd11bda 4 (tf_tab [[10; 26]; [11; 21]; [13; 27]; [23; 5]; [6; 20]; [17; 11]; [25; 10]; [18; 20]]) [0; 3; 2; 1]%nat 20
  | 4, 64 => threefry_pub 64 0x1bd11bdaa9fc1a22 4 (tf_tab [[14; 16]; [52; 57]; [23; 40]; [5; 37]; [25; 33]; [46; 12]; [58; 22]; [32; 32]]) [0; 3; 2; 1]%nat 20
  | _, _ => fun _ x => x
  end.
(* the Weyl constants are the leading bits of the golden ratio and of sqrt 3 - 1 *)
Example ex_golden64 : let G := 0x9e3779b97f4a7c15 in (2 * G + 2 ^ 64) ^ 2 < 5 * 2 ^ 128 < (2 * (G + 1) + 2 ^ 64) ^ 2.
Proof. split; reflexivity. Qed.
Example ex_golden32 : let G := 0x9e3779b9 in (2 * G + 2 ^ 32) ^ 2 < 5 * 2 ^ 64 < (2 * (G + 1) + 2 ^ 32) ^ 2.
Proof. split; reflexivity. Qed.
Example ex_sqrt3_64 : let G := 0xbb67ae8584caa73b in (G + 2 ^ 64) ^ 2 < 3 * 2 ^ 128 < (G + 1 + 2 ^ 64) ^ 2.
Proof. split; reflexivity. Qed.
Example ex_sqrt3_32 : let G := 0xbb67ae85 in (G + 2 ^ 32) ^ 2 < 3 * 2 ^ 64 < (G + 1 + 2 ^ 32) ^ 2.
Proof. split; reflexivity. Qed.

(* ------------------------------------------------------------ Philox, ThreeFry *)
Theorem C81_philox_block : forall n w key ctr, In (n, w) variants -> words w (N.to_nat (n / 2)) key -> words w (N.to_nat n) ctr ->
  blockfn Philox (n, w) key ctr = philox_pub n w key ctr.
Proof.
  intros n w key ctr Hv [Lk Wk] [Lc _].
  destruct Hv as [E|[E|[E|[E|[]]]]]; injection E as <- <-; cbn in Lk, Lc.
  - destruct key as [|k0 [|k1 [|]]]; try discriminate. inversion_clear Wk as [|? ? K0 W0]. inversion_clear W0 as [|? ? K1 _]. now apply philox4_ok.
  - destruct key as [|k0 [|]]; try discriminate. inversion_clear Wk as [|? ? K0 W0]. now apply philox2_ok.
  - destruct key as [|k0 [|k1 [|]]]; try discriminate. inversion_clear Wk as [|? ? K0 W0]. inversion_clear W0 as [|? ? K1 _]. now apply philox4_ok.
  - destruct key as [|k0 [|]]; try discriminate. inversion_clear Wk as [|? ? K0 W0]. now apply philox2_ok.
Qed.
Lemma rots2 w rots : forallb (fun r => (0 <? r) && (r <? w)) rots = true -> length rots = 8%nat -> forall i, (i < 8)%nat -> 0 < nth i rots 0 < w.
Proof.
  intros H L i Hi. assert (Q : (i < length rots)%nat) by lia. rewrite forallb_forall in H. specialize (H (nth i rots 0) (nth_In _ _ Q)). cbv beta in H. lia.
Qed.
Lemma rots4 w rots : forallb (fun r => (0 <? fst r) && (fst r <? w) && (0 <? snd r) && (snd r <? w)) rots = true -> length rots = 8%nat ->
  forall i, (i < 8)%nat -> 0 < fst (nth i rots (0, 0)) < w /\ 0 < snd (nth i rots (0, 0)) < w.
Proof.
  intros H L i Hi. assert (Q : (i < length rots)%nat) by lia. rewrite forallb_forall in H. specialize (H (nth i rots (0, 0)) (nth_In _ _ Q)). cbv beta in H. lia.
Qed.
Lemma tf_pub_ext w C n R R' pi key ctr : (forall d j, (d < 8)%nat -> (j < n / 2)%nat -> R d j = R' d j) ->
  threefry_pub w C n R pi 20 key ctr = threefry_pub w C n R' pi 20 key ctr.
Proof.
  intros H.
  assert (E : forall ks d v, tf_pub_round w n R pi ks v d = tf_pub_round w n R' pi ks v d).
  { intros ks d v. unfold tf_pub_round. cbv zeta. apply map_ext_in. intros p _. apply (f_equal (fun f => at_ f p)).
    rewrite !flat_map_concat_map. apply (f_equal (@concat N)). apply map_ext_in. intros j Hj.
    apply in_seq in Hj. rewrite H; [reflexivity|apply Nat.mod_upper_bound; discriminate|lia]. }
  assert (F : forall ks l v, fold_left (tf_pub_round w n R pi ks) l v = fold_left (tf_pub_round w n R' pi ks) l v).
  { intros ks l. induction l as [|d l IH]; intros v; [reflexivity|]. cbn [fold_left]. now rewrite IH, E. }
  unfold threefry_pub. cbv zeta. now rewrite F.
Qed.
Ltac small8 d := do 8 (destruct d as [|d]; [reflexivity|]); lia.
Theorem C81_threefry_block : forall n w key ctr, In (n, w) variants -> words w (N.to_nat n) key -> words w (N.to_nat n) ctr ->
  blockfn ThreeFry (n, w) key ctr = threefry_std n w key ctr.
Proof.
  intros n w key ctr Hv [Lk _] [Lc _].
  destruct Hv as [E|[E|[E|[E|[]]]]]; injection E as <- <-; cbn in Lk, Lc.
  - destruct key as [|k0 [|k1 [|k2 [|k3 [|]]]]]; try discriminate. destruct ctr as [|x0 [|x1 [|x2 [|x3 [|]]]]]; try discriminate.
    cbn [blockfn]. unfold threefry4x64. rewrite threefry4_ok by (apply rots4; reflexivity).
    apply tf_pub_ext. intros d [|[|j]] Hd Hj; [small8 d|small8 d|cbn in Hj; lia].
  - destruct key as [|k0 [|k1 [|]]]; try discriminate. destruct ctr as [|x0 [|x1 [|]]]; try discriminate.
    cbn [blockfn]. unfold threefry2x64. rewrite threefry2_ok by (apply rots2; reflexivity).
    apply tf_pub_ext. intros d [|j] Hd Hj; [small8 d|cbn in Hj; lia].
  - destruct key as [|k0 [|k1 [|k2 [|k3 [|]]]]]; try discriminate. destruct ctr as [|x0 [|x1 [|x2 [|x3 [|]]]]]; try discriminate.
    cbn [blockfn]. unfold threefry4x32. rewrite threefry4_ok by (apply rots4; reflexivity).
    apply tf_pub_ext. intros d [|[|j]] Hd Hj; [small8 d|small8 d|cbn in Hj; lia].
  - destruct key as [|k0 [|k1 [|]]]; try discriminate. destruct ctr as [|x0 [|x1 [|]]]; try discriminate.
    cbn [blockfn]. unfold threefry2x32. rewrite threefry2_ok by (apply rots2; reflexivity).
    apply tf_pub_ext. intros d [|j] Hd Hj; [small8 d|cbn in Hj; lia].
Qed.
(* value i after seed(key, counter): word i mod n of the published block of
   counter + 1 + i/n *)
Definition block_word (blk : list N -> list N) (n w start i : N) : N :=
  nth (N.to_nat (i mod n)) (blk (to_words w (N.to_nat n) (start + i / n))) 0.
Lemma stream_word blk n w start i : n <> 0 ->
  nth (N.to_nat ((n * start + i) mod n)) (blk (to_words w (N.to_nat n) ((n * start + i) / n))) 0 = block_word blk n w start i.
Proof.
  intros Hn. unfold block_word. rewrite N.mul_comm, N.add_comm, N.mod_add, N.div_add by exact Hn. now rewrite (N.add_comm (i / n)).
Qed.
Lemma var_nz n w : In (n, w) variants -> n <> 0.
Proof. intros [E|[E|[E|[E|[]]]]]; injection E as <- <-; discriminate. Qed.
Lemma tw_words w k v : words w k (to_words w k v).
Proof. split; [apply to_words_length|apply to_words_wf]. Qed.
Theorem C81_philox_stream : forall n w key counter k, In (n, w) variants -> counter < 2 ^ (w * n) ->
  option_map snd (vdraws Philox n w k (o_st (seed_key Philox (n, w) key counter)))
  = Some (map (fun i => block_word (philox_pub n w (to_words w (N.to_nat (n / 2)) key)) n w (counter + 1) (N.of_nat i)) (seq 0 (N.to_nat k))).
Proof.
  intros n w key counter k Hv Hc. rewrite C07_philox_seeded_stream by assumption. f_equal. apply map_ext. intros i.
  unfold vstream. rewrite C81_philox_block by (assumption || apply tw_words).
  apply (stream_word (philox_pub n w _)). exact (var_nz n w Hv).
Qed.
Theorem C81_threefry_stream : forall n w key counter k, In (n, w) variants -> counter < 2 ^ (w * n) ->
  option_map snd (vdraws ThreeFry n w k (o_st (seed_key ThreeFry (n, w) key counter)))
  = Some (map (fun i => block_word (threefry_std n w (to_words w (N.to_nat n) key)) n w (counter + 1) (N.of_nat i)) (seq 0 (N.to_nat k))).
Proof.
  intros n w key counter k Hv Hc. rewrite C08_threefry_seeded_stream by assumption. f_equal. apply map_ext. intros i.
  unfold vstream. rewrite C81_threefry_block by (assumption || apply tw_words).
  apply (stream_word (threefry_std n w _)). exact (var_nz n w Hv).
Qed.
(* the known-answer vectors of Random123 (kat_vectors), on the published functions *)
Example ex_kat_philox2x32 : philox_pub 2 32 [0x13198a2e] [0x243f6a88; 0x85a308d3] = [0xdd7ce038; 0xf62a4c12].
Proof. vm_compute. reflexivity. Qed.
Example ex_kat_philox2x64 : philox_pub 2 64 [0] [0; 0] = [0xca00a0459843d731; 0x66c24222c9a845b5].
Proof. vm_compute. reflexivity. Qed.
Example ex_kat_philox4x32 : philox_pub 4 32 [0; 0] [0; 0; 0; 0] = [0x6627e8d5; 0xe169c58d; 0xbc57ac4c; 0x9b00dbd8].
Proof. vm_compute. reflexivity. Qed.
Example ex_kat_threefry2x32 : threefry_std 2 32 [0; 0] [0; 0] = [0x6b200159; 0x99ba4efe].
Proof. vm_compute. reflexivity. Qed.
Example ex_kat_threefry2x64 : threefry_std 2 64 [0; 0] [0; 0] = [0xc2b6e3a8c2c69865; 0x6f81ed42f350084d].
Proof. vm_compute. reflexivity. Qed.
Example ex_kat_threefry4x32 : threefry_std 4 32 [0; 0; 0; 0] [0; 0; 0; 0] = [0x9c6ca96a; 0xe17eae66; 0xfc10ecd4; 0x5256a7d8].
Proof. vm_compute. reflexivity. Qed.
Example ex_kat_threefry4x64 : threefry_std 4 64 [0; 0; 0; 0] [0; 0; 0; 0]
  = [0x09218ebde6c85537; 0x55941f5266d86105; 0x4bd25e16282434dc; 0xee29ec846bd2e40b].
Proof. vm_compute. reflexivity. Qed.
Example ex_philox_stream : In (4, 64) variants /\ (5 < 2 ^ (64 * 4)).
Proof. split; [now left|reflexivity]. Qed.

(* ------------------------------------------------------------------------ AES *)
Theorem C81_aes_block : forall key blk, words 8 16 key -> words 8 16 blk ->
  tiny_encrypt (tiny_expand key) blk = aes128 key blk /\ ni_encrypt (ni_expand key) blk = aes128 key blk.
Proof.
  intros key blk Hk Hb. pose proof (aes128_ok key blk Hk Hb) as E. split; [exact E|].
  rewrite ni_expand_tiny by exact Hk. rewrite ni_encrypt_tiny; [exact E|apply tiny_expand_words, Hk|exact Hb].
Qed.
(* the inverse in the definition of the S-box is one *)
Theorem C81_aes_sbox_inverse : forall x, x < 256 -> gf_mul x (gf_inv x) = (if x =? 0 then 0 else 1) /\ gf_inv x < 256.
Proof.
  intros x H. assert (E : (gf_mul x (gf_inv x) =? (if x =? 0 then 0 else 1)) && (gf_inv x <? 256) = true).
  { revert x H. apply (all_bytes_ok (fun x => (gf_mul x (gf_inv x) =? (if x =? 0 then 0 else 1)) && (gf_inv x <? 256))). vm_compute. reflexivity. }
  apply andb_prop in E. destruct E as [A B]. split; [now apply N.eqb_eq|now apply N.ltb_lt].
Qed.
Lemma block16_psplit v : block16 (psplit v) = to_words 8 16 v.
Proof.
  destruct (block16_words (psplit v)) as [L W]. rewrite <- (to_words_lv 8 (block16 (psplit v)) 16 L W).
  rewrite <- (to_words_mod 8 16 v). f_equal. unfold block16. rewrite lv_app, to_words_length, !to_words_val.
  change (8 * N.of_nat 8) with 64. change (8 * N.of_nat 16) with 128. destruct (psplit_wf v) as [A B].
  rewrite !N.mod_small by assumption. apply pval_psplit.
Qed.
(* the value number i after seed(key, counter) *)
Definition aes_word (key counter i : N) : N :=
  let out := aes128 (to_words 8 16 key) (to_words 8 16 (counter + i / 2)) in
  lv 8 (if i mod 2 =? 0 then firstn 8 out else skipn 8 out).
Lemma half_index c i : (2 * c + i) / 2 = c + i / 2 /\ (2 * c + i) mod 2 = i mod 2.
Proof.
  rewrite N.mul_comm, N.add_comm, N.div_add, N.mod_add by discriminate. split; [apply N.add_comm|reflexivity].
Qed.
Theorem C81_aes_stream : forall key counter k b, counter < 2 ^ 128 -> length (l_buf (core b)) = 64%nat ->
  option_map snd (aes_draws k (core (aes_seed key counter b))) = Some (map (fun i => aes_word key counter (N.of_nat i)) (seq 0 k)).
Proof.
  intros key counter k b Hc Hb. rewrite C05_aes_seeded_stream by assumption. f_equal. apply map_ext. intros i.
  unfold aes_stream, lstream. destruct (half_index counter (N.of_nat i)) as [D M]. rewrite D, M.
  unfold aes_enc, aes_word. rewrite aes_seed_key, aes128_ok by apply block16_words. rewrite !block16_psplit. unfold unblock16. cbn [fst snd].
  destruct (_ =? _); reflexivity.
Qed.
(* FIPS 197 appendix C.1 and appendix A.1 *)
Example ex_fips_c1 : aes128 (map N.of_nat (seq 0 16)) (map (fun i => 17 * N.of_nat i) (seq 0 16))
  = [0x69; 0xc4; 0xe0; 0xd8; 0x6a; 0x7b; 0x04; 0x30; 0xd8; 0xcd; 0xb7; 0x80; 0x70; 0xb4; 0xc5; 0x5a].
Proof. vm_compute. reflexivity. Qed.
Example ex_fips_a1 : nth 43 (aes_kexp [0x2b; 0x7e; 0x15; 0x16; 0x28; 0xae; 0xd2; 0xa6; 0xab; 0xf7; 0x15; 0x88; 0x09; 0xcf; 0x4f; 0x3c]) [] = [0xb6; 0x63; 0x0c; 0xa6].
Proof. vm_compute. reflexivity. Qed.
Example ex_aes_hyps : 2 ^ 128 - 2 < 2 ^ 128 /\ length (l_buf (core aes_zero)) = 64%nat.
Proof. split; reflexivity. Qed.

(* ---------------------------------------------------------------------- SPECK *)
Definition key_word (key j : N) : N := key / 2 ^ (64 * j) mod 2 ^ 64.
(* a block (x, y) is stored y first *)
Definition speck_word (T : nat) (key counter i : N) : N :=
  let c := (counter + i / 2) mod 2 ^ 128 in
  let '(x, y) := speck_pub (key_word key 0) (key_word key 1) (key_word key 2) (key_word key 3) T (c / 2 ^ 64, c mod 2 ^ 64) in
  if i mod 2 =? 0 then y else x.
Theorem C81_speck_keys : forall key, sp_expand key = speck_keys (key_word key 0) (key_word key 1) (key_word key 2) (key_word key 3) 34.
Proof. exact speck_expand_ok. Qed.
Lemma psplit_div v : psplit v = (v mod 2 ^ 128 mod 2 ^ 64, v mod 2 ^ 128 / 2 ^ 64).
Proof.
  rewrite <- psplit_mod. unfold psplit. f_equal. apply N.mod_small, N.div_lt_upper_bound; [discriminate|].
  apply (N.mod_lt v (2 ^ 128)). discriminate.
Qed.
Theorem C81_speck_stream : forall key counter T k (b : speck),
  counter < 2 ^ 128 -> length (l_buf (core b)) = 96%nat -> sk_rounds (l_key (core b)) = Z.of_nat T -> (1 <= T <= 34)%nat ->
  option_map snd (sp_draws k (core (sp_seed key counter b))) = Some (map (fun i => speck_word T key counter (N.of_nat i)) (seq 0 k)).
Proof.
  intros key counter T k b Hc Hb HT RT. assert (RZ : (0 < sk_rounds (l_key (core b)) <= 34)%Z) by (rewrite HT; clear - RT; lia).
  rewrite C06_speck_seeded_stream by assumption.
  f_equal. apply map_ext. intros i. unfold sp_stream, lstream. destruct (half_index counter (N.of_nat i)) as [D M]. rewrite D, M.
  unfold sp_enc, sk_used, speck_word. cbn [sp_seed core l_key sk_rk sk_rounds]. rewrite HT, Nat2Z.id.
  rewrite firstn_map, C81_speck_keys, speck_keys_prefix by exact RT. rewrite psplit_div. set (c := (counter + N.of_nat i / 2) mod 2 ^ 128).
  assert (Wk : Forall (wf 64) (speck_keys (key_word key 0) (key_word key 1) (key_word key 2) (key_word key 3) T)).
  { rewrite <- speck_keys_prefix, <- C81_speck_keys by exact RT. apply PubFacts.Forall_firstn, sp_expand_words. }
  rewrite speck_rounds_ok; [|exact Wk|apply N.mod_lt; discriminate|].
  - unfold speck_pub. destruct (fold_left speck_round _ _) as [x y]. reflexivity.
  - apply N.div_lt_upper_bound; [discriminate|]. apply (N.mod_lt _ (2 ^ 128)). discriminate.
Qed.
(* the test vector of the SPECK paper *)
Example ex_speck_kat : speck_pub 0x0706050403020100 0x0f0e0d0c0b0a0908 0x1716151413121110 0x1f1e1d1c1b1a1918 34 (0x65736f6874206e49, 0x202e72656e6f6f70)
  = (0x4109010405c0f53e, 0x4eeeb48d9c188f43).
Proof. vm_compute. reflexivity. Qed.
Example ex_speck_hyps : 2 ^ 128 - 2 < 2 ^ 128 /\ length (l_buf (core (sp_zero 34))) = 96%nat /\ sk_rounds (l_key (core (sp_zero 34))) = Z.of_nat 34.
Proof. split; [reflexivity|split; reflexivity]. Qed.

(* --------------------------------------------------------------------- ChaCha *)
Definition chacha_word (rounds : nat) (key counter i : N) : N :=
  let p := (counter + i) mod 2 ^ 128 in
  nth (N.to_nat (p mod 16)) (chacha_pub rounds (to_words 32 8 key) (to_words 32 4 (p / 16))) 0.
(* ps: the code path used at each draw *)
Theorem C81_chacha_stream : forall p key counter b ps R, counter < 2 ^ 128 -> cc_rounds b = (2 * Z.of_nat R)%Z ->
  option_map snd (cc_draws ps (cc_seed p key counter b))
  = Some (map (fun i => chacha_word (2 * R) key counter (N.of_nat i)) (seq 0 (length ps))).
Proof.
  intros p key counter b ps R Hc HR. rewrite C47_chacha_seeded_stream by exact Hc. f_equal. apply map_ext. intros i.
  rewrite HR. unfold cc_stream, chacha_word. cbv zeta. set (v := counter + N.of_nat i).
  assert (E : v mod 16 = v mod 2 ^ 128 mod 16).
  { change (2 ^ 128) with (16 * 2 ^ 124). rewrite N.mod_mul_r by discriminate. rewrite (N.mul_comm 16 (_ mod _)), N.mod_add by discriminate.
    symmetry. apply N.mod_mod. discriminate. }
  rewrite E. f_equal. unfold blk, chacha_pub. cbv zeta. rewrite map2_zip, cc_core_ok; [reflexivity|].
  split; [rewrite !app_length, !to_words_length; reflexivity|].
  apply Forall_app. split; [repeat constructor|]. apply Forall_app. split; apply to_words_wf.
Qed.
Example ex_chacha_kat : firstn 4 (chacha_pub 20 (repeat 0 8) (repeat 0 4)) = [0xade0b876; 0x903df1a0; 0xe56a5d40; 0x28bd8653].
Proof. vm_compute. reflexivity. Qed.
Example ex_chacha_hyps : 2 ^ 128 - 3 < 2 ^ 128 /\ cc_rounds (cc_zero 20) = (2 * Z.of_nat 10)%Z.
Proof. split; reflexivity. Qed.

Print Assumptions C81_philox_block.
Print Assumptions C81_threefry_block.
Print Assumptions C81_philox_stream.
Print Assumptions C81_threefry_stream.
Print Assumptions C81_aes_block.
Print Assumptions C81_aes_sbox_inverse.
Print Assumptions C81_aes_stream.
Print Assumptions C81_speck_keys.
Print Assumptions C81_speck_stream.
Print Assumptions C81_chacha_stream.
