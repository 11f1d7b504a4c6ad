(* C21: seeding a used generator, for the classes whose seed() fills the memory of the old object *)
From Verif Require Import Word Arr Buffer32 Py MultiWord Blocks Ctr CtrPy CtrFacts Mt19937 Mt64 Pcg Xoshiro Reseed.
From Coq Require Import String ZifyBool ZifyNat ZifyN.
Open Scope N_scope.
Notation length := List.length.
Ltac Zify.zify_post_hook ::= idtac.

(* ------------------------------------------------------------------- C21 *)
(* Philox and ThreeFry: whatever state the object is in, seed(key, counter) makes it a new object of its variant *)
Theorem C21_counter_reseed :
  forall c n w key counter old o, o_ok c o -> o_n o = Z.of_N n -> o_w o = Z.of_N w ->
  c_reseed c key counter old o = Some (seed_key c (n, w) key counter).
Proof.
  intros c n w key counter old o (n' & w' & Hin & En & Ew & Ef & [Cl _] & [Kl _] & [Bl _] & _) E1 E2.
  assert (n' = n) as -> by lia. assert (w' = w) as -> by lia.
  unfold c_reseed, seed_key. rewrite En, Ew, N2Z.id, Ef, Cl.
  replace (Z.to_nat (Z.of_N n)) with (N.to_nat n) by lia. rewrite Nat.eqb_refl. cbn [fst snd].
  rewrite !wr_words_all; try assumption; try apply to_words_length; try reflexivity.
  cbn in Hin. destruct Hin as [[= <- <-]|[[= <- <-]|[[= <- <-]|[[= <- <-]|[]]]]]; reflexivity.
Qed.
(* A rejected state assignment has already stored its "number": from then on the same seed gives the
   generator another stream, although the assignment failed *)
Definition bad_state : pyval := PDict [("bit_generator", PStr "Philox"); ("number", PInt 2)]%string.
Definition outs (c : cls) (k : nat) (o : cobj) : option (list N) :=
  option_map snd (cdraws (snd (o_fn o)) (N.log2 (fst (o_fn o))) (blockfn c (o_fn o)) k (o_st o)).
Definition half_set : cobj := Cobj 2 64 (2, 64) (o_st (seed_key Philox (4, 64) 1 0)).
Lemma half_set_reseed old : length (fst old) = 2%nat -> length (snd old) = 1%nat ->
  c_reseed Philox 1 0 old half_set = Some (seed_key Philox (2, 64) 1 0).
Proof.
  destruct old as [[|c0 [|c1 [|c2 ctr]]] [|k0 [|k1 key]]]; cbn [fst snd]; intros L1 L2; try discriminate. reflexivity.
Qed.
Theorem C21_counter_reseed_refuted :
  exists o1, c_set Philox bad_state (seed_key Philox (4, 64) 1 0) = Some (o1, Raise KeyError)
  /\ forall old, length (fst old) = 2%nat -> length (snd old) = 1%nat ->
     exists o2, c_reseed Philox 1 0 old o1 = Some o2
     /\ outs Philox 1 o2 <> outs Philox 1 (seed_key Philox (4, 64) 1 0).
Proof.
  exists half_set. split; [vm_compute; reflexivity|]. intros old L1 L2. exists (seed_key Philox (2, 64) 1 0).
  split; [now apply half_set_reseed|]. intros E. vm_compute in E. discriminate E.
Qed.
Example C21_counter_case : o_ok Philox (seed_key Philox (2, 32) 5 6) /\ o_n (seed_key Philox (2, 32) 5 6) = 2%Z.
Proof. split; [apply seed_ok; cbn; auto|reflexivity]. Qed.

(* the Mersenne twisters: every word of the key is overwritten before it is read *)
Theorem C21_mt19937_reseed :
  forall words o, length (mt_key o) = 624%nat -> mt_reseed words o = mt_seed words.
Proof. intros words o L. unfold mt_reseed. rewrite mt_genrand_on_init by exact L. reflexivity. Qed.
Theorem C21_mt19937_numpy_reseed :
  forall words o, length words = 624%nat -> length (mt_key o) = 624%nat -> mt_reseed_numpy words o = mt_seed_numpy words.
Proof.
  intros words o Lw L. unfold mt_reseed_numpy, mt_seed_numpy. destruct o as [[|x rest] pos]; [discriminate L|]. cbn [mt_key] in *. injection L as L.
  destruct words as [|y ws]; [discriminate Lw|]. injection Lw as Lw.
  pose proof (wr_words_app 623 [0x80000000] (y :: ws) rest L) as E. cbn [app length] in E.
  cbn [upd]. rewrite E. f_equal. f_equal. rewrite <- seq_shift, map_map. cbn [nth]. rewrite <- Lw. apply map_nth_seq.
Qed.
Theorem C21_mt64_reseed :
  forall words o, length (m64_key (core o)) = 312%nat -> m64_reseed words o = m64_seed words.
Proof.
  intros words o L. unfold m64_reseed, m64_seed, m64_init_by_array. rewrite m64_genrand_on_init by exact L.
  destruct (m64_loop1 _ _ _ _ _). reflexivity.
Qed.
Theorem C21_pcg_reseed :
  (forall initstate initseq o, pcg32_reseed initstate initseq o = pcg32_srandom initstate initseq)
  /\ (forall initstate initseq o, pcg64_reseed initstate initseq o = pcg64_seed (p_var (core o)) initstate initseq).
Proof. split; reflexivity. Qed.
Theorem C21_xoshiro_reseed :
  (forall words o, length words = 4%nat -> x256_reseed words o = xoshiro256_seed words)
  /\ (forall words o, length words = 8%nat -> x512_reseed words o = xoshiro512_seed words)
  /\ (forall words o, length words = 2%nat -> x128_reseed words o = xoroshiro128_new (xo_pp (core o)) words).
Proof.
  split; [|split]; intros words o L.
  - unfold x256_reseed. rewrite wr_words_all by (exact L || reflexivity). reflexivity.
  - unfold x512_reseed. rewrite wr_words_all by (exact L || reflexivity). reflexivity.
  - unfold x128_reseed. rewrite wr_words_all by (exact L || reflexivity). reflexivity.
Qed.
Example C21_reseed_keys_case : length (mt_key (MT (repeat 9 624) 17)) = 624%nat /\ length (m64_key (core (Buf (M64 (repeat 9 312) 17) true 5))) = 312%nat
  /\ x256_reseed [1; 2; 3; 4] (Buf (V4 5 6 7 8) true 9) = Buf (V4 1 2 3 4) false 0.
Proof. repeat split. Qed.

Print Assumptions C21_counter_reseed.
Print Assumptions C21_counter_reseed_refuted.
Print Assumptions C21_mt19937_reseed.
Print Assumptions C21_mt19937_numpy_reseed.
Print Assumptions C21_mt64_reseed.
Print Assumptions C21_pcg_reseed.
Print Assumptions C21_xoshiro_reseed.
