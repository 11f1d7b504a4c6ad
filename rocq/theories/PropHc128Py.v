(* C89: the key and the seed of HC128. *)
From Verif Require Import Word MultiWord Common Buffer32 Py Convert SeedSeq Hc128 Hc128Facts PcgInit Hc128Py PropHc128 PropSeedPy.
From Coq Require Import String ZifyBool ZifyNat ZifyN.
Open Scope N_scope.
Ltac Zify.zify_post_hook ::= idtac.

(* the eight 32-bit words of a 256-bit integer are the halves of its four 64-bit words *)
Lemma words_view big x : view_little_endian big 8 4 (to_words 64 4 x) = to_words 32 8 x.
Proof.
  rewrite view_64_32 by apply to_words_wf. cbn [to_words flat_map app].
  assert (H : forall y, y mod 2 ^ 64 mod 2 ^ 32 = y mod 2 ^ 32 /\ y mod 2 ^ 64 / 2 ^ 32 = y / 2 ^ 32 mod 2 ^ 32).
  { intros y. change (2 ^ 64) with (2 ^ 32 * 2 ^ 32). rewrite N.mod_mul_r by discriminate. rewrite (N.mul_comm (2 ^ 32) (_ mod _)). split.
    - rewrite N.mod_add, N.mod_mod by discriminate. reflexivity.
    - rewrite N.div_add by discriminate. rewrite (N.div_small (y mod 2 ^ 32)) by (now apply N.mod_lt). reflexivity. }
  assert (D : forall y, y / 2 ^ 64 = y / 2 ^ 32 / 2 ^ 32) by (intros y; now rewrite N.div_div by discriminate).
  rewrite ?(fun y => proj1 (H y)), ?(fun y => proj2 (H y)), ?D. reflexivity.
Qed.
Lemma ita z : (0 <= z < 2 ^ 256)%Z -> int_to_array (Some 256) 64 z = Ok (to_words 64 4 (Z.to_N z)).
Proof. exact (int_to_array_words 64 4 z (or_intror eq_refl)). Qed.
Lemma ita_out z : ~ (0 <= z < 2 ^ 256)%Z -> int_to_array (Some 256) 64 z = Raise ValueError.
Proof.
  intros H. unfold int_to_array. cbn [N.eqb Pos.eqb orb negb]. change (2 ^ Z.of_N 256)%Z with (2 ^ 256)%Z.
  assert (E : ((z <? 0) || (2 ^ 256 <=? z))%Z = true) by (revert H; generalize (2 ^ 256)%Z; clear; lia). rewrite E. reflexivity.
Qed.
Lemma key_int big z s : (0 <= z < 2 ^ 256)%Z -> exists s', hc_key big (OInt z) s = Some (Ok s') /\ hc_seed (Z.to_N z) s = Some s'.
Proof.
  intros H. destruct (hc_seed_spec (Z.to_N z) s) as (s' & E & _). exists s'. split; [|exact E]. unfold hc_key. cbn [object_to_int]. rewrite (range_in 256 z H).
  rewrite (ita z H), words_view, <- hc_seed_eq, E. reflexivity.
Qed.
Lemma arr_int big (l : list N) s : l <> [] -> Forall (fun x => x < 2 ^ 64) l -> hc_key big (OArr 64 l) s = hc_key big (OInt (Z.of_N (lv 64 l))) s.
Proof. intros NE F. unfold hc_key. cbn [object_to_int andb orb N.eqb Pos.eqb]. unfold arr_value. destruct l; [congruence|reflexivity]. Qed.
(* the 256 bits of the first four words of a SeedSequence *)
Definition seq_key256 (q : N -> list N) : N := lv 64 (q 4).
Lemma seq_in (q : N -> list N) : seq_ok q -> q 4 <> [] /\ Forall (fun x => x < 2 ^ 64) (q 4) /\ (0 <= Z.of_N (seq_key256 q) < 2 ^ 256)%Z.
Proof.
  intros Q. destruct (Q 4) as [L F]. split; [intros E; rewrite E in L; discriminate L|]. split; [exact F|]. pose proof (lv_bound _ F) as B. rewrite L in B. unfold seq_key256.
  change (2 ^ 256)%Z with (Z.of_N (2 ^ (64 * N.of_nat (N.to_nat 4)))). lia.
Qed.

(* A key below 2^256 seeds the cipher with that key; the object keeps its SeedSequence *)
Theorem C89_key : forall big q z o, (0 <= z < 2 ^ 256)%Z ->
  exists s, hc_py_seed big q false (OInt z) o = Some (Ok (HO (ho_seq o) s)) /\ hc_seed (Z.to_N z) (ho_st o) = Some s.
Proof. intros big q z o H. destruct (key_int big z (ho_st o) H) as (s & K & E). exists s. split; [|exact E]. cbn [hc_py_seed]. now rewrite K. Qed.
(* one to four 64-bit words are the integer they make, least significant word first; more words are
   accepted only when the others are zero *)
Theorem C89_key_words : forall big q seeded l o, l <> [] -> Forall (fun x => x < 2 ^ 64) l ->
  hc_py_seed big q seeded (OArr 64 l) o = hc_py_seed big q seeded (OInt (Z.of_N (lv 64 l))) o /\
  ((List.length l <= 4)%nat -> (Z.of_N (lv 64 l) < 2 ^ 256)%Z).
Proof.
  intros big q seeded l o NE F. split; [cbn [hc_py_seed]; now rewrite arr_int|]. intros L. pose proof (lv_bound _ F) as B.
  assert (P : 2 ^ (64 * N.of_nat (List.length l)) <= 2 ^ 256) by (apply N.pow_le_mono_r; [discriminate|clear - L; lia]).
  change (2 ^ 256)%Z with (Z.of_N (2 ^ 256)). revert B P. generalize (2 ^ (64 * N.of_nat (List.length l))). generalize (2 ^ 256). clear. lia.
Qed.
(* seed(seed) uses the 256 bits of four words of the SeedSequence as the key, and keeps the
   SeedSequence *)
Theorem C89_seed : forall big q seeded o, seq_ok q ->
  exists s, hc_py_seed big q seeded ONone o = Some (Ok (HO q s)) /\ hc_seed (seq_key256 q) (ho_st o) = Some s /\
  hc_py_seed big q false (OInt (Z.of_N (seq_key256 q))) o = Some (Ok (HO (ho_seq o) s)).
Proof.
  intros big q seeded o Q. destruct (seq_in q Q) as (NE & F & B). destruct (key_int big _ (ho_st o) B) as (s & K & E). rewrite N2Z.id in E. exists s.
  split; [|split; [exact E|]]; cbn [hc_py_seed]; [rewrite arr_int by assumption; fold (seq_key256 q)|]; now rewrite K.
Qed.
(* the machine's byte order does not matter *)
Theorem C89_byte_order : forall q seeded key o, seq_ok q -> hc_py_seed true q seeded key o = hc_py_seed false q seeded key o.
Proof.
  intros q seeded key o Q.
  assert (K : forall k s, hc_key true k s = hc_key false k s).
  { intros k s. unfold hc_key. destruct (object_to_int _ _ _ _ _) as [[[z|]|e]|] eqn:E; try reflexivity.
    destruct (Z_le_dec 0 z) as [H|H]; [destruct (Z_lt_dec z (2 ^ 256)) as [H'|H']|].
    2, 3: rewrite ita_out by (intros [? ?]; contradiction); reflexivity.
    rewrite (ita z (conj H H')). now rewrite !words_view. }
  unfold hc_py_seed. destruct key; now rewrite ?K.
Qed.
(* a seed and a key, a key out of range, no words, an array of two dimensions or of another element
   type, a fraction: an exception *)
Theorem C89_refused : forall big q o,
  (forall key, key <> ONone -> hc_py_seed big q true key o = Some (Raise ValueError)) /\
  (forall z, ~ (0 <= z < 2 ^ 256)%Z -> hc_py_seed big q false (OInt z) o = Some (Raise ValueError)) /\
  hc_py_seed big q false (OArr 64 []) o = Some (Raise ValueError) /\ hc_py_seed big q false (OArrNd 64) o = Some (Raise ValueError) /\
  (forall l, hc_py_seed big q false (OArr 32 l) o = Some (Raise TypeError)) /\ hc_py_seed big q false OArrBad o = Some (Raise TypeError) /\
  hc_py_seed big q false OFrac o = Some (Raise TypeError) /\ hc_py_seed big q false OBad o = Some (Raise ValueError).
Proof.
  intros big q o. split; [intros [] H; congruence || reflexivity|]. split; [|repeat split; reflexivity].
  intros z H. cbn [hc_py_seed]. unfold hc_key. cbn [object_to_int]. now rewrite (range_out 256 z H).
Qed.

(* ------------------------------------------------------------- construction *)
(* The numbers of a new generator are the published keystream, in 32-bit words, of the key in the low
   128 bits and the initialisation vector in the high 128 bits *)
Definition stream_of (key : N) (W : N -> N) : Prop :=
  wu_array (fun i => nth (N.to_nat i) (to_words 32 8 key) 0) (fun i => nth (4 + N.to_nat i) (to_words 32 8 key) 0) W.
Theorem C89_new_key : forall big q0 q z n W, (0 <= z < 2 ^ 256)%Z -> stream_of (Z.to_N z) W ->
  exists s, hc_py_new big MAbsent q0 q false (OInt z) = Some (Ok (HO q0 s)) /\ option_map snd (hc_draws n s) = Some (snd (raws wu_next n (wu_start W))).
Proof.
  intros big q0 q z n W H HW. destruct (C89_key big q z (HO q0 hc_zero) H) as (s & E & Z). destruct (C50_hc128_is_published_cipher _ n W HW) as (t & Z' & D).
  cbn [ho_st ho_seq] in E, Z. rewrite Z in Z'. injection Z' as <-. exists s. split; [exact E|exact D].
Qed.
Theorem C89_new_seed : forall big q0 q seeded n W, seq_ok q -> stream_of (seq_key256 q) W ->
  exists s, hc_py_new big MAbsent q0 q seeded ONone = Some (Ok (HO q s)) /\ option_map snd (hc_draws n s) = Some (snd (raws wu_next n (wu_start W))).
Proof.
  intros big q0 q seeded n W Q HW. destruct (C89_seed big q seeded (HO q0 hc_zero) Q) as (s & E & Z & _). destruct (C50_hc128_is_published_cipher _ n W HW) as (t & Z' & D).
  cbn [ho_st ho_seq] in Z. rewrite Z in Z'. injection Z' as <-. exists s. split; [exact E|exact D].
Qed.
(* mode: absent or "sequence" in any case *)
Theorem C89_mode : forall big q0 q seeded key m,
  hc_py_new big m q0 q seeded key = match m with
    | MAbsent => hc_py_seed big q seeded key (HO q0 hc_zero)
    | MText s => if String.eqb (lower s) "sequence" then hc_py_seed big q seeded key (HO q0 hc_zero) else Some (Raise ValueError)
    | MOther => Some (Raise ValueError)
    end.
Proof.
  intros big q0 q seeded key [|s|]; try reflexivity. unfold hc_py_new, init_mode, in_names, modes_one. cbn [existsb]. rewrite orb_false_r. destruct (String.eqb (lower s) "sequence"); reflexivity.
Qed.
(* after seed(key=key) the SeedSequence of the object is still the earlier one, which no longer
   tells how the stream was made: an object made from q and the same object after any key report q *)
Theorem C89_sequence_after_key : forall big q z, seq_ok q -> (0 <= z < 2 ^ 256)%Z -> Z.to_N z <> seq_key256 q ->
  exists s t, hc_py_new big MAbsent q q true ONone = Some (Ok (HO q s)) /\ hc_py_seed big q false (OInt z) (HO q s) = Some (Ok (HO q t)) /\ s <> t.
Proof.
  intros big q z Q H NE. destruct (C89_seed big q true (HO q hc_zero) Q) as (s & E & Z & _). destruct (C89_key big q z (HO q s) H) as (t & E' & Z'). exists s, t.
  split; [exact E|]. split; [exact E'|]. cbn [ho_st] in Z, Z'. intros <-. apply NE. destruct (seq_in q Q) as (_ & _ & B).
  refine (C25_hc128_distinct_keys _ _ _ _ s s _ _ Z' Z eq_refl eq_refl).
  - apply N2Z.inj_lt. rewrite Z2N.id by apply H. exact (proj2 H).
  - apply N2Z.inj_lt. exact (proj2 B).
Qed.

Example C89_case : (0 <= 2 ^ 255 + 12345 < 2 ^ 256)%Z /\ seq_key256 (fun n => repeat 7 (N.to_nat n)) = 7 + 7 * 2 ^ 64 + 7 * 2 ^ 128 + 7 * 2 ^ 192 /\
  seq_ok (fun n => repeat 7 (N.to_nat n)) /\ Z.to_N (2 ^ 255 + 12345) <> seq_key256 (fun n => repeat 7 (N.to_nat n)) /\
  lv 64 [5; 6; 7] = 5 + 6 * 2 ^ 64 + 7 * 2 ^ 128 /\ (exists W, stream_of (2 ^ 255 + 12345) W) /\ lower "Sequence" = "sequence"%string.
Proof.
  split; [split; [discriminate|reflexivity]|]. split; [reflexivity|]. split.
  { intros n. split; [apply repeat_length|]. apply Forall_forall. intros x X. apply repeat_spec in X. rewrite X. reflexivity. }
  split; [discriminate|]. split; [reflexivity|]. split; [apply C50_hc128_array_exists|reflexivity].
Qed.

Print Assumptions C89_key.
Print Assumptions C89_key_words.
Print Assumptions C89_seed.
Print Assumptions C89_byte_order.
Print Assumptions C89_refused.
Print Assumptions C89_new_key.
Print Assumptions C89_new_seed.
Print Assumptions C89_mode.
Print Assumptions C89_sequence_after_key.
