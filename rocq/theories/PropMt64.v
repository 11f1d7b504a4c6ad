(* MT64: refinement to the published recurrence, seeding and state *)
From Verif Require Import Word Arr Buffer32 OptBuffer Py Half Finite SeedSeq SeedSeqFacts Mt64 Mt64Facts Kat.
From Coq Require Import String ZifyBool ZifyNat ZifyN.
Open Scope N_scope.
Ltac Zify.zify_post_hook ::= idtac.

(* x is the sequence of the published recurrence that starts with the words of key *)
Definition starts (key : list N) (x : N -> N) : Prop :=
  (forall n, x n < 2 ^ 64) /\ m64rec x /\ forall i, i < 312 -> x i = nth (N.to_nat i) key 0.
(* a legal array: 312 words of 64 bits *)
Definition legal (key : list N) : Prop := List.length key = 312%nat /\ Forall (fun w => w < 2 ^ 64) key.
Lemma legal_kok key : legal key <-> kok key.
Proof. unfold legal, kok. split; intros [L F]; (split; [|exact F]); [now rewrite L|clear - L; lia]. Qed.
Lemma starts_ring key x : kok key -> starts key x -> wfs x /\ m64rec x /\ ring key 0 x.
Proof.
  intros [L F] [W [R H]]. split; [exact W|split; [exact R|]]. split; [exact L|split; [lia|]]. intros i Hi.
  replace (wr 0 i) with i by (unfold wr; destruct (0 + i <? 312)%Z eqn:E; lia).
  rewrite (rd_nth key i 0) by lia. f_equal. rewrite H by lia. f_equal. lia.
Qed.
Lemma starts_m64seq key : kok key -> starts key (m64seq key).
Proof.
  intros K. split; [exact (m64seq_wfs key K)|split; [now apply m64seq_rec|]]. intros i Hi.
  symmetry. apply (iter_nth i 0 key K Hi).
Qed.
Lemma starts_stream key p x : kok key -> (0 <= p <= 312)%Z -> starts key x -> stream (M64 key p) (fun i => x (Z.to_N p + i)).
Proof.
  intros K P S. destruct (starts_ring key x K S) as (W & R & H). split; [exact P|]. exists x. repeat (split; [assumption|]). reflexivity.
Qed.
Definition ex_key : list N := map (fun i => N.of_nat i * 6364136223846793005 mod 2 ^ 64) (seq 1 312).
Lemma ex_key_legal : legal ex_key.
Proof. split; [reflexivity|]. apply Forall_forall. intros w I. apply in_map_iff in I. destruct I as (i & <- & _). apply N.mod_lt. discriminate. Qed.

(* ------------------------------------------------------------------- C59 *)
(* the generator is the 64-bit Mersenne Twister: from every state with
   0 <= pos <= 312 the n draws are the tempered words of the recurrence *)
Theorem C59_mt64_is_the_recurrence :
  forall key pos x n, legal key -> (0 <= pos <= 312)%Z -> starts key x ->
  option_map snd (m64_draws n (M64 key pos)) = Some (map (fun i => m64_temper (x (Z.to_N pos + N.of_nat i))) (seq 0 n)).
Proof.
  intros key pos x n L P S. apply legal_kok in L.
  destruct (draws_stream n _ _ (starts_stream key pos x L P S)) as (s & E & _). now rewrite E.
Qed.
Theorem C59_mt64_sequence_exists : forall key, legal key -> exists x, starts key x /\ forall y, starts key y -> forall n, y n = x n.
Proof.
  intros key L. apply legal_kok in L. exists (m64seq key). split; [now apply starts_m64seq|]. intros y [_ [R H]].
  apply rec_unique; [exact R|now apply m64seq_rec|]. intros i Hi. rewrite H by exact Hi. symmetry. apply (starts_m64seq key L). exact Hi.
Qed.
(* the output of mt19937-64.out for init_by_array64({0x12345, 0x23456, 0x34567, 0x45678}),
   and tests/data/mt64-testset-1.csv *)
Example C59_mt64_known_answers :
  option_map snd (m64_draws 3 (m64_init_by_array [0x12345; 0x23456; 0x34567; 0x45678])) = Some [7266447313870364031; 4946485549665804864; 16945909448695747420].
Proof. vm_compute. reflexivity. Qed.
Example kat_mt64 : opt_raws m64_next 3 (core (m64_seed (k64 beaf 312))) = [0xa8e9e04879e3ea55; 0x59263d56f53e1641; 0x5f34bdea964ae072].
Proof. vm_compute. reflexivity. Qed.
Example C59_mt64_case : legal ex_key /\ starts ex_key (m64seq ex_key).
Proof. split; [exact ex_key_legal|]. apply starts_m64seq, legal_kok, ex_key_legal. Qed.

(* ------------------------------------------------------------------- C49 *)
Theorem C49_mt64_temper_bijective : forall v, v < 2 ^ 64 -> exists y, y < 2 ^ 64 /\ m64_temper y = v /\ forall z, z < 2 ^ 64 -> m64_temper z = v -> z = y.
Proof.
  intros v Hv. destruct (inj_surj (2 ^ 64) m64_temper (fun y H => temper_wf y H) (fun a b Ha Hb E => temper_inj a b Ha Hb E) v Hv) as (y & Hy & E).
  exists y. split; [exact Hy|split; [exact E|]]. intros z Hz Ez. apply temper_inj; [exact Hz|exact Hy|congruence].
Qed.

(* ------------------------------------------------------------------- C24 *)
Theorem C24_mt64_block_injective :
  forall key key' pos pos', legal key -> legal key' -> (pos <= 312)%Z -> (pos' <= 312)%Z -> m64_gen (M64 key pos) = m64_gen (M64 key' pos') ->
  tl key = tl key' /\ N.land (hd 0 key) 0xFFFFFFFF80000000 = N.land (hd 0 key') 0xFFFFFFFF80000000.
Proof.
  intros key key' pos pos' L L' P P' E. apply legal_kok in L, L'. destruct (gen_inj key pos key' pos' ltac:(lia) ltac:(lia) L L' E) as [A B].
  destruct L as [L _], L' as [L' _]. destruct key as [|a l]; [cbn in L; lia|]. destruct key' as [|a' l']; [cbn in L'; lia|].
  split; [|exact B]. cbn [tl]. cbn [List.length] in L, L'. apply (nth_ext _ _ 0 0); [lia|]. intros n Hn.
  pose proof (A (Z.of_nat (S n)) ltac:(lia)) as X. rewrite !(rd_nth _ _ 0) in X by (cbn [List.length]; lia). rewrite !Nat2Z.id in X. cbn [nth] in X. congruence.
Qed.
Theorem C24_mt64_unused_bits :
  forall a b l pos n, legal (a :: l) -> legal (b :: l) -> N.land a 0xFFFFFFFF80000000 = N.land b 0xFFFFFFFF80000000 -> (1 <= pos <= 312)%Z ->
  option_map snd (m64_draws n (M64 (a :: l) pos)) = option_map snd (m64_draws n (M64 (b :: l) pos)).
Proof.
  intros a b l pos n La Lb E P. apply legal_kok in La, Lb.
  destruct (draws_stream n _ _ (block_stream _ pos La ltac:(lia))) as (s & D & _).
  destruct (draws_stream n _ _ (block_stream _ pos Lb ltac:(lia))) as (t & D' & _). rewrite D, D'. cbn [option_map snd]. f_equal.
  assert (X : forall i, 0 < i -> m64seq (a :: l) i = m64seq (b :: l) i).
  { assert (Sa := starts_m64seq _ La). assert (Sb := starts_m64seq _ Lb). destruct Sa as (Wa & Ra & Ha), Sb as (Wb & Rb & Hb).
    intros i Hi. induction i as [i IH] using (well_founded_induction N.lt_wf_0). destruct (i <? 312) eqn:F.
    - rewrite Ha, Hb by lia. replace (N.to_nat i) with (S (N.to_nat (i - 1))) by lia. reflexivity.
    - replace i with (i - 312 + 312) by lia. rewrite (m64rec_tw _ Wa Ra), (m64rec_tw _ Wb Rb). rewrite (IH (i - 312 + 156)), (IH (i - 312 + 1)) by lia. f_equal.
      unfold m64_tw. f_equal. unfold m64_y. f_equal. destruct (N.eq_dec (i - 312) 0) as [Z|Nz]; [|rewrite IH by lia; reflexivity].
      rewrite Z, (Ha 0), (Hb 0) by lia. exact E. }
  apply map_ext. intros i. unfold shifted. f_equal. apply X. lia.
Qed.
Example C24_mt64_case : legal (0x80000000 :: tl ex_key) /\ legal (0x80001234 :: tl ex_key) /\ N.land 0x80000000 0xFFFFFFFF80000000 = N.land 0x80001234 0xFFFFFFFF80000000.
Proof.
  assert (A : forall a, a < 2 ^ 64 -> legal (a :: tl ex_key)).
  { intros a H. destruct ex_key_legal as [L F]. split; [exact L|]. constructor; [exact H|]. change ex_key with (hd 0 ex_key :: tl ex_key) in F. inversion F. assumption. }
  split; [apply A; reflexivity|]. split; [apply A; reflexivity|reflexivity].
Qed.

(* ------------------------------------------------------------------- C26 *)
Theorem C26_mt64_never_all_zero :
  forall words n s vs, m64_draws n (core (m64_seed words)) = Some (s, vs) -> ~ Forall (eq 0) (m64_key s).
Proof.
  intros words n s vs. destruct (seed_ok words) as (K & P & Z). apply never_zero; cbn [m64_seed core]; [exact K|rewrite P; lia|rewrite Z; discriminate].
Qed.

(* ------------------------------------------------------------------- C20 *)
Definition good (s : m64) : Prop := legal (m64_key s) /\ (0 <= m64_pos s <= 312)%Z.
Lemma step_good s : good s -> exists s' v, m64_next s = Some (s', v) /\ good s' /\ wf 64 v.
Proof.
  intros [L P]. destruct s as [key pos]. cbn [m64_key m64_pos] in *. apply legal_kok in L.
  destruct (next_stream _ _ (block_stream key pos L P)) as (s & E & [P1 (y & W & R & H & _)]).
  exists s. eexists. split; [exact E|]. split; [split; [apply legal_kok; exact (ring_kok _ _ _ W H)|exact P1]|].
  apply temper_wf. apply m64seq_wfs, L.
Qed.
(* from every legal array and 0 <= pos <= 312, seeded states among them, every
   access of any sequence of 32- and 64-bit draws is in bounds, and the state stays such *)
Theorem C20_mt64_draws_safe :
  forall rs b, good (core b) -> exists b' vs, orun m64_next rs b = Some (b', vs) /\ good (core b').
Proof.
  intros rs b G. destruct (orun_run m64_next good step_good rs b G) as [E I]. destruct (run (tot m64_next) rs b) as [b' vs]. exists b', vs. split; assumption.
Qed.
Theorem C20_mt64_seeded : forall words, good (core (m64_seed words)).
Proof. intros words. destruct (seed_ok words) as (K & P & _). split; [now apply legal_kok|cbn [m64_seed core]; rewrite P; lia]. Qed.
(* the setter takes any C int as pos; a negative one reads outside of the array,
   larger ones are handled like 312, but for 313 *)
Theorem C20_mt64_accepted_states : forall key pos, legal key -> (m64_next (M64 key pos) <> None <-> (0 <= pos)%Z).
Proof.
  intros key pos L. pose proof L as L'. apply legal_kok in L. split.
  - intros H. unfold m64_next in H. cbn [m64_key m64_pos] in H. destruct (312 <=? pos)%Z eqn:E; [lia|]. cbn [m64_key m64_pos] in H.
    destruct (Z_lt_dec pos 0) as [A|A]; [rewrite rd_none in H by lia; contradiction|]. lia.
  - intros P. destruct (Z_le_dec pos 312) as [B|B].
    + destruct (next_stream _ _ (block_stream key pos L (conj P B))) as (s & E & _). rewrite E. discriminate.
    + unfold m64_next. cbn [m64_pos]. replace (312 <=? pos)%Z with true by lia.
      set (k := if (pos =? 313)%Z then m64_init 5489 else key).
      assert (K : kok k) by (unfold k; destruct (pos =? 313)%Z; [apply init_ok; reflexivity|exact L]).
      destruct (gen_from_ring 312 0 k _ (m64seq_wfs _ K) (m64seq_rec _ K) (m64seq_ring _ K) ltac:(lia)) as (k' & E & [Lk [_ Hk]]).
      unfold m64_gen. cbn [m64_key m64_pos]. fold k. rewrite E. cbn [m64_key m64_pos]. pose proof (Hk 0%Z ltac:(lia)) as H0. change (wr 0 0) with 0%Z in H0. rewrite H0. discriminate.
Qed.
Theorem C20_mt64_setter_unchecked_refuted :
  forall pos t, (- 2 ^ 31 <= pos < 0)%Z -> exists v b, m64_setst v t = (b, Ok tt) /\ m64_next (core b) = None.
Proof.
  intros pos t C. exists (m64_get (Buf (M64 ex_key pos) false 0)), (Buf (M64 ex_key pos) false 0). pose proof ex_key_legal as L. split.
  - apply m64_set_get; [now apply legal_kok|cbn [core m64_pos]; split; [apply C|apply (Z.lt_trans _ 0); [apply C|reflexivity]]|reflexivity].
  - cbn [core]. destruct (m64_next (M64 ex_key pos)) eqn:E; [|reflexivity]. exfalso. assert (0 <= pos)%Z by (apply (C20_mt64_accepted_states ex_key pos L); rewrite E; discriminate). lia.
Qed.
Lemma gen_313 key key' p : (p =? 313)%Z = true -> m64_gen (M64 key p) = m64_gen (M64 key' p).
Proof. intros H. unfold m64_gen. cbn [m64_pos]. rewrite H. reflexivity. Qed.
Lemma next_313 key key' p : (p =? 313)%Z = true -> m64_next (M64 key p) = m64_next (M64 key' p).
Proof. intros H. unfold m64_next. cbn [m64_pos]. rewrite (gen_313 key key' p H). assert (p = 313)%Z by lia. replace (312 <=? p)%Z with true by lia. reflexivity. Qed.
(* an accepted position of 313 discards the array: the generator goes on from the
   default seed 5489, whatever state was assigned *)
Theorem C18_mt64_position_313_refuted :
  forall key key' t t', legal key -> legal key' ->
  fst (m64_setst (m64_get (Buf (M64 key 313) false 0)) t) = Buf (M64 key 313) false 0 /\
  m64_next (M64 key 313) = m64_next (M64 key' 313) /\ snd (m64_setst (m64_get (Buf (M64 key 313) false 0)) t') = Ok tt.
Proof.
  intros key key' t t' L L'.
  assert (P : (- 2 ^ 31 <= 313 < 2 ^ 31)%Z) by (split; [discriminate|reflexivity]).
  split; [rewrite m64_set_get; [reflexivity|now apply legal_kok|exact P|reflexivity]|].
  split; [apply (next_313 key key' 313); reflexivity|].
  rewrite m64_set_get; [reflexivity|now apply legal_kok|exact P|reflexivity].
Qed.
Example C20_mt64_case : good (M64 ex_key 5) /\ good (M64 ex_key 312).
Proof. split; (split; [exact ex_key_legal|cbn [m64_pos]; lia]). Qed.

(* ------------------------------------------------------------------- C18, C19 *)
Theorem C18_mt64_restores : forall s t, good (core s) -> u32 s < 2 ^ 32 -> m64_setst (m64_get s) t = (s, Ok tt).
Proof. intros s t [L P] U. apply m64_set_get; [now apply legal_kok|split; [apply (Z.le_trans _ 0); [discriminate|apply P]|apply (Z.le_lt_trans _ 312); [apply P|reflexivity]]|exact U]. Qed.
Theorem C19_mt64_not_atomic_refuted : ~ atomic m64_setst.
Proof.
  intros A. specialize (A (PDict [("bit_generator", PStr "MT64"); ("state", PDict [("key", PArr 64 (repeat 1 312)); ("pos", PNone)])]%string) (Buf (M64 (repeat 0 312) 0) false 0)).
  assert (E : m64_setst (PDict [("bit_generator", PStr "MT64"); ("state", PDict [("key", PArr 64 (repeat 1 312)); ("pos", PNone)])]%string) (Buf (M64 (repeat 0 312) 0) false 0)
    = (Buf (M64 (repeat 1 312) 0) false 0, Raise TypeError)) by (vm_compute; reflexivity).
  specialize (A _ _ E). apply (f_equal (fun s => hd 0 (m64_key (core s)))) in A. discriminate A.
Qed.

(* ------------------------------------------------------------------- C21 *)
(* the state after seeding does not depend on what was drawn before, pending half included *)
Theorem C21_mt64_seed_resets : forall words, has32 (m64_seed words) = false /\ u32 (m64_seed words) = 0 /\ m64_pos (core (m64_seed words)) = 312%Z.
Proof. intros words. split; [reflexivity|]. split; [reflexivity|]. apply (seed_ok words). Qed.

(* ------------------------------------------------------------------- C22 *)
(* any mix of 32- and 64-bit draws hands out the 64-bit values in order, each whole
   or its low half and then its high half *)
Theorem C22_mt64_any_order :
  forall rs b, good (core b) -> exists n b' vs a ws,
  orun m64_next rs b = Some (b', vs) /\ m64_draws n (core b) = Some (a, ws) /\
  spec rs (queue b) ws = Some (queue b', vs, []) /\ core b' = a.
Proof.
  intros rs b G. destruct (orun_run m64_next good step_good rs b G) as [E _].
  destruct (run_spec (tot m64_next) good (tot_ok m64_next good step_good) rs b G) as [n H].
  assert (D : forall n s, good s -> m64_draws n s = Some (raws (tot m64_next) n s)).
  { clear. induction n as [|n IH]; intros s G; [reflexivity|]. cbn [m64_draws raws]. destruct (step_good s G) as (s1 & v & E & G1 & _).
    unfold tot at 1. rewrite E, (IH s1 G1). destruct (raws (tot m64_next) n s1). reflexivity. }
  destruct (raws (tot m64_next) n (core b)) as [a ws] eqn:R. destruct (run (tot m64_next) rs b) as [b' vs]. cbn [fst snd] in H.
  exists n, b', vs, a, ws. split; [exact E|]. split; [rewrite D by exact G; now rewrite R|exact H].
Qed.

Print Assumptions C59_mt64_is_the_recurrence.
Print Assumptions C59_mt64_sequence_exists.
Print Assumptions C49_mt64_temper_bijective.
Print Assumptions C24_mt64_block_injective.
Print Assumptions C24_mt64_unused_bits.
Print Assumptions C26_mt64_never_all_zero.
Print Assumptions C20_mt64_draws_safe.
Print Assumptions C20_mt64_seeded.
Print Assumptions C20_mt64_accepted_states.
Print Assumptions C20_mt64_setter_unchecked_refuted.
Print Assumptions C18_mt64_position_313_refuted.
Print Assumptions C18_mt64_restores.
Print Assumptions C19_mt64_not_atomic_refuted.
Print Assumptions C21_mt64_seed_resets.
Print Assumptions C22_mt64_any_order.
