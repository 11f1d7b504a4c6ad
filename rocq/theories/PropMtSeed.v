(* MT19937 and MT64: which seed arrays give which states. Seeding is 2^32 to 1 (2^64 to 1) and onto the
   states it can give: every state with the fixed first word comes from exactly one array for each value of the first
   array word. *)
From Verif Require Import Word Arr Buffer32 Py Mt19937 Mt64 MtSeed.
From Verif Require Mt19937Facts Mt64Facts PropMt19937 PropMt64.
From Coq Require Import String ZifyBool ZifyNat ZifyN.
Open Scope N_scope.
Notation length := List.length.
Ltac Zify.zify_post_hook ::= idtac.

(* an array of n words of w bits *)
Definition words (n : nat) (w : N) (l : list N) : Prop := length l = n /\ Forall (fun x => x < 2 ^ w) l.

(* ------------------------------------------------------------------- C25 *)
(* for every first word k0 and every state with the word 0x80000000 at the front there is exactly one array that starts with
   k0 and is seeded to that state *)
Theorem C25_mt19937_seed_arrays :
  forall k0 tail, k0 < 2 ^ 32 -> words 623 32 tail ->
  exists! rest, words 623 32 rest /\ mt_seed (k0 :: rest) = MT (0x80000000 :: tail) 624.
Proof.
  intros k0 tail Hk [Lt Wt].
  destruct (gseed_onto 32 30 624 ltac:(lia) 1664525 1566083941 (mt_init_genrand 19650218) (gys 32 624 623 2) 0x80000000 k0 tail
    (mt_init_length _) (gys_length _ _ _ _) Lt Wt Hk) as (r & Lr & Wr & E).
  exists r. split.
  - split; [split; assumption|]. rewrite mt_seed_gseed by (exact (f_equal S Lr)). now rewrite E.
  - intros r' [[Lr' Wr'] E']. rewrite mt_seed_gseed in E' by (exact (f_equal S Lr')). pose proof (f_equal mt_key E') as E2. cbn [mt_key] in E2.
    rewrite <- E in E2. symmetry in E2. refine (gseed_inj 32 30 624 _ _ _ _ _ _ _ _ _ (mt_init_length _) (gys_length _ _ _ _) Lr Lr' _ _ E2); [lia| |]; constructor; assumption.
Qed.
(* so different arrays may give the same state *)
Theorem C25_mt19937_seeds_distinct_refuted :
  exists a b, words 624 32 a /\ words 624 32 b /\ a <> b /\ mt_seed a = mt_seed b.
Proof.
  assert (T : words 623 32 (repeat 0 623)) by (split; [apply repeat_length|apply Forall_forall; intros x Hx; apply repeat_spec in Hx; subst; reflexivity]).
  destruct (C25_mt19937_seed_arrays 0 _ ltac:(reflexivity) T) as (r & [[Lr Wr] E] & _).
  destruct (C25_mt19937_seed_arrays 1 _ ltac:(reflexivity) T) as (r' & [[Lr' Wr'] E'] & _).
  exists (0 :: r), (1 :: r'). split; [split; [exact (f_equal S Lr)|constructor; [reflexivity|assumption]]|].
  split; [split; [exact (f_equal S Lr')|constructor; [reflexivity|assumption]]|]. split; [discriminate|congruence].
Qed.
(* but not different arrays with the same first word: the first 624 numbers already differ *)
Lemma draws_determine key key' :
  Mt19937Facts.kok (0x80000000 :: key) -> Mt19937Facts.kok (0x80000000 :: key') ->
  option_map snd (mt_draws 624 (MT (0x80000000 :: key) 624)) = option_map snd (mt_draws 624 (MT (0x80000000 :: key') 624)) -> key = key'.
Proof.
  intros K K' E.
  destruct (Mt19937Facts.draws_stream 624 _ _ (Mt19937Facts.block_stream _ 624 K ltac:(lia))) as (s & D & _).
  destruct (Mt19937Facts.draws_stream 624 _ _ (Mt19937Facts.block_stream _ 624 K' ltac:(lia))) as (s' & D' & _).
  rewrite D, D' in E. cbn [option_map snd] in E.
  set (x := Mt19937Facts.mtseq (0x80000000 :: key)) in *. set (x' := Mt19937Facts.mtseq (0x80000000 :: key')) in *.
  assert (Wx : Mt19937Facts.wfs x) by (apply Mt19937Facts.mtseq_wfs; exact K).
  assert (Wx' : Mt19937Facts.wfs x') by (apply Mt19937Facts.mtseq_wfs; exact K').
  assert (W : forall i, (i < 624)%nat -> Mt19937Facts.shifted 624 x (N.of_nat i) = Mt19937Facts.shifted 624 x' (N.of_nat i)).
  { intros i Hi. assert (E1 := f_equal (fun o => match o with Some l => nth_error l i | None => None end) E). cbn beta iota in E1. clear D D' E.
    assert (X : forall f : nat -> N, nth_error (map f (seq 0 624)) i = Some (f i)).
    { intros f. rewrite nth_error_map, (nth_error_nth' _ 0%nat) by (rewrite seq_length; exact Hi). cbn [option_map]. now rewrite seq_nth by exact Hi. }
    rewrite !X in E1. assert (E2 := f_equal (fun o => match o with Some y => y | None => 0 end) E1). cbn beta iota in E2. change (Z.to_N 624) with 624 in E2.
    apply Mt19937Facts.temper_inj in E2; [exact E2|apply Wx|apply Wx']. }
  destruct (Mt19937Facts.gen_ring (0x80000000 :: key) 624 x Wx (Mt19937Facts.mtseq_rec _ K) (Mt19937Facts.mtseq_ring _ K)) as (g & G & R).
  destruct (Mt19937Facts.gen_ring (0x80000000 :: key') 624 x' Wx' (Mt19937Facts.mtseq_rec _ K') (Mt19937Facts.mtseq_ring _ K')) as (g' & G' & R').
  assert (Eg : g = g').
  { pose proof R as [Lg _]. pose proof R' as [Lg' _]. apply (nth_ext _ _ 0 0); [clear - Lg Lg'; lia|]. intros n Hn.
    assert (Hn' : (n < 624)%nat) by (clear - Hn Lg; lia).
    pose proof (Mt19937Facts.ring_rd g 0 _ (Z.of_nat n) R ltac:(clear - Hn'; lia)) as A.
    pose proof (Mt19937Facts.ring_rd g' 0 _ (Z.of_nat n) R' ltac:(clear - Hn'; lia)) as A'.
    rewrite (rd_nth g _ 0) in A by (clear - Lg Hn'; lia). rewrite (rd_nth g' _ 0) in A' by (clear - Lg' Hn'; lia). rewrite Nat2Z.id in A, A'.
    assert (U : Z.to_N (Mt19937Facts.unwr 0 (Z.of_nat n)) = N.of_nat n).
    { unfold Mt19937Facts.unwr. destruct (0 <=? Z.of_nat n)%Z eqn:F; clear - F; lia. }
    rewrite U in A, A'. rewrite (W n Hn') in A. congruence. }
  destruct (PropMt19937.C24_mt19937_block_injective (0x80000000 :: key) (0x80000000 :: key') 624 624) as [T _].
  - apply PropMt19937.legal_kok. exact K.
  - apply PropMt19937.legal_kok. exact K'.
  - rewrite G, G', Eg. reflexivity.
  - exact T.
Qed.
Lemma seed_form a : length a = 624%nat -> exists t, mt_seed a = MT (0x80000000 :: t) 624.
Proof.
  intros L. rewrite mt_seed_gseed by exact L. unfold gseed. destruct (gloop _ _ _ _ (addidx 32 0 a) _ 1) as [m i] eqn:E1.
  destruct (fst (gloop _ _ _ _ (gys _ _ _ _) m i)) as [|h t] eqn:E2.
  - exfalso. pose proof (PropMt19937.C20_mt19937_seeded a) as [[S _] _]. rewrite mt_seed_gseed in S by exact L. unfold gseed in S. rewrite E1, E2 in S.
    cbn in S. discriminate S.
  - exists t. reflexivity.
Qed.
Theorem C25_mt19937_same_first_word_partial :
  forall k0 r r', words 624 32 (k0 :: r) -> words 624 32 (k0 :: r') -> r <> r' ->
  option_map snd (mt_draws 624 (mt_seed (k0 :: r))) <> option_map snd (mt_draws 624 (mt_seed (k0 :: r'))).
Proof.
  intros k0 r r' [L W] [L' W'] Ne E. apply Ne.
  destruct (seed_form _ L) as [t Et]. destruct (seed_form _ L') as [t' Et'].
  pose proof (PropMt19937.C20_mt19937_seeded (k0 :: r)) as [K _]. pose proof (PropMt19937.C20_mt19937_seeded (k0 :: r')) as [K' _].
  rewrite Et in K, E. rewrite Et' in K', E. cbn [mt_key] in K, K'.
  apply draws_determine in E; [|apply PropMt19937.legal_kok; assumption..]. subst t'.
  assert (Wt : words 623 32 t) by (destruct K as [K1 K2]; split; [now injection K1|now apply Forall_inv_tail in K2]).
  destruct (C25_mt19937_seed_arrays k0 t (Forall_inv W) Wt) as (q & _ & U).
  rewrite <- (U r), <- (U r'); [reflexivity| |].
  - split; [split; [now injection L'|now apply Forall_inv_tail in W']|exact Et'].
  - split; [split; [now injection L|now apply Forall_inv_tail in W]|exact Et].
Qed.
(* mode="numpy": the first word is not used, the others are the state *)
Theorem C25_mt19937_numpy :
  forall k0 k1 r r', words 623 32 r -> words 623 32 r' -> (mt_seed_numpy (k0 :: r) = mt_seed_numpy (k1 :: r') <-> r = r').
Proof. intros k0 k1 r r' _ _. unfold mt_seed_numpy, upd. cbn. split; [intros E; now inversion E|now intros ->]. Qed.

Theorem C25_mt64_seed_arrays :
  forall k0 tail, k0 < 2 ^ 64 -> words 311 64 tail ->
  exists! rest, words 311 64 rest /\ m64_seed (k0 :: rest) = Buf (M64 (0x8000000000000000 :: tail) 312) false 0.
Proof.
  intros k0 tail Hk [Lt Wt].
  destruct (gseed_onto 64 62 312 ltac:(lia) 3935559000370003845 2862933555777941757 (m64_init 19650218) (gys 64 312 311 2) 0x8000000000000000 k0 tail
    (m64_init_length _) (gys_length _ _ _ _) Lt Wt Hk) as (r & Lr & Wr & E).
  exists r. split.
  - split; [split; assumption|]. unfold m64_seed. rewrite m64_seed_gseed by (exact (f_equal S Lr)). now rewrite E.
  - intros r' [[Lr' Wr'] E']. unfold m64_seed in E'. rewrite m64_seed_gseed in E' by (exact (f_equal S Lr')). pose proof (f_equal (fun b => m64_key (core b)) E') as E2. cbn [m64_key core] in E2.
    rewrite <- E in E2. symmetry in E2. refine (gseed_inj 64 62 312 _ _ _ _ _ _ _ _ _ (m64_init_length _) (gys_length _ _ _ _) Lr Lr' _ _ E2); [lia| |]; constructor; assumption.
Qed.
Theorem C25_mt64_seeds_distinct_refuted :
  exists a b, words 312 64 a /\ words 312 64 b /\ a <> b /\ m64_seed a = m64_seed b.
Proof.
  assert (T : words 311 64 (repeat 0 311)) by (split; [apply repeat_length|apply Forall_forall; intros x Hx; apply repeat_spec in Hx; subst; reflexivity]).
  destruct (C25_mt64_seed_arrays 0 _ ltac:(reflexivity) T) as (r & [[Lr Wr] E] & _).
  destruct (C25_mt64_seed_arrays 1 _ ltac:(reflexivity) T) as (r' & [[Lr' Wr'] E'] & _).
  exists (0 :: r), (1 :: r'). split; [split; [exact (f_equal S Lr)|constructor; [reflexivity|assumption]]|].
  split; [split; [exact (f_equal S Lr')|constructor; [reflexivity|assumption]]|]. split; [discriminate|congruence].
Qed.
Theorem C25_mt64_same_first_word_partial :
  forall k0 r r', words 312 64 (k0 :: r) -> words 312 64 (k0 :: r') -> m64_seed (k0 :: r) = m64_seed (k0 :: r') -> r = r'.
Proof.
  intros k0 r r' [L W] [L' W'] E. unfold m64_seed in E.
  rewrite !m64_seed_gseed in E by assumption. pose proof (f_equal (fun b => m64_key (core b)) E) as E2. cbn [m64_key core] in E2.
  refine (gseed_inj 64 62 312 _ _ _ _ _ _ _ _ _ (m64_init_length _) (gys_length _ _ _ _) _ _ W W' E2); [lia|now injection L|now injection L'].
Qed.
Example C25_mt_case : words 624 32 (5 :: repeat 7 623) /\ words 624 32 (5 :: repeat 8 623) /\ repeat 7 623 <> repeat 8 623.
Proof.
  split; [|split; [|discriminate]]; (split; [reflexivity|]);
    (constructor; [reflexivity|]; apply Forall_forall; intros x Hx; apply repeat_spec in Hx; subst; reflexivity).
Qed.

Print Assumptions C25_mt19937_seed_arrays.
Print Assumptions C25_mt19937_seeds_distinct_refuted.
Print Assumptions C25_mt19937_same_first_word_partial.
Print Assumptions C25_mt19937_numpy.
Print Assumptions C25_mt64_seed_arrays.
Print Assumptions C25_mt64_seeds_distinct_refuted.
Print Assumptions C25_mt64_same_first_word_partial.
