(* MT19937: refinement to the published recurrence, jumps, seeding and state *)
From Verif Require Import Word Arr Py Finite Mt19937 Mt19937Poly Mt19937Facts.
From Coq Require Import String ZifyBool ZifyNat ZifyN.
Open Scope N_scope.
Ltac Zify.zify_post_hook ::= idtac.

(* x is the sequence of the published recurrence that starts with the words of key *)
Definition starts (key : list N) (x : N -> N) : Prop :=
  (forall n, x n < 2 ^ 32) /\ mtrec x /\ forall i, i < 624 -> x i = nth (N.to_nat i) key 0.
(* a legal array: 624 words of 32 bits *)
Definition legal (key : list N) : Prop := List.length key = 624%nat /\ Forall (fun w => w < 2 ^ 32) key.
Lemma legal_kok key : legal key <-> kok key.
Proof. unfold legal, kok. split; intros [L F]; (split; [|exact F]); [now rewrite L|clear - L; lia]. Qed.
Lemma starts_ring key x : kok key -> starts key x -> wfs x /\ mtrec x /\ ring key 0 x.
Proof.
  intros [L F] [W [R H]]. split; [exact W|split; [exact R|]]. split; [exact L|split; [lia|]]. intros i Hi.
  replace (wr 0 i) with i by (unfold wr; destruct (0 + i <? 624)%Z eqn:E; lia).
  rewrite (rd_nth key i 0) by lia. f_equal. rewrite H by lia. f_equal. lia.
Qed.
Lemma starts_mtseq key : kok key -> starts key (mtseq key).
Proof.
  intros K. split; [exact (mtseq_wfs key K)|split; [now apply mtseq_rec|]]. intros i Hi.
  symmetry. apply (iter_nth i 0 key K Hi).
Qed.
Lemma starts_stream key p x : kok key -> (0 <= p <= 624)%Z -> starts key x -> stream (MT key p) (fun i => x (Z.to_N p + i)).
Proof.
  intros K P S. destruct (starts_ring key x K S) as (W & R & H). split; [exact P|]. exists x. repeat (split; [assumption|]). reflexivity.
Qed.
Definition ex_key : list N := map (fun i => N.of_nat i * 6364136223846793005 mod 2 ^ 32) (seq 1 624).
Lemma ex_key_legal : legal ex_key.
Proof. split; [reflexivity|]. apply Forall_forall. intros w I. apply in_map_iff in I. destruct I as (i & <- & _). apply N.mod_lt. discriminate. Qed.

(* ------------------------------------------------------------------- C59 *)
(* the generator is the Mersenne Twister: from every state with 0 <= pos <= 624
   the n draws are the tempered words of the recurrence, from number pos on *)
Theorem C59_mt19937_is_the_recurrence :
  forall key pos x n, legal key -> (0 <= pos <= 624)%Z -> starts key x ->
  option_map snd (mt_draws n (MT key pos)) = Some (map (fun i => mt_temper (x (Z.to_N pos + N.of_nat i))) (seq 0 n)).
Proof.
  intros key pos x n L P S. apply legal_kok in L.
  destruct (draws_stream n _ _ (starts_stream key pos x L P S)) as (s & E & _). now rewrite E.
Qed.
(* there is such a sequence for every array, and only one *)
Theorem C59_mt19937_sequence_exists : forall key, legal key -> exists x, starts key x /\ forall y, starts key y -> forall n, y n = x n.
Proof.
  intros key L. apply legal_kok in L. exists (mtseq key). split; [now apply starts_mtseq|]. intros y [_ [R H]].
  apply rec_unique; [exact R|now apply mtseq_rec|]. intros i Hi. rewrite H by exact Hi. symmetry. apply (starts_mtseq key L). exact Hi.
Qed.
(* the output of mt19937ar.out for init_by_array({0x123, 0x234, 0x345, 0x456}) *)
Example C59_mt19937_known_answers :
  option_map snd (mt_draws 3 (mt_init_by_array [0x123; 0x234; 0x345; 0x456])) = Some [1067595299; 955945823; 477289528].
Proof. vm_compute. reflexivity. Qed.
Example C59_case : legal ex_key /\ starts ex_key (mtseq ex_key).
Proof. split; [exact ex_key_legal|]. apply starts_mtseq, legal_kok, ex_key_legal. Qed.

(* ------------------------------------------------------------------- C15 *)
(* What a jump by the polynomial c does: read round the array from pos (0 for a
   used-up block), the words become the sums of c_i x(i + j), and pos moves on by
   the degree, round the array *)
Theorem C15_mt19937_jump_is_polynomial :
  forall js cs key pos x, lead js = Some cs -> legal key -> (0 <= pos)%Z ->
  (forall n, x n < 2 ^ 32) -> mtrec x -> (forall i, (0 <= i < 624)%Z -> rd key ((start pos + i) mod 624) = Some (x (Z.to_N i))) ->
  exists key', mt_jump_state js (MT key pos) = Some (MT key' ((start pos + Z.of_nat (List.length cs)) mod 624)) /\ legal key' /\
    forall i, (0 <= i < 624)%Z -> rd key' ((start pos + Z.of_nat (List.length cs) + i) mod 624) = Some (pol js x (Z.to_N i)).
Proof.
  intros js cs key pos x E L P W R H. apply legal_kok in L.
  assert (S : (0 <= start pos < 624)%Z) by (unfold start; destruct (624 <=? pos)%Z eqn:F; lia).
  assert (M : forall p i, (0 <= p < 624)%Z -> (0 <= i < 624)%Z -> ((p + i) mod 624 = wr p i)%Z).
  { intros p i Hp Hi. unfold wr. destruct (p + i <? 624)%Z eqn:F; [apply Z.mod_small; lia|].
    replace (p + i)%Z with (p + i - 624 + 1 * 624)%Z by lia. rewrite Z_mod_plus_full, Z.mod_small by lia. lia. }
  destruct (jump_ring js cs key pos x E W R) as (k & E1 & R1).
  { split; [apply L|split; [exact S|]]. intros i Hi. rewrite <- M by assumption. now apply H. }
  exists k. split; [exact E1|]. split; [apply legal_kok; refine (ring_kok k _ _ _ R1); intros i; now apply pol_wf|].
  intros i Hi. rewrite <- Zplus_mod_idemp_l. fold (adv (start pos) (List.length cs)).
  rewrite M by (assumption || apply adv_range). rewrite (lead_pol js cs x _ E). now apply R1.
Qed.
(* the polynomials of the code *)
Lemma pbits_lead p : forall acc, exists cs, pbits p acc = true :: cs /\ N.of_nat (List.length cs) + 1 = N.pos (Pos.size p) + N.of_nat (List.length acc).
Proof.
  induction p as [p IH|p IH|]; intros acc; cbn [pbits Pos.size].
  - destruct (IH (true :: acc)) as (cs & E & L). exists cs. split; [exact E|]. cbn [List.length] in L. lia.
  - destruct (IH (false :: acc)) as (cs & E & L). exists cs. split; [exact E|]. cbn [List.length] in L. lia.
  - exists acc. split; [reflexivity|]. lia.
Qed.
Lemma coeffs_lead n d : N.size n = N.succ d -> exists cs, lead (coeffs n) = Some cs /\ Z.of_nat (List.length cs) = Z.of_N d.
Proof.
  destruct n as [|p]; [intros E; cbn in E; lia|]. intros E. destruct (pbits_lead p []) as (cs & A & L).
  exists cs. cbn [coeffs]. rewrite A. split; [reflexivity|]. cbn [N.size List.length] in *. lia.
Qed.
Lemma poly_degrees :
  (exists cs, lead (coeffs p128) = Some cs /\ Z.of_nat (List.length cs) = 19933%Z) /\
  (exists cs, lead (coeffs p132) = Some cs /\ Z.of_nat (List.length cs) = 19936%Z) /\
  (exists cs, lead (coeffs p136) = Some cs /\ Z.of_nat (List.length cs) = 19934%Z) /\
  (exists cs, lead (coeffs p140) = Some cs /\ Z.of_nat (List.length cs) = 19936%Z) /\
  (exists cs, lead (coeffs p144) = Some cs /\ Z.of_nat (List.length cs) = 19931%Z).
Proof.
  refine (conj (coeffs_lead p128 19933 _) (conj (coeffs_lead p132 19936 _) (conj (coeffs_lead p136 19934 _) (conj (coeffs_lead p140 19936 _) (coeffs_lead p144 19931 _)))));
    vm_compute; reflexivity.
Qed.
(* jumped() promises the outputs that come after 2^128 draws. The jumped array is
   to be read round from pos, but the next draws take it as a block starting at
   index 0: for no J, let alone 2^128, are the outputs of every generator at the
   end of a block, such as a newly seeded one, moved on by J draws *)
Theorem C15_mt19937_jumped_refuted :
  forall js, In js [poly_128 the_polys; poly_132 the_polys; poly_136 the_polys; poly_140 the_polys; poly_144 the_polys] -> forall J,
  ~ (forall key x, legal key -> starts key x ->
       exists s, mt_jump_state js (MT key 624) = Some s /\
         forall n s' vs, mt_draws n s = Some (s', vs) -> vs = map (fun i => mt_temper (x (624 + J + N.of_nat i))) (seq 0 n)).
Proof.
  intros js I J H.
  assert (D : exists cs, lead js = Some cs /\ (2 <= adv 0 (List.length cs))%Z).
  { destruct poly_degrees as ((a & A & LA) & (b & B & LB) & (c & C & LC) & (d & D & LD) & (e & E & LE)). unfold adv.
    cbn [the_polys poly_128 poly_132 poly_136 poly_140 poly_144 In] in I.
    destruct I as [I|[I|[I|[I|[I|[]]]]]]; subst js; eexists; (split; [eassumption|]); [rewrite LA|rewrite LB|rewrite LC|rewrite LD|rewrite LE]; vm_compute; discriminate. }
  destruct D as (cs & E & Q). apply (jump_wrong js cs J E Q). intros key x K W R Hr.
  apply (H key x); [now apply legal_kok|]. split; [exact W|split; [exact R|]]. intros i Hi.
  assert (A := ring_rd _ _ _ (Z.of_N i) Hr ltac:(lia)). destruct K as [L F]. rewrite (rd_nth _ _ 0) in A by lia.
  unfold unwr in A. replace (0 <=? Z.of_N i)%Z with true in A by lia. rewrite Z.sub_0_r, N2Z.id in A. injection A as A.
  rewrite <- A. f_equal. lia.
Qed.
(* What does hold, for a generator at the end of a block and a polynomial that
   stands for a shift by J (shifts_by): the first 624 - pos' outputs are those of
   the words J + i, which the original gave, or would have given, after J - 624
   further draws. Missing: the other outputs, and the 624 words by which these
   are too early. *)
Theorem C15_mt19937_first_outputs_partial :
  forall js cs J key x n, lead js = Some cs -> shifts_by js J -> legal key -> starts key x ->
  let pos' := (Z.of_nat (List.length cs) mod 624)%Z in (Z.of_nat n <= 624 - pos')%Z ->
  exists s, mt_jump_state js (MT key 624) = Some s /\ mt_pos s = pos' /\
    option_map snd (mt_draws n s) = Some (map (fun i => mt_temper (x (J + N.of_nat i))) (seq 0 n)).
Proof.
  intros js cs J key x n E S L X pos' Hn. apply legal_kok in L. destruct (starts_ring key x L X) as (W & R & H).
  destruct (jump_shift js cs J key 624 x E S W R H) as (k & E1 & R1). change (start 624) with 0%Z in *.
  change (adv 0 (List.length cs)) with pos' in *. pose proof (Z.mod_pos_bound (Z.of_nat (List.length cs)) 624 ltac:(lia)) as B. fold pos' in B.
  exists (MT k pos'). split; [exact E1|split; [reflexivity|]].
  assert (K := ring_kok k _ _ (shifted_wf J x W) R1).
  destruct (draws_stream n _ _ (block_stream k pos' K ltac:(lia))) as (s & E2 & _). rewrite E2. cbn [option_map snd]. f_equal.
  apply map_ext_in. intros i Hi. apply in_seq in Hi. f_equal. unfold shifted at 1.
  assert (A := ring_rd _ _ _ (pos' + Z.of_nat i)%Z (mtseq_ring k K) ltac:(lia)). rewrite (ring_rd _ _ _ _ R1) in A by lia.
  unfold unwr, shifted in A. replace (0 <=? pos' + Z.of_nat i)%Z with true in A by lia. replace (pos' <=? pos' + Z.of_nat i)%Z with true in A by lia.
  injection A as A. replace (Z.to_N (pos' + Z.of_nat i - pos')) with (N.of_nat i) in A by lia.
  replace (Z.to_N (pos' + Z.of_nat i - 0)) with (Z.to_N pos' + N.of_nat i) in A by lia. now rewrite A.
Qed.
(* a polynomial that stands for a shift by J: z^J itself *)
Example C15_case : lead (coeffs 0x400) = Some (repeat false 10) /\ shifts_by (coeffs 0x400) 10.
Proof. split; [reflexivity|]. intros x W R i. cbn [coeffs pbits pol List.length]. rewrite !N.lxor_0_l, N.lxor_0_r. reflexivity. Qed.

(* ------------------------------------------------------------------- C48 *)
(* jumped(n) applies polynomials whose weights add up to n, and n iterations are
   enough; a negative or zero count changes nothing *)
Theorem C48_mt19937_weights :
  forall ps n s, exists us,
    Forall (fun u => In u [(poly_144 ps, 65536); (poly_140 ps, 4096); (poly_136 ps, 256); (poly_132 ps, 16); (poly_128 ps, 1)]%Z) us /\
    fold_right Z.add 0%Z (map snd us) = Z.max 0 n /\
    mt_jump_n ps (Z.to_nat n) n s = fold_left (fun o u => match o with Some s => mt_jump_state (fst u) s | None => None end) us (Some s).
Proof.
  intros ps n s. destruct (jump_n_plan ps (Z.to_nat n) n s ltac:(lia)) as (us & F & Wt & E). exists us.
  split; [eapply Forall_impl; [|exact F]; intros [p k] U; exact U|]. split; [|exact E].
  rewrite <- Wt. clear. induction us as [|u us IH]; [reflexivity|]. cbn [map fold_right weight]. unfold weight in IH. now rewrite IH.
Qed.
(* with polynomials that stand for shifts by 65536 B, ..., 16 B, B the words, read
   round from pos, are moved on by n B *)
Theorem C48_mt19937_jump_n_shifts :
  forall ps B n key pos x,
  (forall p k, In (p, k) [(poly_144 ps, 65536); (poly_140 ps, 4096); (poly_136 ps, 256); (poly_132 ps, 16); (poly_128 ps, 1)]%Z ->
     shifts_by p (Z.to_N k * B) /\ exists cs, lead p = Some cs) ->
  (0 <= n)%Z -> (forall i, x i < 2 ^ 32) -> mtrec x -> ring key (start pos) x ->
  exists s, mt_jump_n ps (Z.to_nat n) n (MT key pos) = Some s /\ ring (mt_key s) (start (mt_pos s)) (fun i => x (Z.to_N n * B + i)).
Proof.
  intros ps B n key pos x P N0 W R H. destruct (jump_n_plan ps (Z.to_nat n) n (MT key pos) ltac:(lia)) as (us & F & Wt & E).
  destruct (plan_shift ps B us P F (MT key pos) x W R H) as (s & E1 & R1). exists s. rewrite E. split; [exact E1|].
  rewrite Wt in R1. replace (Z.max 0 n) with n in R1 by lia. exact R1.
Qed.
Definition monomial (m : N) : list bool := true :: repeat false (N.to_nat m).
Lemma monomial_ok m k : Z.of_N m = k -> shifts_by (monomial m) (Z.to_N k * 1) /\ exists cs, lead (monomial m) = Some cs.
Proof.
  assert (Z0 : forall n x i, pol (repeat false n) x i = 0) by (induction n as [|j IH]; intros x i; [reflexivity|]; cbn [repeat pol]; rewrite IH; reflexivity).
  intros <-. split; [|eexists; reflexivity]. intros x W R i. unfold monomial. cbn [pol]. rewrite Z0, N.lxor_0_r, repeat_length, N2Nat.id, N2Z.id, N.mul_1_r. reflexivity.
Qed.
Example C48_case : exists ps, forall p k, In (p, k) [(poly_144 ps, 65536); (poly_140 ps, 4096); (poly_136 ps, 256); (poly_132 ps, 16); (poly_128 ps, 1)]%Z ->
  shifts_by p (Z.to_N k * 1) /\ exists cs, lead p = Some cs.
Proof.
  exists (Polys (monomial 65536) (monomial 4096) (monomial 256) (monomial 16) (monomial 1)).
  cbn [poly_144 poly_140 poly_136 poly_132 poly_128].
  assert (G : forall p k m, (monomial m, Z.of_N m) = (p, k) -> shifts_by p (Z.to_N k * 1) /\ exists cs, lead p = Some cs).
  { intros p k m E. apply pair_equal_spec in E. destruct E as [<- <-]. now apply monomial_ok. }
  intros p k I. destruct I as [I|[I|[I|[I|[I|[]]]]]]; exact (G _ _ _ I).
Qed.

(* ------------------------------------------------------------------- C17 *)
Lemma niter_S {A} n (f : A -> A) x : Nat.iter (S n) f x = f (Nat.iter n f x).
Proof. reflexivity. Qed.
Lemma jump_n_1 ps s : mt_jump_n ps 1 1 s = mt_jump_state (poly_128 ps) s.
Proof. cbn [mt_jump_n]. change (1 <=? 0)%Z with false. change (65536 <=? 1)%Z with false. change (4096 <=? 1)%Z with false. change (256 <=? 1)%Z with false. change (16 <=? 1)%Z with false. cbv iota. destruct (mt_jump_state _ s); reflexivity. Qed.
Lemma jump_n_16 ps s : mt_jump_n ps 16 16 s = mt_jump_state (poly_132 ps) s.
Proof. cbn [mt_jump_n]. change (16 <=? 0)%Z with false. change (65536 <=? 16)%Z with false. change (4096 <=? 16)%Z with false. change (256 <=? 16)%Z with false. change (16 <=? 16)%Z with true. cbv iota. destruct (mt_jump_state _ s); reflexivity. Qed.
Lemma jump_pos js cs d key pos : lead js = Some cs -> Z.of_nat (List.length cs) = d -> kok key -> (0 <= pos < 624)%Z ->
  exists key', mt_jump_state js (MT key pos) = Some (MT key' ((pos + d) mod 624)) /\ kok key'.
Proof.
  intros E D K P. set (l := map (fun i => nth (Z.to_nat (wr pos (Z.of_nat i))) key 0) (seq 0 624)).
  assert (S : start pos = pos) by (unfold start; replace (624 <=? pos)%Z with false by lia; reflexivity).
  assert (Kl : kok l). { split; [unfold l; rewrite map_length, seq_length; reflexivity|]. apply Forall_forall. intros w I. apply in_map_iff in I. destruct I as (i & <- & _). apply nth_wf, K. }
  destruct (jump_ring js cs key pos (mtseq l) E (mtseq_wfs l Kl) (mtseq_rec l Kl)) as (k & E1 & R1).
  { rewrite S. split; [apply K|split; [exact P|]]. intros i Hi. destruct K as [L _].
    rewrite (rd_nth key _ 0) by (rewrite L; apply wr_range; lia).
    assert (A := ring_rd _ _ _ i (mtseq_ring l Kl) Hi). destruct Kl as [Ll _]. rewrite (rd_nth l _ 0) in A by lia.
    unfold unwr in A. replace (0 <=? i)%Z with true in A by lia. rewrite Z.sub_0_r in A. rewrite <- A. f_equal. unfold l.
    rewrite (nth_indep (map (fun i => nth (Z.to_nat (wr pos (Z.of_nat i))) key 0) (seq 0 624)) 0 (nth (Z.to_nat (wr pos (Z.of_nat 0))) key 0)) by (rewrite map_length, seq_length; lia).
    rewrite (map_nth (fun i => nth (Z.to_nat (wr pos (Z.of_nat i))) key 0) (seq 0 624) 0%nat), seq_nth by lia. replace (Z.of_nat (0 + Z.to_nat i)) with i by lia. reflexivity. }
  exists k. rewrite E1. unfold adv. rewrite S, D. split; [reflexivity|]. refine (ring_kok k _ _ _ R1). intros i. apply pol_wf. now apply mtseq_wfs.
Qed.
Lemma jump_pos_end js cs d key : lead js = Some cs -> Z.of_nat (List.length cs) = d -> kok key ->
  exists key', mt_jump_state js (MT key 624) = Some (MT key' (d mod 624)) /\ kok key'.
Proof.
  intros E D K. destruct (jump_pos js cs d key 0 E D K ltac:(lia)) as (k & E1 & K1). exists k. split; [|exact K1]. exact E1.
Qed.
Lemma jump_pos_iter js cs d key : lead js = Some cs -> Z.of_nat (List.length cs) = d -> kok key -> forall n,
  exists key', Nat.iter (S n) (fun o => match o with Some s => mt_jump_state js s | None => None end) (Some (MT key 624)) = Some (MT key' ((d * Z.of_nat (S n)) mod 624)) /\ kok key'.
Proof.
  intros E D K. induction n as [|n (k & E1 & K1)].
  - destruct (jump_pos_end js cs d key E D K) as (k & E1 & K1). exists k. rewrite Z.mul_1_r. split; [exact E1|exact K1].
  - rewrite niter_S, E1.
    destruct (jump_pos js cs d k _ E D K1 (Z.mod_pos_bound (d * Z.of_nat (S n)) 624 ltac:(lia))) as (k2 & E2 & K2).
    exists k2. split; [|exact K2]. rewrite E2. rewrite Zplus_mod_idemp_l. do 3 f_equal. lia.
Qed.
(* jumped(16) is not sixteen times jumped(1): the position within the array, and
   so the split of the jumped words into blocks, comes out different *)
Theorem C17_mt19937_jumped_16_refuted :
  forall key, legal key -> exists a b,
    mt_jump_n the_polys 16 16 (MT key 624) = Some a /\
    Nat.iter 16 (fun o => match o with Some s => mt_jump_n the_polys 1 1 s | None => None end) (Some (MT key 624)) = Some b /\
    mt_pos a = 592%Z /\ mt_pos b = 64%Z.
Proof.
  intros key L. apply legal_kok in L. destruct poly_degrees as ((a & A & LA) & (b & B & LB) & _).
  destruct (jump_pos_end _ b _ key B LB L) as (k1 & E1 & _). destruct (jump_pos_iter _ a _ key A LA L 15) as (k2 & E2 & _).
  exists (MT k1 (19936 mod 624)), (MT k2 (19933 * Z.of_nat 16 mod 624)). split; [rewrite jump_n_16; exact E1|]. split; [|split; reflexivity].
  assert (X : forall n o, Nat.iter n (fun o => match o with Some s => mt_jump_n the_polys 1 1 s | None => None end) o = Nat.iter n (fun o => match o with Some s => mt_jump_state (poly_128 the_polys) s | None => None end) o).
  { induction n as [|n IH]; intros o; [reflexivity|]. rewrite !niter_S. rewrite IH. destruct (Nat.iter n _ o) as [s|]; [apply jump_n_1|reflexivity]. }
  rewrite X. exact E2.
Qed.
(* calls of jumped(1) compose *)
Theorem C17_mt19937_jumped_small : forall ps m n s, (0 <= m)%Z -> (0 <= n)%Z -> (m + n < 16)%Z ->
  mt_jump_n ps (Z.to_nat (m + n)) (m + n) s = match mt_jump_n ps (Z.to_nat m) m s with Some t => mt_jump_n ps (Z.to_nat n) n t | None => None end.
Proof.
  intros ps m n. assert (U : forall j s, (Z.of_nat (S j) < 16)%Z -> mt_jump_n ps (S j) (Z.of_nat (S j)) s = match mt_jump_state (poly_128 ps) s with Some t => mt_jump_n ps j (Z.of_nat j) t | None => None end).
  { intros j s H. cbn [mt_jump_n]. replace (Z.of_nat (S j) <=? 0)%Z with false by lia. replace (65536 <=? Z.of_nat (S j))%Z with false by lia.
    replace (4096 <=? Z.of_nat (S j))%Z with false by lia. replace (256 <=? Z.of_nat (S j))%Z with false by lia. replace (16 <=? Z.of_nat (S j))%Z with false by lia. cbv iota.
    replace (Z.of_nat (S j) - 1)%Z with (Z.of_nat j) by lia. reflexivity. }
  intros s Hm Hn H. rewrite <- (Z2Nat.id m Hm), <- (Z2Nat.id n Hn), <- Nat2Z.inj_add, !Nat2Z.id.
  assert (H' : (Z.of_nat (Z.to_nat m + Z.to_nat n) < 16)%Z) by lia. clear H Hm. revert s H'.
  induction (Z.to_nat m) as [|j IH]; intros s H'; [reflexivity|]. cbn [Nat.add]. rewrite !U by lia. destruct (mt_jump_state (poly_128 ps) s) as [t|]; [|reflexivity]. apply IH. lia.
Qed.

(* ------------------------------------------------------------------- C49 *)
(* the tempering is a bijection of 32-bit words *)
Theorem C49_mt19937_temper_bijective : forall v, v < 2 ^ 32 -> exists y, y < 2 ^ 32 /\ mt_temper y = v /\ forall z, z < 2 ^ 32 -> mt_temper z = v -> z = y.
Proof.
  intros v Hv. destruct (inj_surj (2 ^ 32) mt_temper (fun y H => temper_wf y H) (fun a b Ha Hb E => temper_inj a b Ha Hb E) v Hv) as (y & Hy & E).
  exists y. split; [exact Hy|split; [exact E|]]. intros z Hz Ez. apply temper_inj; [exact Hz|exact Hy|congruence].
Qed.

(* ------------------------------------------------------------------- C24 *)
(* making a new block loses only the lower 31 bits of the first word, which the
   sequence does not depend on *)
Theorem C24_mt19937_block_injective :
  forall key key' pos pos', legal key -> legal key' -> mt_gen (MT key pos) = mt_gen (MT key' pos') ->
  tl key = tl key' /\ N.land (hd 0 key) 0x80000000 = N.land (hd 0 key') 0x80000000.
Proof.
  intros key key' pos pos' L L' E. apply legal_kok in L, L'. destruct (gen_inj key pos key' pos' L L' E) as [A B].
  destruct L as [L _], L' as [L' _]. destruct key as [|a l]; [cbn in L; lia|]. destruct key' as [|a' l']; [cbn in L'; lia|].
  split; [|exact B]. cbn [tl]. cbn [List.length] in L, L'. apply (nth_ext _ _ 0 0); [lia|]. intros n Hn.
  pose proof (A (Z.of_nat (S n)) ltac:(lia)) as X. rewrite !(rd_nth _ _ 0) in X by (cbn [List.length]; lia). rewrite !Nat2Z.id in X. cbn [nth] in X. congruence.
Qed.
(* the bits lost do not matter *)
Theorem C24_mt19937_unused_bits :
  forall a b l pos n, legal (a :: l) -> legal (b :: l) -> N.land a 0x80000000 = N.land b 0x80000000 -> (1 <= pos <= 624)%Z ->
  option_map snd (mt_draws n (MT (a :: l) pos)) = option_map snd (mt_draws n (MT (b :: l) pos)).
Proof.
  intros a b l pos n La Lb E P. apply legal_kok in La, Lb.
  destruct (draws_stream n _ _ (block_stream _ pos La ltac:(lia))) as (s & D & _).
  destruct (draws_stream n _ _ (block_stream _ pos Lb ltac:(lia))) as (t & D' & _). rewrite D, D'. cbn [option_map snd]. f_equal.
  assert (X : forall i, 0 < i -> mtseq (a :: l) i = mtseq (b :: l) i).
  { assert (Sa := starts_mtseq _ La). assert (Sb := starts_mtseq _ Lb). destruct Sa as (Wa & Ra & Ha), Sb as (Wb & Rb & Hb).
    intros i Hi. induction i as [i IH] using (well_founded_induction N.lt_wf_0). destruct (i <? 624) eqn:F.
    - rewrite Ha, Hb by lia. replace (N.to_nat i) with (S (N.to_nat (i - 1))) by lia. reflexivity.
    - replace i with (i - 624 + 624) by lia. rewrite (mtrec_tw _ Wa Ra), (mtrec_tw _ Wb Rb). rewrite (IH (i - 624 + 397)), (IH (i - 624 + 1)) by lia. f_equal.
      unfold mt_tw. f_equal. unfold mt_y. f_equal. destruct (N.eq_dec (i - 624) 0) as [Z|Nz]; [|rewrite IH by lia; reflexivity].
      rewrite Z, (Ha 0), (Hb 0) by lia. exact E. }
  apply map_ext. intros i. unfold shifted. f_equal. apply X. lia.
Qed.
Example C24_case : legal (0x80000000 :: tl ex_key) /\ legal (0x80001234 :: tl ex_key) /\ N.land 0x80000000 0x80000000 = N.land 0x80001234 0x80000000.
Proof.
  assert (A : forall a, a < 2 ^ 32 -> legal (a :: tl ex_key)).
  { intros a H. destruct ex_key_legal as [L F]. split; [exact L|]. constructor; [exact H|]. change ex_key with (hd 0 ex_key :: tl ex_key) in F. inversion F. assumption. }
  split; [apply A; reflexivity|]. split; [apply A; reflexivity|reflexivity].
Qed.

(* ------------------------------------------------------------------- C26 *)
(* a seeded generator never reaches the all-zero array: whatever the seed words,
   the first word has its upper bit set, and no draw loses that *)
Theorem C26_mt19937_never_all_zero :
  forall words n s vs, mt_draws n (mt_seed words) = Some (s, vs) -> ~ Forall (eq 0) (mt_key s).
Proof.
  intros words n s vs. destruct (seed_ok words) as (K & P & Z). apply never_zero; [exact K|rewrite P; lia|rewrite Z; discriminate].
Qed.
Theorem C26_mt19937_numpy_never_all_zero :
  forall words n s vs, legal words -> mt_draws n (mt_seed_numpy words) = Some (s, vs) -> ~ Forall (eq 0) (mt_key s).
Proof.
  intros words n s vs L. apply legal_kok in L. destruct (seed_numpy_ok words L) as (K & P & Z). apply never_zero; [exact K|rewrite P; lia|rewrite Z; discriminate].
Qed.
Example C26_mt19937_case : legal (repeat 0 624).
Proof. split; [reflexivity|]. repeat constructor. Qed.

(* ------------------------------------------------------------------- C20 *)
(* from every legal array and 0 <= pos <= 624, seeded states among them, every
   access of any number of draws is in bounds and the state stays such *)
Theorem C20_mt19937_draws_safe :
  forall n key pos, legal key -> (0 <= pos <= 624)%Z -> exists s vs, mt_draws n (MT key pos) = Some (s, vs) /\ legal (mt_key s) /\ (0 <= mt_pos s <= 624)%Z.
Proof.
  intros n key pos L P. apply legal_kok in L. destruct (draws_stream n _ _ (block_stream key pos L P)) as (s & E & [P1 (y & W & R & H & _)]).
  exists s. eexists. split; [exact E|]. split; [apply legal_kok; exact (ring_kok _ _ _ W H)|exact P1].
Qed.
Theorem C20_mt19937_seeded : forall words, legal (mt_key (mt_seed words)) /\ mt_pos (mt_seed words) = 624%Z.
Proof. intros words. destruct (seed_ok words) as (K & P & _). split; [now apply legal_kok|exact P]. Qed.
(* and so are the accesses of the jumps, from every pos >= 0 *)
Theorem C20_mt19937_jump_safe :
  forall js key pos, lead js <> None -> legal key -> (0 <= pos)%Z -> exists s, mt_jump_state js (MT key pos) = Some s /\ legal (mt_key s) /\ (0 <= mt_pos s < 624)%Z.
Proof.
  intros js key pos E L P. apply legal_kok in L. destruct (lead js) as [cs|] eqn:F; [|contradiction].
  assert (X : exists p, (0 <= p < 624)%Z /\ mt_jump_state js (MT key pos) = mt_jump_state js (MT key p)).
  { destruct (624 <=? pos)%Z eqn:G; [exists 0%Z|exists pos; split; [lia|reflexivity]]. split; [lia|]. unfold mt_jump_state. cbn [mt_key mt_pos]. rewrite G. reflexivity. }
  destruct X as (p & Hp & ->). destruct (jump_pos js cs _ key p F eq_refl L Hp) as (k & E1 & K1).
  exists (MT k ((p + Z.of_nat (List.length cs)) mod 624)). split; [exact E1|]. split; [now apply legal_kok|]. apply Z.mod_pos_bound. lia.
Qed.
(* the setter takes any C int as pos, and only 0 .. 624 are safe *)
Theorem C20_mt19937_accepted_states_partial : forall key pos, legal key -> mt_next (MT key pos) <> None <-> (0 <= pos <= 624)%Z.
Proof.
  intros key pos L. pose proof L as L'. apply legal_kok in L. split.
  - intros H. unfold mt_next in H. cbn [mt_key mt_pos] in H. destruct (pos =? 624)%Z eqn:E; [lia|]. cbn [mt_key mt_pos] in H.
    destruct (Z_lt_dec pos 0) as [A|A]; [rewrite rd_none in H by lia; contradiction|].
    destruct (Z_le_dec pos 624) as [B|B]; [lia|]. destruct L as [L _]. rewrite rd_none in H by lia. contradiction.
  - intros P. destruct (next_stream _ _ (block_stream key pos L P)) as (s & E & _). rewrite E. discriminate.
Qed.
Theorem C20_mt19937_setter_unchecked_refuted :
  forall pos, (- 2 ^ 31 <= pos < 2 ^ 31)%Z -> ~ (0 <= pos <= 624)%Z -> forall t,
  exists v s, mt_setst v t = (s, Ok tt) /\ mt_next s = None.
Proof.
  intros pos C P t. exists (mt_get (MT ex_key pos)), (MT ex_key pos). pose proof ex_key_legal as L. split; [apply mt_set_get; [now apply legal_kok|exact C]|].
  destruct (mt_next (MT ex_key pos)) eqn:E; [|reflexivity]. exfalso. apply P. apply (C20_mt19937_accepted_states_partial ex_key pos L). rewrite E. discriminate.
Qed.
Example C20_mt19937_case : legal ex_key /\ lead (poly_128 the_polys) <> None.
Proof. split; [exact ex_key_legal|]. destruct poly_degrees as ((a & A & _) & _). cbn [the_polys poly_128]. rewrite A. discriminate. Qed.

(* ------------------------------------------------------------------- C18 *)
Theorem C18_mt19937_restores : forall s t, legal (mt_key s) -> (0 <= mt_pos s <= 624)%Z -> mt_setst (mt_get s) t = (s, Ok tt).
Proof. intros s t L P. apply mt_set_get; [now apply legal_kok|]. split; [apply (Z.le_trans _ 0); [discriminate|apply P]|apply (Z.le_lt_trans _ 624); [apply P|reflexivity]]. Qed.

(* ------------------------------------------------------------------- C19 *)
(* the array is overwritten before pos is looked at *)
Theorem C19_mt19937_not_atomic_refuted : ~ atomic mt_setst.
Proof.
  intros A. specialize (A (PDict [("bit_generator", PStr "MT19937"); ("state", PDict [("key", PArr 32 (repeat 1 624)); ("pos", PNone)])]%string) (MT (repeat 0 624) 0)).
  assert (E : mt_setst (PDict [("bit_generator", PStr "MT19937"); ("state", PDict [("key", PArr 32 (repeat 1 624)); ("pos", PNone)])]%string) (MT (repeat 0 624) 0)
    = (MT (repeat 1 624) 0, Raise TypeError)) by (vm_compute; reflexivity).
  specialize (A _ _ E). apply (f_equal (fun s => hd 0 (mt_key s))) in A. discriminate A.
Qed.

(* ------------------------------------------------------------------- C22 *)
(* a 64-bit draw, evaluated from left to right, is two 32-bit draws, the first
   the high half; nothing is held back *)
Theorem C22_mt19937_64_is_two_32 :
  forall key pos, legal key -> (0 <= pos <= 624)%Z ->
  exists s u v, mt_draws 2 (MT key pos) = Some (s, [u; v]) /\ mt_next64 true (MT key pos) = Some (s, u * 2 ^ 32 + v) /\ u < 2 ^ 32 /\ v < 2 ^ 32.
Proof.
  intros key pos L P. apply legal_kok in L. pose proof (block_stream key pos L P) as S0.
  destruct (next_stream _ _ S0) as (s1 & E1 & S1). destruct (next_stream _ _ S1) as (s2 & E2 & _).
  set (x := shifted (Z.to_N pos) (mtseq key)) in *. assert (W : wfs x) by (apply shifted_wf, mtseq_wfs, L).
  exists s2, (mt_temper (x 0)), (mt_temper (shifted 1 x 0)). cbn [mt_draws]. unfold mt_next64. rewrite E1, E2.
  assert (Wu := temper_wf _ (W 0)). assert (Wv : wf 32 (mt_temper (shifted 1 x 0))) by (apply temper_wf, W).
  split; [reflexivity|]. split; [|split; assumption]. do 2 f_equal.
  assert (X : forall u v, wf 32 u -> wf 32 v -> N.lor (wshl 64 u 32) v = u * 2 ^ 32 + v).
  { clear. intros u v Hu Hv. unfold wshl. rewrite N.mod_small; [|unfold wf in *; rewrite N.shiftl_mul_pow2; change (2 ^ 64) with (2 ^ 32 * 2 ^ 32); apply N.mul_lt_mono_pos_r; [reflexivity|exact Hu]].
    rewrite N.shiftl_mul_pow2, N.lor_comm, N.add_comm. rewrite <- N.lxor_lor; [symmetry; apply N.add_nocarry_lxor|];
    (apply N.bits_inj; intros i; rewrite N.land_spec, N.bits_0, <- N.shiftl_mul_pow2; destruct (i <? 32) eqn:F;
      [rewrite N.shiftl_spec_low by lia; apply andb_false_r|rewrite (proj1 (wf_testbit 32 v) Hv) by lia; reflexivity]). }
  now apply X.
Qed.

(* ------------------------------------------------------------------- C54 *)
(* mt19937_next64 makes both draws in one expression, whose order C leaves open *)
Theorem C54_mt19937_order_dependent_refuted : exists s, mt_next64 true s <> mt_next64 false s.
Proof.
  exists (MT (0 :: 1 :: repeat 0 622) 0). intros E. apply (f_equal (option_map snd)) in E.
  assert (A : option_map snd (mt_next64 true (MT (0 :: 1 :: repeat 0 622) 0)) = Some (mt_temper 1)) by (vm_compute; reflexivity).
  assert (B : option_map snd (mt_next64 false (MT (0 :: 1 :: repeat 0 622) 0)) = Some (mt_temper 1 * 2 ^ 32)) by (vm_compute; reflexivity).
  rewrite A, B in E. injection E as E. revert E. vm_compute. discriminate.
Qed.
Theorem C54_mt19937_order_same_state : forall s, option_map fst (mt_next64 true s) = option_map fst (mt_next64 false s).
Proof. intros s. unfold mt_next64. destruct (mt_next s) as [[s1 u]|]; [|reflexivity]. destruct (mt_next s1) as [[s2 v]|]; reflexivity. Qed.

Print Assumptions C59_mt19937_is_the_recurrence.
Print Assumptions C59_mt19937_sequence_exists.
Print Assumptions C15_mt19937_jump_is_polynomial.
Print Assumptions C15_mt19937_jumped_refuted.
Print Assumptions C15_mt19937_first_outputs_partial.
Print Assumptions C48_mt19937_weights.
Print Assumptions C48_mt19937_jump_n_shifts.
Print Assumptions C17_mt19937_jumped_16_refuted.
Print Assumptions C17_mt19937_jumped_small.
Print Assumptions C49_mt19937_temper_bijective.
Print Assumptions C24_mt19937_block_injective.
Print Assumptions C24_mt19937_unused_bits.
Print Assumptions C26_mt19937_never_all_zero.
Print Assumptions C26_mt19937_numpy_never_all_zero.
Print Assumptions C20_mt19937_draws_safe.
Print Assumptions C20_mt19937_seeded.
Print Assumptions C20_mt19937_jump_safe.
Print Assumptions C20_mt19937_accepted_states_partial.
Print Assumptions C20_mt19937_setter_unchecked_refuted.
Print Assumptions C18_mt19937_restores.
Print Assumptions C19_mt19937_not_atomic_refuted.
Print Assumptions C22_mt19937_64_is_two_32.
Print Assumptions C54_mt19937_order_dependent_refuted.
Print Assumptions C54_mt19937_order_same_state.
