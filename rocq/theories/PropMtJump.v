(* C15, C48: the jump polynomials of MT19937 are the powers of the shift they are meant to be *)
From Verif Require Import Word Arr Py Mt19937 Mt19937Poly Mt19937Facts MtChar MtJump PropMt19937.
From Coq Require Import ZifyBool ZifyNat ZifyN.
Open Scope N_scope.
Ltac Zify.zify_post_hook ::= idtac.

(* the polynomials of mt19937-poly.h with the exponents in their names *)
Definition stored : list (list bool * N) :=
  [(poly_128 the_polys, 128); (poly_132 the_polys, 132); (poly_136 the_polys, 136); (poly_140 the_polys, 140); (poly_144 the_polys, 144)].
Lemma stored_moves js k : In (js, k) stored -> moves1 js (2 ^ k).
Proof.
  destruct polys_move as (A & B & C & D & E). intros I. unfold stored in I. cbn [In the_polys poly_128 poly_132 poly_136 poly_140 poly_144] in I.
  destruct I as [I|[I|[I|[I|[I|[]]]]]]; apply pair_equal_spec in I; destruct I as [<- <-]; assumption.
Qed.
Lemma stored_lead js k : In (js, k) stored -> exists cs, lead js = Some cs /\ (2 <= Z.of_nat (List.length cs) mod 624)%Z.
Proof.
  destruct poly_degrees as ((a & A & LA) & (b & B & LB) & (c & C & LC) & (d & D & LD) & (e & E & LE)). intros I. unfold stored in I.
  cbn [In the_polys poly_128 poly_132 poly_136 poly_140 poly_144] in I.
  destruct I as [I|[I|[I|[I|[I|[]]]]]]; apply pair_equal_spec in I; destruct I as [<- _]; eexists; (split; [eassumption|]); [rewrite LA|rewrite LB|rewrite LC|rewrite LD|rewrite LE]; vm_compute; discriminate.
Qed.

(* ------------------------------------------------------------------- C15 *)
(* The stored polynomial with exponent k, applied to any sequence of the recurrence, gives the
   sequence 2^k words on: every word after the first, and the upper bit of the first, the only
   one later words depend on *)
Theorem C15_mt19937_polynomials :
  forall js k x, In (js, k) stored -> (forall n, x n < 2 ^ 32) -> mtrec x ->
  (forall i, 0 < i -> pol js x i = x (2 ^ k + i)) /\ N.land (pol js x 0) 0x80000000 = N.land (x (2 ^ k)) 0x80000000.
Proof. intros js k x I W R. exact (stored_moves js k I x W R). Qed.
(* Two of them give the first word as well *)
Theorem C15_mt19937_polynomials_132_136 : shifts_by (poly_132 the_polys) (2 ^ 132) /\ shifts_by (poly_136 the_polys) (2 ^ 136).
Proof.
  destruct polys_move as (_ & B & C & _). split; apply moves1_all; try assumption; try reflexivity.
Qed.
(* The three others do not: the lower 31 bits of the first word of the array, which no output of
   the generator depends on at the end of a block, change the first output after the jump *)
Definition flip0 (x : N -> N) : N -> N := fun i => if i =? 0 then N.lxor (x 0) 1 else x i.
Lemma flip0_wf x : wfs x -> wfs (flip0 x).
Proof. intros W i. unfold flip0. destruct (i =? 0); [apply wf_lxor; [apply W|reflexivity]|apply W]. Qed.
Lemma flip0_top a : wf 32 a -> N.lxor a 1 / 2 ^ 31 = a / 2 ^ 31.
Proof. intros W. apply N.bits_inj. intros k. rewrite <- !N.shiftr_div_pow2, !N.shiftr_spec', N.lxor_spec. change 1 with (2 ^ 0) at 1. rewrite N.pow2_bits_false by lia. apply xorb_false_r. Qed.
Lemma flip0_rec x : wfs x -> mtrec x -> mtrec (flip0 x).
Proof.
  intros W R n. unfold flip0. replace (n + 624 =? 0) with false by lia. replace (n + 397 =? 0) with false by lia. replace (n + 1 =? 0) with false by lia.
  rewrite (R n). destruct (n =? 0) eqn:E; [|reflexivity]. apply N.eqb_eq in E. subst n. now rewrite flip0_top by apply W.
Qed.
Lemma act_flip p x k : N.testbit p 0 = true -> act p (bit (flip0 x) k) 0 = xorb (act p (bit x k) 0) (k =? 0).
Proof.
  intros Z. assert (G : forall q i, 0 < i -> actp q (bit (flip0 x) k) i = actp q (bit x k) i).
  { intros q i Hi. replace i with (i - 1 + 1) by lia. rewrite <- !actp_sh. apply actp_ext. intros j. unfold sh, bit, flip0. now replace (j + 1 =? 0) with false by lia. }
  assert (H : bit (flip0 x) k 0 = xorb (bit x k 0) (k =? 0)).
  { unfold bit, flip0. change (0 =? 0) with true. cbv iota. rewrite N.lxor_spec. f_equal. }
  destruct p as [|[p|p|]]; try discriminate Z; cbn [act actp].
  - rewrite H, (G p (0 + 1) ltac:(lia)). now destruct (bit x k 0), (k =? 0), (actp p (bit x k) (0 + 1)).
  - exact H.
Qed.
Lemma upd0_nth key v i : kok key -> i < 624 -> nth (N.to_nat i) (upd key 0 v) 0 = if i =? 0 then v else nth (N.to_nat i) key 0.
Proof.
  intros [L _] Hi. destruct key as [|a key]; [discriminate L|]. cbn [upd]. destruct i as [|i]; [reflexivity|]. change (N.pos i =? 0) with false. cbv iota.
  replace (N.to_nat (N.pos i)) with (S (N.to_nat (N.pred (N.pos i)))) by lia. reflexivity.
Qed.
Lemma starts_flip key x : kok key -> starts key x -> kok (upd key 0 (N.lxor (nth 0 key 0) 1)) /\ starts (upd key 0 (N.lxor (nth 0 key 0) 1)) (flip0 x).
Proof.
  intros K S. destruct (starts_ring key x K S) as (W & R & _). destruct S as (_ & _ & H).
  split; [apply upd_kok; [exact K|apply wf_lxor; [apply nth_wf, K|reflexivity]]|]. split; [exact (flip0_wf x W)|split; [now apply flip0_rec|]].
  intros i Hi. rewrite upd0_nth by assumption. unfold flip0. destruct (i =? 0) eqn:E; [|now apply H]. f_equal. apply (H 0). lia.
Qed.
Theorem C15_mt19937_dead_bits_refuted :
  forall js key, In js [poly_128 the_polys; poly_140 the_polys; poly_144 the_polys] -> legal key ->
  let key' := upd key 0 (N.lxor (nth 0 key 0) 1) in
  legal key' /\ (forall n, option_map snd (mt_draws n (MT key' 624)) = option_map snd (mt_draws n (MT key 624))) /\
  exists s s', mt_jump_state js (MT key 624) = Some s /\ mt_jump_state js (MT key' 624) = Some s' /\ option_map snd (mt_next s) <> option_map snd (mt_next s').
Proof.
  intros js key I L key'. pose proof L as L0. apply legal_kok in L. pose proof (starts_mtseq key L) as S. destruct (starts_flip key _ L S) as [L' S']. fold key' in L', S'.
  pose proof (proj2 (legal_kok key') L') as L1. split; [exact L1|]. split.
  - intros n. rewrite (C59_mt19937_is_the_recurrence key 624 _ n L0 ltac:(lia) S), (C59_mt19937_is_the_recurrence key' 624 _ n L1 ltac:(lia) S'). f_equal. apply map_ext. intros i. unfold flip0.
    now replace (Z.to_N 624 + N.of_nat i =? 0) with false by lia.
  - assert (C : exists p, js = coeffs p /\ N.testbit p 0 = true /\ exists cs, lead js = Some cs /\ (0 <= Z.of_nat (List.length cs) mod 624)%Z).
    { assert (J : exists k, In (js, k) stored).
      { unfold stored. cbn [In] in *. destruct I as [<-|[<-|[<-|[]]]]; [exists 128|exists 140|exists 144]; auto 6. }
      destruct J as (k & J). destruct (stored_lead js k J) as (cs & E & Q). cbn [In the_polys poly_128 poly_140 poly_144] in I.
      destruct I as [<-|[<-|[<-|[]]]]; eexists; (split; [reflexivity|]); (split; [reflexivity|]); exists cs; (split; [exact E|lia]). }
    destruct C as (p & -> & Z & cs & E & Q). destruct (starts_ring key _ L S) as (W & R & H). destruct (starts_ring key' _ L' S') as (W' & R' & H').
    destruct (jump_ring _ cs key 624 _ E W R H) as (k1 & E1 & R1). destruct (jump_ring _ cs key' 624 _ E W' R' H') as (k2 & E2 & R2).
    change (start 624) with 0%Z in *. change (adv 0 (List.length cs)) with (Z.of_nat (List.length cs) mod 624)%Z in *.
    set (q := (Z.of_nat (List.length cs) mod 624)%Z) in *. assert (q < 624)%Z by (apply Z.mod_pos_bound; lia).
    do 2 eexists. split; [exact E1|]. split; [exact E2|]. unfold mt_next. cbn [mt_key mt_pos]. replace (q =? 624)%Z with false by lia. cbv iota.
    cbn [mt_key mt_pos]. rewrite (ring_rd _ _ _ q R1 ltac:(lia)), (ring_rd _ _ _ q R2 ltac:(lia)). unfold unwr. replace (q <=? q)%Z with true by lia. rewrite Z.sub_diag. change (Z.to_N 0) with 0.
    rewrite <- !(lead_pol _ _ _ _ E). cbn [option_map snd]. intros F. injection F as F. apply temper_inj in F; [|now apply pol_wf|now apply pol_wf].
    assert (B : N.testbit (pol (coeffs p) (mtseq key) 0) 0 = N.testbit (pol (coeffs p) (flip0 (mtseq key)) 0) 0) by now rewrite F.
    rewrite !coeffs_pol, act_flip in B by exact Z. change (0 =? 0) with true in B. destruct (act p (bit (mtseq key) 0) 0); discriminate B.
Qed.
(* What a jump of a generator at the end of a block gives: the outputs from the second on, as far as
   the array is read before it is renewed, are those of the words 2^k + 1, 2^k + 2, ... *)
Theorem C15_mt19937_jumped_outputs_partial :
  forall js k key x n, In (js, k) stored -> legal key -> starts key x ->
  exists s, mt_jump_state js (MT key 624) = Some s /\ (2 <= mt_pos s < 624)%Z /\
    ((Z.of_nat n < 624 - mt_pos s)%Z -> exists v, option_map snd (mt_draws (S n) s) = Some (v :: map (fun i => mt_temper (x (2 ^ k + 1 + N.of_nat i))) (seq 0 n))).
Proof.
  intros js k key x n I L X. destruct (stored_lead js k I) as (cs & E & Q). pose proof (stored_moves js k I) as M. apply legal_kok in L. destruct (starts_ring key x L X) as (W & R & H).
  destruct (jump_ring js cs key 624 x E W R H) as (k1 & E1 & R1). change (start 624) with 0%Z in *. change (adv 0 (List.length cs)) with (Z.of_nat (List.length cs) mod 624)%Z in *.
  set (q := (Z.of_nat (List.length cs) mod 624)%Z) in *. assert (q < 624)%Z by (apply Z.mod_pos_bound; lia).
  exists (MT k1 q). split; [exact E1|]. cbn [mt_pos]. split; [lia|]. intros Hn.
  assert (K := ring_kok k1 _ _ (fun i => pol_wf _ x i W) R1).
  destruct (draws_stream (S n) _ _ (block_stream k1 q K ltac:(lia))) as (s & E2 & _). rewrite E2. cbn [option_map snd seq map]. eexists. f_equal. f_equal.
  rewrite <- seq_shift, map_map. apply map_ext_in. intros i Hi. apply in_seq in Hi. f_equal. unfold shifted.
  assert (A := ring_rd _ _ _ (q + Z.of_nat (S i))%Z (mtseq_ring k1 K) ltac:(lia)). rewrite (ring_rd _ _ _ _ R1) in A by lia.
  unfold unwr in A. replace (0 <=? q + Z.of_nat (S i))%Z with true in A by lia. replace (q <=? q + Z.of_nat (S i))%Z with true in A by lia.
  replace (Z.to_N (q + Z.of_nat (S i) - q)) with (N.of_nat (S i)) in A by lia. replace (Z.to_N (q + Z.of_nat (S i) - 0)) with (Z.to_N q + N.of_nat (S i)) in A by lia.
  rewrite <- (lead_pol _ _ _ _ E), (proj1 (M x W R)) in A by lia.
  apply (f_equal (fun o => match o with Some v => v | None => 0 end)) in A. cbv beta iota in A. rewrite <- A. f_equal. lia.
Qed.

(* ------------------------------------------------------------------- C48 *)
(* jumped(n): read round from pos, the array holds the sequence n 2^128 words on (every word
   but the lower bits of the first) *)
Lemma unit_moves p k : jump_unit the_polys p k -> moves1 p (Z.to_N k * 2 ^ 128) /\ (0 < k)%Z /\ exists cs, lead p = Some cs.
Proof.
  destruct polys_move as (A & B & C & D & E). pose proof poly_degrees as ((a & A' & _) & (b & B' & _) & (c & C' & _) & (d & D' & _) & (e & E' & _)). intros I. unfold jump_unit in I.
  cbn [In the_polys poly_128 poly_132 poly_136 poly_140 poly_144] in I.
  destruct I as [I|[I|[I|[I|[I|[]]]]]]; apply pair_equal_spec in I; destruct I as [<- <-]; (split; [assumption|split; [reflexivity|eexists; eassumption]]).
Qed.
Lemma plan_moves us : Forall (fun u => jump_unit the_polys (fst u) (snd u)) us ->
  forall s x, wfs x -> mtrec x -> ring (mt_key s) (start (mt_pos s)) x ->
  exists s' y, fold_left ostep us (Some s) = Some s' /\ wfs y /\ mtrec y /\ ring (mt_key s') (start (mt_pos s')) y /\ (0 <= weight us)%Z /\ forall i, 0 < i -> y i = x (Z.to_N (weight us) * 2 ^ 128 + i).
Proof.
  intros F. induction F as [|[p k] us U F IH]; intros s x W R H.
  - exists s, x. split; [reflexivity|]. repeat (split; [assumption|]). split; [cbn; lia|]. intros i _. f_equal.
  - cbn [fst snd] in U. destruct (unit_moves p k U) as (M & K & cs & E). destruct s as [key pos]. cbn [mt_key mt_pos] in H.
    destruct (jump_ring p cs key pos x E W R H) as (k1 & E1 & R1). cbn [fold_left ostep fst]. rewrite E1.
    destruct (IH (MT k1 (adv (start pos) (List.length cs))) (pol (true :: cs) x)) as (s2 & y & E2 & Wy & Ry & R2 & P & Y).
    { intros i. now apply pol_wf. } { now apply pol_rec. } { cbn [mt_key mt_pos]. rewrite start_adv. exact R1. }
    exists s2, y. split; [exact E2|]. split; [exact Wy|]. split; [exact Ry|]. split; [exact R2|]. cbn [weight fold_right snd]. fold (weight us). split; [lia|].
    intros i Hi. rewrite Y by exact Hi. rewrite <- (lead_pol _ _ _ _ E), (proj1 (M x W R)) by lia. f_equal. rewrite Z2N.inj_add by lia. lia.
Qed.
Theorem C48_mt19937_jumped_moves :
  forall n key pos x, (0 <= n)%Z -> (forall i, x i < 2 ^ 32) -> mtrec x -> ring key (start pos) x ->
  exists s y, mt_jump_n the_polys (Z.to_nat n) n (MT key pos) = Some s /\ (forall i, y i < 2 ^ 32) /\ mtrec y /\ ring (mt_key s) (start (mt_pos s)) y /\
    forall i, 0 < i -> y i = x (Z.to_N n * 2 ^ 128 + i).
Proof.
  intros n key pos x P W R H. destruct (jump_n_plan the_polys (Z.to_nat n) n (MT key pos) ltac:(lia)) as (us & F & Wt & E).
  destruct (plan_moves us F (MT key pos) x W R H) as (s & y & E1 & Wy & Ry & R1 & _ & Y). exists s, y. rewrite E. split; [exact E1|]. split; [exact Wy|]. split; [exact Ry|]. split; [exact R1|].
  intros i Hi. rewrite Y by exact Hi. rewrite Wt. replace (Z.max 0 n) with n by lia. reflexivity.
Qed.
Example C48_moves_case : In (poly_128 the_polys, 128) stored /\ legal ex_key /\ starts ex_key (mtseq ex_key) /\ ring ex_key (start 624) (mtseq ex_key).
Proof.
  split; [now left|]. split; [exact ex_key_legal|]. pose proof (proj1 (legal_kok _) ex_key_legal) as K. split; [now apply starts_mtseq|now apply mtseq_ring].
Qed.

Print Assumptions C15_mt19937_polynomials.
Print Assumptions C15_mt19937_polynomials_132_136.
Print Assumptions C15_mt19937_dead_bits_refuted.
Print Assumptions C15_mt19937_jumped_outputs_partial.
Print Assumptions C48_mt19937_jumped_moves.
