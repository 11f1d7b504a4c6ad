(* Proofs about SeedSequence. *)
From Verif Require Import Word Arr Lcg SeedSeq.
From Coq Require Import ZifyBool ZifyNat ZifyN.
Open Scope N_scope.

(* ---- integers to words ---- *)
Fixpoint le32 (l : list N) : N := match l with [] => 0 | x :: l => x + 2 ^ 32 * le32 l end.
Lemma int_words_val fuel : forall n, n < 2 ^ (32 * N.of_nat fuel) -> le32 (int_words fuel n) = n.
Proof.
  induction fuel as [|fuel IH]; intros n Hn; cbn [int_words].
  - change (2 ^ (32 * N.of_nat 0)) with 1 in Hn. cbn [le32]. lia.
  - destruct (N.eqb_spec n 0) as [->|Hz]; [reflexivity|]. cbn [le32]. rewrite IH.
    + change 0xffffffff with (N.ones 32). rewrite N.land_ones.
      pose proof (N.div_mod n (2 ^ 32) (pow2_nz 32)) as E. clear - E. lia.
    + apply N.div_lt_upper_bound; [discriminate|]. rewrite <- N.pow_add_r.
      replace (32 + 32 * N.of_nat fuel) with (32 * N.of_nat (S fuel)) by (clear; lia). exact Hn.
Qed.
Lemma int_words_wf fuel : forall n, Forall (wf 32) (int_words fuel n).
Proof.
  induction fuel as [|fuel IH]; intros n; cbn [int_words]; [constructor|].
  destruct (n =? 0); constructor; [|apply IH].
  change 0xffffffff with (N.ones 32). rewrite N.land_ones. apply wf_trunc.
Qed.
Lemma size_bound n : n < 2 ^ (32 * N.of_nat (N.to_nat (N.size n))).
Proof.
  rewrite N2Nat.id. apply N.lt_le_trans with (2 ^ N.size n); [apply N.size_gt|].
  apply N.pow_le_mono_r; [discriminate|lia].
Qed.
(* canonical: no superfluous high zero word *)
Lemma int_words_last fuel : forall n, n < 2 ^ (32 * N.of_nat fuel) -> n <> 0 -> last (int_words fuel n) 0 <> 0.
Proof.
  induction fuel as [|fuel IH]; intros n Hn Hz.
  - change (2 ^ (32 * N.of_nat 0)) with 1 in Hn. lia.
  - cbn [int_words]. rewrite (proj2 (N.eqb_neq n 0) Hz).
    assert (Hd : n / 2 ^ 32 < 2 ^ (32 * N.of_nat fuel)).
    { apply N.div_lt_upper_bound; [discriminate|]. rewrite <- N.pow_add_r.
      replace (32 + 32 * N.of_nat fuel) with (32 * N.of_nat (S fuel)) by (clear; lia). exact Hn. }
    destruct (N.eq_dec (n / 2 ^ 32) 0) as [E|E].
    + rewrite E. assert (En : int_words fuel 0 = []) by (destruct fuel; reflexivity). rewrite En. cbn [last].
      change 0xffffffff with (N.ones 32). rewrite N.land_ones.
      pose proof (N.div_mod n (2 ^ 32) (pow2_nz 32)) as D. rewrite E in D. clear - D Hz. lia.
    + specialize (IH _ Hd E). destruct (int_words fuel (n / 2 ^ 32)) as [|y l]; [cbn in IH; lia|exact IH].
Qed.
Lemma int_to_words_val n : option_map le32 (int_to_words (Z.of_N n)) = Some n.
Proof.
  unfold int_to_words. replace (Z.of_N n <? 0)%Z with false by lia.
  destruct (Z.eqb_spec (Z.of_N n) 0) as [E|E]; [assert (n = 0) by lia; subst; reflexivity|].
  rewrite N2Z.id. cbn [option_map]. now rewrite int_words_val by apply size_bound.
Qed.
Lemma int_to_words_neg z : (z < 0)%Z -> int_to_words z = None.
Proof. intros H. unfold int_to_words. now replace (z <? 0)%Z with true by lia. Qed.
Lemma int_to_words_wf z l : int_to_words z = Some l -> Forall (wf 32) l /\ l <> [].
Proof.
  unfold int_to_words. destruct (Z.ltb_spec z 0) as [H|H]; [discriminate|].
  destruct (Z.eqb_spec z 0) as [E|E]; intros [= <-].
  - split; [repeat constructor|discriminate].
  - split; [apply int_words_wf|]. intros C.
    pose proof (int_words_last _ _ (size_bound (Z.to_N z)) ltac:(lia)) as L. rewrite C in L. now apply L.
Qed.
Lemma int_to_words_canon z l : int_to_words z = Some l -> (1 < List.length l)%nat -> last l 0 <> 0.
Proof.
  unfold int_to_words. destruct (Z.ltb_spec z 0) as [H|H]; [discriminate|].
  destruct (Z.eqb_spec z 0) as [E|E]; intros [= <-]; [cbn; lia|]. intros _.
  apply int_words_last; [apply size_bound|lia].
Qed.
Lemma int_to_words_inj a b : int_to_words (Z.of_N a) = int_to_words (Z.of_N b) -> a = b.
Proof.
  intros E. apply (f_equal (option_map le32)) in E. rewrite !int_to_words_val in E. now injection E.
Qed.
Lemma le32_lt l : Forall (wf 32) l -> le32 l < 2 ^ (32 * N.of_nat (List.length l)).
Proof.
  induction 1 as [|x l Hx Hl IH]; [reflexivity|]. cbn [le32 List.length].
  replace (32 * N.of_nat (S (List.length l))) with (32 + 32 * N.of_nat (List.length l)) by (clear; lia).
  rewrite N.pow_add_r. unfold wf in Hx. nia.
Qed.
Lemma le32_app a b : le32 (a ++ b) = le32 a + 2 ^ (32 * N.of_nat (List.length a)) * le32 b.
Proof.
  induction a as [|x a IH]; [cbn [app le32 List.length]; change (2 ^ (32 * N.of_nat 0)) with 1; lia|].
  cbn [app le32 List.length]. rewrite IH.
  replace (32 * N.of_nat (S (List.length a))) with (32 + 32 * N.of_nat (List.length a)) by (clear; lia).
  rewrite N.pow_add_r. ring.
Qed.
Lemma le32_repeat0 k : le32 (repeat 0 k) = 0.
Proof. induction k as [|k IH]; [reflexivity|]. cbn [repeat le32]. rewrite IH. reflexivity. Qed.
Lemma le32_inj a : forall b, List.length a = List.length b -> Forall (wf 32) a -> Forall (wf 32) b -> le32 a = le32 b -> a = b.
Proof.
  induction a as [|x a IH]; intros [|y b] Hl Ha Hb E; try discriminate; [reflexivity|].
  inversion Ha; inversion Hb; subst. cbn [le32] in E. unfold wf in *.
  assert (x = y /\ le32 a = le32 b) as [-> E'] by (clear - E H1 H5; change (2 ^ 32) with 4294967296 in *; lia).
  f_equal. apply IH; auto.
Qed.

(* ---- one word of hashing ---- *)
Definition scramble (hc m v : N) : N :=
  let x := wmul 32 (N.lxor v hc) m in N.lxor x (N.shiftr x 16).
Lemma hashmix_eq v hc : hashmix v hc = (scramble hc (wmul 32 hc MULT_A) v, wmul 32 hc MULT_A).
Proof. reflexivity. Qed.
Lemma scramble_wf hc m v : wf 32 (scramble hc m v).
Proof. unfold scramble. apply wf_lxor; [apply wf_wmul|apply wf_shr, wf_wmul]. Qed.
Lemma scramble_inj hc m a b : N.odd m = true -> wf 32 hc -> wf 32 a -> wf 32 b ->
  scramble hc m a = scramble hc m b -> a = b.
Proof.
  intros Hm Hc Ha Hb E. unfold scramble in E.
  apply (lxor_shr_inj 32) in E; [|reflexivity|apply wf_wmul..].
  rewrite !(wmul_comm 32 _ m) in E. apply odd_mul_inj in E; [|exact Hm|now apply wf_lxor..].
  assert (H : N.lxor (N.lxor a hc) hc = N.lxor (N.lxor b hc) hc) by now rewrite E.
  now rewrite !lxor_cancel in H.
Qed.
Lemma scramble_0 hc m : scramble hc m hc = 0.
Proof. unfold scramble. now rewrite N.lxor_nilpotent. Qed.
Lemma odd_wmul a b : N.odd a = true -> N.odd b = true -> N.odd (wmul 32 a b) = true.
Proof.
  intros Ha Hb. unfold wmul. rewrite <- N.bit0_odd. rewrite N.mod_pow2_bits_low by reflexivity.
  rewrite N.bit0_odd, N.odd_mul, Ha, Hb. reflexivity.
Qed.

Lemma mix_inj x x' y : wf 32 x -> wf 32 x' -> mix x y = mix x' y -> x = x'.
Proof.
  intros Hx Hx' E. unfold mix in E.
  apply (lxor_shr_inj 32) in E; [|reflexivity|apply wf_wsub..].
  apply (odd_mul_inj 32 MIX_MULT_L); [reflexivity|assumption..|].
  set (a := wmul 32 MIX_MULT_L x) in *. set (b := wmul 32 MIX_MULT_L x') in *.
  set (c := wmul 32 MIX_MULT_R y) in *.
  assert (Ha : wf 32 a) by apply wf_wmul. assert (Hb : wf 32 b) by apply wf_wmul. clearbody a b c.
  apply N2Z.inj. apply (f_equal Z.of_N) in E. rewrite !Zwsub in E. apply Zwf in Ha, Hb.
  change (2 ^ Z.of_N 32)%Z with 4294967296%Z in *. clear - E Ha Hb. lia.
Qed.
Lemma mix_wf x y : wf 32 (mix x y).
Proof. unfold mix. apply wf_lxor; [apply wf_wsub|apply wf_shr, wf_wsub]. Qed.

(* ---- mixing is reversible ---- *)
Section Mixing.
  Context (n : nat).
  Definition okm (m : list N) : Prop := List.length m = n /\ Forall (wf 32) m.
  (* a step whose constant does not depend on the data and which never maps two
     pools to one *)
  Definition good (f : list N * N -> list N * N) : Prop :=
    forall m1 m2 hc, okm m1 -> okm m2 ->
    okm (fst (f (m1, hc))) /\ snd (f (m1, hc)) = snd (f (m2, hc)) /\
    (fst (f (m1, hc)) = fst (f (m2, hc)) -> m1 = m2).
  Lemma good_id : good (fun st => st).
  Proof. intros m1 m2 hc H1 H2. auto. Qed.
  Lemma good_fold {X} (f : list N * N -> X -> list N * N) l :
    (forall x, In x l -> good (fun st => f st x)) -> good (fun st => fold_left f l st).
  Proof.
    induction l as [|x l IH]; intros Hf; [exact good_id|].
    intros m1 m2 hc H1 H2. cbn [fold_left].
    destruct (Hf x (or_introl eq_refl) m1 m2 hc H1 H2) as (A1 & A2 & A3).
    destruct (Hf x (or_introl eq_refl) m2 m1 hc H2 H1) as (B1 & _ & _).
    destruct (f (m1, hc) x) as [p1 h1], (f (m2, hc) x) as [p2 h2]. cbn [fst snd] in *. subst h2.
    destruct (IH (fun y Hy => Hf y (or_intror Hy)) p1 p2 h1 A1 B1) as (C1 & C2 & C3). auto.
  Qed.
  Lemma mix_into_ok e dst m hc : okm m -> okm (fst (mix_into e dst (m, hc))).
  Proof.
    intros [Hl Hf]. unfold mix_into. rewrite hashmix_eq. cbn [fst]. split.
    - now rewrite upd_length.
    - apply upd_Forall; [exact Hf|apply mix_wf].
  Qed.
  Lemma nth_wf m i : okm m -> wf 32 (nth i m 0).
  Proof.
    intros [_ Hf]. destruct (Nat.lt_ge_cases i (List.length m)) as [H|H].
    - rewrite Forall_forall in Hf. apply Hf, nth_In, H.
    - rewrite nth_overflow by exact H. reflexivity.
  Qed.
  Lemma list_ext (a b : list N) : List.length a = n -> List.length b = n ->
    (forall i, (i < n)%nat -> nth i a 0 = nth i b 0) -> a = b.
  Proof. intros Ha Hb H. apply (nth_ext a b 0 0); [congruence|]. intros i Hi. apply H. lia. Qed.
  Lemma mix_into_inj e dst m1 m2 hc : (dst < n)%nat -> okm m1 -> okm m2 ->
    fst (mix_into e dst (m1, hc)) = fst (mix_into e dst (m2, hc)) -> m1 = m2.
  Proof.
    intros Hd O1 O2 E. unfold mix_into in E. rewrite hashmix_eq in E. cbn [fst] in E.
    set (h := scramble hc (wmul 32 hc MULT_A) e) in E. clearbody h.
    pose proof (nth_wf m1 dst O1) as W1. pose proof (nth_wf m2 dst O2) as W2.
    destruct O1 as [L1 _], O2 as [L2 _]. apply list_ext; [assumption..|]. intros i Hi.
    assert (Ei := f_equal (fun l => nth i l 0) E). cbv beta in Ei.
    rewrite !upd_nth in Ei by lia. destruct (Nat.eqb_spec dst i) as [->|Hne]; [|exact Ei].
    revert Ei. now apply mix_inj.
  Qed.
  Lemma good_extra e dst : (dst < n)%nat -> good (fun st => mix_into e dst st).
  Proof.
    intros Hd m1 m2 hc H1 H2. split; [now apply mix_into_ok|]. split; [reflexivity|].
    now apply mix_into_inj.
  Qed.
  Lemma good_src src dst : (src < n)%nat -> (dst < n)%nat ->
    good (fun st => if Nat.eqb src dst then st else mix_into (nth src (fst st) 0) dst st).
  Proof.
    intros Hs Hd. destruct (Nat.eqb_spec src dst) as [_|Hne]; [exact good_id|].
    intros m1 m2 hc H1 H2. cbn [fst]. split; [now apply mix_into_ok|]. split; [reflexivity|].
    intros E.
    assert (Es : nth src m1 0 = nth src m2 0).
    { assert (Ei := f_equal (fun l => nth src l 0) E). cbv beta in Ei.
      unfold mix_into in Ei. rewrite !hashmix_eq in Ei. cbn [fst] in Ei.
      now rewrite !upd_nth_other in Ei by congruence. }
    rewrite <- Es in E. revert E. now apply mix_into_inj.
  Qed.
  Lemma good_mix_src src : (src < n)%nat -> good (fun st => mix_src n st src).
  Proof.
    intros Hs. unfold mix_src. intros m1 m2 hc H1 H2.
    apply (good_fold (fun st dst => if Nat.eqb src dst then st else mix_into (nth src (fst st) 0) dst st)); auto.
    intros d Hd. apply in_seq in Hd. apply good_src; lia.
  Qed.
  Lemma good_mix_all : good (mix_all n).
  Proof.
    intros m1 m2 hc H1 H2. unfold mix_all. apply (good_fold (mix_src n)); auto.
    intros s Hs. apply in_seq in Hs. apply good_mix_src. lia.
  Qed.
  Lemma good_mix_extra e : good (fun st => mix_extra n st e).
  Proof.
    intros m1 m2 hc H1 H2. unfold mix_extra. apply (good_fold (fun st dst => mix_into e dst st)); auto.
    intros d Hd. apply in_seq in Hd. apply good_extra. lia.
  Qed.
  Lemma good_tail tail : good (fun st => fold_left (mix_extra n) tail (mix_all n st)).
  Proof.
    intros m1 m2 hc H1 H2.
    destruct (good_mix_all m1 m2 hc H1 H2) as (A1 & A2 & A3).
    destruct (good_mix_all m2 m1 hc H2 H1) as (B1 & _ & _).
    destruct (mix_all n (m1, hc)) as [p1 h1], (mix_all n (m2, hc)) as [p2 h2]. cbn [fst snd] in *. subst h2.
    destruct (good_fold (mix_extra n) tail (fun e _ => good_mix_extra e) p1 p2 h1 A1 B1) as (C1 & C2 & C3). auto.
  Qed.
End Mixing.

Lemma fill_snd n : forall e1 e2 hc, snd (fill_pool n e1 hc) = snd (fill_pool n e2 hc).
Proof.
  induction n as [|n IH]; intros e1 e2 hc; [reflexivity|]. cbn [fill_pool]. rewrite !hashmix_eq.
  specialize (IH (tl e1) (tl e2) (wmul 32 hc MULT_A)).
  destruct (fill_pool n (tl e1) _), (fill_pool n (tl e2) _). exact IH.
Qed.
Lemma fill_ok n : forall e hc, okm n (fst (fill_pool n e hc)).
Proof.
  induction n as [|n IH]; intros e hc; [split; [reflexivity|constructor]|]. cbn [fill_pool]. rewrite hashmix_eq.
  destruct (IH (tl e) (wmul 32 hc MULT_A)) as [L F].
  destruct (fill_pool n (tl e) _) as [r h]. cbn [fst] in *. split; [cbn; congruence|].
  constructor; [apply scramble_wf|exact F].
Qed.
Lemma fill_inj n : forall e1 e2 hc, N.odd hc = true -> wf 32 hc ->
  List.length e1 = n -> List.length e2 = n -> Forall (wf 32) e1 -> Forall (wf 32) e2 ->
  fst (fill_pool n e1 hc) = fst (fill_pool n e2 hc) -> e1 = e2.
Proof.
  induction n as [|n IH]; intros e1 e2 hc Ho Hc L1 L2 F1 F2.
  - destruct e1, e2; try discriminate. reflexivity.
  - destruct e1 as [|x1 e1], e2 as [|x2 e2]; try discriminate. cbn [fill_pool hd tl]. rewrite !hashmix_eq.
    assert (Hm : N.odd (wmul 32 hc MULT_A) = true) by (apply odd_wmul; [exact Ho|reflexivity]).
    assert (Hw : wf 32 (wmul 32 hc MULT_A)) by apply wf_wmul.
    inversion F1; inversion F2; subst.
    specialize (IH e1 e2 (wmul 32 hc MULT_A) Hm Hw).
    destruct (fill_pool n e1 _) as [r1 h1], (fill_pool n e2 _) as [r2 h2]. cbn [fst] in *.
    intros E. injection E. intros Er Ex. f_equal.
    + revert Ex. now apply scramble_inj.
    + apply IH; auto.
Qed.
(* missing entropy words count as zero *)
Lemma fill_pad n : forall e hc k, fill_pool n (e ++ repeat 0 k) hc = fill_pool n e hc.
Proof.
  assert (Z : forall n k hc, fill_pool n (repeat 0 k) hc = fill_pool n [] hc).
  { induction n0 as [|n0 IH]; intros k hc; [reflexivity|]. cbn [fill_pool].
    destruct k as [|k]; [reflexivity|]. cbn [repeat hd tl]. destruct (hashmix 0 hc) as [v h]. now rewrite IH. }
  induction n as [|n IH]; intros e hc k; [reflexivity|]. destruct e as [|x e]; [apply (Z (S n))|].
  cbn [fill_pool app hd tl]. destruct (hashmix x hc) as [v h]. now rewrite IH.
Qed.
Lemma fill_app n : forall e t hc, List.length e = n -> fill_pool n (e ++ t) hc = fill_pool n e hc.
Proof.
  induction n as [|n IH]; intros e t hc L; [reflexivity|]. destruct e as [|x e]; [discriminate|].
  cbn [fill_pool app hd tl]. destruct (hashmix x hc) as [v h]. rewrite IH by (now injection L). reflexivity.
Qed.
Lemma mix_entropy_pad n e : (List.length e <= n)%nat ->
  mix_entropy n (e ++ repeat 0 (n - List.length e)) = mix_entropy n e.
Proof.
  intros H. unfold mix_entropy. rewrite fill_pad.
  rewrite !skipn_all2 by (rewrite ?app_length, ?repeat_length; lia). reflexivity.
Qed.
(* the first n words of entropy are never lost, whatever follows them *)
Lemma mix_entropy_inj n e1 e2 tail :
  List.length e1 = n -> List.length e2 = n -> Forall (wf 32) e1 -> Forall (wf 32) e2 ->
  mix_entropy n (e1 ++ tail) = mix_entropy n (e2 ++ tail) -> e1 = e2.
Proof.
  intros L1 L2 F1 F2 E. unfold mix_entropy in E.
  rewrite !fill_app in E by assumption.
  rewrite !skipn_app in E. rewrite (skipn_all2 e1), (skipn_all2 e2), L1, L2 in E by lia. cbn [app] in E.
  apply (fill_inj n e1 e2 INIT_A); try assumption; try reflexivity.
  pose proof (fill_snd n e1 e2 INIT_A) as S. pose proof (fill_ok n e1 INIT_A) as O1. pose proof (fill_ok n e2 INIT_A) as O2.
  destruct (fill_pool n e1 INIT_A) as [m1 h1], (fill_pool n e2 INIT_A) as [m2 h2]. cbn [fst snd] in *. subst h2.
  apply (good_tail n (skipn (n - n) tail) m1 m2 h1 O1 O2). exact E.
Qed.
Lemma mix_entropy_ok n e : okm n (mix_entropy n e).
Proof.
  unfold mix_entropy. pose proof (fill_ok n e INIT_A) as O1.
  destruct (fill_pool n e INIT_A) as [m1 h1]. cbn [fst] in O1.
  apply (good_tail n (skipn n e) m1 m1 h1 O1 O1).
Qed.
Lemma pad_length n e : (List.length e <= n)%nat -> List.length (e ++ repeat 0 (n - List.length e)) = n.
Proof. intros H. rewrite app_length, repeat_length. lia. Qed.
Lemma pad_wf n e : Forall (wf 32) e -> Forall (wf 32) (e ++ repeat 0 (n - List.length e)).
Proof.
  intros H. apply Forall_app. split; [exact H|]. apply Forall_forall. intros x Hx.
  apply repeat_spec in Hx. subst. reflexivity.
Qed.
Lemma mix_entropy_short_inj n e1 e2 :
  (List.length e1 <= n)%nat -> (List.length e2 <= n)%nat -> Forall (wf 32) e1 -> Forall (wf 32) e2 ->
  mix_entropy n e1 = mix_entropy n e2 -> le32 e1 = le32 e2.
Proof.
  intros L1 L2 F1 F2 E. rewrite <- (mix_entropy_pad n e1), <- (mix_entropy_pad n e2) in E by assumption.
  rewrite <- (app_nil_r (e1 ++ _)), <- (app_nil_r (e2 ++ _)) in E.
  apply mix_entropy_inj in E; auto using pad_length, pad_wf.
  apply (f_equal le32) in E. rewrite !le32_app, !le32_repeat0 in E. lia.
Qed.
(* words of an integer below 2^(32 n): at most n of them (n >= 1) *)
Lemma int_words_length n fuel : forall x, x < 2 ^ (32 * N.of_nat n) -> (List.length (int_words fuel x) <= n)%nat.
Proof.
  revert fuel. induction n as [|n IH]; intros fuel x Hx.
  - change (2 ^ (32 * N.of_nat 0)) with 1 in Hx. assert (x = 0) by lia. subst. now destruct fuel.
  - destruct fuel as [|fuel]; cbn [int_words]; [cbn; lia|]. destruct (x =? 0); cbn [List.length]; [lia|].
    apply le_n_S, IH. apply N.div_lt_upper_bound; [discriminate|]. rewrite <- N.pow_add_r.
    replace (32 + 32 * N.of_nat n) with (32 * N.of_nat (S n)) by (clear; lia). exact Hx.
Qed.
Lemma int_to_words_length n x l : (1 <= n)%nat -> x < 2 ^ (32 * N.of_nat n) ->
  int_to_words (Z.of_N x) = Some l -> (List.length l <= n)%nat.
Proof.
  intros Hn Hx. unfold int_to_words. replace (Z.of_N x <? 0)%Z with false by lia.
  destruct (Z.of_N x =? 0)%Z; intros [= <-]; [cbn; lia|]. rewrite N2Z.id. now apply int_words_length.
Qed.

(* ---- generate_state ---- *)
Fixpoint hcB (i : nat) (hc : N) : N := match i with O => hc | S i => wmul 32 (hcB i hc) MULT_B end.
Lemma hcB_S i hc : hcB (S i) hc = hcB i (wmul 32 hc MULT_B).
Proof. induction i as [|i IH]; [reflexivity|]. cbn [hcB] in *. now rewrite IH. Qed.
Lemma gen32_length k : forall pool i hc, List.length (gen32 k pool i hc) = k.
Proof. induction k as [|k IH]; intros; cbn; [reflexivity|now rewrite IH]. Qed.
Lemma gen32_nth k : forall pool i hc j d, (j < k)%nat ->
  nth j (gen32 k pool i hc) d =
  scramble (hcB j hc) (wmul 32 (hcB j hc) MULT_B) (nth ((i + j) mod List.length pool) pool 0).
Proof.
  induction k as [|k IH]; intros pool i hc j d Hj; [lia|]. destruct j as [|j].
  - cbn [gen32 nth]. now rewrite Nat.add_0_r.
  - cbn [gen32 nth]. rewrite IH by lia. rewrite hcB_S. do 2 f_equal. f_equal. lia.
Qed.
Lemma gen32_firstn k : forall m pool i hc, (k <= m)%nat -> firstn k (gen32 m pool i hc) = gen32 k pool i hc.
Proof.
  induction k as [|k IH]; intros [|m] pool i hc H; try reflexivity; [lia|].
  cbn [gen32 firstn]. f_equal. apply IH. lia.
Qed.
Lemma pair64_firstn k : forall l, firstn k (pair64 l) = pair64 (firstn (2 * k) l).
Proof.
  induction k as [|k IH]; intros l; [reflexivity|].
  replace (2 * S k)%nat with (S (S (2 * k))) by lia.
  destruct l as [|a [|b l]]; [reflexivity..|]. cbn [pair64 firstn]. now rewrite IH.
Qed.
Lemma generate32_prefix k m pool : (k <= m)%nat -> firstn k (generate32 m pool) = generate32 k pool.
Proof. apply gen32_firstn. Qed.
Lemma generate64_prefix k m pool : (k <= m)%nat -> firstn k (generate64 m pool) = generate64 k pool.
Proof. intros H. unfold generate64. rewrite pair64_firstn, generate32_prefix by lia. reflexivity. Qed.
Lemma pair64_length k : forall l, List.length l = (2 * k)%nat -> List.length (pair64 l) = k.
Proof.
  induction k as [|k IH]; intros l H; [now destruct l|].
  replace (2 * S k)%nat with (S (S (2 * k))) in H by lia.
  destruct l as [|a [|b l]]; try discriminate. cbn [pair64 List.length]. rewrite IH; [reflexivity|]. now injection H.
Qed.
Lemma generate64_length k pool : List.length (generate64 k pool) = k.
Proof. apply pair64_length, gen32_length. Qed.
Lemma pair64_nth l : forall k j, List.length l = (2 * k)%nat -> (j < k)%nat ->
  nth j (pair64 l) 0 = nth (2 * j) l 0 + 2 ^ 32 * nth (2 * j + 1) l 0.
Proof.
  intros k. revert l. induction k as [|k IH]; intros l j H Hj; [lia|].
  replace (2 * S k)%nat with (S (S (2 * k))) in H by lia.
  destruct l as [|a [|b l]]; try discriminate. destruct j as [|j]; [reflexivity|].
  cbn [pair64 nth]. rewrite IH by (try lia; now injection H).
  replace (2 * S j)%nat with (S (S (2 * j))) by lia. reflexivity.
Qed.
Lemma hcB_odd i hc : N.odd hc = true -> N.odd (hcB i hc) = true.
Proof. intros H. induction i as [|i IH]; [exact H|]. cbn [hcB]. apply odd_wmul; [exact IH|reflexivity]. Qed.
Lemma hcB_wf i hc : wf 32 hc -> wf 32 (hcB i hc).
Proof. intros H. destruct i; [exact H|apply wf_wmul]. Qed.
Lemma generate32_inj n k p1 p2 : (n <= k)%nat -> okm n p1 -> okm n p2 ->
  generate32 k p1 = generate32 k p2 -> p1 = p2.
Proof.
  intros Hk O1 O2 E. apply (list_ext n); [apply O1|apply O2|]. intros i Hi.
  assert (Ei := f_equal (fun l => nth i l 0) E). cbv beta in Ei. unfold generate32 in Ei.
  rewrite !gen32_nth in Ei by lia. cbn [Nat.add] in Ei.
  rewrite (proj1 O1), (proj1 O2), Nat.mod_small in Ei by exact Hi. revert Ei.
  apply scramble_inj.
  - apply odd_wmul; [apply hcB_odd|]; reflexivity.
  - apply hcB_wf. reflexivity.
  - now apply (nth_wf n).
  - now apply (nth_wf n).
Qed.

(* hc_i = hc_j only if the order of MULT_B, 2^30, divides i - j *)
Lemma wmul_pow i hc : hcB i hc mod 2 ^ 32 = (hc * MULT_B ^ N.of_nat i) mod 2 ^ 32.
Proof.
  induction i as [|i IH]; [cbn [hcB]; now rewrite N.pow_0_r, N.mul_1_r|].
  cbn [hcB]. unfold wmul. rewrite N.mod_mod by apply pow2_nz.
  rewrite <- N.mul_mod_idemp_l, IH, N.mul_mod_idemp_l by apply pow2_nz.
  rewrite Nat2N.inj_succ, N.pow_succ_r'. f_equal. ring.
Qed.
Lemma multB_order P : MULT_B ^ N.of_nat P mod 2 ^ 32 = 1 -> N.of_nat P mod 2 ^ 30 = 0.
Proof.
  intros H. apply (geo_divide MULT_B eq_refl 30 P).
  destruct (geo_pow MULT_B P) as [G|G]; [|discriminate].
  assert (D : (2 ^ 32 | (MULT_B - 1) * geo MULT_B P)).
  { rewrite <- G in H. set (x := (MULT_B - 1) * geo MULT_B P) in *. clearbody x.
    exists (x / 2 ^ 32). change (2 ^ 32) with 4294967296 in *. clear - H. lia. }
  change (MULT_B - 1) with (2 ^ 2 * 373089147) in D. change (2 ^ 32) with (2 ^ 2 * 2 ^ 30) in D.
  rewrite <- N.mul_assoc in D. apply N.mul_divide_cancel_l in D; [|discriminate].
  apply N.gauss in D; [|now apply gcd_odd_pow2]. now apply N.mod_divide.
Qed.
Lemma hcB_distinct P : (0 < P)%nat -> N.of_nat P < 2 ^ 30 -> hcB P INIT_B <> INIT_B.
Proof.
  intros Hp Hlt E. assert (H := wmul_pow P INIT_B). rewrite E in H.
  change (INIT_B mod 2 ^ 32) with (trunc 32 INIT_B) in H.
  assert (H1 : wmul 32 INIT_B 1 = wmul 32 INIT_B (trunc 32 (MULT_B ^ N.of_nat P))).
  { unfold wmul, trunc. rewrite N.mul_1_r, N.mul_mod_idemp_r by apply pow2_nz. exact H. }
  apply odd_mul_inj in H1; [|reflexivity|reflexivity|apply wf_trunc].
  symmetry in H1. apply multB_order in H1. rewrite N.mod_small in H1 by exact Hlt. lia.
Qed.
(* the (P+1)-th word uses the first pool word again, with another constant *)
Lemma generate32_not_zero P k pool : (0 < P)%nat -> N.of_nat P < 2 ^ 30 -> okm P pool -> (P < k)%nat ->
  generate32 k pool <> repeat 0 k.
Proof.
  intros HP Hlt O Hk E.
  assert (A : forall j, (j < k)%nat -> nth j (generate32 k pool) 0 = 0).
  { intros j Hj. rewrite E. apply nth_repeat. }
  pose proof (A 0%nat ltac:(lia)) as A0. pose proof (A P Hk) as A1. unfold generate32 in A0, A1.
  rewrite gen32_nth in A0, A1 by lia. rewrite (proj1 O) in A0, A1.
  cbn [Nat.add] in A0, A1. rewrite Nat.mod_0_l in A0 by lia. rewrite Nat.mod_same in A1 by lia.
  assert (W := nth_wf P pool 0 O).
  assert (Z : forall i, scramble (hcB i INIT_B) (wmul 32 (hcB i INIT_B) MULT_B) (nth 0 pool 0) = 0 -> nth 0 pool 0 = hcB i INIT_B).
  { intros i Hi. assert (Hi2 := eq_trans Hi (eq_sym (scramble_0 (hcB i INIT_B) (wmul 32 (hcB i INIT_B) MULT_B)))). revert Hi2.
    apply scramble_inj; [apply odd_wmul; [apply hcB_odd|]; reflexivity|apply hcB_wf; reflexivity|exact W|apply hcB_wf; reflexivity]. }
  apply Z in A0, A1. apply (hcB_distinct P HP Hlt). rewrite <- A1, A0. reflexivity.
Qed.
Lemma pair64_zero l : forall k, List.length l = (2 * k)%nat -> pair64 l = repeat 0 k -> l = repeat 0 (2 * k).
Proof.
  intros k. revert l. induction k as [|k IH]; intros l H E; [now destruct l|].
  replace (2 * S k)%nat with (S (S (2 * k))) in * by lia.
  destruct l as [|a [|b l]]; try discriminate. cbn [pair64 repeat] in *. injection E. intros E1 E2.
  change (2 ^ 32) with 4294967296 in E2. f_equal; [lia|]. f_equal; [lia|]. apply IH; [now injection H|exact E1].
Qed.
Lemma generate64_not_zero P k pool : (0 < P)%nat -> N.of_nat P < 2 ^ 30 -> okm P pool -> (P < 2 * k)%nat ->
  generate64 k pool <> repeat 0 k.
Proof.
  intros HP Hlt O Hk E. apply (generate32_not_zero P (2 * k) pool HP Hlt O Hk).
  apply pair64_zero; [apply gen32_length|exact E].
Qed.
