(* C84: hypergeometric_sample follows the hypergeometric law exactly; random_multinomial splits n *)
From Verif Require Import Word Bounded HyperLem.
From Coq Require Import ZifyBool ZifyNat ZifyN.
Ltac Zify.zify_post_hook ::= idtac.
Open Scope Z_scope.

Lemma draws_len c : forall t r, In r (draws c t) -> length r = c.
Proof.
  induction c as [|c IH]; intros t r H; cbn [draws] in H; [destruct H as [<-|[]]; reflexivity|].
  apply in_flat_map in H as (x & _ & H). apply in_map_iff in H as (r' & <- & H). cbn [length]. f_equal. now apply (IH (pred t)).
Qed.
Definition picks (good bad sample : nat) : nat := if Z.of_nat (good + bad) / 2 <? Z.of_nat sample then (good + bad - sample)%nat else sample.

(* Over all sequences of answers of random_interval (the i-th one any integer from 0 to total - 1 - i), the
   number of those for which the result is k, and the number of all of them: their ratio is
   choose good k * choose bad (sample - k) / choose (good + bad) sample *)
Theorem C84_law good bad sample k : (sample <= good + bad)%nat -> (k <= sample)%nat ->
  let c := picks good bad sample in
  count (fun r => is_some_z (Z.of_nat k) (hypergeometric r (Z.of_nat good) (Z.of_nat bad) (Z.of_nat sample))) (draws c (good + bad))
    = fac c * (choose good k * choose bad (sample - k)) /\
  Z.of_nat (length (draws c (good + bad))) = fac c * choose (good + bad) sample.
Proof.
  intros H K c. unfold c, picks. destruct (Z.of_nat (good + bad) / 2 <? Z.of_nat sample) eqn:B.
  - set (m := (good + bad - sample)%nat). split.
    + rewrite (count_ext _ (fun r => is_some_z (Z.of_nat good - Z.of_nat k) (taken r m (Z.of_nat good) (Z.of_nat (good + bad))))).
      2:{ intros r _. rewrite hyper_taken. rewrite <- Nat2Z.inj_add, B. replace (Z.to_nat (Z.of_nat (good + bad) - Z.of_nat sample)) with m by (unfold m; lia).
          destruct (taken r m _ _) as [v|]; cbn [option_map is_some_z]; lia. }
      destruct (le_lt_dec k good) as [Kg|Kg]; [destruct (le_lt_dec (good - k) m) as [Km|Km]|].
      * replace (Z.of_nat good - Z.of_nat k) with (Z.of_nat (good - k)) by lia. rewrite taken_law by (unfold m in *; lia).
        rewrite <- Z.mul_assoc. f_equal. f_equal.
        -- pose proof (choose_sym (good - k) k) as E. replace (good - k + k)%nat with good in E by lia. exact E.
        -- replace (good + bad - good)%nat with bad by lia. pose proof (choose_sym (m - (good - k)) (sample - k)) as E. replace (m - (good - k) + (sample - k))%nat with bad in E by (unfold m in *; lia). exact E.
      * rewrite (choose_small bad) by (unfold m in *; lia). rewrite (count_ext _ (fun _ => false)); [rewrite count_false; lia|].
        intros r Hr. apply draws_len in Hr. destruct (taken_bounds m r (Z.of_nat good) (Z.of_nat (good + bad)) Hr) as (v & -> & V); [unfold m; lia..|]. cbn [is_some_z]. lia.
      * rewrite (choose_small good) by lia. rewrite (count_ext _ (fun _ => false)); [rewrite count_false; lia|].
        intros r Hr. apply draws_len in Hr. destruct (taken_bounds m r (Z.of_nat good) (Z.of_nat (good + bad)) Hr) as (v & -> & V); [unfold m; lia..|]. cbn [is_some_z]. lia.
    + rewrite draws_count by (unfold m; lia). f_equal. pose proof (choose_sym m sample) as E. replace (m + sample)%nat with (good + bad)%nat in E by (unfold m; lia). exact E.
  - split; [|now rewrite draws_count by lia].
    rewrite (count_ext _ (fun r => is_some_z (Z.of_nat k) (taken r sample (Z.of_nat good) (Z.of_nat (good + bad))))).
    2:{ intros r _. rewrite hyper_taken. rewrite <- Nat2Z.inj_add, B, Nat2Z.id. now destruct (taken r sample _ _). }
    rewrite taken_law by lia. replace (good + bad - good)%nat with bad by lia. now rewrite Z.mul_assoc.
Qed.
(* any run, whatever random_interval answers, ends with a possible number of good ones *)
Theorem C84_range r good bad sample : 0 <= good -> 0 <= bad -> 0 <= sample <= good + bad ->
  Z.of_nat (length r) = (if (good + bad) / 2 <? sample then good + bad - sample else sample) ->
  exists k, hypergeometric r good bad sample = Some k /\ Z.max 0 (sample - bad) <= k <= Z.min good sample.
Proof.
  intros G B H L. rewrite hyper_taken, <- L, Nat2Z.id.
  destruct (taken_bounds (length r) r good (good + bad) eq_refl) as (v & -> & V); [destruct (_ <? _); lia..|].
  cbn [option_map]. eexists. split; [reflexivity|]. destruct ((good + bad) / 2 <? sample); lia.
Qed.
(* sampling all, or none, or from one kind only, draws nothing *)
Theorem C84_sure good bad sample : 0 <= good -> 0 <= bad -> 0 <= sample <= good + bad -> sample = 0 \/ sample = good + bad \/ good = 0 \/ bad = 0 ->
  exists k, hypergeometric [] good bad sample = Some k /\ k = (if sample =? 0 then 0 else if good =? 0 then 0 else if bad =? 0 then sample else good).
Proof.
  intros G B H C. pose proof (Z.div_mod (good + bad) 2 ltac:(lia)) as D. pose proof (Z.mod_pos_bound (good + bad) 2 ltac:(lia)) as M. rewrite hyper_taken. unfold taken.
  rewrite loop_stop.
  - cbn [option_map]. eexists. split; [reflexivity|]. rewrite Z2Nat.id by (destruct (_ <? sample); lia). destruct ((good + bad) / 2 <? sample) eqn:E; destruct (good + bad =? good) eqn:F; destruct (sample =? 0) eqn:S0; destruct (good =? 0) eqn:G0; destruct (bad =? 0) eqn:B0; lia.
  - destruct ((good + bad) / 2 <? sample) eqn:E; lia.
Qed.

(* random_multinomial on a zeroed array: non-negative counts that sum to n, for any binomial sampler with
   values from 0 to the number of trials *)
Theorem C84_multinomial binom n d : (forall j m, 0 <= m -> 0 <= binom j m <= m) -> 0 <= n -> (0 < d)%nat ->
  exists l, multinomial binom n (repeat 0 d) = Some l /\ length l = d /\ zsum l = n /\ Forall (Z.le 0) l.
Proof.
  intros B N0 D. unfold multinomial. rewrite repeat_length. cbn zeta.
  assert (Z0 : forall i, nth i (repeat 0 d) 0 = 0) by (intros; apply nth_repeat).
  assert (F0 : Forall (Z.le 0) (repeat 0 d)) by (apply Forall_forall; intros x X; apply repeat_spec in X; lia).
  assert (S0 : zsum (repeat 0 d) = 0) by (clear; induction d as [|d IH]; cbn; [reflexivity|exact IH]).
  pose proof (multi_loop_spec binom B (d - 1) 0 (repeat 0 d) n N0 ltac:(rewrite repeat_length; lia) F0 (fun i _ => Z0 i)) as H.
  destruct (multi_loop binom 0 (d - 1) (repeat 0 d) n) as [l m]. rewrite repeat_length in H. destruct H as (L & M & E & F & Z1).
  destruct (0 <? m) eqn:P.
  - destruct d as [|d]; [lia|]. eexists. split; [reflexivity|]. rewrite set_nth_length. split; [exact L|]. split; [|apply set_nth_pos; [lia|exact F]].
    rewrite set_nth_sum by lia. rewrite Z1 by lia. lia.
  - exists l. repeat split; auto. lia.
Qed.
(* the array must have been zeroed, and must not be empty *)
Theorem C84_multinomial_stale_refuted : multinomial (fun _ m => m) 10 [7; 7; 7] = Some [10; 7; 7].
Proof. reflexivity. Qed.
Theorem C84_multinomial_empty_refuted binom n : 0 < n -> multinomial binom n [] = None.
Proof. intros H. unfold multinomial. cbn [length Nat.sub multi_loop]. now replace (0 <? n) with true by lia. Qed.
Example C84_case :
  hypergeometric [5; 0; 3] 4 6 3 = Some 1 /\ hypergeometric [5; 0; 3] 4 6 7 = Some 3 /\
  (let p := picks 4 6 3 in p = 3%nat /\ Z.of_nat (length (draws 3 10)) = 720 /\
   count (fun r => is_some_z 2 (hypergeometric r 4 6 3)) (draws 3 10) = 216 /\ fac 3 * (choose 4 2 * choose 6 1) = 216) /\
  multinomial (fun _ m => m / 2) 10 (repeat 0 3) = Some [5; 2; 3].
Proof. vm_compute. intuition reflexivity. Qed.

Print Assumptions C84_law.
Print Assumptions C84_range.
Print Assumptions C84_sure.
Print Assumptions C84_multinomial.
Print Assumptions C84_multinomial_stale_refuted.
Print Assumptions C84_multinomial_empty_refuted.
