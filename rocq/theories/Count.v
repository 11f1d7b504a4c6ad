(* Counting the numbers below n that satisfy a decidable predicate. Nothing of
   the code is modelled here: this is the vocabulary of the statements about
   how often a value occurs in a full period (PropEqui). *)
From Coq Require Import NArith Arith List Lia Permutation Bool.
Import ListNotations.
Open Scope N_scope.
(* 0, 1, ..., n - 1 *)
Definition range (n : N) : list N := map N.of_nat (seq 0 (N.to_nat n)).
(* how many of them satisfy P *)
Definition count (P : N -> bool) (n : N) : N := N.of_nat (length (filter P (range n))).

Lemma in_range n x : In x (range n) <-> x < n.
Proof.
  unfold range. rewrite in_map_iff. split.
  - intros (k & <- & H). apply in_seq in H. lia.
  - intros H. exists (N.to_nat x). rewrite N2Nat.id. split; [reflexivity|]. apply in_seq. lia.
Qed.
Lemma nodup_map {A B} (f : A -> B) l : (forall x y, In x l -> In y l -> f x = f y -> x = y) -> NoDup l -> NoDup (map f l).
Proof.
  intros I H. induction H as [|x l Hx H IH]; cbn [map]; constructor.
  - rewrite in_map_iff. intros (y & E & Hy). apply Hx. rewrite (I x y); [exact Hy|now left|now right|now symmetry].
  - apply IH. intros a b Ha Hb. apply I; now right.
Qed.
Lemma range_nodup n : NoDup (range n).
Proof. apply nodup_map; [|apply seq_NoDup]. intros x y _ _. apply Nat2N.inj. Qed.
Lemma range_length n : length (range n) = N.to_nat n.
Proof. unfold range. now rewrite map_length, seq_length. Qed.
Lemma range_succ n : range (N.succ n) = range n ++ [n].
Proof. unfold range. now rewrite N2Nat.inj_succ, seq_S, map_app, Nat.add_0_l; cbn [map]; rewrite N2Nat.id. Qed.

Lemma filter_ext_in' {A} (P Q : A -> bool) l : (forall x, In x l -> P x = Q x) -> filter P l = filter Q l.
Proof.
  induction l as [|a l IH]; intros H; [reflexivity|]. cbn [filter]. rewrite (H a) by now left.
  rewrite IH; [reflexivity|]. intros x Hx. apply H. now right.
Qed.
Lemma count_ext P Q n : (forall i, i < n -> P i = Q i) -> count P n = count Q n.
Proof. intros H. unfold count. rewrite (filter_ext_in' P Q); [reflexivity|]. intros x Hx. apply H. now apply in_range. Qed.
Lemma filter_map_length {A B} (f : A -> B) (P : B -> bool) l : length (filter P (map f l)) = length (filter (fun x => P (f x)) l).
Proof. induction l as [|a l IH]; [reflexivity|]. cbn [map filter]. destruct (P (f a)); cbn [length]; now rewrite IH. Qed.
Lemma filter_perm_length {A} (P : A -> bool) l m : Permutation l m -> length (filter P l) = length (filter P m).
Proof.
  induction 1 as [|x l m H IH|x y l|l m k H1 IH1 H2 IH2]; [reflexivity| | |now rewrite IH1].
  - cbn [filter]. destruct (P x); cbn [length]; now rewrite IH.
  - cbn [filter]. destruct (P x), (P y); reflexivity.
Qed.
(* a list of n different numbers below n is a rearrangement of all of them *)
Lemma full_perm l n : NoDup l -> length l = N.to_nat n -> (forall x, In x l -> x < n) -> Permutation l (range n).
Proof.
  intros D L B. apply NoDup_Permutation_bis; [exact D| |].
  - rewrite range_length, L. apply Nat.le_refl.
  - intros x Hx. now apply in_range, B.
Qed.
(* rearranging does not change the count *)
Lemma count_perm g P n : (forall i, i < n -> g i < n) -> (forall i j, i < n -> j < n -> g i = g j -> i = j) ->
  count (fun i => P (g i)) n = count P n.
Proof.
  intros B I. unfold count. f_equal. rewrite <- filter_map_length. apply filter_perm_length, full_perm.
  - apply nodup_map; [|apply range_nodup]. intros x y Hx Hy. apply I; now apply in_range.
  - now rewrite map_length, range_length.
  - intros x Hx. apply in_map_iff in Hx as (y & <- & Hy). now apply B, in_range.
Qed.
(* ... nor does it when exactly one number z is left out *)
Lemma count_missing g P n z : z < N.succ n -> (forall i, i < n -> g i < N.succ n /\ g i <> z) ->
  (forall i j, i < n -> j < n -> g i = g j -> i = j) ->
  count (fun i => P (g i)) n + (if P z then 1 else 0) = count P (N.succ n).
Proof.
  intros Hz B I. unfold count.
  assert (E : length (filter P (z :: map g (range n))) = length (filter P (range (N.succ n)))).
  { apply filter_perm_length, full_perm.
    - constructor.
      + intros H. apply in_map_iff in H as (y & E & Hy). apply in_range in Hy. exact (proj2 (B y Hy) E).
      + apply nodup_map; [|apply range_nodup]. intros x y Hx Hy. apply I; now apply in_range.
    - cbn [length]. rewrite map_length, range_length, N2Nat.inj_succ. reflexivity.
    - intros x [<-|Hx]; [exact Hz|]. apply in_map_iff in Hx as (y & <- & Hy). apply in_range in Hy. exact (proj1 (B y Hy)). }
  rewrite <- E. cbn [filter]. rewrite <- filter_map_length. destruct (P z); cbn [length]; lia.
Qed.
Lemma count_succ P n : count P (N.succ n) = count P n + (if P n then 1 else 0).
Proof. unfold count. rewrite range_succ, filter_app, app_length. cbn [filter]. destruct (P n); cbn [length]; lia. Qed.
Lemma count_0 P : count P 0 = 0.
Proof. reflexivity. Qed.
Lemma count_add P a b : count P (a + b) = count P a + count (fun i => P (a + i)) b.
Proof.
  induction b as [|b IH] using N.peano_ind; [rewrite N.add_0_r, count_0; lia|].
  rewrite N.add_succ_r, !count_succ, IH. lia.
Qed.
(* blocks of the same count *)
Lemma count_prod P A B c : (forall h, h < A -> count (fun l => P (h * B + l)) B = c) -> count P (A * B) = A * c.
Proof.
  induction A as [|A IH] using N.peano_ind; intros H; [reflexivity|].
  rewrite N.mul_succ_l, count_add, IH by (intros h Hh; apply H; lia). rewrite (H A) by lia. lia.
Qed.
(* for each high digit h the low digit l is turned into f h l by an injection *)
Lemma count_low f P A B : (forall h l, h < A -> l < B -> f h l < B) ->
  (forall h l m, h < A -> l < B -> m < B -> f h l = f h m -> l = m) ->
  count (fun x => P (f (x / B) (x mod B))) (A * B) = A * count P B.
Proof.
  intros Hb Hi. apply count_prod. intros h Hh.
  transitivity (count (fun l => P (f h l)) B).
  - apply count_ext. intros l Hl. rewrite (N.mul_comm h), (N.add_comm (B * h)).
    assert (B <> 0) by lia. rewrite N.mul_comm, N.div_add, N.mod_add, (N.div_small l), (N.mod_small l) by assumption. now rewrite N.add_0_l.
  - apply count_perm; intros; [now apply Hb|now apply (Hi h)].
Qed.
(* the same with the digits exchanged *)
Lemma count_high f P A B : (forall h l, h < A -> l < B -> f h l < A) ->
  (forall h k l, h < A -> k < A -> l < B -> f h l = f k l -> h = k) ->
  count (fun x => P (f (x / B) (x mod B))) (A * B) = B * count P A.
Proof.
  intros Hb Hi. destruct (N.eq_dec A 0) as [->|HA]; [rewrite N.mul_0_l, !count_0; lia|].
  destruct (N.eq_dec B 0) as [->|HB]; [now rewrite N.mul_0_r|].
  transitivity (count (fun x => P (f (x mod A) (x / A))) (B * A)).
  2: apply (count_low (fun l h => f h l) P B A); intros; [now apply Hb|eapply Hi; eassumption].
  rewrite (N.mul_comm B A).
  rewrite <- (count_perm (fun x => (x mod A) * B + x / A) (fun x => P (f (x / B) (x mod B))) (A * B)).
  - apply count_ext. intros x Hx. rewrite (N.add_comm (_ * B)), N.div_add, N.mod_add by exact HB.
    assert (x / A < B) by (apply N.div_lt_upper_bound; assumption).
    rewrite (N.div_small (x / A)), (N.mod_small (x / A)) by assumption. now rewrite N.add_0_l.
  - intros x Hx. assert (x / A < B) by (apply N.div_lt_upper_bound; assumption). pose proof (N.mod_lt x A HA).
    apply N.lt_le_trans with ((x mod A + 1) * B); [lia|]. apply N.mul_le_mono_r. lia.
  - intros x y Hx Hy E. assert (x / A < B) by (apply N.div_lt_upper_bound; assumption). assert (y / A < B) by (apply N.div_lt_upper_bound; assumption).
    assert (E1 : x / A = y / A).
    { apply (f_equal (fun z => z mod B)) in E. rewrite !(N.add_comm (_ * B)), !N.mod_add, !N.mod_small in E; assumption. }
    assert (E2 : x mod A = y mod A).
    { apply (f_equal (fun z => z / B)) in E. rewrite !(N.add_comm (_ * B)), !N.div_add, !N.div_small in E by assumption. lia. }
    rewrite (N.div_mod x A HA), (N.div_mod y A HA), E1, E2. reflexivity.
Qed.
(* exactly one number below n equals v *)
Lemma count_eqb v n : v < n -> count (fun x => x =? v) n = 1.
Proof.
  induction n as [|n IH] using N.peano_ind; [lia|]. intros H. rewrite count_succ.
  destruct (N.eqb_spec n v) as [->|Hne].
  - rewrite (count_ext _ (fun _ => false)) by (intros i Hi; apply N.eqb_neq; lia).
    clear. assert (E : forall n, count (fun _ => false) n = 0); [|now rewrite E].
    intros n. induction n as [|n IH] using N.peano_ind; [reflexivity|]. rewrite count_succ, IH. reflexivity.
  - rewrite IH by lia. reflexivity.
Qed.
