(* Facts about SFC64.weyl_increments *)
From Verif Require Import Word Arr Buffer32 Py Half Sfc SfcFacts.
From Coq Require Import String ZifyBool ZifyNat ZifyN FinFun.
Open Scope N_scope.
Ltac Zify.zify_post_hook ::= idtac.

(* number of non-zero bits of a 64-bit value *)
Definition idx64 : list N := map N.of_nat (seq 0 64).
Definition nbits (x : N) : N := N.of_nat (List.length (filter (N.testbit x) idx64)).

Lemma idx64_in i : In i idx64 <-> i < 64.
Proof.
  unfold idx64. rewrite in_map_iff. split.
  - intros [n [<- H]]. apply in_seq in H. lia.
  - intros H. exists (N.to_nat i). split; [lia|]. apply in_seq. lia.
Qed.
Lemma idx64_nodup : NoDup idx64.
Proof. unfold idx64. apply Injective_map_NoDup; [|apply seq_NoDup]. intros x y. lia. Qed.
Lemma count_add l k (f g : N -> bool) : NoDup l -> In k l -> f k = false -> g k = true -> (forall i, i <> k -> g i = f i) ->
  List.length (filter g l) = S (List.length (filter f l)).
Proof.
  intros D I Fk Gk E. induction D as [|x l Hx D IH]; [destruct I|]. cbn [filter]. destruct I as [->|I].
  - rewrite Fk, Gk. cbn [List.length]. f_equal. f_equal. apply filter_ext_in. intros i Hi. apply E. intros ->. contradiction.
  - assert (N : x <> k) by (intros ->; contradiction). rewrite (E x N). destruct (f x); cbn [List.length]; now rewrite IH.
Qed.
Lemma count_neg l (f g : N -> bool) : (forall i, In i l -> g i = negb (f i)) -> (List.length (filter g l) + List.length (filter f l) = List.length l)%nat.
Proof.
  intros H. induction l as [|x l IH]; [reflexivity|]. cbn [filter]. rewrite (H x) by now left.
  assert (IH' := IH (fun i Hi => H i (or_intror Hi))). destruct (f x); cbn [negb List.length]; lia.
Qed.
Lemma setbit_nbits c k : k < 64 -> N.testbit c k = false -> nbits (N.lor c (N.shiftl 1 k)) = nbits c + 1.
Proof.
  intros K T. unfold nbits. rewrite (count_add idx64 k (N.testbit c)).
  - lia.
  - exact idx64_nodup.
  - now apply idx64_in.
  - exact T.
  - rewrite N.lor_spec, N.shiftl_spec_high', N.sub_diag by apply N.le_refl. rewrite T. reflexivity.
  - intros i Hi. rewrite N.lor_spec. assert (N.testbit (N.shiftl 1 k) i = false) as ->; [|apply orb_false_r].
    rewrite N.shiftl_mul_pow2, N.mul_1_l. apply N.pow2_bits_false; congruence.
Qed.
Lemma setbit_wf c k : k < 64 -> wf 64 c -> wf 64 (N.lor c (N.shiftl 1 k)).
Proof.
  intros K W. apply wf_lor; [exact W|]. rewrite N.shiftl_mul_pow2, N.mul_1_l. unfold wf. apply N.pow_lt_mono_r; [reflexivity|exact K].
Qed.
Lemma wnot_spec c i : i < 64 -> N.testbit (wnot 64 c) i = negb (N.testbit c i).
Proof. intros H. unfold wnot. rewrite N.lxor_spec, N.ones_spec_low by exact H. apply xorb_true_r. Qed.
Lemma wnot_wf c : wf 64 c -> wf 64 (wnot 64 c).
Proof. intros H. apply wf_lxor; [exact H|reflexivity]. Qed.
Lemma wnot_nbits c : nbits (wnot 64 c) + nbits c = 64.
Proof.
  unfold nbits. pose proof (count_neg idx64 (N.testbit c) (N.testbit (wnot 64 c)) (fun i Hi => wnot_spec c i (proj1 (idx64_in i) Hi))) as H.
  change (List.length idx64) with 64%nat in H. lia.
Qed.
Lemma lor1_shift c : N.lor c 1 = N.lor c (N.shiftl 1 0).
Proof. now rewrite N.shiftl_0_r. Qed.

Lemma fill_loop_spec fuel : forall fill cnt buf c s r s', sf_ok s -> wf 64 c -> N.testbit c 0 = true ->
  fill_loop fuel fill cnt buf c s = Some (r, s') -> sf_ok s' /\ wf 64 r /\ N.testbit r 0 = true /\ nbits r = nbits c + fill.
Proof.
  induction fuel as [|fuel IH]; intros fill cnt buf c s r s' Hs W T; cbn [fill_loop]; destruct (N.eqb_spec fill 0) as [->|Nz].
  - intros [= <- <-]. rewrite N.add_0_r. exact (conj Hs (conj W (conj T eq_refl))).
  - discriminate.
  - intros [= <- <-]. rewrite N.add_0_r. exact (conj Hs (conj W (conj T eq_refl))).
  - assert (Hn : sf_ok (fst (sfc_next s))) by now apply sfc_next_ok.
    set (p := if cnt =? 0 then _ else _). assert (Hp : sf_ok (snd p)).
    { unfold p. destruct (cnt =? 0); [|exact Hs]. destruct (sfc_next s). exact Hn. }
    destruct p as [[cnt' buf'] s1]. cbn [snd] in Hp.
    assert (K : N.land buf' 63 < 64) by (change 63 with (N.ones 6); rewrite N.land_ones; now apply N.mod_lt).
    destruct (N.testbit c (N.land buf' 63)) eqn:B; intros H.
    + eapply IH; eassumption.
    + apply IH in H; [|exact Hp|now apply setbit_wf|rewrite N.lor_spec, T; reflexivity].
      destruct H as (A1 & A2 & A3 & A4). rewrite setbit_nbits in A4 by assumption. refine (conj A1 (conj A2 (conj A3 _))). lia.
Qed.
Lemma nbits_1 : nbits 1 = 1. Proof. reflexivity. Qed.
Lemma generate_bits_spec fuel n b c b' : sf_ok (core b) -> 1 <= n -> n <= 64 -> generate_bits fuel n b = Some (c, b') ->
  sf_ok (core b') /\ wf 64 c /\ N.odd c = true /\ nbits c = n.
Proof.
  intros Hs L H. unfold generate_bits. destruct (N.leb_spec n 32) as [S|S]; cbn [negb].
  - destruct (fill_loop fuel (n - 1) 0 0 1 (core b)) as [[r s]|] eqn:E; [|discriminate]. intros [= <- <-].
    apply fill_loop_spec in E; [|exact Hs|reflexivity|reflexivity]. rewrite nbits_1 in E. destruct E as (A1 & A2 & A3 & A4).
    refine (conj A1 (conj A2 (conj _ _))); [now rewrite <- N.bit0_odd|lia].
  - destruct (fill_loop fuel (65 - n - 1) 0 0 1 (core b)) as [[r s]|] eqn:E; [|discriminate]. intros [= <- <-].
    apply fill_loop_spec in E; [|exact Hs|reflexivity|reflexivity]. rewrite nbits_1 in E. destruct E as (A1 & A2 & A3 & A4).
    assert (B0 : N.testbit (wnot 64 r) 0 = false) by (rewrite wnot_spec, A3; reflexivity).
    rewrite lor1_shift. refine (conj A1 (conj _ (conj _ _))).
    + apply setbit_wf; [reflexivity|now apply wnot_wf].
    + rewrite <- N.bit0_odd, N.lor_spec. cbn. apply orb_true_r.
    + rewrite setbit_nbits by (exact B0 || reflexivity). pose proof (wnot_nbits r). lia.
Qed.
Lemma generate_bits_0 fuel b : generate_bits fuel 0 b = Some (1, set_core (core b) b).
Proof. unfold generate_bits. destruct fuel; reflexivity. Qed.

Lemma mem_in x l : mem x l = true <-> In x l.
Proof. induction l as [|y l IH]; cbn; [split; [discriminate|intros []]|]. rewrite orb_true_iff, N.eqb_eq, IH. split; intros [?|?]; auto. Qed.
Lemma new_value_spec fuel tries n vs : forall b c b', sf_ok (core b) -> 1 <= n -> n <= 64 -> new_value fuel tries n vs b = Some (c, b') ->
  sf_ok (core b') /\ wf 64 c /\ N.odd c = true /\ nbits c = n /\ ~ In c vs.
Proof.
  induction tries as [|t IH]; intros b c b' Hs L H; cbn [new_value]; [discriminate|].
  destruct (generate_bits fuel n b) as [[x b1]|] eqn:E; [|discriminate]. apply generate_bits_spec in E; [|assumption|assumption|assumption]. destruct E as (A1 & A2 & A3 & A4).
  destruct (mem x vs) eqn:M; intros Q.
  - now apply (IH b1).
  - injection Q as <- <-. refine (conj A1 (conj A2 (conj A3 (conj A4 _)))). rewrite <- mem_in, M. discriminate.
Qed.

(* the cumulative counts: from the class chosen on they go down by one *)
Fixpoint incr (prev : N) (l : list N) : Prop := match l with [] => True | c :: l => prev <= c /\ c < 2 ^ 64 /\ incr c l end.
Lemma incr_weaken p q l : p <= q -> incr q l -> incr p l.
Proof. destruct l; cbn; [trivial|]. intros H (A & B & C). repeat split; try assumption. lia. Qed.
Lemma wsub1 c : 1 <= c -> c < 2 ^ 64 -> wsub 64 c 1 = c - 1.
Proof.
  intros H L. unfold wsub. rewrite (N.mod_small 1) by reflexivity. replace (c + (2 ^ 64 - 1)) with (c - 1 + 1 * 2 ^ 64) by lia.
  rewrite N.mod_add by discriminate. apply N.mod_small. lia.
Qed.
Lemma pick_done val nz : 0 < nz -> forall cum bits p, 1 <= p -> List.length cum = List.length bits -> incr p cum ->
  pick val nz cum bits = (nz, map (fun c => c - 1) cum) /\ incr (p - 1) (map (fun c => c - 1) cum).
Proof.
  intros Z. induction cum as [|c cum IH]; intros [|b bits] p P L I; try discriminate; [split; [reflexivity|exact Logic.I]|].
  cbn [pick]. destruct I as (I1 & I2 & I3). replace (nz =? 0) with false by lia. rewrite andb_false_r. replace (0 <? nz) with true by lia.
  injection L as L. destruct (IH bits c ltac:(lia) L I3) as [E F]. rewrite E. rewrite wsub1 by lia. split; [reflexivity|].
  cbn [map incr]. repeat split; try lia. exact F.
Qed.
Lemma last_map_sub l : forall d, (forall x, In x l -> 1 <= x) -> l <> [] -> last (map (fun c => c - 1) l) d = last l d - 1.
Proof.
  induction l as [|x l IH]; intros d H Q; [contradiction|]. destruct l as [|y l]; [reflexivity|].
  change (last (map (fun c => c - 1) (y :: l)) d = last (y :: l) d - 1). apply IH; [|discriminate]. intros z Hz. apply H. now right.
Qed.
Lemma incr_ge p l : incr p l -> forall x, In x l -> p <= x.
Proof.
  revert p. induction l as [|c l IH]; intros p H x Hx; [destruct Hx|]. destruct H as (A & B & C). destruct Hx as [<-|Hx]; [exact A|]. specialize (IH c C x Hx). lia.
Qed.
Lemma last_cons {A} (x : A) l d d' : l <> [] -> last (x :: l) d = last l d'.
Proof.
  intros H. transitivity (last l d); [destruct l; [contradiction|reflexivity]|].
  induction l as [|y l IH]; [contradiction|]. destruct l as [|z l]; [reflexivity|]. exact (IH ltac:(discriminate)).
Qed.
Lemma pick_spec val : forall cum bits p, List.length cum = List.length bits -> Forall (fun b => 1 <= b) bits -> p <= val -> incr p cum -> val < last cum 0 ->
  In (fst (pick val 0 cum bits)) bits /\ List.length (snd (pick val 0 cum bits)) = List.length bits
  /\ incr p (snd (pick val 0 cum bits)) /\ last (snd (pick val 0 cum bits)) 0 = last cum 0 - 1.
Proof.
  induction cum as [|c cum IH]; intros [|b bits] p L F P I V; try discriminate; [cbn in V; lia|].
  cbn [pick]. destruct I as (I1 & I2 & I3). injection L as L. inversion F as [|? ? Hb F']; subst. rewrite N.eqb_refl, andb_true_r.
  destruct (N.ltb_spec val c) as [C|C].
  - replace (0 <? b) with true by lia. destruct (pick_done val b ltac:(lia) cum bits c ltac:(lia) L I3) as [E G]. rewrite E. cbn [fst snd]. rewrite wsub1 by lia.
    split; [now left|]. split; [cbn [List.length]; now rewrite map_length, L|]. split; [cbn [incr]; repeat split; try lia; exact G|].
    destruct cum as [|c2 cum]; [reflexivity|]. rewrite (last_cons _ _ 0 0) by discriminate. rewrite (last_cons c _ 0 0) by discriminate.
    apply last_map_sub; [|discriminate]. intros x Hx. pose proof (incr_ge c _ I3 x Hx). lia.
  - change (0 <? 0) with false. cbn iota. destruct cum as [|c2 cum]; [cbn in V; lia|].
    rewrite (last_cons c _ 0 0) in V |- * by discriminate.
    destruct (IH bits c L F' C I3 V) as (A1 & A2 & A3 & A4). destruct (pick val 0 (c2 :: cum) bits) as [r l]. cbn [fst snd] in *.
    split; [now right|]. split; [cbn [List.length]; now rewrite A2|]. split; [repeat split; assumption|].
    destruct l as [|y l]; [destruct bits; [destruct A1|discriminate]|]. rewrite (last_cons c _ 0 0) by discriminate. exact A4.
Qed.
Definition strict (integers : N -> sfcpy -> N * sfcpy) : Prop :=
  forall t b, sf_ok (core b) -> 0 < t -> fst (integers t b) < t /\ sf_ok (core (snd (integers t b))).
Definition good (classes : list N) (x : N) : Prop := wf 64 x /\ N.odd x = true /\ In (nbits x) classes.
Lemma weyl_loop_spec integers fuel classes : strict integers -> Forall (fun b => 1 <= b <= 64) classes ->
  forall n cum out b l b', sf_ok (core b) -> List.length cum = List.length classes -> incr 0 cum -> N.of_nat n <= last cum 0 ->
  NoDup out -> Forall (good classes) out ->
  weyl_loop integers fuel n classes cum out b = Some (l, b') ->
  List.length l = (n + List.length out)%nat /\ NoDup l /\ Forall (good classes) l.
Proof.
  intros St Fc. induction n as [|n IH]; intros cum out b l b' Hs L I Hn D G; cbn [weyl_loop].
  - intros [= <- <-]. rewrite rev_length. split; [reflexivity|]. split; [now apply NoDup_rev|now apply Forall_rev].
  - destruct (St (last cum 0) b Hs ltac:(lia)) as [V Hs1]. destruct (integers (last cum 0) b) as [v b1]. cbn [fst snd] in *.
    assert (Fc' : Forall (fun b => 1 <= b) classes) by (eapply Forall_impl; [|exact Fc]; intros x Hx; apply Hx).
    destruct (pick_spec v cum classes 0 L Fc' ltac:(lia) I V) as (A1 & A2 & A3 & A4). destruct (pick v 0 cum classes) as [nz cum']. cbn [fst snd] in *.
    destruct (new_value fuel fuel nz out b1) as [[c b2]|] eqn:E; [|discriminate]. rewrite Forall_forall in Fc. specialize (Fc nz A1).
    apply new_value_spec in E; [|exact Hs1|apply Fc|apply Fc]. destruct E as (B1 & B2 & B3 & B4 & B5). intros Q.
    apply IH in Q; try assumption.
    + destruct Q as (Q1 & Q2 & Q3). split; [rewrite Q1; cbn; lia|now split].
    + lia.
    + now constructor.
    + constructor; [|exact G]. refine (conj B2 (conj B3 _)). now rewrite B4.
Qed.

(* the counts the loop starts from *)
Definition sums (l : list N) : N := fold_right N.add 0 l.
Lemma cumulate_spec l : forall a, a + sums l < 2 ^ 64 -> List.length (cumulate a l) = List.length l /\ incr a (cumulate a l) /\ (l <> [] -> last (cumulate a l) 0 = a + sums l).
Proof.
  induction l as [|x l IH]; intros a H; cbn [cumulate sums fold_right] in *; [split; [reflexivity|split; [exact I|contradiction]]|].
  fold (sums l) in *. assert (E : wadd 64 x a = a + x) by (unfold wadd; rewrite N.mod_small; lia). rewrite E.
  destruct (IH (a + x) ltac:(lia)) as (A & B & C). split; [cbn; now rewrite A|]. split; [cbn [incr]; repeat split; try lia; exact B|].
  intros _. destruct l as [|y l]; [cbn; lia|]. rewrite (last_cons _ _ 0 0) by (cbn; discriminate). rewrite C by discriminate. lia.
Qed.
(* every range of classes has fewer than 2^64 values *)
Definition all_counts : list N := map choosek (bit_classes 1 64).
Lemma all_counts_sum : sums all_counts < 2 ^ 64. Proof. vm_compute. reflexivity. Qed.
Lemma sums_app l m : sums (l ++ m) = sums l + sums m.
Proof. induction l as [|x l IH]; cbn; [reflexivity|]. fold (sums (l ++ m)) (sums l). rewrite IH. lia. Qed.
Lemma classes_split lo hi : 1 <= lo -> lo <= hi -> hi <= 64 -> bit_classes 1 64 = bit_classes 1 (lo - 1) ++ bit_classes lo hi ++ bit_classes (hi + 1) 64.
Proof.
  intros A B C. unfold bit_classes. rewrite <- !map_app. f_equal.
  replace (N.to_nat (64 + 1 - 1)) with (N.to_nat (lo - 1 + 1 - 1) + (N.to_nat (hi + 1 - lo) + N.to_nat (64 + 1 - (hi + 1))))%nat by lia.
  rewrite seq_app. f_equal. rewrite seq_app. f_equal; f_equal; lia.
Qed.
Lemma counts_sum lo hi : 1 <= lo -> lo <= hi -> hi <= 64 -> sums (map choosek (bit_classes lo hi)) < 2 ^ 64.
Proof.
  intros A B C. pose proof all_counts_sum as H. unfold all_counts in H. rewrite (classes_split lo hi A B C), !map_app, !sums_app in H. lia.
Qed.
Lemma classes_in lo hi x : lo <= hi -> In x (bit_classes lo hi) <-> lo <= x <= hi.
Proof.
  intros L. unfold bit_classes. rewrite in_map_iff. split.
  - intros [n [<- H]]. apply in_seq in H. lia.
  - intros H. exists (N.to_nat x). split; [lia|]. apply in_seq. lia.
Qed.
Lemma weyl_increments_spec integers fuel n hi lo b l b' : strict integers -> sf_ok (core b) ->
  weyl_increments integers fuel n hi lo b = Ok (Some (l, b')) ->
  Z.of_nat (List.length l) = n /\ NoDup l /\
  Forall (fun x => wf 64 x /\ N.odd x = true /\ (match lo with Some m => m | None => hi end <= Z.of_N (nbits x) <= hi)%Z) l.
Proof.
  intros St Hs. unfold weyl_increments. set (m := match lo with Some m => m | None => hi end).
  destruct (Z.ltb_spec n 1) as [|N1]; [discriminate|].
  destruct ((1 <=? hi) && (hi <=? 64))%Z eqn:H1; [|discriminate]. cbn [negb].
  destruct ((1 <=? m) && (m <=? hi))%Z eqn:H2; [|discriminate]. cbn [negb].
  destruct (Z.ltb_spec (Z.of_N (available (bit_classes (Z.to_N m) (Z.to_N hi)))) n) as [|Av]; [discriminate|]. intros [= Q].
  assert (R : 1 <= Z.to_N m /\ Z.to_N m <= Z.to_N hi /\ Z.to_N hi <= 64) by lia. destruct R as (R1 & R2 & R3).
  pose proof (counts_sum _ _ R1 R2 R3) as S. destruct (cumulate_spec _ 0 S) as (A & B & C). rewrite map_length in A.
  apply weyl_loop_spec in Q; try assumption.
  - destruct Q as (Q1 & Q2 & Q3). rewrite Q1. cbn [List.length]. split; [lia|]. split; [exact Q2|].
    eapply Forall_impl; [|exact Q3]. intros x (X1 & X2 & X3). split; [exact X1|]. split; [exact X2|]. apply classes_in in X3; [|exact R2]. lia.
  - apply Forall_forall. intros x Hx. apply classes_in in Hx; [|exact R2]. lia.
  - rewrite C; [|]. 
    + unfold available in Av. fold (sums (map choosek (bit_classes (Z.to_N m) (Z.to_N hi)))) in Av. lia.
    + intros E. apply map_eq_nil in E. assert (In (Z.to_N m) []) as []. rewrite <- E. apply classes_in; lia.
  - constructor.
  - constructor.
Qed.
(* a draw equal to total selects no class, and the value is 1 *)
Lemma pick_total val : forall cum bits, Forall (fun c => c <= val) cum -> pick val 0 cum bits = (0, cum).
Proof.
  induction cum as [|c cum IH]; intros bits F; [destruct bits; reflexivity|]. destruct bits as [|b bits]; [reflexivity|].
  inversion F; subst. cbn [pick]. replace (val <? c) with false by lia. cbn [andb]. change (0 <? 0) with false. cbn iota. now rewrite IH.
Qed.
