(* Seeding of the Mersenne twisters by an array as long as the state: which arrays give which states.
   The two loops of init_by_array (mt19937.c:47-91) and mt64_init_by_array (mt64.c:72-105), with the word
   size W, the shift sh, the number L of words and the multipliers as parameters. *)
From Verif Require Import Word Arr Mt19937 Mt64.
From Coq Require Import ZifyBool ZifyNat ZifyN.
Open Scope N_scope.
Notation length := List.length.
Ltac Zify.zify_post_hook ::= idtac.

(* values v with v = (o ^ f(p)) + x, where o and x run through lists and p is the value before *)
Fixpoint chain (W : N) (f : N -> N) (p : N) (olds xs : list N) : list N :=
  match olds, xs with
  | o :: olds, x :: xs => let v := wadd W (N.lxor o (f p)) x in v :: chain W f v olds xs
  | _, _ => []
  end.
Fixpoint unx (W : N) (f : N -> N) (p : N) (olds vs : list N) : list N :=
  match olds, vs with
  | o :: olds, v :: vs => wsub W v (N.lxor o (f p)) :: unx W f v olds vs
  | _, _ => []
  end.
Fixpoint unolds (W : N) (f : N -> N) (p : N) (xs vs : list N) : list N :=
  match xs, vs with
  | x :: xs, v :: vs => N.lxor (wsub W v x) (f p) :: unolds W f v xs vs
  | _, _ => []
  end.
Notation wfl W := (Forall (fun x => x < 2 ^ W)).

Section Chain.
Variables (W : N) (f : N -> N).
Lemma chain_length : forall olds xs p, length xs = length olds -> length (chain W f p olds xs) = length olds.
Proof. induction olds as [|o olds IH]; intros [|x xs] p H; cbn in H |- *; try discriminate; [reflexivity|]. rewrite IH; lia. Qed.
Lemma chain_wf : forall olds xs p, wfl W (chain W f p olds xs).
Proof. induction olds as [|o olds IH]; intros [|x xs] p; cbn; constructor; auto. apply wf_wadd. Qed.
Lemma chain_inj_xs : forall olds xs ys p, length xs = length olds -> length ys = length olds -> wfl W xs -> wfl W ys ->
  chain W f p olds xs = chain W f p olds ys -> xs = ys.
Proof.
  induction olds as [|o olds IH]; intros [|x xs] [|y ys] p H1 H2 W1 W2 E; cbn in H1, H2; try discriminate; [reflexivity|].
  cbn [chain] in E. inversion E as [[E1 E2]]. inversion W1; inversion W2; subst.
  apply wadd_inj_l in E1; [|assumption|assumption]. subst y. f_equal. eapply IH; try eassumption; lia.
Qed.
Lemma unx_chain : forall olds vs p, length vs = length olds -> wfl W vs ->
  chain W f p olds (unx W f p olds vs) = vs /\ length (unx W f p olds vs) = length olds /\ wfl W (unx W f p olds vs).
Proof.
  induction olds as [|o olds IH]; intros [|v vs] p H V; cbn in H; try discriminate; [cbn; auto|].
  inversion V; subst. cbn [unx chain].
  assert (E : wadd W (N.lxor o (f p)) (wsub W v (N.lxor o (f p))) = v) by (rewrite wadd_comm; apply wadd_wsub; assumption).
  rewrite E. destruct (IH vs v) as (A & B & C); [lia|assumption|]. rewrite A. cbn [length]. rewrite B.
  split; [reflexivity|split; [reflexivity|constructor; [apply wf_wsub|assumption]]].
Qed.
Hypothesis Hf : forall p, f p < 2 ^ W.
Lemma chain_inj_olds : forall xs o1 o2 p, length xs = length o1 -> length xs = length o2 -> wfl W o1 -> wfl W o2 ->
  chain W f p o1 xs = chain W f p o2 xs -> o1 = o2.
Proof.
  induction xs as [|x xs IH]; intros [|a o1] [|b o2] p H1 H2 W1 W2 E; cbn in H1, H2; try discriminate; [reflexivity|].
  cbn [chain] in E. inversion E as [[E1 E2]]. inversion W1; inversion W2; subst.
  pose proof E1 as E0. apply wadd_inj_r in E1; [|apply wf_lxor; [assumption|apply Hf]..].
  apply lxor_inj_r in E1. subst b. f_equal. eapply IH; try eassumption; lia.
Qed.
Lemma unolds_chain : forall xs vs p, length vs = length xs -> wfl W vs ->
  chain W f p (unolds W f p xs vs) xs = vs /\ length (unolds W f p xs vs) = length xs /\ wfl W (unolds W f p xs vs).
Proof.
  induction xs as [|x xs IH]; intros [|v vs] p H V; cbn in H; try discriminate; [cbn; auto|].
  inversion V; subst. cbn [unolds chain].
  rewrite lxor_cancel, wadd_wsub by assumption.
  destruct (IH vs v) as (A & B & C); [lia|assumption|]. rewrite A. cbn [length]. rewrite B.
  split; [reflexivity|split; [reflexivity|constructor; [apply wf_lxor; [apply wf_wsub|apply Hf]|assumption]]].
Qed.
End Chain.

(* init_key[j] + j *)
Fixpoint addidx (W j : N) (key : list N) : list N :=
  match key with [] => [] | k :: key => wadd W k j :: addidx W (j + 1) key end.
Fixpoint subidx (W j : N) (xs : list N) : list N :=
  match xs with [] => [] | x :: xs => wsub W x j :: subidx W (j + 1) xs end.
Lemma addidx_length W : forall key j, length (addidx W j key) = length key.
Proof. induction key; intros j; cbn; auto. Qed.
Lemma addidx_wf W : forall key j, wfl W (addidx W j key).
Proof. induction key; intros j; cbn; constructor; auto. apply wf_wadd. Qed.
Lemma addidx_inj W : forall k1 k2 j, wfl W k1 -> wfl W k2 -> addidx W j k1 = addidx W j k2 -> k1 = k2.
Proof.
  induction k1 as [|a k1 IH]; intros [|b k2] j W1 W2 E; cbn in E; try discriminate; [reflexivity|].
  inversion E as [[E1 E2]]. inversion W1; inversion W2; subst. apply wadd_inj_r in E1; [|assumption..]. subst. f_equal; eauto.
Qed.
Lemma addidx_sub W : forall xs j, wfl W xs -> addidx W j (subidx W j xs) = xs /\ length (subidx W j xs) = length xs /\ wfl W (subidx W j xs).
Proof.
  induction xs as [|x xs IH]; intros j V; cbn; [auto|]. inversion V; subst. destruct (IH (j + 1)) as (A & B & C); [assumption|].
  rewrite A, B, wadd_wsub by assumption. split; [reflexivity|split; [reflexivity|constructor; [apply wf_wsub|assumption]]].
Qed.

Lemma upd_at (l : list N) a r v : upd (l ++ a :: r) (length l) v = l ++ v :: r.
Proof. induction l as [|b l IH]; cbn; [reflexivity|]. unfold upd in *. cbn. now rewrite IH. Qed.
Lemma nth_at (l : list N) a r d : nth (length l) (l ++ a :: r) d = a.
Proof. induction l; cbn; auto. Qed.
Lemma last_dflt (l : list N) a d e : last (a :: l) d = last (a :: l) e.
Proof. revert a. induction l as [|b l IH]; intros a; [reflexivity|]. exact (IH b). Qed.
Lemma nth_last (l : list N) h r d : nth (length l) (h :: l ++ r) d = last l h.
Proof.
  revert h. induction l as [|b l IH]; intros h; [reflexivity|].
  transitivity (nth (length l) (b :: l ++ r) d); [reflexivity|]. rewrite IH.
  destruct l as [|c l]; [reflexivity|]. exact (last_dflt l c b h).
Qed.
Lemma last_snoc (l : list N) a d : last (l ++ [a]) d = a.
Proof. induction l as [|b l IH]; [reflexivity|]. cbn [app]. destruct (l ++ [a]) eqn:E; [destruct l; discriminate E|]. cbn [last]. exact IH. Qed.
Lemma last_cons (l : list N) a d : l <> [] -> last (a :: l) d = last l d.
Proof. destruct l; [congruence|reflexivity]. Qed.

Section Loops.
Variables (W sh : N) (L : nat).
Definition hf (m p : N) : N := wmul W (N.lxor p (N.shiftr p sh)) m.
Lemma hf_wf m p : hf m p < 2 ^ W. Proof. apply wf_wmul. Qed.
Definition gmix (mult x : N) (mt : list N) (i : nat) : list N * nat :=
  let p := nth (i - 1) mt 0 in
  let mt := upd mt i (wadd W (N.lxor (nth i mt 0) (wmul W (N.lxor p (N.shiftr p sh)) mult)) x) in
  if (L <=? S i)%nat then (upd mt 0 (nth (L - 1) mt 0), 1%nat) else (mt, S i).
Fixpoint gloop (m : N) (xs mt : list N) (i : nat) : list N * nat :=
  match xs with [] => (mt, i) | x :: xs => let '(mt, i) := gmix m x mt i in gloop m xs mt i end.
Lemma gloop_app m : forall xs ys mt i, gloop m (xs ++ ys) mt i = let '(mt, i) := gloop m xs mt i in gloop m ys mt i.
Proof. induction xs as [|x xs IH]; intros; [reflexivity|]. cbn [app gloop]. destruct (gmix m x mt i). apply IH. Qed.
Lemma gmix_at m x h done o rest :
  gmix m x (h :: done ++ o :: rest) (S (length done)) =
  let v := wadd W (N.lxor o (hf m (last done h))) x in
  if (L <=? S (S (length done)))%nat then (upd (h :: done ++ v :: rest) 0 (nth (L - 1) (h :: done ++ v :: rest) 0), 1%nat)
  else (h :: done ++ v :: rest, S (S (length done))).
Proof.
  unfold gmix, hf. replace (S (length done) - 1)%nat with (length done) by lia. rewrite nth_last.
  replace (nth (S (length done)) (h :: done ++ o :: rest) 0) with o by (cbn [nth]; now rewrite nth_at).
  cbn zeta. change (h :: done ++ o :: rest) with ((h :: done) ++ o :: rest). change (S (length done)) with (length (h :: done)).
  rewrite !upd_at. reflexivity.
Qed.
Lemma pass m : forall todo xs h done, length xs = length todo -> todo <> [] -> length (h :: done ++ todo) = L ->
  gloop m xs (h :: done ++ todo) (S (length done)) =
  (let c := chain W (hf m) (last done h) todo xs in last c 0 :: done ++ c, 1%nat).
Proof.
  induction todo as [|o todo IH]; intros [|x xs] h done H N HL; cbn in H; try discriminate; [congruence|].
  cbn [gloop]. rewrite gmix_at. cbn zeta. cbn [chain].
  set (v := wadd W (N.lxor o (hf m (last done h))) x).
  destruct todo as [|o2 todo].
  - destruct xs; [|discriminate]. cbn in HL. rewrite app_length in HL. cbn in HL.
    replace (L <=? S (S (length done)))%nat with true by (symmetry; apply Nat.leb_le; lia).
    replace (L - 1)%nat with (S (length done)) by lia. cbn [nth]. rewrite nth_at. cbn. reflexivity.
  - assert (HL' : L = (S (S (S (length done))) + length todo)%nat) by (cbn in HL; rewrite app_length in HL; cbn in HL; lia).
    replace (L <=? S (S (length done)))%nat with false by (symmetry; apply Nat.leb_gt; lia).
    replace (h :: done ++ v :: o2 :: todo) with (h :: (done ++ [v]) ++ o2 :: todo) by (now rewrite <- app_assoc).
    replace (S (S (length done))) with (S (length (done ++ [v]))) by (rewrite app_length; cbn; lia).
    rewrite IH.
    + cbn zeta. rewrite last_snoc, <- app_assoc. cbn [app]. f_equal. rewrite last_cons; [reflexivity|].
      destruct xs as [|x2 xs]; [discriminate H|]. discriminate.
    + cbn in H |- *. lia.
    + discriminate.
    + cbn. rewrite !app_length. cbn. lia.
Qed.

(* the state left by the two loops, but for word 0 *)
Definition cform (m1 m2 a0 : N) (az xs1 : list N) (xl : N) (ys1 : list N) (yl : N) : list N :=
  let v := chain W (hf m1) a0 az xs1 in
  let vl := wadd W (N.lxor (hd 0 v) (hf m1 (last v 0))) xl in
  let c := chain W (hf m2) vl (tl v) ys1 in
  wadd W (N.lxor vl (hf m2 (last c 0))) yl :: c.
Hypothesis HL : (3 <= L)%nat.
Lemma pass0 m todo xs h : length xs = length todo -> todo <> [] -> S (length todo) = L ->
  gloop m xs (h :: todo) 1 = (let c := chain W (hf m) h todo xs in last c 0 :: c, 1%nat).
Proof. intros H1 H2 H3. exact (pass m todo xs h [] H1 H2 H3). Qed.
Lemma pass1 m todo xs h d : length xs = length todo -> todo <> [] -> S (S (length todo)) = L ->
  gloop m xs (h :: d :: todo) 2 = (let c := chain W (hf m) d todo xs in last c 0 :: d :: c, 1%nat).
Proof. intros H1 H2 H3. exact (pass m todo xs h [d] H1 H2 H3). Qed.
Lemma mix0 m x h o rest : gmix m x (h :: o :: rest) 1 = (h :: wadd W (N.lxor o (hf m h)) x :: rest, 2%nat).
Proof.
  pose proof (gmix_at m x h [] o rest) as E. cbn [length app last] in E. cbn zeta in E. rewrite E.
  replace (L <=? 2)%nat with false by (symmetry; apply Nat.leb_gt; lia). reflexivity.
Qed.
Lemma loops_cform m1 m2 a0 az xs1 xl ys1 yl top :
  length az = (L - 1)%nat -> length xs1 = (L - 1)%nat -> length ys1 = (L - 2)%nat ->
  (let '(mt, i) := gloop m1 (xs1 ++ [xl]) (a0 :: az) 1 in upd (fst (gloop m2 (ys1 ++ [yl]) mt i)) 0 top) =
  top :: cform m1 m2 a0 az xs1 xl ys1 yl.
Proof.
  intros Ha Hx Hy. rewrite gloop_app. rewrite pass0; [|lia|destruct az; cbn in *; [lia|congruence]|lia].
  cbn zeta. unfold cform.
  pose proof (chain_length W (hf m1) az xs1 a0 ltac:(lia)) as Hv.
  set (v := chain W (hf m1) a0 az xs1) in *.
  destruct v as [|v0 vr] eqn:Ev; [cbn in Hv; lia|]. cbn [hd tl]. cbn [length] in Hv.
  set (lv := last (v0 :: vr) 0). cbn [gloop]. rewrite mix0. set (vl := wadd W (N.lxor v0 (hf m1 lv)) xl).
  rewrite gloop_app. rewrite pass1; [|lia|destruct vr; cbn in *; [lia|congruence]|lia].
  cbn zeta. cbn [gloop]. rewrite mix0. reflexivity.
Qed.

Lemma cform_inj m1 m2 a0 az x0 xs xl xs' xl' ys1 yl :
  length az = (L - 1)%nat -> length (x0 :: xs) = (L - 1)%nat -> length (x0 :: xs') = (L - 1)%nat -> length ys1 = (L - 2)%nat ->
  wfl W (x0 :: xs) -> wfl W (x0 :: xs') -> xl < 2 ^ W -> xl' < 2 ^ W ->
  cform m1 m2 a0 az (x0 :: xs) xl ys1 yl = cform m1 m2 a0 az (x0 :: xs') xl' ys1 yl -> xs = xs' /\ xl = xl'.
Proof.
  intros Ha H1 H2 Hy W1 W2 X1 X2 E. unfold cform in E.
  destruct az as [|a1 az]; [cbn in Ha; lia|]. cbn [chain hd tl] in E.
  set (v0 := wadd W (N.lxor a1 (hf m1 a0)) x0) in E.
  set (vr := chain W (hf m1) v0 az xs) in E. set (vr' := chain W (hf m1) v0 az xs') in E. cbn in Ha, H1, H2.
  assert (Lr : length vr = length az) by (apply chain_length; lia).
  assert (Lr' : length vr' = length az) by (apply chain_length; lia).
  set (vl := wadd W (N.lxor v0 (hf m1 (last (v0 :: vr) 0))) xl) in E.
  set (vl' := wadd W (N.lxor v0 (hf m1 (last (v0 :: vr') 0))) xl') in E.
  inversion E as [[E1 E2]].
  rewrite E2 in E1. apply wadd_inj_r in E1; [|apply wf_lxor; [apply wf_wadd|apply hf_wf]..]. apply lxor_inj_r in E1.
  rewrite <- E1 in E2. apply chain_inj_olds in E2; [|intros; apply hf_wf|lia|lia|apply chain_wf|apply chain_wf].
  split.
  - inversion W1; inversion W2; subst. eapply chain_inj_xs in E2; [exact E2|lia|lia|assumption|assumption].
  - unfold vl, vl' in E1. rewrite E2 in E1. apply wadd_inj_l in E1; assumption.
Qed.

Lemma cform_onto m1 m2 a0 az x0 ys1 yl w c :
  length az = (L - 1)%nat -> length ys1 = (L - 2)%nat -> length c = (L - 2)%nat -> w < 2 ^ W -> wfl W c -> x0 < 2 ^ W ->
  exists xs xl, length (x0 :: xs) = (L - 1)%nat /\ wfl W (x0 :: xs) /\ xl < 2 ^ W /\ cform m1 m2 a0 az (x0 :: xs) xl ys1 yl = w :: c.
Proof.
  intros Ha Hy Hc Ww Wc Wx. destruct az as [|a1 az]; [cbn in Ha; lia|]. cbn in Ha.
  set (v0 := wadd W (N.lxor a1 (hf m1 a0)) x0).
  set (vl := N.lxor (wsub W w yl) (hf m2 (last c 0))).
  set (vr := unolds W (hf m2) vl ys1 c).
  destruct (unolds_chain W (hf m2) (hf_wf m2) ys1 c vl ltac:(lia) Wc) as (A1 & B1 & C1). fold vr in A1, B1, C1.
  destruct (unx_chain W (hf m1) az vr v0 ltac:(lia) C1) as (A2 & B2 & C2).
  exists (unx W (hf m1) v0 az vr), (wsub W vl (N.lxor v0 (hf m1 (last (v0 :: vr) 0)))).
  split; [cbn; lia|]. split; [constructor; assumption|]. split; [apply wf_wsub|].
  unfold cform. cbn [chain]. fold v0. rewrite A2. cbn [hd tl].
  assert (E : wadd W (N.lxor v0 (hf m1 (last (v0 :: vr) 0))) (wsub W vl (N.lxor v0 (hf m1 (last (v0 :: vr) 0)))) = vl)
    by (rewrite wadd_comm; apply wadd_wsub; apply wf_lxor; [apply wf_wsub|apply hf_wf]).
  rewrite E, A1. f_equal. unfold vl. rewrite lxor_cancel. apply wadd_wsub. exact Ww.
Qed.

(* the seeding, with the added words ys of the second loop *)
Definition gseed (m1 m2 : N) (a ys : list N) (top : N) (key : list N) : list N :=
  let '(mt, i) := gloop m1 (addidx W 0 key) a 1 in upd (fst (gloop m2 ys mt i)) 0 top.
Lemma split_last (l : list N) n : length l = S n -> exists l1 a, l = l1 ++ [a] /\ length l1 = n.
Proof. intros H. destruct (exists_last (l := l)) as (l1 & a & ->); [destruct l; [discriminate|congruence]|]. exists l1, a. rewrite app_length in H. cbn in H. split; [reflexivity|lia]. Qed.
Lemma gseed_inj m1 m2 a ys top k0 r r' :
  length a = L -> length ys = (L - 1)%nat -> length r = (L - 1)%nat -> length r' = (L - 1)%nat -> wfl W (k0 :: r) -> wfl W (k0 :: r') ->
  gseed m1 m2 a ys top (k0 :: r) = gseed m1 m2 a ys top (k0 :: r') -> r = r'.
Proof.
  intros Ha Hy Hr Hr' Wr Wr' E. destruct a as [|a0 az]; [cbn in Ha; lia|].
  destruct (split_last ys (L - 2)) as (ys1 & yl & -> & Hy1); [lia|].
  pose proof (Forall_inv_tail Wr) as Wrr. pose proof (Forall_inv_tail Wr') as Wrr'.
  destruct (split_last (addidx W (0 + 1) r) (L - 2)) as (x1 & xl & Ex & Hx1); [rewrite addidx_length; lia|].
  destruct (split_last (addidx W (0 + 1) r') (L - 2)) as (x1' & xl' & Ex' & Hx1'); [rewrite addidx_length; lia|].
  unfold gseed in E. cbn [addidx] in E. rewrite Ex, Ex' in E.
  rewrite (app_comm_cons x1 [xl]), (app_comm_cons x1' [xl']) in E.
  rewrite !loops_cform in E by (cbn in *; lia). apply (f_equal (@tl N)) in E. cbn [tl] in E.
  assert (W1 : wfl W (x1 ++ [xl])) by (rewrite <- Ex; apply addidx_wf).
  assert (W1' : wfl W (x1' ++ [xl'])) by (rewrite <- Ex'; apply addidx_wf).
  apply Forall_app in W1 as [W1 W2]. apply Forall_app in W1' as [W1' W2']. apply Forall_inv in W2, W2'.
  apply cform_inj in E; try (cbn in *; lia); try assumption; try (constructor; [apply wf_wadd|assumption]).
  destruct E as [-> ->]. rewrite <- Ex' in Ex. eapply addidx_inj; eassumption.
Qed.
Lemma gseed_onto m1 m2 a ys top k0 tail :
  length a = L -> length ys = (L - 1)%nat -> length tail = (L - 1)%nat -> wfl W tail -> k0 < 2 ^ W ->
  exists r, length r = (L - 1)%nat /\ wfl W r /\ gseed m1 m2 a ys top (k0 :: r) = top :: tail.
Proof.
  intros Ha Hy Ht Wt Wk. destruct a as [|a0 az]; [cbn in Ha; lia|].
  destruct (split_last ys (L - 2)) as (ys1 & yl & -> & Hy1); [lia|].
  destruct tail as [|w c]; [cbn in Ht; lia|]. pose proof (Forall_inv Wt) as Ww. pose proof (Forall_inv_tail Wt) as Wc.
  destruct (cform_onto m1 m2 a0 az (wadd W k0 0) ys1 yl w c) as (xs & xl & E1 & E2 & E3 & E4); try (cbn in *; lia); try assumption; [apply wf_wadd|].
  pose proof (Forall_inv_tail E2) as E2t.
  destruct (addidx_sub W (xs ++ [xl]) (0 + 1)) as (A & B & C); [apply Forall_app; split; [assumption|constructor; [assumption|constructor]]|].
  exists (subidx W (0 + 1) (xs ++ [xl])). split; [rewrite B, app_length; cbn in *; lia|]. split; [exact C|].
  unfold gseed. cbn [addidx]. rewrite A, (app_comm_cons xs [xl]). rewrite loops_cform by (cbn in *; lia). now rewrite E4.
Qed.
End Loops.

(* the index i and the words added by the second loop *)
Definition nexti (L i : nat) : nat := if (L <=? S i)%nat then 1%nat else S i.
Fixpoint gidx (L n i : nat) : nat := match n with O => i | S n => gidx L n (nexti L i) end.
Fixpoint gys (W : N) (L n i : nat) : list N := match n with O => [] | S n => wneg W (N.of_nat i) :: gys W L n (nexti L i) end.
Lemma gys_length W L : forall n i, length (gys W L n i) = n.
Proof. induction n; intros i; cbn; auto. Qed.
Lemma gmix_idx W sh L m x mt i : snd (gmix W sh L m x mt i) = nexti L i.
Proof. unfold gmix, nexti. destruct (L <=? S i)%nat; reflexivity. Qed.
Lemma gloop_idx W sh L m : forall xs mt i, snd (gloop W sh L m xs mt i) = gidx L (length xs) i.
Proof.
  induction xs as [|x xs IH]; intros mt i; [reflexivity|]. cbn [gloop length gidx].
  pose proof (gmix_idx W sh L m x mt i) as E. destruct (gmix W sh L m x mt i) as [mt' i']. cbn in E. subst i'. apply IH.
Qed.
Lemma skipn_nth (l : list N) : forall j, (j < length l)%nat -> skipn j l = nth j l 0 :: skipn (S j) l.
Proof. induction l as [|a l IH]; intros [|j] H; cbn in H |- *; try lia; [reflexivity|]. rewrite IH by lia. reflexivity. Qed.

Lemma mt_mix_gmix : mt_mix = gmix 32 30 624. Proof. reflexivity. Qed.
Lemma mt_loop1_gloop key : forall n mt i j, (j + n = length key)%nat ->
  mt_loop1 n key mt i j = gloop 32 30 624 1664525 (addidx 32 (N.of_nat j) (skipn j key)) mt i.
Proof.
  induction n as [|n IH]; intros mt i j H.
  - rewrite skipn_all2 by lia. reflexivity.
  - rewrite skipn_nth by lia. cbn [mt_loop1 addidx gloop]. rewrite mt_mix_gmix.
    destruct (gmix _ _ _ _ _ mt i) as [mt' i']. destruct (length key <=? S j)%nat eqn:E.
    + apply Nat.leb_le in E. assert (n = 0%nat) by lia. subst n. rewrite skipn_all2 by lia. reflexivity.
    + rewrite IH by lia. do 2 f_equal. lia.
Qed.
Lemma mt_loop2_gloop : forall n mt i, mt_loop2 n mt i = fst (gloop 32 30 624 1566083941 (gys 32 624 n i) mt i).
Proof.
  induction n as [|n IH]; intros mt i; [reflexivity|]. cbn [mt_loop2 gys gloop]. rewrite mt_mix_gmix.
  pose proof (gmix_idx 32 30 624 1566083941 (wneg 32 (N.of_nat i)) mt i) as E.
  destruct (gmix _ _ _ _ _ mt i) as [mt' i']. cbn [snd] in E. subst i'. apply IH.
Qed.
Lemma mt_seed_gseed words : length words = 624%nat ->
  mt_seed words = MT (gseed 32 30 624 1664525 1566083941 (mt_init_genrand 19650218) (gys 32 624 623 2) 0x80000000 words) 624.
Proof.
  intros H. unfold mt_seed, mt_init_by_array, gseed. rewrite H, Nat.max_id, mt_loop1_gloop by (rewrite H; reflexivity).
  cbn [skipn N.of_nat].
  pose proof (gloop_idx 32 30 624 1664525 (addidx 32 0 words) (mt_init_genrand 19650218) 1) as E.
  destruct (gloop _ _ _ _ (addidx 32 0 words) _ 1) as [mt' i']. cbn [snd] in E. rewrite addidx_length, H in E.
  replace (gidx 624 624 1) with 2%nat in E by (vm_compute; reflexivity). subst i'. now rewrite mt_loop2_gloop.
Qed.

Lemma m64_mix_gmix : m64_mix = gmix 64 62 312. Proof. reflexivity. Qed.
Lemma m64_loop1_gloop key : forall n mt i j, (j + n = length key)%nat ->
  m64_loop1 n key mt i j = gloop 64 62 312 3935559000370003845 (addidx 64 (N.of_nat j) (skipn j key)) mt i.
Proof.
  induction n as [|n IH]; intros mt i j H.
  - rewrite skipn_all2 by lia. reflexivity.
  - rewrite skipn_nth by lia. cbn [m64_loop1 addidx gloop]. rewrite m64_mix_gmix.
    destruct (gmix _ _ _ _ _ mt i) as [mt' i']. destruct (length key <=? S j)%nat eqn:E.
    + apply Nat.leb_le in E. assert (n = 0%nat) by lia. subst n. rewrite skipn_all2 by lia. reflexivity.
    + rewrite IH by lia. do 2 f_equal. lia.
Qed.
Lemma m64_loop2_gloop : forall n mt i, m64_loop2 n mt i = fst (gloop 64 62 312 2862933555777941757 (gys 64 312 n i) mt i).
Proof.
  induction n as [|n IH]; intros mt i; [reflexivity|]. cbn [m64_loop2 gys gloop]. rewrite m64_mix_gmix.
  pose proof (gmix_idx 64 62 312 2862933555777941757 (wneg 64 (N.of_nat i)) mt i) as E.
  destruct (gmix _ _ _ _ _ mt i) as [mt' i']. cbn [snd] in E. subst i'. apply IH.
Qed.
Lemma m64_seed_gseed words : length words = 312%nat ->
  m64_init_by_array words = M64 (gseed 64 62 312 3935559000370003845 2862933555777941757 (m64_init 19650218) (gys 64 312 311 2) 0x8000000000000000 words) 312.
Proof.
  intros H. unfold m64_init_by_array, gseed. rewrite H, Nat.max_id, m64_loop1_gloop by (rewrite H; reflexivity).
  cbn [skipn N.of_nat].
  pose proof (gloop_idx 64 62 312 3935559000370003845 (addidx 64 0 words) (m64_init 19650218) 1) as E.
  destruct (gloop _ _ _ _ (addidx 64 0 words) _ 1) as [mt' i']. cbn [snd] in E. rewrite addidx_length, H in E.
  replace (gidx 312 312 1) with 2%nat in E by (vm_compute; reflexivity). subst i'. now rewrite m64_loop2_gloop.
Qed.
Lemma mt_genrand_length : forall n p i, length (mt_genrand n p i) = n.
Proof. induction n; intros p i; cbn; auto. Qed.
Lemma m64_genrand_length : forall n p i, length (m64_genrand n p i) = n.
Proof. induction n; intros p i; cbn; auto. Qed.
Lemma mt_init_length s : length (mt_init_genrand s) = 624%nat.
Proof. unfold mt_init_genrand. cbn [length]. apply (f_equal S). apply mt_genrand_length. Qed.
Lemma m64_init_length s : length (m64_init s) = 312%nat.
Proof. unfold m64_init. cbn [length]. apply (f_equal S). apply m64_genrand_length. Qed.
