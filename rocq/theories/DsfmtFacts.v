(* Facts about the recursion, the seeding and the state of dSFMT *)
From Verif Require Import Word Arr Py Lagged LaggedBuf JumpN SfmtSeed Sfmt Lanes SfmtFacts Dsfmt.
From Coq Require Import String ZifyBool ZifyNat ZifyN.
Open Scope N_scope.
Ltac Zify.zify_post_hook ::= idtac.

(* ------------------------------------------------ words and halves *)
Lemma dlo_wf x : wf 64 (dlo x). Proof. apply wf_trunc. Qed.
Lemma dhi_wf x : wf 64 (dhi x). Proof. apply wf_trunc. Qed.
Lemma dw_spec lo hi i : wf 64 lo -> N.testbit (dw lo hi) i = if i <? 64 then N.testbit lo i else N.testbit hi (i - 64).
Proof.
  intros L. unfold dw. rewrite N.lxor_spec, shl_spec. destruct (N.ltb_spec i 64).
  - replace (64 <=? i) with false by lia. apply xorb_false_r.
  - replace (64 <=? i) with true by lia. rewrite (wf_off 64 lo) by assumption. apply xorb_false_l.
Qed.
Lemma dw_wf lo hi : wf 64 lo -> wf 64 hi -> wf 128 (dw lo hi).
Proof. intros L H. apply wf_testbit. intros i Hi. rewrite dw_spec by exact L. replace (i <? 64) with false by lia. apply (wf_off 64); [exact H|lia]. Qed.
Lemma dlo_dw lo hi : wf 64 lo -> dlo (dw lo hi) = lo.
Proof. intros L. apply (wf_eq 64); [apply dlo_wf|exact L|]. intros i Hi. unfold dlo. rewrite trunc_spec, dw_spec by exact L. now replace (i <? 64) with true by lia. Qed.
Lemma dhi_dw lo hi : wf 64 lo -> wf 64 hi -> dhi (dw lo hi) = hi.
Proof.
  intros L H. apply (wf_eq 64); [apply dhi_wf|exact H|]. intros i Hi. unfold dhi. rewrite trunc_spec, shr_spec, dw_spec by exact L.
  replace (i <? 64) with true by lia. replace (i + 64 <? 64) with false by lia. cbn [andb]. f_equal; lia.
Qed.
Lemma dw_eta x : wf 128 x -> dw (dlo x) (dhi x) = x.
Proof. intros X. apply half_join; [apply dw_wf; apply wf_trunc|exact X|apply dlo_dw, dlo_wf|apply dhi_dw; apply wf_trunc]. Qed.
Lemma dw_lxor a b a' b' : dw (N.lxor a a') (N.lxor b b') = N.lxor (dw a b) (dw a' b').
Proof. unfold dw. rewrite shiftl_lxor. apply lxor_4. Qed.
Lemma dw_inj a b a' b' : wf 64 a -> wf 64 b -> wf 64 a' -> wf 64 b' -> dw a b = dw a' b' -> a = a' /\ b = b'.
Proof.
  intros A B A' B' E. split; [rewrite <- (dlo_dw a b), <- (dlo_dw a' b') by assumption; now rewrite E|rewrite <- (dhi_dw a b), <- (dhi_dw a' b') by assumption; now rewrite E].
Qed.
Lemma dlo_lxor x y : dlo (N.lxor x y) = N.lxor (dlo x) (dlo y). Proof. apply trunc_lxor. Qed.
Lemma dhi_lxor x y : dhi (N.lxor x y) = N.lxor (dhi x) (dhi y). Proof. unfold dhi. now rewrite shiftr_lxor, trunc_lxor. Qed.
Lemma dw_land a b c d : wf 64 a -> wf 64 c -> N.land (dw a b) (dw c d) = dw (N.land a c) (N.land b d).
Proof.
  intros A C. apply N.bits_inj. intros i. rewrite N.land_spec, !dw_spec by (try apply wf_land_l; assumption). destruct (i <? 64); now rewrite N.land_spec.
Qed.

(* ------------------------------------------------ the recursion *)
Lemma swap_wf l : wf 64 l -> wf 64 (d_swap l).
Proof. intros L. apply wf_lxor; [now apply wf_shr|apply wf_wshl]. Qed.
Lemma swap_lxor a b : d_swap (N.lxor a b) = N.lxor (d_swap a) (d_swap b).
Proof. unfold d_swap. rewrite shiftr_lxor, wshl_lxor. apply lxor_4. Qed.
Lemma swap_spec l i : wf 64 l -> i < 64 -> N.testbit (d_swap l) i = N.testbit l (if i <? 32 then i + 32 else i - 32).
Proof.
  intros L Hi. unfold d_swap. rewrite N.lxor_spec, shr_spec, wshl_spec. replace (i <? 64) with true by lia. destruct (N.ltb_spec i 32).
  - replace (32 <=? i) with false by lia. cbn [andb]. apply xorb_false_r.
  - replace (32 <=? i) with true by lia. cbn [andb]. rewrite (wf_off 64 l (i + 32)) by (assumption || lia). apply xorb_false_l.
Qed.
Lemma swap_swap l : wf 64 l -> d_swap (d_swap l) = l.
Proof.
  intros L. apply (wf_eq 64); [now apply swap_wf, swap_wf|exact L|]. intros i Hi. rewrite swap_spec by (try apply swap_wf; assumption).
  rewrite swap_spec by (try assumption; destruct (N.ltb_spec i 32); lia). f_equal. destruct (N.ltb_spec i 32).
  - replace (i + 32 <? 32) with false by lia. lia.
  - replace (i - 32 <? 32) with true by lia. lia.
Qed.
Lemma swap_inj a b : wf 64 a -> wf 64 b -> d_swap a = d_swap b -> a = b.
Proof. intros A B E. rewrite <- (swap_swap a A), <- (swap_swap b B). now rewrite E. Qed.
Lemma d_lung_eq a b u : d_lung a b u = dw (N.lxor (N.lxor (wshl 64 (dlo a) 19) (d_swap (dhi u))) (dlo b)) (N.lxor (N.lxor (wshl 64 (dhi a) 19) (d_swap (dlo u))) (dhi b)).
Proof. unfold d_lung, d_swap. now rewrite !N.lxor_assoc. Qed.
Lemma lung0_wf a b u : wf 64 (N.lxor (N.lxor (wshl 64 (dlo a) 19) (d_swap (dhi u))) (dlo b)).
Proof. apply wf_lxor; [apply wf_lxor; [apply wf_wshl|apply swap_wf, dhi_wf]|apply dlo_wf]. Qed.
Lemma lung1_wf a b u : wf 64 (N.lxor (N.lxor (wshl 64 (dhi a) 19) (d_swap (dlo u))) (dhi b)).
Proof. apply wf_lxor; [apply wf_lxor; [apply wf_wshl|apply swap_wf, dlo_wf]|apply dhi_wf]. Qed.
Lemma d_lung_wf a b u : wf 128 (d_lung a b u).
Proof. rewrite d_lung_eq. apply dw_wf; [apply lung0_wf|apply lung1_wf]. Qed.
Lemma dlo_lung a b u : dlo (d_lung a b u) = N.lxor (N.lxor (wshl 64 (dlo a) 19) (d_swap (dhi u))) (dlo b).
Proof. rewrite d_lung_eq. apply dlo_dw, lung0_wf. Qed.
Lemma dhi_lung a b u : dhi (d_lung a b u) = N.lxor (N.lxor (wshl 64 (dhi a) 19) (d_swap (dlo u))) (dhi b).
Proof. rewrite d_lung_eq. apply dhi_dw; [apply lung0_wf|apply lung1_wf]. Qed.
(* what the lung adds to a word *)
Definition hh (m w : N) : N := N.lxor (N.shiftr w 12) (N.land w m).
Lemma hh_wf m w : wf 64 w -> wf 64 (hh m w).
Proof. intros W. apply wf_lxor; [now apply wf_shr|now apply wf_land_l]. Qed.
Lemma hh_lxor m a b : hh m (N.lxor a b) = N.lxor (hh m a) (hh m b).
Proof. unfold hh. rewrite shiftr_lxor, land_lxor_l. apply lxor_4. Qed.
Lemma d_out_eq a l : d_out a l = dw (N.lxor (hh d_msk1 (dlo l)) (dlo a)) (N.lxor (hh d_msk2 (dhi l)) (dhi a)).
Proof. reflexivity. Qed.
Lemma out0_wf a l : wf 64 (N.lxor (hh d_msk1 (dlo l)) (dlo a)).
Proof. apply wf_lxor; [apply hh_wf, dlo_wf|apply dlo_wf]. Qed.
Lemma out1_wf a l : wf 64 (N.lxor (hh d_msk2 (dhi l)) (dhi a)).
Proof. apply wf_lxor; [apply hh_wf, dhi_wf|apply dhi_wf]. Qed.
Lemma d_out_wf a l : wf 128 (d_out a l).
Proof. rewrite d_out_eq. apply dw_wf; [apply out0_wf|apply out1_wf]. Qed.
Lemma dlo_out a l : dlo (d_out a l) = N.lxor (hh d_msk1 (dlo l)) (dlo a).
Proof. rewrite d_out_eq. apply dlo_dw, out0_wf. Qed.
Lemma dhi_out a l : dhi (d_out a l) = N.lxor (hh d_msk2 (dhi l)) (dhi a).
Proof. rewrite d_out_eq. apply dhi_dw; [apply out0_wf|apply out1_wf]. Qed.
Lemma lxor_3 a b c a' b' c' : N.lxor (N.lxor (N.lxor a a') (N.lxor b b')) (N.lxor c c') = N.lxor (N.lxor (N.lxor a b) c) (N.lxor (N.lxor a' b') c').
Proof. rewrite (lxor_4 a a' b b'). apply lxor_4. Qed.
Lemma d_lung_lin a a' b b' u u' : d_lung (N.lxor a a') (N.lxor b b') (N.lxor u u') = N.lxor (d_lung a b u) (d_lung a' b' u').
Proof. rewrite !d_lung_eq, <- dw_lxor. rewrite !dlo_lxor, !dhi_lxor, !wshl_lxor, !swap_lxor. f_equal; apply lxor_3. Qed.
Lemma d_out_lin a a' l l' : d_out (N.lxor a a') (N.lxor l l') = N.lxor (d_out a l) (d_out a' l').
Proof. rewrite !d_out_eq, <- dw_lxor. rewrite !dlo_lxor, !dhi_lxor, !hh_lxor. f_equal; apply lxor_4. Qed.
Lemma d_out_inj a a' l : wf 128 a -> wf 128 a' -> d_out a l = d_out a' l -> a = a'.
Proof.
  intros A A' E. pose proof (f_equal dlo E) as E0. pose proof (f_equal dhi E) as E1. rewrite !dlo_out in E0. rewrite !dhi_out in E1.
  apply lxor_inj_l in E0, E1. apply half_join; assumption.
Qed.
Lemma d_lung_inj a b u u' : wf 128 u -> wf 128 u' -> d_lung a b u = d_lung a b u' -> u = u'.
Proof.
  intros U U' E. pose proof (f_equal dlo E) as E0. pose proof (f_equal dhi E) as E1. rewrite !dlo_lung in E0. rewrite !dhi_lung in E1.
  apply lxor_inj_r in E0, E1. apply lxor_inj_l in E0, E1. apply (swap_inj _ _ (dhi_wf u) (dhi_wf u')) in E0. apply (swap_inj _ _ (dlo_wf u) (dlo_wf u')) in E1.
  apply half_join; assumption.
Qed.
(* SSE2 *)
Lemma shuffle_eq u : d_shuffle u = dw (d_swap (dhi u)) (d_swap (dlo u)).
Proof.
  apply (wf_eq 128); [apply join4_wf; apply lane_wf|apply dw_wf; apply swap_wf; apply wf_trunc|]. intros i Hi.
  unfold d_shuffle. rewrite join4_spec by apply lane_wf. rewrite dw_spec by apply swap_wf, wf_trunc. rewrite !lane_spec.
  destruct (N.ltb_spec i 32); [|destruct (N.ltb_spec i 64); [|destruct (N.ltb_spec i 96)]].
  - replace (i <? 64) with true by lia. rewrite swap_spec by (try apply wf_trunc; lia). replace (i <? 32) with true by lia. unfold dhi. rewrite trunc_spec, shr_spec.
    replace (i + 32 <? 64) with true by lia. cbn [andb]. f_equal; lia.
  - rewrite swap_spec by (try apply wf_trunc; lia). replace (i <? 32) with false by lia. unfold dhi. rewrite trunc_spec, shr_spec.
    replace (i - 32 <? 64) with true by lia. replace (i - 32 <? 32) with true by lia. cbn [andb]. f_equal; lia.
  - rewrite swap_spec by (try apply wf_trunc; lia). replace (i - 64 <? 32) with true by lia. unfold dlo. rewrite trunc_spec.
    replace (i - 64 + 32 <? 64) with true by lia. cbn [andb]. f_equal; lia.
  - rewrite swap_spec by (try apply wf_trunc; lia). replace (i - 64 <? 32) with false by lia. unfold dlo. rewrite trunc_spec.
    replace (i - 64 - 32 <? 64) with true by lia. replace (i - 96 <? 32) with true by lia. cbn [andb]. f_equal; lia.
Qed.
Lemma lung_simd a b u : wf 128 b -> d_lung_sse a b u = d_lung a b u.
Proof.
  intros B. unfold d_lung_sse. cbv zeta. rewrite shuffle_eq, d_lung_eq. rewrite <- (dw_eta b B) at 1. unfold epi64. rewrite <- !dw_lxor. f_equal.
  - rewrite N.lxor_assoc. rewrite (N.lxor_comm (d_swap (dhi u))), !N.lxor_assoc. f_equal. apply N.lxor_comm.
  - rewrite N.lxor_assoc. rewrite (N.lxor_comm (d_swap (dlo u))), !N.lxor_assoc. f_equal. apply N.lxor_comm.
Qed.
Lemma rec_simd a b c d u : wf 128 a -> wf 128 b -> ds_f_sse a b c d u = ds_f a b c d u /\ ds_g_sse a b c d u = ds_g a b c d u.
Proof.
  intros A B. split; [|now apply lung_simd]. unfold ds_f_sse, ds_f. cbv zeta. rewrite lung_simd by exact B. rewrite d_out_eq. set (l := d_lung a b u).
  rewrite <- (dw_eta l (d_lung_wf a b u)) at 2. rewrite dw_land by (apply wf_trunc || reflexivity). rewrite <- (dw_eta a A) at 1. unfold epi64.
  rewrite <- !dw_lxor. unfold hh. f_equal; (rewrite !N.lxor_assoc; f_equal; apply N.lxor_comm).
Qed.

(* ------------------------------------------------ the hypotheses of Lagged.v *)
Lemma dK2 : (2 <= dsK)%nat. Proof. unfold dsK. lia. Qed.
Lemma dK3 : (3 <= dsK)%nat. Proof. unfold dsK. lia. Qed.
Lemma dPK : (0 < dsP < dsK)%nat. Proof. unfold dsK, dsP. lia. Qed.
Lemma d_ok a b c d u : wf128 a -> wf128 b -> wf128 c -> wf128 d -> wf128 u -> wf128 (ds_f a b c d u) /\ wf128 (ds_g a b c d u).
Proof. intros. split; [apply d_out_wf|apply d_lung_wf]. Qed.
Lemma d_inj a a' b c d u u' : wf128 a -> wf128 a' -> wf128 b -> wf128 c -> wf128 d -> wf128 u -> wf128 u' ->
  ds_f a b c d u = ds_f a' b c d u' -> ds_g a b c d u = ds_g a' b c d u' -> a = a' /\ u = u'.
Proof.
  intros A A' B C D U U' E F. unfold ds_f, ds_g in *. rewrite F in E. apply d_out_inj in E; [|exact A|exact A']. subst a'. split; [reflexivity|].
  exact (d_lung_inj a b u u' U U' F).
Qed.
Lemma d_flin a a' b b' c c' d d' v v' : ds_f (N.lxor a a') (N.lxor b b') (N.lxor c c') (N.lxor d d') (N.lxor v v') = N.lxor (ds_f a b c d v) (ds_f a' b' c' d' v').
Proof. unfold ds_f. rewrite d_lung_lin. apply d_out_lin. Qed.
Lemma d_glin a a' b b' c c' d d' v v' : ds_g (N.lxor a a') (N.lxor b b') (N.lxor c c') (N.lxor d d') (N.lxor v v') = N.lxor (ds_g a b c d v) (ds_g a' b' c' d' v').
Proof. apply d_lung_lin. Qed.

(* ------------------------------------------------ the lung can be seen in the words *)
(* hh m w = 0 and m < 2^52: w is determined by its low 12 bits *)
Definition grow (m l w : N) : N := N.lxor l (wshl 64 (N.land w m) 12).
Definition regrow (m l : N) : N := grow m l (grow m l (grow m l (grow m l (grow m l (grow m l 0))))).
Lemma hh_grow m w : wf 64 w -> hh m w = 0 -> w = grow m (trunc 12 w) w.
Proof.
  intros W H. apply (wf_eq 64); [exact W|apply wf_lxor; [apply (wf_mono 12); [lia|apply wf_trunc]|apply wf_wshl]|]. intros i Hi.
  unfold grow. rewrite N.lxor_spec, trunc_spec, wshl_spec, N.land_spec. replace (i <? 64) with true by lia. destruct (N.ltb_spec i 12).
  - replace (12 <=? i) with false by lia. cbn [andb]. now rewrite xorb_false_r.
  - replace (12 <=? i) with true by lia. cbn [andb]. rewrite xorb_false_l.
    pose proof (f_equal (fun z => N.testbit z (i - 12)) H) as E. cbv beta in E. unfold hh in E. rewrite N.lxor_spec, shr_spec, N.land_spec, N.bits_0 in E.
    replace (i - 12 + 12) with i in E by lia. now apply Bool.xorb_eq in E.
Qed.
Definition agree (n a b : N) : Prop := forall i, i < n -> N.testbit a i = N.testbit b i.
Lemma grow_agree m l n a b : agree n a b -> agree (n + 12) (grow m l a) (grow m l b).
Proof.
  intros A i Hi. unfold grow. rewrite !N.lxor_spec, !wshl_spec, !N.land_spec. f_equal. destruct (i <? 64); [|reflexivity].
  destruct (N.leb_spec 12 i); [|reflexivity]. cbn [andb]. now rewrite A by lia.
Qed.
Lemma hh_regrow m w : wf 64 w -> hh m w = 0 -> w = regrow m (trunc 12 w).
Proof.
  intros W H. set (l := trunc 12 w). assert (G : w = grow m l w) by (apply hh_grow; assumption).
  assert (G6 : w = grow m l (grow m l (grow m l (grow m l (grow m l (grow m l w)))))) by (rewrite <- !G; reflexivity).
  assert (L : wf 64 l) by (apply (wf_mono 12); [lia|apply wf_trunc]).
  apply (wf_eq 64); [exact W|apply wf_lxor; [exact L|apply wf_wshl]|]. intros i Hi. rewrite G6 at 1. unfold regrow.
  assert (A : agree (0 + 12 + 12 + 12 + 12 + 12 + 12) (grow m l (grow m l (grow m l (grow m l (grow m l (grow m l w)))))) (grow m l (grow m l (grow m l (grow m l (grow m l (grow m l 0))))))).
  { do 6 apply grow_agree. intros j Hj. lia. }
  apply A. lia.
Qed.
(* the map from the low 12 bits is linear: one-to-one if no sum of images of powers of 2 vanishes *)
Fixpoint nonzero_sums (vs : list N) (acc : N) (nz : bool) : bool :=
  match vs with
  | [] => negb nz || negb (acc =? 0)
  | v :: vs => nonzero_sums vs acc nz && nonzero_sums vs (N.lxor acc v) true
  end.
Fixpoint images (T : N -> N) (n : nat) : list N := match n with O => [] | S n => T (2 ^ N.of_nat n) :: images T n end.
Lemma nonzero_sums_spec T : (forall a b, T (N.lxor a b) = N.lxor (T a) (T b)) ->
  forall n acc nz, nonzero_sums (images T n) acc nz = true -> forall l, l < 2 ^ N.of_nat n -> nz = true \/ l <> 0 -> N.lxor acc (T l) <> 0.
Proof.
  intros Lin. assert (T0 : T 0 = 0) by (pose proof (Lin 0 0) as H; rewrite !N.lxor_nilpotent in H; exact H).
  induction n as [|n IH]; intros acc nz H l Hl C.
  - change (2 ^ N.of_nat 0) with 1 in Hl. assert (l = 0) by lia. subst l. destruct C as [->|C]; [|lia]. cbn in H. rewrite T0, N.lxor_0_r. lia.
  - cbn [images nonzero_sums] in H. apply andb_true_iff in H. destruct H as [H1 H2].
    destruct (N.testbit l (N.of_nat n)) eqn:B.
    + set (l' := N.lxor (2 ^ N.of_nat n) l). assert (L : l = N.lxor (2 ^ N.of_nat n) l') by (unfold l'; now rewrite <- N.lxor_assoc, N.lxor_nilpotent, N.lxor_0_l).
      assert (W : wf (N.of_nat n) l').
      { apply wf_testbit. intros i Hi. unfold l'. rewrite N.lxor_spec. destruct (N.eq_dec i (N.of_nat n)) as [->|D].
        - rewrite N.pow2_bits_true, B. reflexivity.
        - rewrite N.pow2_bits_false by congruence. rewrite xorb_false_l. apply (wf_off (N.of_nat (S n))); [exact Hl|lia]. }
      rewrite L, Lin, <- N.lxor_assoc. apply (IH _ true H2); [exact W|now left].
    + apply (IH acc nz H1); [|exact C]. change (wf (N.of_nat n) l). apply wf_testbit. intros i Hi. destruct (N.eq_dec i (N.of_nat n)) as [->|D]; [exact B|].
      apply (wf_off (N.of_nat (S n))); [exact Hl|lia].
Qed.
Definition seen (m m' l : N) : N := hh m' (d_swap (regrow m l)).
Lemma grow_lxor m l l' w w' : grow m (N.lxor l l') (N.lxor w w') = N.lxor (grow m l w) (grow m l' w').
Proof. unfold grow. rewrite land_lxor_l, wshl_lxor. apply lxor_4. Qed.
Lemma seen_lxor m m' a b : seen m m' (N.lxor a b) = N.lxor (seen m m' a) (seen m m' b).
Proof.
  assert (R : regrow m (N.lxor a b) = N.lxor (regrow m a) (regrow m b)).
  { unfold regrow. rewrite <- !grow_lxor. now rewrite N.lxor_nilpotent. }
  unfold seen. now rewrite R, swap_lxor, hh_lxor.
Qed.
Lemma seen_12 : nonzero_sums (images (seen d_msk1 d_msk2) 12) 0 false = true.
Proof. vm_compute. reflexivity. Qed.
Lemma seen_21 : nonzero_sums (images (seen d_msk2 d_msk1) 12) 0 false = true.
Proof. vm_compute. reflexivity. Qed.
Lemma kernels m m' w : nonzero_sums (images (seen m m') 12) 0 false = true -> wf 64 w -> hh m w = 0 -> hh m' (d_swap w) = 0 -> w = 0.
Proof.
  intros A W H H'. pose proof (hh_regrow m w W H) as R.
  destruct (N.eq_dec (trunc 12 w) 0) as [Z|Z].
  - rewrite R, Z. unfold regrow, grow. rewrite !N.land_0_l. reflexivity.
  - exfalso. apply (nonzero_sums_spec (seen m m') (seen_lxor m m') 12 0 false A (trunc 12 w)); [apply wf_trunc|now right|].
    rewrite N.lxor_0_l. unfold seen. now rewrite <- R.
Qed.
Lemma d_observed (x u y v : N -> N) m : lrec dsK dsP ds_f ds_g x u -> lrec dsK dsP ds_f ds_g y v -> sok wf128 wf128 x u -> sok wf128 wf128 y v ->
  (forall i, m <= i -> x i = y i) -> exists m', m <= m' /\ u m' = v m'.
Proof.
  intros Rx Ry [Xo Uo] [Yo Vo] E. exists (m + 1). split; [lia|].
  assert (O : forall n, m <= n -> dlo (u (n + 1)) = dlo (u (n + 1)) /\ hh d_msk1 (N.lxor (dlo (u (n + 1))) (dlo (v (n + 1)))) = 0 /\ hh d_msk2 (N.lxor (dhi (u (n + 1))) (dhi (v (n + 1)))) = 0 ).
  { intros n Hn. split; [reflexivity|]. destruct (Rx n) as [A1 A2], (Ry n) as [B1 B2]. unfold ds_f, ds_g in *. rewrite <- A2 in A1. rewrite <- B2 in B1.
    assert (Q : d_out (x n) (u (n + 1)) = d_out (x n) (v (n + 1))) by (rewrite <- A1, (E n Hn), <- B1; apply E; lia).
    rewrite !hh_lxor. split.
    - apply (f_equal dlo) in Q. rewrite !dlo_out in Q. apply lxor_inj_r in Q. rewrite Q. apply N.lxor_nilpotent.
    - apply (f_equal dhi) in Q. rewrite !dhi_out in Q. apply lxor_inj_r in Q. rewrite Q. apply N.lxor_nilpotent. }
  (* the difference of the lungs is swapped at every step *)
  assert (D : N.lxor (dlo (u (m + 1 + 1))) (dlo (v (m + 1 + 1))) = d_swap (N.lxor (dhi (u (m + 1))) (dhi (v (m + 1)))) /\
              N.lxor (dhi (u (m + 1 + 1))) (dhi (v (m + 1 + 1))) = d_swap (N.lxor (dlo (u (m + 1))) (dlo (v (m + 1))))).
  { destruct (Rx (m + 1)) as [_ A2], (Ry (m + 1)) as [_ B2]. unfold ds_g in *. rewrite A2, B2, !dlo_lung, !dhi_lung, !(E (m + 1)), !(E (m + 1 + N.of_nat dsP)) by lia.
    rewrite !swap_lxor. split; apply N.bits_inj; intros i; rewrite !N.lxor_spec;
    match goal with |- xorb (xorb (xorb ?a ?b) ?c) (xorb (xorb _ ?d) _) = _ => destruct a, b, c, d; reflexivity end. }
  destruct (O m ltac:(lia)) as (_ & K1 & K2). destruct (O (m + 1) ltac:(lia)) as (_ & K3 & K4). destruct D as [D1 D2]. rewrite D1 in K3. rewrite D2 in K4.
  assert (W0 : wf 64 (N.lxor (dlo (u (m + 1))) (dlo (v (m + 1))))) by (apply wf_lxor; apply wf_trunc).
  assert (W1 : wf 64 (N.lxor (dhi (u (m + 1))) (dhi (v (m + 1))))) by (apply wf_lxor; apply wf_trunc).
  pose proof (kernels d_msk1 d_msk2 _ seen_12 W0 K1 K4) as Z0. pose proof (kernels d_msk2 d_msk1 _ seen_21 W1 K2 K3) as Z1.
  apply N.lxor_eq in Z0, Z1. apply half_join; [apply Uo|apply Vo|exact Z0|exact Z1].
Qed.

(* ------------------------------------------------ IEEE headers *)
(* both halves are doubles in [1, 2): sign 0, exponent 0x3FF *)
Definition unit_word (x : N) : Prop := wf 128 x /\ N.shiftr (dlo x) 52 = 0x3FF /\ N.shiftr (dhi x) 52 = 0x3FF.
Lemma hh_hdr m w : wf 64 w -> N.land m (N.shiftl (N.ones 12) 52) = 0 -> wf 64 m -> N.shiftr (hh m w) 52 = 0.
Proof.
  intros W M Mw. apply N.bits_inj. intros i. unfold hh. rewrite N.bits_0, shr_spec, N.lxor_spec, shr_spec, N.land_spec.
  rewrite (wf_off 64 w (i + 52 + 12)) by (assumption || lia). rewrite xorb_false_l. destruct (N.ltb_spec (i + 52) 64) as [H|H].
  - pose proof (f_equal (fun z => N.testbit z (i + 52)) M) as E. cbv beta in E. rewrite N.land_spec, shl_spec, N.bits_0 in E. replace (52 <=? i + 52) with true in E by lia.
    rewrite N.ones_spec_low in E by lia. cbn [andb] in E. rewrite andb_true_r in E. rewrite E. apply andb_false_r.
  - rewrite (wf_off 64 m) by assumption. apply andb_false_r.
Qed.
Lemma unit_ok a b c d u : unit_word a -> unit_word b -> unit_word c -> unit_word d -> wf128 u -> unit_word (ds_f a b c d u) /\ wf128 (ds_g a b c d u).
Proof.
  intros (A & A0 & A1) _ _ _ U. split; [|apply d_lung_wf]. unfold ds_f. split; [apply d_out_wf|]. rewrite dlo_out, dhi_out, !shiftr_lxor.
  rewrite !hh_hdr by (try apply wf_trunc; reflexivity). rewrite !N.lxor_0_l. split; assumption.
Qed.
Lemma unit_inj a a' b c d u u' : unit_word a -> unit_word a' -> unit_word b -> unit_word c -> unit_word d -> wf128 u -> wf128 u' ->
  ds_f a b c d u = ds_f a' b c d u' -> ds_g a b c d u = ds_g a' b c d u' -> a = a' /\ u = u'.
Proof. intros (A & _) (A' & _) (B & _) (C & _) (D & _). now apply d_inj. Qed.

(* ------------------------------------------------ seeding *)
Lemma mask64_ok x : wf 64 (d_mask64 x) /\ N.shiftr (d_mask64 x) 52 = 0x3FF.
Proof.
  unfold d_mask64. change 0x000FFFFFFFFFFFFF with (N.ones 52). rewrite N.land_ones.
  split; [apply wf_lor; [|reflexivity]; apply (wf_mono 52); [lia|apply N.mod_lt; discriminate]|].
  rewrite N.shiftr_lor. rewrite (N.shiftr_div_pow2 (x mod 2 ^ 52)), N.div_small by (apply N.mod_lt; discriminate). reflexivity.
Qed.
Lemma mask_ok x : unit_word (d_mask x).
Proof.
  unfold d_mask. destruct (mask64_ok (dlo x)) as [A B]. destruct (mask64_ok (dhi x)) as [C D].
  split; [now apply dw_wf|]. rewrite dlo_dw, dhi_dw by assumption. split; assumption.
Qed.
Definition dok (st : list N) (u : N) : Prop := List.length st = dsK /\ Forall unit_word st /\ wf 128 u.
Lemma dok_lok st u : dok st u <-> lok dsK unit_word wf128 (st, u).
Proof. reflexivity. Qed.
Lemma certify_wf u : wf 128 u -> wf 128 (d_certify u).
Proof. intros U. unfold d_certify. destruct (d_inner u =? 1); [exact U|]. apply dw_wf; [apply wf_trunc|]. apply wf_lxor; [apply wf_trunc|reflexivity]. Qed.
Lemma fold64_lxor x y : fold64 (N.lxor x y) = N.lxor (fold64 x) (fold64 y).
Proof. unfold fold64. rewrite shiftr_lxor, lxor_4. apply fold_bits_lxor. Qed.
Lemma certify_inner64 u : wf 128 u -> d_inner (d_certify u) = 1.
Proof.
  intros U. unfold d_certify. destruct (d_inner u =? 1) eqn:E; [lia|]. unfold d_inner in *.
  rewrite dlo_dw by apply wf_trunc. rewrite dhi_dw by (try apply wf_lxor; try apply wf_trunc; reflexivity).
  rewrite (N.lxor_assoc (dhi u)), (N.lxor_comm 1), <- (N.lxor_assoc (dhi u)). rewrite (land_lxor_l _ 1 1), <- N.lxor_assoc, fold64_lxor.
  set (z := fold64 _) in *. change (fold64 (N.land 1 1)) with 1. assert (Z : z = 0 \/ z = 1) by (unfold z, fold64; apply fold_bits_bit).
  destruct Z as [->| ->]; [reflexivity|discriminate E].
Qed.
Lemma d_init_ok key : dok (fst (ds_init_by_array key)) (snd (ds_init_by_array key)) /\ d_inner (snd (ds_init_by_array key)) = 1.
Proof.
  destruct (ini_words_wok 768 key) as [L F]. destruct (quads_ok 192 _ L F) as (A & B & _). unfold ds_init_by_array. cbv zeta. cbn [fst snd].
  assert (W : wf 128 (nth 191 (quads (ini_words 768 key)) 0)). { apply (nth_ok wf128); [exact B|rewrite A; lia]. }
  split; [|now apply certify_inner64]. split; [rewrite map_length, firstn_length, A; reflexivity|]. split; [|now apply certify_wf].
  apply Forall_forall. intros x H. apply in_map_iff in H. destruct H as (y & <- & _). apply mask_ok.
Qed.

(* ------------------------------------------------ state *)
Lemma pairs_halves l : Forall (wf 128) l -> pairs (halves l) = l.
Proof.
  induction 1 as [|x l X F IH]; [reflexivity|]. unfold halves in *. cbn [flat_map app pairs]. rewrite IH. f_equal. exact (dw_eta x X).
Qed.
Lemma halves_app l l' : halves (l ++ l') = (halves l ++ halves l')%list.
Proof. apply flat_map_app. Qed.
Lemma halves_wf64 l : Forall (wf 64) (halves l).
Proof. induction l as [|a l IH]; [constructor|]. unfold halves in *. cbn [flat_map app]. repeat (constructor; [apply wf_trunc|]). exact IH. Qed.
Lemma ds_set_get s t :
  List.length (lb_st s) = 191%nat -> Forall (wf 128) (lb_st s) -> wf 128 (lb_u s) -> (- 2 ^ 31 <= lb_idx s < 2 ^ 31)%Z -> (- 2 ^ 31 <= lb_loc s < 2 ^ 31)%Z ->
  List.length (lb_buf s) = 382%nat -> List.length (lb_buf t) = 382%nat -> ds_set (ds_get s) t = (s, Ok tt).
Proof.
  destruct s as [st u idx buf loc], t as [st' u' idx' buf' loc']. cbn [lb_st lb_u lb_idx lb_buf lb_loc]. intros L F U I Lo LB LB'.
  unfold ds_set, ds_get. cbn [lb_st lb_u lb_idx lb_buf lb_loc]. rewrite <- halves_app.
  assert (C1 : check_arr 384 64 (PArr 64 (halves (st ++ [u]))) = Ok (halves (st ++ [u]))).
  { apply check_arr_ok; [|apply halves_wf64]. rewrite halves_length, app_length, L. reflexivity. }
  rewrite bind_lift. cbn - [halves pairs check_arr firstn skipn nth app]. rewrite bind_lift. cbn - [halves pairs check_arr firstn skipn nth app]. rewrite C1.
  rewrite bind_modify. cbn [lb_st lb_u lb_idx lb_buf lb_loc].
  rewrite pairs_halves by (apply Forall_app; split; [exact F|constructor; [exact U|constructor]]).
  assert (F1 : firstn 191 (st ++ [u]) = st) by (rewrite <- L, firstn_app, Nat.sub_diag, firstn_all, firstn_O; apply app_nil_r).
  assert (F2 : nth 191 (st ++ [u]) 0 = u) by (rewrite <- L, app_nth2, Nat.sub_diag by lia; reflexivity). rewrite F1, F2.
  rewrite bind_lift. cbn - [halves pairs check_arr firstn skipn nth app]. rewrite cint_in by exact I. rewrite bind_modify. cbn [lb_st lb_u lb_idx lb_buf lb_loc].
  rewrite bind_lift. cbn - [halves pairs check_arr firstn skipn nth app ds_set_buf bind]. unfold ds_set_buf.
  assert (S : skipn (List.length buf) buf' = []) by (apply skipn_all2; lia).
  assert (FB : firstn 382 buf = buf) by (rewrite <- LB; apply firstn_all).
  replace (382 <=? List.length buf)%nat with true by (symmetry; apply Nat.leb_le; lia).
  unfold bind at 1. rewrite bind_modify. cbn [lb_st lb_u lb_idx lb_buf lb_loc ret]. rewrite S, FB, app_nil_r.
  rewrite bind_lift. cbn - [halves pairs check_arr firstn skipn nth app]. rewrite cint_in by exact Lo. reflexivity.
Qed.
