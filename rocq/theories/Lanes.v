(* 128-bit words as four 32-bit lanes *)
From Verif Require Import Word Sfmt.
From Coq Require Import ZifyBool ZifyNat ZifyN.
Open Scope N_scope.
Ltac Zify.zify_post_hook ::= idtac.

Lemma shl_spec a k i : N.testbit (N.shiftl a k) i = (k <=? i) && N.testbit a (i - k).
Proof.
  destruct (N.leb_spec k i) as [H|H]; cbn [andb]; [now apply N.shiftl_spec_high'|now apply N.shiftl_spec_low].
Qed.
Lemma land_lxor_l a b m : N.land (N.lxor a b) m = N.lxor (N.land a m) (N.land b m).
Proof. apply N.bits_inj. intros i. rewrite N.lxor_spec, !N.land_spec, N.lxor_spec. now destruct (N.testbit a i), (N.testbit b i), (N.testbit m i). Qed.
Lemma lxor_4 a b c d : N.lxor (N.lxor a b) (N.lxor c d) = N.lxor (N.lxor a c) (N.lxor b d).
Proof. rewrite !N.lxor_assoc. f_equal. rewrite <- !N.lxor_assoc. f_equal. apply N.lxor_comm. Qed.
Lemma wf_off w x i : wf w x -> w <= i -> N.testbit x i = false.
Proof. intros H. now apply wf_testbit. Qed.
Lemma lane_spec j x i : N.testbit (lane j x) i = (i <? 32) && N.testbit x (i + 32 * j).
Proof. unfold lane. now rewrite trunc_spec, shr_spec. Qed.
Lemma lane_wf j x : wf 32 (lane j x).
Proof. apply wf_trunc. Qed.
Lemma lane_lxor j x y : lane j (N.lxor x y) = N.lxor (lane j x) (lane j y).
Proof. unfold lane. now rewrite shiftr_lxor, trunc_lxor. Qed.
Lemma lane_land j x y : lane j (N.land x y) = N.land (lane j x) (lane j y).
Proof. apply N.bits_inj. intros i. rewrite N.land_spec, !lane_spec, N.land_spec. now destruct (i <? 32), (N.testbit x _), (N.testbit y _). Qed.
Lemma join4_lxor a b c d a' b' c' d' :
  join4 (N.lxor a a') (N.lxor b b') (N.lxor c c') (N.lxor d d') = N.lxor (join4 a b c d) (join4 a' b' c' d').
Proof.
  unfold join4. rewrite !shiftl_lxor. apply N.bits_inj. intros i. rewrite !N.lxor_spec.
  destruct (N.testbit a i), (N.testbit a' i), (N.testbit (N.shiftl b 32) i), (N.testbit (N.shiftl b' 32) i), (N.testbit (N.shiftl c 64) i),
    (N.testbit (N.shiftl c' 64) i), (N.testbit (N.shiftl d 96) i), (N.testbit (N.shiftl d' 96) i); reflexivity.
Qed.
Lemma join4_spec a b c d i : wf 32 a -> wf 32 b -> wf 32 c -> wf 32 d ->
  N.testbit (join4 a b c d) i = if i <? 32 then N.testbit a i else if i <? 64 then N.testbit b (i - 32) else if i <? 96 then N.testbit c (i - 64) else N.testbit d (i - 96).
Proof.
  intros A B C D. unfold join4. rewrite !N.lxor_spec, !shl_spec.
  destruct (N.ltb_spec i 32); [|destruct (N.ltb_spec i 64); [|destruct (N.ltb_spec i 96)]].
  - replace (32 <=? i) with false by lia. replace (64 <=? i) with false by lia. replace (96 <=? i) with false by lia. cbn [andb]. now rewrite !xorb_false_r.
  - replace (32 <=? i) with true by lia. replace (64 <=? i) with false by lia. replace (96 <=? i) with false by lia. cbn [andb].
    rewrite (wf_off 32 a) by (assumption || lia). now rewrite !xorb_false_r, xorb_false_l.
  - replace (32 <=? i) with true by lia. replace (64 <=? i) with true by lia. replace (96 <=? i) with false by lia. cbn [andb].
    rewrite (wf_off 32 a), (wf_off 32 b) by (assumption || lia). now rewrite !xorb_false_r, !xorb_false_l.
  - replace (32 <=? i) with true by lia. replace (64 <=? i) with true by lia. replace (96 <=? i) with true by lia. cbn [andb].
    rewrite (wf_off 32 a), (wf_off 32 b), (wf_off 32 c) by (assumption || lia). now rewrite !xorb_false_l.
Qed.
Lemma join4_wf a b c d : wf 32 a -> wf 32 b -> wf 32 c -> wf 32 d -> wf 128 (join4 a b c d).
Proof.
  intros A B C D. apply wf_testbit. intros i Hi. rewrite join4_spec by assumption.
  replace (i <? 32) with false by lia. replace (i <? 64) with false by lia. replace (i <? 96) with false by lia. apply (wf_off 32); [exact D|lia].
Qed.
Lemma lane_join4 a b c d : wf 32 a -> wf 32 b -> wf 32 c -> wf 32 d ->
  lane 0 (join4 a b c d) = a /\ lane 1 (join4 a b c d) = b /\ lane 2 (join4 a b c d) = c /\ lane 3 (join4 a b c d) = d.
Proof.
  intros A B C D. repeat split; (apply (wf_eq 32); [apply lane_wf|assumption|]); intros i Hi; rewrite lane_spec, join4_spec by assumption;
    replace (i <? 32) with true by lia; cbn [andb].
  - replace (i + 32 * 0) with i by lia. now replace (i <? 32) with true by lia.
  - replace (i + 32 * 1 <? 32) with false by lia. replace (i + 32 * 1 <? 64) with true by lia. f_equal; lia.
  - replace (i + 32 * 2 <? 32) with false by lia. replace (i + 32 * 2 <? 64) with false by lia. replace (i + 32 * 2 <? 96) with true by lia. f_equal; lia.
  - replace (i + 32 * 3 <? 32) with false by lia. replace (i + 32 * 3 <? 64) with false by lia. replace (i + 32 * 3 <? 96) with false by lia. f_equal; lia.
Qed.
Lemma join4_lanes x : join4 (lane 0 x) (lane 1 x) (lane 2 x) (lane 3 x) = trunc 128 x.
Proof.
  apply (wf_eq 128); [apply join4_wf; apply lane_wf|apply wf_trunc|]. intros i Hi.
  rewrite join4_spec by apply lane_wf. rewrite trunc_spec, !lane_spec. replace (i <? 128) with true by lia. cbn [andb].
  destruct (N.ltb_spec i 32); [|destruct (N.ltb_spec i 64); [|destruct (N.ltb_spec i 96)]].
  - cbn [andb]. f_equal; lia.
  - replace (i - 32 <? 32) with true by lia. cbn [andb]. f_equal; lia.
  - replace (i - 64 <? 32) with true by lia. cbn [andb]. f_equal; lia.
  - replace (i - 96 <? 32) with true by lia. cbn [andb]. f_equal; lia.
Qed.
Lemma lanes_eq x y : wf 128 x -> wf 128 y -> lane 0 x = lane 0 y -> lane 1 x = lane 1 y -> lane 2 x = lane 2 y -> lane 3 x = lane 3 y -> x = y.
Proof. intros X Y A B C D. rewrite <- (trunc_small 128 x X), <- (trunc_small 128 y Y), <- !join4_lanes. congruence. Qed.
Lemma lo64_trunc x : lo64 x = trunc 64 x.
Proof.
  apply (wf_eq 64); [apply wf_lor; [apply wf_wshl|apply (wf_mono 32); [lia|apply lane_wf]]|apply wf_trunc|]. intros i Hi.
  unfold lo64. rewrite N.lor_spec, wshl_spec, !lane_spec, trunc_spec. replace (i <? 64) with true by lia. cbn [andb].
  destruct (N.ltb_spec i 32).
  - replace (32 <=? i) with false by lia. cbn [andb orb]. f_equal; lia.
  - replace (32 <=? i) with true by lia. replace (i - 32 <? 32) with true by lia. cbn [andb]. rewrite orb_false_r. f_equal; lia.
Qed.
Lemma hi64_trunc x : hi64 x = trunc 64 (N.shiftr x 64).
Proof.
  apply (wf_eq 64); [apply wf_lor; [apply wf_wshl|apply (wf_mono 32); [lia|apply lane_wf]]|apply wf_trunc|]. intros i Hi.
  unfold hi64. rewrite N.lor_spec, wshl_spec, !lane_spec, trunc_spec, shr_spec. replace (i <? 64) with true by lia. cbn [andb].
  destruct (N.ltb_spec i 32).
  - replace (32 <=? i) with false by lia. cbn [andb orb]. f_equal; lia.
  - replace (32 <=? i) with true by lia. replace (i - 32 <? 32) with true by lia. cbn [andb]. rewrite orb_false_r. f_equal; lia.
Qed.
Lemma of64_spec ol oh i : N.testbit (of64 ol oh) i = if i <? 64 then N.testbit ol i else (i <? 128) && N.testbit oh (i - 64).
Proof.
  unfold of64. rewrite join4_spec by apply wf_trunc. rewrite !trunc_spec, !shr_spec.
  destruct (N.ltb_spec i 32); [|destruct (N.ltb_spec i 64); [|destruct (N.ltb_spec i 96)]].
  - replace (i <? 64) with true by lia. reflexivity.
  - replace (i - 32 <? 32) with true by lia. cbn [andb]. f_equal; lia.
  - replace (i - 64 <? 32) with true by lia. replace (i <? 128) with true by lia. reflexivity.
  - replace (i - 96 <? 32) with (i <? 128) by lia. f_equal; f_equal; lia.
Qed.
Lemma of64_wf ol oh : wf 128 (of64 ol oh).
Proof. apply join4_wf; apply wf_trunc. Qed.
Lemma lshift128_eq x : lshift128 x = wshl 128 x 8.
Proof.
  apply (wf_eq 128); [apply of64_wf|apply wf_wshl|]. intros i Hi. unfold lshift128. rewrite of64_spec, lo64_trunc, hi64_trunc.
  rewrite N.lor_spec, !wshl_spec, !shr_spec, !trunc_spec, !shr_spec. replace (i <? 128) with true by lia. cbn [andb].
  destruct (N.ltb_spec i 64).
  - cbn [andb]. destruct (N.leb_spec 8 i); [|reflexivity]. replace (i - 8 <? 64) with true by lia. reflexivity.
  - replace (i - 64 <? 64) with true by lia. replace (8 <=? i) with true by lia. cbn [andb].
    destruct (N.leb_spec 8 (i - 64)).
    + replace (i - 64 - 8 <? 64) with true by lia. replace (i - 64 + 56 <? 64) with false by lia. cbn [andb]. rewrite orb_false_r. f_equal; lia.
    + replace (i - 64 + 56 <? 64) with true by lia. cbn [andb orb]. f_equal; lia.
Qed.
Lemma rshift128_eq x : rshift128 x = N.shiftr (trunc 128 x) 8.
Proof.
  apply (wf_eq 128); [apply of64_wf|apply wf_shr, wf_trunc|]. intros i Hi. unfold rshift128. rewrite of64_spec, lo64_trunc, hi64_trunc.
  rewrite N.lor_spec, !wshl_spec, !shr_spec, !trunc_spec, !shr_spec. replace (i <? 128) with true by lia. cbn [andb].
  destruct (N.ltb_spec i 64).
  - cbn [andb]. replace (i + 8 <? 128) with true by lia. cbn [andb]. destruct (N.ltb_spec (i + 8) 64).
    + replace (56 <=? i) with false by lia. cbn [andb]. now rewrite orb_false_r.
    + replace (56 <=? i) with true by lia. replace (i - 56 <? 64) with true by lia. cbn [andb orb]. f_equal; lia.
  - replace (i - 64 + 8 <? 64) with (i + 8 <? 128) by lia. f_equal; f_equal; lia.
Qed.
