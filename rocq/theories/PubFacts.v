(* The model of the code computes the published block functions of PubSpec.v.
   Proofs only; no part of /repo is modelled here. *)
From Verif Require Import Word Arr MultiWord Blocks PubSpec ChaCha Aes AesPy LaneCtr Speck.
From Coq Require Import ZifyBool ZifyNat ZifyN.
Open Scope N_scope.
Ltac Zify.zify_post_hook ::= idtac.

(* ---- rotations ---- *)
Lemma rol_low w x r : r <= w -> (x * 2 ^ r) mod 2 ^ w = (x mod 2 ^ (w - r)) * 2 ^ r.
Proof.
  intros H. replace (2 ^ w) with (2 ^ (w - r) * 2 ^ r) by (rewrite <- N.pow_add_r; f_equal; clear - H; lia).
  apply N.mul_mod_distr_r; apply N.pow_nonzero; discriminate.
Qed.
Lemma rotl_rol w x r : wf w x -> r <= w -> rotl w x r = rol w x r.
Proof.
  intros Hx Hr. assert (D := N.div_mod' x (2 ^ (w - r))).
  assert (P : 2 ^ (w - r) <> 0) by (apply N.pow_nonzero; discriminate).
  assert (B : x / 2 ^ (w - r) < 2 ^ r).
  { apply N.div_lt_upper_bound; [exact P|]. rewrite <- N.pow_add_r. replace (w - r + r) with w by (clear - Hr; lia). exact Hx. }
  pose proof (rotl_split w (w - r) (x mod 2 ^ (w - r)) (x / 2 ^ (w - r)) ltac:(clear; lia)
    (N.mod_lt _ _ P)) as R. replace (w - (w - r)) with r in R by (clear - Hr; lia). specialize (R B).
  rewrite N.add_comm, <- D in R. rewrite R. unfold rol. rewrite rol_low by exact Hr. rewrite N.add_comm. f_equal. apply N.mul_comm.
Qed.
Lemma rotr_ror w x r : wf w x -> r <= w -> rotr w x r = ror w x r.
Proof.
  intros Hx Hr. transitivity (rotl w x (w - r)).
  - unfold rotr, rotl. replace (w - (w - r)) with r by (clear - Hr; lia). apply N.lor_comm.
  - rewrite rotl_rol by (exact Hx || (clear; lia)). unfold rol, ror. rewrite rol_low by (clear; lia).
    replace (w - (w - r)) with r by (clear - Hr; lia). apply N.add_comm.
Qed.
Lemma tf_rotl_rol w x r : wf w x -> 0 < r < w -> tf_rotl w x r = rol w x r.
Proof.
  intros Hx Hr. rewrite <- rotl_rol by (exact Hx || (clear - Hr; lia)). unfold tf_rotl, rotl.
  rewrite !N.mod_small by (clear - Hr; lia). reflexivity.
Qed.

(* ---- Philox ---- *)
Lemma weyl w k W i : ((k + i * W) mod 2 ^ w + W) mod 2 ^ w = (k + (i + 1) * W) mod 2 ^ w.
Proof.
  rewrite N.add_mod_idemp_l by (apply N.pow_nonzero; discriminate). f_equal. lia.
Qed.
Lemma ph2_pub w m W k0 R : forall i x, length x = 2%nat ->
  ph_R (ph2_round w m) (ph2_bump w W) R [(k0 + N.of_nat i * W) mod 2 ^ w] x
  = fold_left (philox2_round w m W k0) (seq i R) x.
Proof.
  induction R as [|R IH]; intros i x Hx; [reflexivity|].
  destruct x as [|x0 [|x1 [|]]]; try discriminate.
  cbn [ph_R ph2_bump ph2_round seq fold_left]. unfold wadd. rewrite weyl.
  replace (N.of_nat i + 1) with (N.of_nat (S i)) by lia.
  rewrite IH by reflexivity. f_equal. unfold philox2_round, at_, mulhi, mullo, wmul. cbn [nth]. now rewrite N.shiftr_div_pow2.
Qed.
Lemma philox2_ok w m W R k0 x : wf w k0 -> length x = 2%nat ->
  ph_R (ph2_round w m) (ph2_bump w W) R [k0] x = philox2_pub w m W R [k0] x.
Proof.
  intros Hk Hx. rewrite <- (N.mod_small k0 (2 ^ w) Hk) at 1. rewrite <- (N.add_0_r k0) at 1.
  exact (ph2_pub w m W k0 R 0 x Hx).
Qed.
Lemma lxor_swap a b c : N.lxor (N.lxor a b) c = N.lxor (N.lxor a c) b.
Proof. now rewrite !N.lxor_assoc, (N.lxor_comm b c). Qed.
Lemma ph4_pub w m0 m1 W0 W1 k0 k1 R : forall i x, length x = 4%nat ->
  ph_R (ph4_round w m0 m1) (ph4_bump w W0 W1) R [(k0 + N.of_nat i * W0) mod 2 ^ w; (k1 + N.of_nat i * W1) mod 2 ^ w] x
  = fold_left (philox4_round w m0 m1 W0 W1 [k0; k1]) (seq i R) x.
Proof.
  induction R as [|R IH]; intros i x Hx; [reflexivity|].
  destruct x as [|x0 [|x1 [|x2 [|x3 [|]]]]]; try discriminate.
  cbn [ph_R ph4_bump ph4_round seq fold_left]. unfold wadd. rewrite !weyl.
  replace (N.of_nat i + 1) with (N.of_nat (S i)) by lia.
  rewrite IH by reflexivity. f_equal. unfold philox4_round, at_, mulhi, mullo, wmul. cbn [nth]. rewrite !N.shiftr_div_pow2.
  rewrite (lxor_swap _ x1), (lxor_swap _ x3). reflexivity.
Qed.
Lemma philox4_ok w m0 m1 W0 W1 R k0 k1 x : wf w k0 -> wf w k1 -> length x = 4%nat ->
  ph_R (ph4_round w m0 m1) (ph4_bump w W0 W1) R [k0; k1] x = philox4_pub w m0 m1 W0 W1 R [k0; k1] x.
Proof.
  intros H0 H1 Hx. rewrite <- (N.mod_small k0 (2 ^ w) H0) at 1. rewrite <- (N.mod_small k1 (2 ^ w) H1) at 1.
  rewrite <- (N.add_0_r k0) at 1. rewrite <- (N.add_0_r k1) at 1.
  exact (ph4_pub w m0 m1 W0 W1 k0 k1 R 0 x Hx).
Qed.

(* ---- Threefry ---- *)
Lemma xor_rot3 C a b : N.lxor (N.lxor C a) b = N.lxor a (N.lxor b C).
Proof. rewrite (N.lxor_comm C a), N.lxor_assoc, (N.lxor_comm C b). reflexivity. Qed.
Lemma add_sub w x k s : wadd w (wadd w x k) s = (x + (k + s) mod 2 ^ w) mod 2 ^ w.
Proof.
  unfold wadd. rewrite N.add_mod_idemp_l, N.add_mod_idemp_r by (apply N.pow_nonzero; discriminate). f_equal. lia.
Qed.
Lemma add_sub0 w x k : wadd w x k = (x + (k + 0) mod 2 ^ w) mod 2 ^ w.
Proof. unfold wadd. rewrite N.add_0_r, N.add_mod_idemp_r by (apply N.pow_nonzero; discriminate). reflexivity. Qed.
Lemma inject2 w ks s x0 x1 : tf2_inject w ks s [x0; x1] = tf_add w [x0; x1] (tf_subkey w 2 ks s).
Proof.
  unfold tf2_inject. rewrite add_sub, add_sub0.
  unfold tf_add, zip, tf_subkey, at_. cbn [seq map combine fst snd Nat.eqb Nat.sub]. rewrite Nat.add_0_r. reflexivity.
Qed.
Lemma inject4 w ks s x0 x1 x2 x3 : tf4_inject w ks s [x0; x1; x2; x3] = tf_add w [x0; x1; x2; x3] (tf_subkey w 4 ks s).
Proof.
  unfold tf4_inject. rewrite add_sub, !add_sub0.
  unfold tf_add, zip, tf_subkey, at_. cbn [seq map combine fst snd Nat.eqb Nat.sub]. rewrite Nat.add_0_r. reflexivity.
Qed.
Lemma mix_pub w r a b : wf w b -> 0 < r < w -> tf_MIX w r a b = [fst (tf_mix w r a b); snd (tf_mix w r a b)].
Proof. intros Hb Hr. unfold tf_MIX, tf_mix, wadd. cbn [fst snd]. now rewrite tf_rotl_rol. Qed.
Lemma mixw_wf w r a b : wf w b -> wf w (fst (tf_mix w r a b)) /\ wf w (snd (tf_mix w r a b)).
Proof.
  intros Hb. unfold tf_mix. cbn [fst snd]. split; [apply wf_wadd|]. apply wf_lxor; [|apply wf_wadd].
  unfold tf_rotl. apply wf_lor; [apply wf_wshl|now apply wf_shr].
Qed.
Lemma mod4_0 q : ((4 * q) mod 4 = 0 /\ (4 * q) / 4 = q)%nat.
Proof.
  split; [rewrite Nat.mul_comm; apply Nat.mod_mul; discriminate|rewrite Nat.mul_comm; apply Nat.div_mul; discriminate].
Qed.
Lemma mod4_j q j : (j < 4)%nat -> ((4 * q + j) mod 4 = j)%nat.
Proof. intros H. rewrite Nat.add_comm, Nat.mul_comm, Nat.mod_add by discriminate. now apply Nat.mod_small. Qed.
Section TF2.
  Variables (w : N) (rots : list N) (ks : list N).
  Hypothesis Hr : forall i, (i < 8)%nat -> 0 < nth i rots 0 < w.
  Let R (d j : nat) : N := nth d rots 0.
  Lemma round2 x0 x1 d : wf w x1 -> (d mod 4 <> 0)%nat ->
    tf_pub_round w 2 R [0; 1]%nat ks [x0; x1] d = tf2_round w (nth (d mod 8) rots 0) [x0; x1].
  Proof.
    intros H1 Hd. unfold tf_pub_round. rewrite (proj2 (Nat.eqb_neq _ _) Hd).
    cbn [seq Nat.div Nat.divmod fst flat_map app]. unfold at_ at 2 3. cbn [nth Nat.mul Nat.add].
    rewrite mix_pub by (exact H1 || apply Hr; apply Nat.mod_upper_bound; discriminate).
    unfold tf2_round. change (R (d mod 8) 0)%nat with (nth (d mod 8) rots 0). destruct (tf_mix _ _ _ _). reflexivity.
  Qed.
  Lemma round2_0 x0 x1 d : (d mod 4 = 0)%nat ->
    tf_pub_round w 2 R [0; 1]%nat ks [x0; x1] d = tf2_round w (nth (d mod 8) rots 0) (tf2_inject w ks (d / 4) [x0; x1]).
  Proof.
    intros Hd. unfold tf_pub_round. rewrite (proj2 (Nat.eqb_eq _ _) Hd), <- inject2. unfold tf2_inject.
    cbn [seq Nat.div Nat.divmod fst flat_map app]. unfold at_ at 2 3. cbn [nth Nat.mul Nat.add].
    rewrite mix_pub by (apply wf_wadd || apply Hr; apply Nat.mod_upper_bound; discriminate).
    unfold tf2_round. change (R (d mod 8) 0)%nat with (nth (d mod 8) rots 0). destruct (tf_mix _ _ _ _). reflexivity.
  Qed.
  Lemma tf2_round_wf r x0 x1 : wf w x1 -> exists y0 y1, tf2_round w r [x0; x1] = [y0; y1] /\ wf w y0 /\ wf w y1.
  Proof.
    intros H1. unfold tf2_round. destruct (mixw_wf w r x0 x1 H1) as [A B]. destruct (tf_mix w r x0 x1) as [y0 y1].
    exists y0, y1. auto.
  Qed.
  Lemma four2 x0 x1 q : exists y0 y1,
    fold_left (tf_pub_round w 2 R [0; 1]%nat ks) (seq (4 * q) 4) [x0; x1] = [y0; y1]
    /\ tf2_four w (fun i => nth i rots 0) ks (tf2_inject w ks q [x0; x1]) q = tf2_inject w ks (q + 1) [y0; y1].
  Proof.
    destruct (mod4_0 q) as [M0 D0].
    unfold tf2_four. cbn [seq fold_left]. rewrite round2_0 by exact M0. rewrite D0.
    unfold tf2_inject at 1 3. 
    edestruct (tf2_round_wf (nth ((4 * q) mod 8) rots 0)) as (a0 & a1 & Ea & A0 & A1); [|rewrite Ea]; [apply wf_wadd|].
    replace (Datatypes.S (4 * q)) with (4 * q + 1)%nat by lia.
    replace (Datatypes.S (4 * q + 1)) with (4 * q + 2)%nat by lia.
    replace (Datatypes.S (4 * q + 2)) with (4 * q + 3)%nat by lia.
    rewrite round2 by (exact A1 || (rewrite mod4_j by lia; discriminate)).
    edestruct (tf2_round_wf (nth ((4 * q + 1) mod 8) rots 0)) as (b0 & b1 & Eb & B0 & B1); [|rewrite Eb]; [exact A1|].
    rewrite round2 by (exact B1 || (rewrite mod4_j by lia; discriminate)).
    edestruct (tf2_round_wf (nth ((4 * q + 2) mod 8) rots 0)) as (c0 & c1 & Ec & C0 & C1); [|rewrite Ec]; [exact B1|].
    rewrite round2 by (exact C1 || (rewrite mod4_j by lia; discriminate)).
    edestruct (tf2_round_wf (nth ((4 * q + 3) mod 8) rots 0)) as (d0 & d1 & Ed & D0' & D1); [|rewrite Ed]; [exact C1|].
    exists d0, d1. split; reflexivity.
  Qed.
End TF2.
Theorem threefry2_ok w C rots k0 k1 x0 x1 : (forall i, (i < 8)%nat -> 0 < nth i rots 0 < w) ->
  tf2 w C rots [k0; k1] [x0; x1] = threefry_pub w C 2 (fun d _ => nth d rots 0) [0; 1]%nat 20 [k0; k1] [x0; x1].
Proof.
  intros Hr. unfold tf2, threefry_pub, tf_ks. cbn [fold_left fold_right]. rewrite xor_rot3. set (ks := [k0; k1] ++ _).
  change (seq 0 20) with (seq (4 * 0) 4 ++ seq (4 * 1) 4 ++ seq (4 * 2) 4 ++ seq (4 * 3) 4 ++ seq (4 * 4) 4).
  rewrite !fold_left_app. change (20 / 4)%nat with (4 + 1)%nat.
  destruct (four2 w rots ks Hr x0 x1 0) as (a0 & a1 & E & F). rewrite E, F. clear E F.
  destruct (four2 w rots ks Hr a0 a1 1) as (b0 & b1 & E & F). rewrite E. change (0 + 1)%nat with 1%nat. rewrite F. clear E F.
  destruct (four2 w rots ks Hr b0 b1 2) as (c0 & c1 & E & F). rewrite E. change (1 + 1)%nat with 2%nat. rewrite F. clear E F.
  destruct (four2 w rots ks Hr c0 c1 3) as (d0 & d1 & E & F). rewrite E. change (2 + 1)%nat with 3%nat. rewrite F. clear E F.
  destruct (four2 w rots ks Hr d0 d1 4) as (e0 & e1 & E & F). rewrite E. change (3 + 1)%nat with 4%nat. rewrite F. clear E F.
  apply inject2.
Qed.
Section TF4.
  Variables (w : N) (rots : list (N * N)) (ks : list N).
  Hypothesis Hr : forall i, (i < 8)%nat -> 0 < fst (nth i rots (0, 0)) < w /\ 0 < snd (nth i rots (0, 0)) < w.
  Let R (d j : nat) : N := if Nat.eqb j 0 then fst (nth d rots (0, 0)) else snd (nth d rots (0, 0)).
  Let pub := tf_pub_round w 4 R [0; 3; 2; 1]%nat ks.
  (* what a round does to the words before they are permuted *)
  Lemma round4 x0 x1 x2 x3 d : wf w x1 -> wf w x3 -> (d mod 4 <> 0)%nat ->
    let r := nth (d mod 8) rots (0, 0) in
    pub [x0; x1; x2; x3] d = [fst (tf_mix w (fst r) x0 x1); snd (tf_mix w (snd r) x2 x3); fst (tf_mix w (snd r) x2 x3); snd (tf_mix w (fst r) x0 x1)].
  Proof.
    intros H1 H3 Hd. cbv zeta. unfold pub, tf_pub_round. rewrite (proj2 (Nat.eqb_neq _ _) Hd).
    cbn [seq Nat.div Nat.divmod fst flat_map app]. unfold at_ at 2 3 4 5. cbn [nth Nat.mul Nat.add].
    destruct (Hr (d mod 8)%nat) as [R0 R1]; [apply Nat.mod_upper_bound; discriminate|].
    rewrite !mix_pub by assumption. reflexivity.
  Qed.
  Lemma round4_0 x0 x1 x2 x3 d : (d mod 4 = 0)%nat ->
    let r := nth (d mod 8) rots (0, 0) in
    exists y0 y1 y2 y3, tf4_inject w ks (d / 4) [x0; x1; x2; x3] = [y0; y1; y2; y3] /\ wf w y1 /\ wf w y3 /\
    pub [x0; x1; x2; x3] d = [fst (tf_mix w (fst r) y0 y1); snd (tf_mix w (snd r) y2 y3); fst (tf_mix w (snd r) y2 y3); snd (tf_mix w (fst r) y0 y1)].
  Proof.
    intros Hd. cbv zeta. unfold pub, tf_pub_round. rewrite (proj2 (Nat.eqb_eq _ _) Hd), <- inject4. unfold tf4_inject.
    do 4 eexists. split; [reflexivity|]. split; [apply wf_wadd|]. split; [apply wf_wadd|].
    cbn [seq Nat.div Nat.divmod fst flat_map app]. unfold at_ at 2 3 4 5. cbn [nth Nat.mul Nat.add].
    destruct (Hr (d mod 8)%nat) as [R0 R1]; [apply Nat.mod_upper_bound; discriminate|].
    rewrite !mix_pub by (assumption || apply wf_wadd). reflexivity.
  Qed.
  Lemma even4 r y0 y1 y2 y3 : tf4_even w r [y0; y1; y2; y3]
    = [fst (tf_mix w (fst r) y0 y1); snd (tf_mix w (fst r) y0 y1); fst (tf_mix w (snd r) y2 y3); snd (tf_mix w (snd r) y2 y3)].
  Proof. unfold tf4_even. destruct (tf_mix w (fst r) y0 y1), (tf_mix w (snd r) y2 y3). reflexivity. Qed.
  Lemma odd4 r y0 y1 y2 y3 : tf4_odd w r [y0; y1; y2; y3]
    = [fst (tf_mix w (fst r) y0 y3); snd (tf_mix w (snd r) y2 y1); fst (tf_mix w (snd r) y2 y1); snd (tf_mix w (fst r) y0 y3)].
  Proof. unfold tf4_odd. destruct (tf_mix w (fst r) y0 y3), (tf_mix w (snd r) y2 y1). reflexivity. Qed.
  Lemma four4 x0 x1 x2 x3 q : exists y0 y1 y2 y3,
    fold_left pub (seq (4 * q) 4) [x0; x1; x2; x3] = [y0; y1; y2; y3]
    /\ tf4_four w (fun i => nth i rots (0, 0)) ks (tf4_inject w ks q [x0; x1; x2; x3]) q = tf4_inject w ks (q + 1) [y0; y1; y2; y3].
  Proof.
    destruct (mod4_0 q) as [M0 D0]. unfold tf4_four. cbn [seq fold_left].
    destruct (round4_0 x0 x1 x2 x3 (4 * q) M0) as (a0 & a1 & a2 & a3 & E & A1 & A3 & F). rewrite D0 in E. rewrite E, F. clear E F.
    rewrite even4. destruct (mixw_wf w (fst (nth ((4 * q) mod 8) rots (0, 0))) a0 a1 A1) as [W0 W1].
    destruct (mixw_wf w (snd (nth ((4 * q) mod 8) rots (0, 0))) a2 a3 A3) as [W2 W3].
    set (b0 := fst (tf_mix _ _ a0 a1)) in *. set (b1 := snd (tf_mix _ _ a0 a1)) in *.
    set (b2 := fst (tf_mix _ _ a2 a3)) in *. set (b3 := snd (tf_mix _ _ a2 a3)) in *. clearbody b0 b1 b2 b3. clear A1 A3 W0 W2.
    replace (Datatypes.S (4 * q)) with (4 * q + 1)%nat by lia.
    rewrite round4 by (assumption || (rewrite mod4_j by lia; discriminate)). cbv zeta.
    rewrite odd4. destruct (mixw_wf w (fst (nth ((4 * q + 1) mod 8) rots (0, 0))) b0 b3 W3) as [V0 V1].
    destruct (mixw_wf w (snd (nth ((4 * q + 1) mod 8) rots (0, 0))) b2 b1 W1) as [V2 V3].
    set (c0 := fst (tf_mix _ _ b0 b3)) in *. set (c1 := snd (tf_mix _ _ b0 b3)) in *.
    set (c2 := fst (tf_mix _ _ b2 b1)) in *. set (c3 := snd (tf_mix _ _ b2 b1)) in *. clearbody c0 c1 c2 c3. clear W1 W3 V0 V2.
    replace (Datatypes.S (4 * q + 1)) with (4 * q + 2)%nat by lia.
    rewrite round4 by (assumption || (rewrite mod4_j by lia; discriminate)). cbv zeta.
    rewrite even4. destruct (mixw_wf w (fst (nth ((4 * q + 2) mod 8) rots (0, 0))) c0 c3 V3) as [U0 U1].
    destruct (mixw_wf w (snd (nth ((4 * q + 2) mod 8) rots (0, 0))) c2 c1 V1) as [U2 U3].
    set (d0 := fst (tf_mix _ _ c0 c3)) in *. set (d1 := snd (tf_mix _ _ c0 c3)) in *.
    set (d2 := fst (tf_mix _ _ c2 c1)) in *. set (d3 := snd (tf_mix _ _ c2 c1)) in *. clearbody d0 d1 d2 d3. clear V1 V3 U0 U2.
    replace (Datatypes.S (4 * q + 2)) with (4 * q + 3)%nat by lia.
    rewrite round4 by (assumption || (rewrite mod4_j by lia; discriminate)). cbv zeta. rewrite odd4.
    do 4 eexists. split; reflexivity.
  Qed.
End TF4.
Theorem threefry4_ok w C rots k0 k1 k2 k3 x0 x1 x2 x3 :
  (forall i, (i < 8)%nat -> 0 < fst (nth i rots (0, 0)) < w /\ 0 < snd (nth i rots (0, 0)) < w) ->
  tf4 w C rots [k0; k1; k2; k3] [x0; x1; x2; x3]
  = threefry_pub w C 4 (fun d j => if Nat.eqb j 0 then fst (nth d rots (0, 0)) else snd (nth d rots (0, 0))) [0; 3; 2; 1]%nat 20
      [k0; k1; k2; k3] [x0; x1; x2; x3].
Proof.
  intros Hr. unfold tf4, threefry_pub, tf_ks. cbn [fold_left fold_right].
  replace (N.lxor (N.lxor (N.lxor (N.lxor C k0) k1) k2) k3) with (N.lxor k0 (N.lxor k1 (N.lxor k2 (N.lxor k3 C))))
    by (apply N.bits_inj; intros i; rewrite !N.lxor_spec; repeat match goal with |- context [N.testbit ?a i] => destruct (N.testbit a i) end; reflexivity).
  set (ks := [k0; k1; k2; k3] ++ _).
  change (seq 0 20) with (seq (4 * 0) 4 ++ seq (4 * 1) 4 ++ seq (4 * 2) 4 ++ seq (4 * 3) 4 ++ seq (4 * 4) 4).
  rewrite !fold_left_app. change (20 / 4)%nat with (4 + 1)%nat.
  destruct (four4 w rots ks Hr x0 x1 x2 x3 0) as (a0 & a1 & a2 & a3 & E & F). rewrite E, F. clear E F.
  destruct (four4 w rots ks Hr a0 a1 a2 a3 1) as (b0 & b1 & b2 & b3 & E & F). rewrite E. change (0 + 1)%nat with 1%nat. rewrite F. clear E F.
  destruct (four4 w rots ks Hr b0 b1 b2 b3 2) as (c0 & c1 & c2 & c3 & E & F). rewrite E. change (1 + 1)%nat with 2%nat. rewrite F. clear E F.
  destruct (four4 w rots ks Hr c0 c1 c2 c3 3) as (d0 & d1 & d2 & d3 & E & F). rewrite E. change (2 + 1)%nat with 3%nat. rewrite F. clear E F.
  destruct (four4 w rots ks Hr d0 d1 d2 d3 4) as (e0 & e1 & e2 & e3 & E & F). rewrite E. change (3 + 1)%nat with 4%nat. rewrite F. clear E F.
  apply inject4.
Qed.

(* ---- AES ---- *)
Lemma sbox_ok x : wf 8 x -> aes_sbox x = sub x.
Proof. intros H. apply N.eqb_eq. revert x H. apply all_bytes_ok. vm_compute. reflexivity. Qed.
Lemma gf2_ok x : wf 8 x -> gf_mul 2 x = fips_mul x 2.
Proof. intros H. apply N.eqb_eq. revert x H. apply all_bytes_ok. vm_compute. reflexivity. Qed.
Lemma gf3_ok x : wf 8 x -> gf_mul 3 x = fips_mul x 3.
Proof. intros H. apply N.eqb_eq. revert x H. apply all_bytes_ok. vm_compute. reflexivity. Qed.
Lemma list16 (s : list N) : length s = 16%nat -> exists a0 a1 a2 a3 b0 b1 b2 b3 c0 c1 c2 c3 d0 d1 d2 d3,
  s = [a0; a1; a2; a3; b0; b1; b2; b3; c0; c1; c2; c3; d0; d1; d2; d3].
Proof. intros H. do 16 (destruct s as [|? s]; [discriminate|]). destruct s; [|discriminate]. repeat eexists. Qed.
Lemma shift_ok s : length s = 16%nat -> aes_shift s = ShiftRows s.
Proof. intros H. destruct (list16 s H) as (? & ? & ? & ? & ? & ? & ? & ? & ? & ? & ? & ? & ? & ? & ? & ? & ->). reflexivity. Qed.
Definition mixg (c : list N) : list N :=
  match c with
  | [s0; s1; s2; s3] =>
    let g a b c d := N.lxor (N.lxor (gf_mul 2 a) (gf_mul 3 b)) (N.lxor c d) in
    [g s0 s1 s2 s3; g s1 s2 s3 s0; g s2 s3 s0 s1; g s3 s0 s1 s2]
  | _ => c
  end.
Lemma mixc_cols s : length s = 16%nat -> aes_mixc s = cols mixg s.
Proof. intros H. destruct (list16 s H) as (? & ? & ? & ? & ? & ? & ? & ? & ? & ? & ? & ? & ? & ? & ? & ? & ->). reflexivity. Qed.
Ltac xor_bits := apply N.bits_inj; intros ?i; rewrite !N.lxor_spec;
  repeat match goal with |- context [N.testbit ?a _] => destruct (N.testbit a _) end; reflexivity.
Lemma mixg_ok c : words 8 4 c -> mixg c = mix4 c.
Proof.
  intros H. destruct (Aes.words4 c H) as (s0 & s1 & s2 & s3 & ->). rewrite <- mix_fips by apply H.
  destruct H as [_ W]. inversion W as [|? ? W0 V0]; subst. inversion V0 as [|? ? W1 V1]; subst.
  inversion V1 as [|? ? W2 V2]; subst. inversion V2 as [|? ? W3 _]; subst.
  unfold mixg, fips_mix. cbv zeta. rewrite !gf2_ok, !gf3_ok by assumption.
  apply Aes.list4_eq; xor_bits.
Qed.
Lemma zip_xors s : forall k, (length s <= length k)%nat -> zip N.lxor s k = xors s k.
Proof.
  induction s as [|x s IH]; intros [|y k] H; try reflexivity; [cbn in H; lia|].
  unfold zip in *. cbn [combine map fst snd xors]. f_equal. apply IH. cbn in H. lia.
Qed.
Lemma all4_concat_len (W : list (list N)) : Forall (fun l => length l = 4%nat) W -> length (concat W) = (4 * length W)%nat.
Proof. induction 1 as [|l W H _ IH]; [reflexivity|]. cbn [concat length]. rewrite app_length, IH, H. lia. Qed.
Lemma concat_nth (W : list (list N)) : Forall (fun l => length l = 4%nat) W -> forall a j, (a < length W)%nat -> (j < 4)%nat ->
  nth (4 * a + j) (concat W) 0 = nth j (nth a W []) 0.
Proof.
  induction 1 as [|l W H _ IH]; intros a j Ha Hj; [cbn in Ha; lia|]. cbn [concat].
  destruct a as [|a]; [rewrite app_nth1 by lia; reflexivity|].
  rewrite app_nth2 by lia. replace (4 * Datatypes.S a + j - length l)%nat with (4 * a + j)%nat by lia.
  cbn [length] in Ha. apply IH; lia.
Qed.
Lemma skipn_concat4 (W : list (list N)) r : Forall (fun l => length l = 4%nat) W -> skipn (4 * r) (concat W) = concat (skipn r W).
Proof.
  revert W. induction r as [|r IH]; intros W H; [reflexivity|]. destruct H as [|l W H HW]; [now rewrite skipn_nil|].
  cbn [concat]. rewrite skipn_app. rewrite (skipn_all2 l) by lia.
  replace (4 * Datatypes.S r - length l)%nat with (4 * r)%nat by lia. cbn [app skipn]. now apply IH.
Qed.
Lemma firstn_concat4 (W : list (list N)) r : Forall (fun l => length l = 4%nat) W -> firstn (4 * r) (concat W) = concat (firstn r W).
Proof.
  revert W. induction r as [|r IH]; intros W H; [reflexivity|]. destruct H as [|l W H HW]; [now rewrite firstn_nil|].
  cbn [concat firstn]. rewrite firstn_app. rewrite (firstn_all2 l) by lia.
  replace (4 * Datatypes.S r - length l)%nat with (4 * r)%nat by lia. f_equal. now apply IH.
Qed.
Lemma Forall_skipn {A} (P : A -> Prop) n l : Forall P l -> Forall P (skipn n l).
Proof. intros H. revert n. induction H as [|x l Hx Hl IH]; intros [|n]; cbn [skipn]; auto. Qed.
Lemma Forall_firstn {A} (P : A -> Prop) n l : Forall P l -> Forall P (firstn n l).
Proof. intros H. revert n. induction H as [|x l Hx Hl IH]; intros [|n]; cbn [firstn]; auto. Qed.
Lemma rkey_ok W r : Forall (fun l => length l = 4%nat) W -> firstn 16 (skipn (16 * r) (concat W)) = aes_rkey W r.
Proof.
  intros H. unfold aes_rkey. replace (16 * r)%nat with (4 * (4 * r))%nat by lia. rewrite skipn_concat4 by exact H.
  change 16%nat with (4 * 4)%nat at 1. apply firstn_concat4. now apply Forall_skipn.
Qed.
Definition kok (i : nat) (W : list (list N)) : Prop :=
  length W = i /\ Forall (fun l => length l = 4%nat) W /\ Forall (Forall (wf 8)) W.
Lemma rcon_ok r : (1 <= r <= 10)%nat -> gf_pow 2 (r - 1) = nth r Rcon 0.
Proof. intros H. do 11 (destruct r as [|r]; [lia || reflexivity|]). lia. Qed.
Lemma list4 (l : list N) : length l = 4%nat -> exists a b c d, l = [a; b; c; d].
Proof. intros H. destruct l as [|a [|b [|c [|d [|]]]]]; try discriminate. now exists a, b, c, d. Qed.
Lemma kword_ok W i : (4 <= i < 44)%nat -> kok i W -> rk_step (concat W) i = concat (W ++ [aes_kword W i]) /\ kok (Datatypes.S i) (W ++ [aes_kword W i]).
Proof.
  intros Hi (L & F & B).
  assert (P1 : (i - 1 < length W)%nat) by lia. assert (P4 : (i - 4 < length W)%nat) by lia.
  pose proof (proj1 (Forall_forall _ _) F (nth (i - 1) W []) (nth_In _ _ P1)) as L1.
  pose proof (proj1 (Forall_forall _ _) F (nth (i - 4) W []) (nth_In _ _ P4)) as L4.
  pose proof (proj1 (Forall_forall _ _) B (nth (i - 1) W []) (nth_In _ _ P1)) as B1.
  pose proof (proj1 (Forall_forall _ _) B (nth (i - 4) W []) (nth_In _ _ P4)) as B4.
  cbv beta in L1, L4.
  assert (E : rk_step (concat W) i = concat W ++ aes_kword W i /\ length (aes_kword W i) = 4%nat /\ Forall (wf 8) (aes_kword W i)).
  { unfold rk_step. cbn [map]. rewrite !concat_nth by (assumption || lia). unfold aes_kword.
    destruct (list4 _ L1) as (t0 & t1 & t2 & t3 & T). destruct (list4 _ L4) as (u0 & u1 & u2 & u3 & U). rewrite T in *. rewrite U in *.
    cbn [nth tl hd app].
    inversion B1 as [|? ? W0 V0]; subst. inversion V0 as [|? ? W1 V1]; subst.
    inversion V1 as [|? ? W2 V2]; subst. inversion V2 as [|? ? W3 _]; subst.
    inversion B4 as [|? ? X0 Y0]; subst. inversion Y0 as [|? ? X1 Y1]; subst.
    inversion Y1 as [|? ? X2 Y2]; subst. inversion Y2 as [|? ? X3 _]; subst.
    destruct (Nat.eqb_spec (length W mod 4) 0) as [M|M].
    - unfold at_. cbn [map nth zip combine fst snd]. unfold zip. cbn [map combine fst snd].
      assert (1 <= length W / 4 <= 10)%nat.
      { split; [apply Nat.div_le_lower_bound; lia|]. apply Nat.lt_succ_r, Nat.div_lt_upper_bound; lia. }
      rewrite rcon_ok by assumption. rewrite !sbox_ok by assumption. rewrite !N.lxor_0_r. cbn [tl hd nth].
      split; [reflexivity|]. split; [reflexivity|].
      repeat (apply Forall_cons; [repeat apply wf_lxor; try assumption; try (now apply sub_wf); apply Rcon_wf|]). constructor.
    - unfold zip. cbn [map combine fst snd nth]. split; [reflexivity|]. split; [reflexivity|].
      repeat (apply Forall_cons; [apply wf_lxor; assumption|]). constructor. }
  destruct E as (E & E4 & EB). split.
  - rewrite E, concat_app. cbn [concat]. now rewrite app_nil_r.
  - split; [rewrite app_length, L; cbn; lia|]. split; apply Forall_app; split; auto.
Qed.
Lemma kexp_fold n : forall i W, (4 <= i)%nat -> (i + n <= 44)%nat -> kok i W ->
  fold_left rk_step (seq i n) (concat W) = concat (fold_left (fun W i => W ++ [aes_kword W i]) (seq i n) W)
  /\ kok (i + n) (fold_left (fun W i => W ++ [aes_kword W i]) (seq i n) W).
Proof.
  induction n as [|n IH]; intros i W Hi Hn K; [rewrite Nat.add_0_r; auto|].
  cbn [seq fold_left]. destruct (kword_ok W i ltac:(lia) K) as [E K']. rewrite E.
  replace (i + Datatypes.S n)%nat with (Datatypes.S i + n)%nat by lia. apply IH; [lia|lia|exact K'].
Qed.
Theorem kexp_ok key : words 8 16 key -> tiny_expand key = concat (aes_kexp key) /\ kok 44 (aes_kexp key).
Proof.
  intros [L B]. destruct (list16 key L) as (? & ? & ? & ? & ? & ? & ? & ? & ? & ? & ? & ? & ? & ? & ? & ? & ->).
  unfold tiny_expand, aes_kexp. cbn [firstn skipn].
  match goal with |- context [fold_left _ (seq 4 40) (?a :: ?b :: ?c :: ?d :: nil)] => set (W := [a; b; c; d]) end.
  apply (kexp_fold 40 4 W); [lia|lia|]. split; [reflexivity|]. split; [repeat constructor|].
  subst W. repeat match goal with H : Forall _ (_ :: _) |- _ => inversion_clear H end. repeat constructor; assumption.
Qed.
Lemma rkey_words key r : words 8 16 key -> (r <= 10)%nat -> length (aes_rkey (aes_kexp key) r) = 16%nat.
Proof.
  intros H Hr. destruct (kexp_ok key H) as [_ (L & F & _)]. unfold aes_rkey.
  rewrite all4_concat_len by now apply Forall_firstn, Forall_skipn.
  rewrite firstn_length, skipn_length, L. lia.
Qed.
Theorem aes128_ok key blk : words 8 16 key -> words 8 16 blk -> tiny_encrypt (tiny_expand key) blk = aes128 key blk.
Proof.
  intros Hk Hb. pose proof (tiny_expand_words key Hk) as [_ HW]. destruct (kexp_ok key Hk) as [E (L & F & _)].
  assert (K : forall r s, words 8 16 s -> (r <= 10)%nat -> AddRoundKey r s (tiny_expand key) = zip N.lxor s (aes_rkey (aes_kexp key) r)).
  { intros r s [Ls _] Hr. unfold AddRoundKey. rewrite zip_xors by (rewrite rkey_words by assumption; lia). now rewrite E, rkey_ok by exact F. }
  assert (AW : forall r s, words 8 16 s -> words 8 16 (AddRoundKey r s (tiny_expand key))).
  { intros r s Hs. exact (proj1 (AddRoundKey_permutes r _ HW) s Hs). }
  assert (SB : forall s, words 8 16 s -> map aes_sbox s = SubBytes s).
  { intros s [_ Hs]. apply map_ext_in. intros x Hx. apply sbox_ok. rewrite Forall_forall in Hs. now apply Hs. }
  assert (SW : forall s, words 8 16 s -> words 8 16 (SubBytes s)) by (intros s Hs; exact (proj1 SubBytes_permutes s Hs)).
  assert (MW : forall s, words 8 16 s -> words 8 16 (MixColumns s)) by (intros s Hs; exact (proj1 MixColumns_permutes s Hs)).
  unfold tiny_encrypt, aes128. cbv zeta.
  assert (G : forall n i s, (i + n <= 11)%nat -> words 8 16 s ->
    fold_left (tiny_round (tiny_expand key)) (seq i n) s
    = fold_left (fun s r => zip N.lxor (aes_mixc (aes_shift (map aes_sbox s))) (aes_rkey (aes_kexp key) r)) (seq i n) s
    /\ words 8 16 (fold_left (tiny_round (tiny_expand key)) (seq i n) s)).
  { induction n as [|n IH]; intros i s Hi Hs; [auto|]. cbn [seq fold_left].
    assert (R : tiny_round (tiny_expand key) s i = zip N.lxor (aes_mixc (aes_shift (map aes_sbox s))) (aes_rkey (aes_kexp key) i)).
    { unfold tiny_round. rewrite K by (auto using ShiftRows_words || lia). f_equal. rewrite SB by exact Hs.
      rewrite shift_ok by apply SW, Hs. rewrite mixc_cols by apply ShiftRows_words, SW, Hs.
      apply cols_ext; [intros c Hc; symmetry; now apply mixg_ok|apply ShiftRows_words, SW, Hs]. }
    rewrite <- R. apply IH; [lia|]. unfold tiny_round. auto using ShiftRows_words. }
  destruct (G 9%nat 1%nat (AddRoundKey 0 blk (tiny_expand key)) ltac:(lia) (AW _ _ Hb)) as [G1 G2].
  rewrite K by (auto using ShiftRows_words || lia). rewrite G1 in *. rewrite K in * by (exact Hb || lia).
  f_equal. rewrite SB by exact G2. symmetry. apply shift_ok, SW, G2.
Qed.

(* ---- SPECK ---- *)
Lemma kstep_ok P Q a b c d i : length P = i -> length Q = i -> wf 64 a -> wf 64 b ->
  speck_kstep (P ++ [a], Q ++ [b; c; d]) i
  = ((P ++ [a]) ++ [fst (er64 (N.of_nat i) (a, b))], (Q ++ [b]) ++ [c; d; snd (er64 (N.of_nat i) (a, b))]).
Proof.
  intros LP LQ Ha Hb. unfold speck_kstep, at_. rewrite app_nth2, LP, Nat.sub_diag by lia.
  rewrite (app_nth2 Q), LQ, Nat.sub_diag by lia. cbn [nth]. unfold er64. cbn [fst snd].
  rewrite <- rotr_ror, <- rotl_rol by (assumption || (clear; lia)). unfold wadd. rewrite (N.add_comm a).
  f_equal. rewrite <- !app_assoc. reflexivity.
Qed.
Lemma er64_wf k a b : wf 64 k -> wf 64 a -> wf 64 (fst (er64 k (a, b))) /\ wf 64 (snd (er64 k (a, b))).
Proof.
  intros Hk Ha. unfold er64. cbn [fst snd]. assert (wf 64 (N.lxor (wadd 64 (rotr 64 b 8) a) k)) by (apply wf_lxor; [apply wf_wadd|exact Hk]).
  split; [|assumption]. apply wf_lxor; [now apply wf_rotl|assumption].
Qed.
Lemma small64 i : (i < 1000)%nat -> wf 64 (N.of_nat i).
Proof. intros H. unfold wf. change (2 ^ 64) with 18446744073709551616. lia. Qed.
Lemma kexp_speck n : forall m P Q a b c d, (3 * (m + n) < 100)%nat -> length P = (3 * m)%nat -> length Q = (3 * m)%nat ->
  wf 64 a -> wf 64 b -> wf 64 c -> wf 64 d ->
  exists a' b' c' d' P' Q',
    fold_left kx_step (map (fun j => 3 * N.of_nat j) (seq m n)) (a, b, c, d, P) = (a', b', c', d', P')
    /\ fold_left speck_kstep (seq (3 * m) (3 * n)) (P ++ [a], Q ++ [b; c; d]) = (P' ++ [a'], Q').
Proof.
  induction n as [|n IH]; intros m P Q a b c d Hm LP LQ Ha Hb Hc Hd; [now exists a, b, c, d, P, (Q ++ [b; c; d])|].
  replace (3 * Datatypes.S n)%nat with (Datatypes.S (Datatypes.S (Datatypes.S (3 * n)))) by lia.
  cbn [seq map fold_left].
  replace (Datatypes.S (Datatypes.S (Datatypes.S (3 * m)))) with (3 * Datatypes.S m)%nat by lia.
  rewrite kstep_ok by assumption.
  destruct (er64_wf (N.of_nat (3 * m)) a b) as [A1 B1]; [apply small64; lia|assumption|].
  rewrite kstep_ok; [|rewrite app_length; cbn; lia|rewrite app_length; cbn; lia|assumption|assumption].
  unfold kx_step at 2. replace (3 * N.of_nat m) with (N.of_nat (3 * m)) by lia.
  destruct (er64 (N.of_nat (3 * m)) (a, b)) as [a1 b1]. cbn [fst snd] in *.
  destruct (er64_wf (N.of_nat (Datatypes.S (3 * m))) a1 c) as [A2 C1]; [apply small64; lia|assumption|].
  rewrite kstep_ok; [|rewrite !app_length; cbn; lia|rewrite !app_length; cbn; lia|assumption|assumption].
  replace (N.of_nat (3 * m) + 1) with (N.of_nat (Datatypes.S (3 * m))) by lia.
  destruct (er64 (N.of_nat (Datatypes.S (3 * m))) (a1, c)) as [a2 c1]. cbn [fst snd] in *.
  destruct (er64_wf (N.of_nat (Datatypes.S (Datatypes.S (3 * m)))) a2 d) as [A3 D1]; [apply small64; lia|assumption|].
  replace (N.of_nat (3 * m) + 2) with (N.of_nat (Datatypes.S (Datatypes.S (3 * m)))) by lia.
  destruct (er64 (N.of_nat (Datatypes.S (Datatypes.S (3 * m)))) (a2, d)) as [a3 d1]. cbn [fst snd] in *.
  apply IH; try assumption; rewrite ?app_length; cbn [length]; lia.
Qed.
Theorem speck_expand_ok key : let k j := key / 2 ^ (64 * j) mod 2 ^ 64 in sp_expand key = speck_keys (k 0) (k 1) (k 2) (k 3) 34.
Proof.
  cbv zeta. unfold sp_expand.
  assert (E : to_words 64 4 key = [key / 2 ^ (64 * 0) mod 2 ^ 64; key / 2 ^ (64 * 1) mod 2 ^ 64; key / 2 ^ (64 * 2) mod 2 ^ 64; key / 2 ^ (64 * 3) mod 2 ^ 64]).
  { cbn [to_words]. rewrite !N.div_div by (apply N.pow_nonzero; discriminate). rewrite <- !N.pow_add_r.
    change (64 * 0) with 0. change (64 * 1) with 64. change (64 + 64) with (64 * 2). change (64 * 2 + 64) with (64 * 3).
    rewrite N.pow_0_r, N.div_1_r, N.div_div, <- N.pow_add_r by (apply N.pow_nonzero; discriminate). reflexivity. }
  rewrite E. assert (W : forall j, wf 64 (key / 2 ^ (64 * j) mod 2 ^ 64)) by (intros j; apply N.mod_lt, N.pow_nonzero; discriminate).
  pose proof (W 0) as W0. pose proof (W 1) as W1. pose proof (W 2) as W2. pose proof (W 3) as W3. revert W0 W1 W2 W3.
  generalize (key / 2 ^ (64 * 0) mod 2 ^ 64), (key / 2 ^ (64 * 1) mod 2 ^ 64), (key / 2 ^ (64 * 2) mod 2 ^ 64), (key / 2 ^ (64 * 3) mod 2 ^ 64).
  intros a b c d Ha Hb Hc Hd. clear E W.
  destruct (kexp_speck 11 0 [] [] a b c d ltac:(lia) eq_refl eq_refl Ha Hb Hc Hd) as (a' & b' & c' & d' & P' & Q' & E1 & E2).
  change (map (fun j => 3 * N.of_nat j) (seq 0 11)) with [0; 3; 6; 9; 12; 15; 18; 21; 24; 27; 30] in E1. rewrite E1.
  unfold speck_keys. change (34 - 1)%nat with (3 * 11)%nat. change (3 * 0)%nat with 0%nat in E2. cbn [app] in E2. rewrite E2. reflexivity.
Qed.
Lemma kstep_prefix l : forall kl, exists t, fst (fold_left speck_kstep l kl) = fst kl ++ t.
Proof.
  induction l as [|i l IH]; intros [k m]; [exists []; now rewrite app_nil_r|]. cbn [fold_left].
  destruct (IH (speck_kstep (k, m) i)) as [t E]. rewrite E. unfold speck_kstep. cbn [fst]. rewrite <- app_assoc. now eexists.
Qed.
Lemma kstep_len l : forall kl, length (fst (fold_left speck_kstep l kl)) = (length (fst kl) + length l)%nat.
Proof.
  induction l as [|i l IH]; intros [k m]; [cbn; lia|]. cbn [fold_left]. rewrite IH. unfold speck_kstep. cbn [fst length].
  rewrite app_length. cbn [length]. lia.
Qed.
(* with fewer rounds the first round keys are used *)
Lemma speck_keys_prefix a b c d T : (1 <= T <= 34)%nat -> firstn T (speck_keys a b c d 34) = speck_keys a b c d T.
Proof.
  intros H. unfold speck_keys. change (34 - 1)%nat with 33%nat. replace 33%nat with ((T - 1) + (34 - T))%nat by lia.
  rewrite seq_app, fold_left_app. destruct (kstep_prefix (seq (0 + (T - 1)) (34 - T)) (fold_left speck_kstep (seq 0 (T - 1)) ([a], [b; c; d]))) as [t E].
  rewrite E. rewrite firstn_app, firstn_all2 by (rewrite kstep_len, seq_length; cbn [fst length]; lia).
  rewrite kstep_len, seq_length. cbn [fst length]. replace (T - (1 + (T - 1)))%nat with 0%nat by lia. now rewrite app_nil_r.
Qed.
Lemma speck_rounds_ok l : forall y x, Forall (wf 64) l -> wf 64 y -> wf 64 x ->
  fold_left (fun p r => er64 (fst r) p) (map (fun a => (a, a)) l) (y, x)
  = (snd (fold_left speck_round l (x, y)), fst (fold_left speck_round l (x, y))).
Proof.
  induction l as [|k l IH]; intros y x Hl Hy Hx; [reflexivity|]. inversion_clear Hl. cbn [map fold_left fst].
  assert (E : er64 k (y, x) = (snd (speck_round (x, y) k), fst (speck_round (x, y) k))).
  { unfold er64, speck_round. cbn [fst snd]. rewrite rotr_ror, rotl_rol by (assumption || (clear; lia)). reflexivity. }
  destruct (er64_wf k y x) as [A B]; [assumption|assumption|]. rewrite E in *. cbn [fst snd] in *.
  rewrite IH by assumption. now rewrite <- surjective_pairing.
Qed.

(* ---- ChaCha ---- *)
Lemma cc_quarter_ok a b c d : wf 32 b -> wf 32 d -> cc_quarter a b c d = [qa a b c d; qb a b c d; qc a b c d; qd a b c d].
Proof.
  intros Hb Hd. unfold qa, qb, qc, qd, quarter, cc_quarter. cbv zeta. cbn [fst snd]. unfold wadd.
  assert (W : forall x, wf 32 (x mod 2 ^ 32)) by (intros x; apply N.mod_lt, N.pow_nonzero; discriminate).
  rewrite <- !rotl_rol; try reflexivity; try (clear; lia);
    repeat (match goal with |- wf 32 (N.lxor _ _) => apply wf_lxor | |- wf 32 (rotl _ _ _) => apply wf_rotl | |- wf 32 (_ mod _) => apply W end); assumption.
Qed.
Lemma even_round x r : words 32 16 x -> (r mod 2 = 0)%nat ->
  cc_pub_round x r = QR 3 7 11 15 (QR 2 6 10 14 (QR 1 5 9 13 (QR 0 4 8 12 x))).
Proof.
  intros W Hr. destruct (words16_4 x W) as (a0 & a1 & a2 & a3 & b0 & b1 & b2 & b3 & c0 & c1 & c2 & c3 & d0 & d1 & d2 & d3 & -> & A & B & C & D).
  destruct (Forall4 _ _ _ _ B) as (B0 & B1 & B2 & B3). destruct (Forall4 _ _ _ _ D) as (D0 & D1 & D2 & D3).
  rewrite cols_eq. unfold cc_pub_round. rewrite Hr. unfold at_ at 2 3 4 5.
  cbn [seq map Nat.div Nat.modulo Nat.divmod Nat.mul Nat.add fst snd Nat.sub nth].
  rewrite !cc_quarter_ok by assumption. reflexivity.
Qed.
Lemma odd_round x r : words 32 16 x -> (r mod 2 = 1)%nat ->
  cc_pub_round x r = QR 3 4 9 14 (QR 2 7 8 13 (QR 1 6 11 12 (QR 0 5 10 15 x))).
Proof.
  intros W Hr. destruct (words16_4 x W) as (a0 & a1 & a2 & a3 & b0 & b1 & b2 & b3 & c0 & c1 & c2 & c3 & d0 & d1 & d2 & d3 & -> & A & B & C & D).
  destruct (Forall4 _ _ _ _ B) as (B0 & B1 & B2 & B3). destruct (Forall4 _ _ _ _ D) as (D0 & D1 & D2 & D3).
  rewrite diags_eq. unfold cc_pub_round. rewrite Hr. unfold at_ at 2 3 4 5.
  cbn [seq map Nat.div Nat.modulo Nat.divmod Nat.mul Nat.add fst snd Nat.sub nth].
  rewrite !cc_quarter_ok by assumption. reflexivity.
Qed.
Lemma cc_rounds_ok n : forall m x, words 32 16 x ->
  Nat.iter n double_round x = fold_left cc_pub_round (seq (2 * m) (2 * n)) x.
Proof.
  induction n as [|n IH]; intros m x W; [reflexivity|].
  replace (2 * Datatypes.S n)%nat with (Datatypes.S (Datatypes.S (2 * n))) by lia. cbn [seq fold_left].
  replace (Datatypes.S (Datatypes.S (2 * m))) with (2 * Datatypes.S m)%nat by lia.
  assert (M0 : ((2 * m) mod 2 = 0)%nat) by (rewrite Nat.mul_comm; apply Nat.mod_mul; discriminate).
  assert (M1 : (Datatypes.S (2 * m) mod 2 = 1)%nat).
  { replace (Datatypes.S (2 * m)) with (1 + m * 2)%nat by lia. rewrite Nat.mod_add by discriminate. reflexivity. }
  rewrite (even_round x _ W M0). rewrite odd_round by (exact M1 || (do 4 (apply QR_words; [lia|lia|]); exact W)).
  match goal with |- context [QR 3 4 9 14 ?y] => replace (QR 3 4 9 14 y) with (double_round x) by (unfold double_round; reflexivity) end.
  rewrite <- IH by now apply double_round_words. clear. generalize double_round. intros f.
  induction n as [|n IH]; [reflexivity|]. cbn [Nat.iter nat_rect] in *. now rewrite IH.
Qed.
Theorem cc_core_ok R x : words 32 16 x -> core_scalar (2 * Z.of_nat R) x = fold_left cc_pub_round (seq 0 (2 * R)) x.
Proof.
  intros W. unfold core_scalar, iters. replace ((2 * Z.of_nat R + 1) / 2)%Z with (Z.of_nat R).
  - replace (Z.to_N (Z.of_nat R)) with (N.of_nat R) by lia. rewrite N2Nat.inj_iter, Nat2N.id.
    exact (cc_rounds_ok R 0 x W).
  - rewrite Z.mul_comm, Z.div_add_l by discriminate. change (1 / 2)%Z with 0%Z. lia.
Qed.
Lemma map2_zip f l : forall m, map2 f l m = zip f l m.
Proof. induction l as [|x l IH]; intros [|y m]; try reflexivity. unfold zip in *. cbn. f_equal. apply IH. Qed.
