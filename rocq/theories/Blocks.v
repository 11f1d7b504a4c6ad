(* The block functions of Philox and ThreeFry, and the proof that for every key
   they are permutations of the counters.
   Model of src/philox/philox.h:74-349 and src/threefry/threefry.h:68-735. *)
From Verif Require Import Word Arr MultiWord.
From Coq Require Import ZifyBool ZifyNat ZifyN.
Open Scope N_scope.

(* philox.h:74-79 _mulhilo_dword_tpl: product = ((Dword)a)*((Dword)b);
   *hip = product>>W; return (Word)product. Also what the asm and intrinsic
   variants (philox.h:88-128) compute, which are not modelled otherwise. *)
Definition mulhi (w a b : N) : N := N.shiftr (a * b) w.
Definition mullo (w a b : N) : N := wmul w a b.
(* philox.h:146-166 _mulhilo_c99_tpl, W even *)
Definition c99_mulhi (w a b : N) : N :=
  let h := w / 2 in
  let mask := wsub w (wshl w 1 h) 1 in
  let lo := wmul w a b in
  let ahi := N.shiftr a h in let alo := N.land a mask in
  let bhi := N.shiftr b h in let blo := N.land b mask in
  let ahbl := wmul w ahi blo in let albh := wmul w alo bhi in
  let s := wadd w (N.land ahbl mask) (N.land albh mask) in
  let hi := wadd w (wadd w (wmul w ahi bhi) (N.shiftr ahbl h)) (N.shiftr albh h) in
  let hi := wadd w hi (N.shiftr s h) in
  wadd w hi (N.b2n (N.shiftr lo h <? N.land s mask)).

(* philox.h:288-295 _philox2xWround_tpl *)
Definition ph2_round (w m : N) (key ctr : list N) : list N :=
  match ctr, key with
  | [c0; c1], [k0] => [N.lxor (N.lxor (mulhi w m c0) k0) c1; mullo w m c0]
  | _, _ => ctr
  end.
(* philox.h:296-300 _philox2xWbumpkey_tpl *)
Definition ph2_bump (w w0 : N) (key : list N) : list N :=
  match key with [k0] => [wadd w k0 w0] | _ => key end.
(* philox.h:302-312 _philox4xWround_tpl *)
Definition ph4_round (w m0 m1 : N) (key ctr : list N) : list N :=
  match ctr, key with
  | [c0; c1; c2; c3], [k0; k1] =>
      [N.lxor (N.lxor (mulhi w m1 c2) c1) k0; mullo w m1 c2;
       N.lxor (N.lxor (mulhi w m0 c0) c3) k1; mullo w m0 c0]
  | _, _ => ctr
  end.
(* philox.h:314-319 _philox4xWbumpkey_tpl *)
Definition ph4_bump (w w0 w1 : N) (key : list N) : list N :=
  match key with [k0; k1] => [wadd w k0 w0; wadd w k1 w1] | _ => key end.
(* philox.h:322-349 _philoxNxW_tpl with R rounds: a round, then bump and round
   for each further one *)
Fixpoint ph_R (round : list N -> list N -> list N) (bump : list N -> list N) (r : nat) (key ctr : list N) : list N :=
  match r with
  | O => ctr
  | S r => ph_R round bump r (bump key) (round key ctr)
  end.
(* philox.h:231-266 constants, 269-283 rounds = 10 *)
Definition philox2x64 := ph_R (ph2_round 64 0xD2B74407B1CE6E93) (ph2_bump 64 0x9E3779B97F4A7C15) 10.
Definition philox2x32 := ph_R (ph2_round 32 0xd256d193) (ph2_bump 32 0x9E3779B9) 10.
Definition philox4x64 := ph_R (ph4_round 64 0xD2E7470EE14C6C93 0xCA5A826395121157) (ph4_bump 64 0x9E3779B97F4A7C15 0xBB67AE8584CAA73B) 10.
Definition philox4x32 := ph_R (ph4_round 32 0xD2511F53 0xCD9E8D57) (ph4_bump 32 0x9E3779B9 0xBB67AE85) 10.

(* ---- ThreeFry ---- *)
(* threefry.h:162-174 RotL_W: (x << (N & (W-1))) | (x >> ((W-N) & (W-1))); W is a power of two *)
Definition tf_rotl (w x r : N) : N := N.lor (wshl w x (r mod w)) (N.shiftr x ((w - r) mod w)).
(* X[i] += X[j]; X[j] = RotL(X[j], R); X[j] ^= X[i]   (threefry.h:221, 328) *)
Definition tf_mix (w r : N) (a b : N) : N * N := let a := wadd w a b in (a, N.lxor (tf_rotl w b r) a).
(* one round of threefry2xW, threefry.h:221 and following *)
Definition tf2_round (w r : N) (X : list N) : list N :=
  match X with [x0; x1] => let '(x0, x1) := tf_mix w r x0 x1 in [x0; x1] | _ => X end.
(* InjectKey(r), threefry.h:225-229: X[0] += ks[r%3]; X[1] += ks[(r+1)%3]; X[1] += r *)
Definition tf2_inject (w : N) (ks : list N) (r : nat) (X : list N) : list N :=
  match X with
  | [x0; x1] => [wadd w x0 (nth (r mod 3) ks 0); wadd w (wadd w x1 (nth ((r + 1) mod 3) ks 0)) (N.of_nat r)]
  | _ => X
  end.
(* even round of threefry4xW mixes (0,1) and (2,3), odd round (0,3) and (2,1): threefry.h:327-342 *)
Definition tf4_even (w : N) (r : N * N) (X : list N) : list N :=
  match X with
  | [x0; x1; x2; x3] => let '(x0, x1) := tf_mix w (fst r) x0 x1 in let '(x2, x3) := tf_mix w (snd r) x2 x3 in [x0; x1; x2; x3]
  | _ => X
  end.
Definition tf4_odd (w : N) (r : N * N) (X : list N) : list N :=
  match X with
  | [x0; x1; x2; x3] => let '(x0, x3) := tf_mix w (fst r) x0 x3 in let '(x2, x1) := tf_mix w (snd r) x2 x1 in [x0; x1; x2; x3]
  | _ => X
  end.
(* threefry.h:343-347 *)
Definition tf4_inject (w : N) (ks : list N) (r : nat) (X : list N) : list N :=
  match X with
  | [x0; x1; x2; x3] =>
      [wadd w x0 (nth (r mod 5) ks 0); wadd w x1 (nth ((r + 1) mod 5) ks 0); wadd w x2 (nth ((r + 2) mod 5) ks 0);
       wadd w (wadd w x3 (nth ((r + 3) mod 5) ks 0)) (N.of_nat r)]
  | _ => X
  end.
(* threefry.h:205-214, 315-322: ks = key words, then parity ^ all key words *)
Definition tf_ks (parity : N) (key : list N) : list N := key ++ [fold_left N.lxor key parity].
(* rounds 0..19 with the table of 8 rotations used cyclically, a key injection
   before round 0 (without "+= r", that is r = 0) and after every four rounds;
   threefry.h:216-295, 324-435, Nrounds = 20 *)
Definition tf2_four (w : N) (rot : nat -> N) (ks : list N) (X : list N) (q : nat) : list N :=
  tf2_inject w ks (q + 1)
    (tf2_round w (rot ((4 * q + 3) mod 8)%nat) (tf2_round w (rot ((4 * q + 2) mod 8)%nat)
       (tf2_round w (rot ((4 * q + 1) mod 8)%nat) (tf2_round w (rot ((4 * q) mod 8)%nat) X)))).
Definition tf2 (w parity : N) (rots : list N) (key ctr : list N) : list N :=
  let ks := tf_ks parity key in
  fold_left (tf2_four w (fun i => nth i rots 0) ks) [0; 1; 2; 3; 4]%nat (tf2_inject w ks 0 ctr).
Definition tf4_four (w : N) (rot : nat -> N * N) (ks : list N) (X : list N) (q : nat) : list N :=
  tf4_inject w ks (q + 1)
    (tf4_odd w (rot ((4 * q + 3) mod 8)%nat) (tf4_even w (rot ((4 * q + 2) mod 8)%nat)
       (tf4_odd w (rot ((4 * q + 1) mod 8)%nat) (tf4_even w (rot ((4 * q) mod 8)%nat) X)))).
Definition tf4 (w parity : N) (rots : list (N * N)) (key ctr : list N) : list N :=
  let ks := tf_ks parity key in
  fold_left (tf4_four w (fun i => nth i rots (0, 0)) ks) [0; 1; 2; 3; 4]%nat (tf4_inject w ks 0 ctr).
(* rotation constants threefry.h:69-155, parity 177-178 *)
Definition threefry2x64 := tf2 64 0x1BD11BDAA9FC1A22 [16; 42; 12; 31; 16; 32; 24; 21].
Definition threefry2x32 := tf2 32 0x1BD11BDA [13; 15; 26; 6; 17; 29; 16; 24].
Definition threefry4x64 := tf4 64 0x1BD11BDAA9FC1A22 [(14,16); (52,57); (23,40); (5,37); (25,33); (46,12); (58,22); (32,32)].
Definition threefry4x32 := tf4 32 0x1BD11BDA [(10,26); (11,21); (13,27); (23,5); (6,20); (17,11); (25,10); (18,20)].

(* ---- permutations ---- *)
(* counters: lists of k words of w bits *)
Definition words (w : N) (k : nat) (l : list N) : Prop := length l = k /\ Forall (wf w) l.
Definition permutes (P : list N -> Prop) (f : list N -> list N) : Prop :=
  (forall x, P x -> P (f x)) /\ exists g, (forall y, P y -> P (g y)) /\ (forall x, P x -> g (f x) = x) /\ (forall y, P y -> f (g y) = y).
Lemma permutes_id P : permutes P (fun x => x).
Proof. split; [auto|]. exists (fun x => x). auto. Qed.
Lemma permutes_comp P f g : permutes P f -> permutes P g -> permutes P (fun x => g (f x)).
Proof.
  intros [Pf (f' & Hf & F1 & F2)] [Pg (g' & Hg & G1 & G2)]. split; [auto|].
  exists (fun y => f' (g' y)). refine (conj _ (conj _ _)); intros; [auto| |].
  - rewrite G1 by auto. now apply F1.
  - rewrite F2 by auto. now apply G2.
Qed.
Lemma permutes_inj P f x y : permutes P f -> P x -> P y -> f x = f y -> x = y.
Proof. intros [_ (g & _ & G & _)] Hx Hy E. now rewrite <- (G x Hx), E, G. Qed.

Ltac words2 H := 
  let H1 := fresh in let H2 := fresh in destruct H as [H1 H2];
  repeat match type of H1 with length ?l = _ => destruct l as [|? l]; cbn [length] in H1; try discriminate H1 end.
Lemma words2_inv w l : words w 2 l -> exists a b, l = [a; b] /\ wf w a /\ wf w b.
Proof.
  intros [H F]. destruct l as [|a [|b [|]]]; try discriminate. inversion F as [|? ? Fa F1]; inversion F1; subst. eauto.
Qed.
Lemma words4_inv w l : words w 4 l -> exists a b c d, l = [a; b; c; d] /\ wf w a /\ wf w b /\ wf w c /\ wf w d.
Proof.
  intros [H F]. destruct l as [|a [|b [|c [|d [|]]]]]; try discriminate.
  inversion F as [|? ? Fa F1]; inversion F1 as [|? ? Fb F2]; inversion F2 as [|? ? Fc F3]; inversion F3; subst. exists a, b, c, d. auto.
Qed.
Lemma words2_intro w a b : wf w a -> wf w b -> words w 2 [a; b].
Proof. split; auto. Qed.
Lemma words4_intro w a b c d : wf w a -> wf w b -> wf w c -> wf w d -> words w 4 [a; b; c; d].
Proof. split; auto. Qed.

Lemma wf_mulhi w a b : wf w a -> wf w b -> wf w (mulhi w a b).
Proof.
  unfold wf, mulhi. rewrite N.shiftr_div_pow2. intros Ha Hb. apply N.div_lt_upper_bound; [apply pow2_nz|].
  apply N.mul_lt_mono; assumption.
Qed.
Lemma mullo_inv w m mi x : wf w x -> wmul w mi m = 1 -> mullo w mi (mullo w m x) = x.
Proof. intros Hx E. unfold mullo. rewrite wmul_assoc, E, wmul_comm. now apply wmul_1_r. Qed.

Lemma ph2_round_permutes w m mi key : wf w m -> wmul w mi m = 1 -> words w 1 key -> permutes (words w 2) (ph2_round w m key).
Proof.
  intros Hm Hi [Hl Hk]. destruct key as [|k0 [|]]; try discriminate. inversion Hk as [|? ? Hk0 _]; subst.
  split.
  - intros x Hx. destruct (words2_inv _ _ Hx) as (a & b & -> & Ha & Hb). cbn [ph2_round].
    apply words2_intro; [|apply wf_wmul]. auto using wf_lxor, wf_mulhi.
  - exists (fun y => match y with [h; l] => let c0 := mullo w mi l in [c0; N.lxor (N.lxor (mulhi w m c0) k0) h] | _ => y end).
    assert (Hi' : wmul w m mi = 1) by (rewrite wmul_comm; exact Hi).
    refine (conj _ (conj _ _)); intros x Hx; destruct (words2_inv _ _ Hx) as (a & b & -> & Ha & Hb); cbn [ph2_round].
    + apply words2_intro; [apply wf_wmul|]. auto using wf_lxor, wf_mulhi, wf_wmul.
    + rewrite (mullo_inv w m mi a Ha Hi). now rewrite lxor_cancel_l.
    + rewrite lxor_cancel_l. now rewrite (mullo_inv w mi m b Hb Hi').
Qed.
Lemma ph4_round_permutes w m0 m1 i0 i1 key : wf w m0 -> wf w m1 -> wmul w i0 m0 = 1 -> wmul w i1 m1 = 1 ->
  words w 2 key -> permutes (words w 4) (ph4_round w m0 m1 key).
Proof.
  intros Hm0 Hm1 Hi0 Hi1 Hk. destruct (words2_inv _ _ Hk) as (k0 & k1 & -> & Hk0 & Hk1).
  assert (Hi0' : wmul w m0 i0 = 1) by (rewrite wmul_comm; exact Hi0).
  assert (Hi1' : wmul w m1 i1 = 1) by (rewrite wmul_comm; exact Hi1).
  assert (X3 : forall a b c, N.lxor (N.lxor a (N.lxor (N.lxor a b) c)) c = b)
    by (intros; apply N.bits_inj; intros j; rewrite !N.lxor_spec; destruct (N.testbit a j), (N.testbit b j), (N.testbit c j); reflexivity).
  split.
  - intros x Hx. destruct (words4_inv _ _ Hx) as (a & b & c & d & -> & Ha & Hb & Hc & Hd). cbn [ph4_round].
    apply words4_intro; try apply wf_wmul; auto using wf_lxor, wf_mulhi.
  - exists (fun y => match y with
      | [h1; l1; h0; l0] => let c0 := mullo w i0 l0 in let c2 := mullo w i1 l1 in
          [c0; N.lxor (N.lxor (mulhi w m1 c2) h1) k0; c2; N.lxor (N.lxor (mulhi w m0 c0) h0) k1]
      | _ => y end).
    refine (conj _ (conj _ _)); intros x Hx; destruct (words4_inv _ _ Hx) as (a & b & c & d & -> & Ha & Hb & Hc & Hd); cbn [ph4_round].
    + apply words4_intro; try apply wf_wmul; auto using wf_lxor, wf_mulhi, wf_wmul.
    + rewrite (mullo_inv w m0 i0 a Ha Hi0), (mullo_inv w m1 i1 c Hc Hi1). now rewrite !X3.
    + rewrite !X3. now rewrite (mullo_inv w i0 m0 d Hd Hi0'), (mullo_inv w i1 m1 b Hb Hi1').
Qed.
Lemma ph_R_permutes P (K : list N -> Prop) round bump :
  (forall k, K k -> K (bump k)) -> (forall k, K k -> permutes P (round k)) ->
  forall r key, K key -> permutes P (ph_R round bump r key).
Proof.
  intros Hb Hr. induction r as [|r IH]; intros key Hk; cbn [ph_R]; [apply permutes_id|].
  apply (permutes_comp P (round key) (ph_R round bump r (bump key))); auto.
Qed.
Lemma ph2_bump_words w w0 k : words w 1 k -> words w 1 (ph2_bump w w0 k).
Proof. intros [H F]. destruct k as [|a [|]]; try discriminate. split; [reflexivity|]. repeat constructor. apply wf_wadd. Qed.
Lemma ph4_bump_words w w0 w1 k : words w 2 k -> words w 2 (ph4_bump w w0 w1 k).
Proof. intros H. destruct (words2_inv _ _ H) as (a & b & -> & _). apply words2_intro; apply wf_wadd. Qed.

Theorem philox2x64_permutes key : words 64 1 key -> permutes (words 64 2) (philox2x64 key).
Proof.
  intros H. refine (ph_R_permutes _ (words 64 1) _ _ (ph2_bump_words 64 _) _ 10 key H).
  intros k Hk. apply (ph2_round_permutes 64 _ 0xf5f365bd212bdf9b); [reflexivity|vm_compute; reflexivity|exact Hk].
Qed.
Theorem philox2x32_permutes key : words 32 1 key -> permutes (words 32 2) (philox2x32 key).
Proof.
  intros H. refine (ph_R_permutes _ (words 32 1) _ _ (ph2_bump_words 32 _) _ 10 key H).
  intros k Hk. apply (ph2_round_permutes 32 _ 0xdcf5f49b); [reflexivity|vm_compute; reflexivity|exact Hk].
Qed.
Theorem philox4x64_permutes key : words 64 2 key -> permutes (words 64 4) (philox4x64 key).
Proof.
  intros H. refine (ph_R_permutes _ (words 64 2) _ _ (ph4_bump_words 64 _ _) _ 10 key H).
  intros k Hk. apply (ph4_round_permutes 64 _ _ 0x6c6d4a4b2db9919b 0x17df77e820bb6a67); [reflexivity|reflexivity|vm_compute; reflexivity|vm_compute; reflexivity|exact Hk].
Qed.
Theorem philox4x32_permutes key : words 32 2 key -> permutes (words 32 4) (philox4x32 key).
Proof.
  intros H. refine (ph_R_permutes _ (words 32 2) _ _ (ph4_bump_words 32 _ _) _ 10 key H).
  intros k Hk. apply (ph4_round_permutes 32 _ _ 0x991a7cdb 0x6d7cae67); [reflexivity|reflexivity|vm_compute; reflexivity|vm_compute; reflexivity|exact Hk].
Qed.

(* ---- ThreeFry permutes ---- *)
Lemma tf_rotl_eq w x r : 0 < r -> r < w -> tf_rotl w x r = rotl w x r.
Proof. intros H0 H1. unfold tf_rotl, rotl. now rewrite !N.mod_small by lia. Qed.
Definition tf_unmix (w r : N) (a b : N) : N * N := let b := rotr w (N.lxor b a) r in (wsub w a b, b).
Lemma tf_unmix_mix w r a b : 0 < r -> r < w -> wf w a -> wf w b -> tf_unmix w r (fst (tf_mix w r a b)) (snd (tf_mix w r a b)) = (a, b).
Proof.
  intros H0 H1 Ha Hb. unfold tf_mix, tf_unmix. cbn [fst snd]. rewrite tf_rotl_eq by assumption. rewrite lxor_cancel.
  rewrite rotr_rotl_inv by assumption. now rewrite wsub_wadd.
Qed.
Lemma tf_mix_unmix w r a b : 0 < r -> r < w -> wf w a -> wf w b -> tf_mix w r (fst (tf_unmix w r a b)) (snd (tf_unmix w r a b)) = (a, b).
Proof.
  intros H0 H1 Ha Hb. unfold tf_mix, tf_unmix. cbn [fst snd]. rewrite tf_rotl_eq by assumption.
  rewrite rotl_rotr_inv by auto using wf_lxor. rewrite wadd_wsub by assumption. now rewrite lxor_cancel.
Qed.
Lemma tf_mix_wf w r a b : 0 < r -> r < w -> wf w a -> wf w b -> wf w (fst (tf_mix w r a b)) /\ wf w (snd (tf_mix w r a b)).
Proof.
  intros H0 H1 Ha Hb. unfold tf_mix. cbn [fst snd]. rewrite tf_rotl_eq by assumption. split; auto using wf_wadd, wf_lxor, wf_rotl.
Qed.
Lemma tf_unmix_wf w r a b : wf w a -> wf w b -> wf w (fst (tf_unmix w r a b)) /\ wf w (snd (tf_unmix w r a b)).
Proof. intros Ha Hb. unfold tf_unmix. cbn [fst snd]. split; auto using wf_wsub, wf_lxor, wf_rotr. Qed.

Lemma tf2_round_permutes w r : 0 < r -> r < w -> permutes (words w 2) (tf2_round w r).
Proof.
  intros H0 H1. split.
  - intros x Hx. destruct (words2_inv _ _ Hx) as (a & b & -> & Ha & Hb). cbn [tf2_round].
    pose proof (tf_mix_wf w r a b H0 H1 Ha Hb) as [A B]. destruct (tf_mix w r a b). now apply words2_intro.
  - exists (fun y => match y with [a; b] => let '(a, b) := tf_unmix w r a b in [a; b] | _ => y end).
    refine (conj _ (conj _ _)); intros x Hx; destruct (words2_inv _ _ Hx) as (a & b & -> & Ha & Hb); cbn [tf2_round].
    + pose proof (tf_unmix_wf w r a b Ha Hb) as [A B]. destruct (tf_unmix w r a b). now apply words2_intro.
    + pose proof (tf_unmix_mix w r a b H0 H1 Ha Hb) as E. destruct (tf_mix w r a b). cbn [fst snd] in E. now rewrite E.
    + pose proof (tf_mix_unmix w r a b H0 H1 Ha Hb) as E. destruct (tf_unmix w r a b). cbn [fst snd tf2_round] in *. now rewrite E.
Qed.
Lemma tf2_inject_permutes w ks r : permutes (words w 2) (tf2_inject w ks r).
Proof.
  split.
  - intros x Hx. destruct (words2_inv _ _ Hx) as (a & b & -> & Ha & Hb). apply words2_intro; apply wf_wadd.
  - exists (fun y => match y with [a; b] => [wsub w a (nth (r mod 3) ks 0); wsub w (wsub w b (N.of_nat r)) (nth ((r + 1) mod 3) ks 0)] | _ => y end).
    refine (conj _ (conj _ _)); intros x Hx; destruct (words2_inv _ _ Hx) as (a & b & -> & Ha & Hb); cbn [tf2_inject].
    + apply words2_intro; apply wf_wsub.
    + rewrite !wsub_wadd by auto using wf_wadd. reflexivity.
    + rewrite !wadd_wsub by auto using wf_wsub. reflexivity.
Qed.
Lemma tf4_even_permutes w r : (0 < fst r < w) -> (0 < snd r < w) -> permutes (words w 4) (tf4_even w r).
Proof.
  destruct r as [r s]. cbn [fst snd]. intros [R0 R1] [S0 S1]. split.
  - intros x Hx. destruct (words4_inv _ _ Hx) as (a & b & c & d & -> & Ha & Hb & Hc & Hd). cbn [tf4_even fst snd].
    pose proof (tf_mix_wf w r a b R0 R1 Ha Hb) as [A B]. pose proof (tf_mix_wf w s c d S0 S1 Hc Hd) as [C D].
    destruct (tf_mix w r a b), (tf_mix w s c d). now apply words4_intro.
  - exists (fun y => match y with [a; b; c; d] => let '(a, b) := tf_unmix w r a b in let '(c, d) := tf_unmix w s c d in [a; b; c; d] | _ => y end).
    refine (conj _ (conj _ _)); intros x Hx; destruct (words4_inv _ _ Hx) as (a & b & c & d & -> & Ha & Hb & Hc & Hd); cbn [tf4_even fst snd].
    + pose proof (tf_unmix_wf w r a b Ha Hb) as [A B]. pose proof (tf_unmix_wf w s c d Hc Hd) as [C D].
      destruct (tf_unmix w r a b), (tf_unmix w s c d). now apply words4_intro.
    + pose proof (tf_unmix_mix w r a b R0 R1 Ha Hb) as E. pose proof (tf_unmix_mix w s c d S0 S1 Hc Hd) as F.
      destruct (tf_mix w r a b), (tf_mix w s c d). cbn [fst snd] in E, F. now rewrite E, F.
    + pose proof (tf_mix_unmix w r a b R0 R1 Ha Hb) as E. pose proof (tf_mix_unmix w s c d S0 S1 Hc Hd) as F.
      destruct (tf_unmix w r a b), (tf_unmix w s c d). cbn [fst snd tf4_even] in *. now rewrite E, F.
Qed.
Lemma tf4_odd_permutes w r : (0 < fst r < w) -> (0 < snd r < w) -> permutes (words w 4) (tf4_odd w r).
Proof.
  destruct r as [r s]. cbn [fst snd]. intros [R0 R1] [S0 S1]. split.
  - intros x Hx. destruct (words4_inv _ _ Hx) as (a & b & c & d & -> & Ha & Hb & Hc & Hd). cbn [tf4_odd fst snd].
    pose proof (tf_mix_wf w r a d R0 R1 Ha Hd) as [A B]. pose proof (tf_mix_wf w s c b S0 S1 Hc Hb) as [C D].
    destruct (tf_mix w r a d), (tf_mix w s c b). now apply words4_intro.
  - exists (fun y => match y with [a; b; c; d] => let '(a, d) := tf_unmix w r a d in let '(c, b) := tf_unmix w s c b in [a; b; c; d] | _ => y end).
    refine (conj _ (conj _ _)); intros x Hx; destruct (words4_inv _ _ Hx) as (a & b & c & d & -> & Ha & Hb & Hc & Hd); cbn [tf4_odd fst snd].
    + pose proof (tf_unmix_wf w r a d Ha Hd) as [A B]. pose proof (tf_unmix_wf w s c b Hc Hb) as [C D].
      destruct (tf_unmix w r a d), (tf_unmix w s c b). now apply words4_intro.
    + pose proof (tf_unmix_mix w r a d R0 R1 Ha Hd) as E. pose proof (tf_unmix_mix w s c b S0 S1 Hc Hb) as F.
      destruct (tf_mix w r a d), (tf_mix w s c b). cbn [fst snd] in E, F. now rewrite E, F.
    + pose proof (tf_mix_unmix w r a d R0 R1 Ha Hd) as E. pose proof (tf_mix_unmix w s c b S0 S1 Hc Hb) as F.
      destruct (tf_unmix w r a d), (tf_unmix w s c b). cbn [fst snd tf4_odd] in *. now rewrite E, F.
Qed.
Lemma tf4_inject_permutes w ks r : permutes (words w 4) (tf4_inject w ks r).
Proof.
  split.
  - intros x Hx. destruct (words4_inv _ _ Hx) as (a & b & c & d & -> & Ha & Hb & Hc & Hd). apply words4_intro; apply wf_wadd.
  - exists (fun y => match y with [a; b; c; d] => [wsub w a (nth (r mod 5) ks 0); wsub w b (nth ((r + 1) mod 5) ks 0);
      wsub w c (nth ((r + 2) mod 5) ks 0); wsub w (wsub w d (N.of_nat r)) (nth ((r + 3) mod 5) ks 0)] | _ => y end).
    refine (conj _ (conj _ _)); intros x Hx; destruct (words4_inv _ _ Hx) as (a & b & c & d & -> & Ha & Hb & Hc & Hd); cbn [tf4_inject].
    + apply words4_intro; apply wf_wsub.
    + rewrite !wsub_wadd by auto using wf_wadd. reflexivity.
    + rewrite !wadd_wsub by auto using wf_wsub. reflexivity.
Qed.
Lemma fold_permutes P (f : list N -> nat -> list N) l : (forall q, permutes P (fun X => f X q)) -> permutes P (fold_left f l).
Proof.
  intros H. induction l as [|q l IH]; cbn [fold_left]; [apply permutes_id|]. exact (permutes_comp P _ _ (H q) IH).
Qed.
Lemma tf2_permutes w parity rots key : (forall i, (i < 8)%nat -> 0 < nth i rots 0 < w) -> permutes (words w 2) (tf2 w parity rots key).
Proof.
  intros Hr. unfold tf2. apply (permutes_comp _ (tf2_inject w _ 0)); [apply tf2_inject_permutes|].
  apply fold_permutes. intros q. unfold tf2_four.
  assert (R : forall i, permutes (words w 2) (tf2_round w (nth (i mod 8) rots 0))).
  { intros i. specialize (Hr (i mod 8)%nat (Nat.mod_upper_bound i 8 ltac:(discriminate))). now apply tf2_round_permutes. }
  apply (permutes_comp _ (fun X => tf2_round w _ (tf2_round w _ (tf2_round w _ (tf2_round w _ X))))); [|apply tf2_inject_permutes].
  apply (permutes_comp _ (fun X => tf2_round w _ (tf2_round w _ (tf2_round w _ X)))); [|apply R].
  apply (permutes_comp _ (fun X => tf2_round w _ (tf2_round w _ X))); [|apply R].
  apply (permutes_comp _ (fun X => tf2_round w _ X)); apply R.
Qed.
Lemma tf4_permutes w parity rots key : (forall i, (i < 8)%nat -> 0 < fst (nth i rots (0, 0)) < w /\ 0 < snd (nth i rots (0, 0)) < w) ->
  permutes (words w 4) (tf4 w parity rots key).
Proof.
  intros Hr. unfold tf4. apply (permutes_comp _ (tf4_inject w _ 0)); [apply tf4_inject_permutes|].
  apply fold_permutes. intros q. unfold tf4_four.
  assert (R : forall i, permutes (words w 4) (tf4_even w (nth (i mod 8) rots (0,0))) /\ permutes (words w 4) (tf4_odd w (nth (i mod 8) rots (0,0)))).
  { intros i. specialize (Hr (i mod 8)%nat (Nat.mod_upper_bound i 8 ltac:(discriminate))). destruct Hr.
    split; [now apply tf4_even_permutes|now apply tf4_odd_permutes]. }
  apply (permutes_comp _ (fun X => tf4_odd w _ (tf4_even w _ (tf4_odd w _ (tf4_even w _ X))))); [|apply tf4_inject_permutes].
  apply (permutes_comp _ (fun X => tf4_even w _ (tf4_odd w _ (tf4_even w _ X)))); [|apply R].
  apply (permutes_comp _ (fun X => tf4_odd w _ (tf4_even w _ X))); [|apply R].
  apply (permutes_comp _ (fun X => tf4_even w _ X)); apply R.
Qed.
Theorem threefry2x64_permutes key : permutes (words 64 2) (threefry2x64 key).
Proof. apply tf2_permutes. intros i Hi. do 8 (destruct i as [|i]; [now cbn|]). lia. Qed.
Theorem threefry2x32_permutes key : permutes (words 32 2) (threefry2x32 key).
Proof. apply tf2_permutes. intros i Hi. do 8 (destruct i as [|i]; [now cbn|]). lia. Qed.
Theorem threefry4x64_permutes key : permutes (words 64 4) (threefry4x64 key).
Proof. apply tf4_permutes. intros i Hi. do 8 (destruct i as [|i]; [now cbn|]). lia. Qed.
Theorem threefry4x32_permutes key : permutes (words 32 4) (threefry4x32 key).
Proof. apply tf4_permutes. intros i Hi. do 8 (destruct i as [|i]; [now cbn|]). lia. Qed.
