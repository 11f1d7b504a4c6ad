(* Facts about the recursion, the seeding and the state of SFMT *)
From Verif Require Import Word Arr Buffer32 OptBuffer Py Half Lagged LaggedBuf JumpN SfmtSeed Sfmt Lanes.
From Coq Require Import String ZifyBool ZifyNat ZifyN.
Open Scope N_scope.
Ltac Zify.zify_post_hook ::= idtac.

(* ------------------------------------------------ the recursion *)
Lemma msk_wf j : wf 32 (msk j).
Proof. unfold msk. destruct (j =? 0); [reflexivity|]. destruct (j =? 1); [reflexivity|]. destruct (j =? 2); reflexivity. Qed.
Lemma rec_lane_wf j a x b y d : wf 32 (rec_lane j a x b y d).
Proof.
  unfold rec_lane. repeat apply wf_lxor; try apply lane_wf; try apply wf_wshl.
  apply wf_land_l. apply wf_shr, lane_wf.
Qed.
Lemma sf_rec_wf a b c d : wf 128 (sf_rec_c a b c d).
Proof. apply join4_wf; apply rec_lane_wf. Qed.
(* with the 128-bit operations *)
Lemma sf_rec_eq a b c d : wf 128 a -> wf 128 c ->
  sf_rec_c a b c d = N.lxor (N.lxor (N.lxor (N.lxor a (wshl 128 a 8)) (N.land (epi32 (fun w => N.shiftr w 11) b) sf_mask)) (N.shiftr c 8)) (epi32 (fun w => wshl 32 w 18) d).
Proof.
  intros A C. unfold sf_rec_c. rewrite lshift128_eq, rshift128_eq. rewrite (trunc_small 128 c C).
  assert (B4 : forall j, wf 32 (N.shiftr (lane j b) 11)) by (intros j; apply wf_shr, lane_wf).
  assert (D4 : forall j, wf 32 (wshl 32 (lane j d) 18)) by (intros j; apply wf_wshl).
  destruct (lane_join4 (N.shiftr (lane 0 b) 11) (N.shiftr (lane 1 b) 11) (N.shiftr (lane 2 b) 11) (N.shiftr (lane 3 b) 11) (B4 0) (B4 1) (B4 2) (B4 3)) as (b0 & b1 & b2 & b3).
  destruct (lane_join4 (wshl 32 (lane 0 d) 18) (wshl 32 (lane 1 d) 18) (wshl 32 (lane 2 d) 18) (wshl 32 (lane 3 d) 18) (D4 0) (D4 1) (D4 2) (D4 3)) as (d0 & d1 & d2 & d3).
  destruct (lane_join4 (msk 0) (msk 1) (msk 2) (msk 3) (msk_wf 0) (msk_wf 1) (msk_wf 2) (msk_wf 3)) as (m0 & m1 & m2 & m3).
  apply lanes_eq.
  - apply join4_wf; apply rec_lane_wf.
  - apply wf_lxor; [apply wf_lxor; [apply wf_lxor; [apply wf_lxor; [exact A|apply wf_wshl]|]|apply wf_shr, C]|apply join4_wf; apply D4].
    apply wf_land_l. apply join4_wf; apply B4.
  - rewrite (proj1 (lane_join4 _ _ _ _ (rec_lane_wf _ _ _ _ _ _) (rec_lane_wf _ _ _ _ _ _) (rec_lane_wf _ _ _ _ _ _) (rec_lane_wf _ _ _ _ _ _))).
    unfold rec_lane. rewrite !lane_lxor, lane_land. unfold epi32, sf_mask. now rewrite b0, d0, m0.
  - rewrite (proj1 (proj2 (lane_join4 _ _ _ _ (rec_lane_wf _ _ _ _ _ _) (rec_lane_wf _ _ _ _ _ _) (rec_lane_wf _ _ _ _ _ _) (rec_lane_wf _ _ _ _ _ _)))).
    unfold rec_lane. rewrite !lane_lxor, lane_land. unfold epi32, sf_mask. now rewrite b1, d1, m1.
  - rewrite (proj1 (proj2 (proj2 (lane_join4 _ _ _ _ (rec_lane_wf _ _ _ _ _ _) (rec_lane_wf _ _ _ _ _ _) (rec_lane_wf _ _ _ _ _ _) (rec_lane_wf _ _ _ _ _ _))))).
    unfold rec_lane. rewrite !lane_lxor, lane_land. unfold epi32, sf_mask. now rewrite b2, d2, m2.
  - rewrite (proj2 (proj2 (proj2 (lane_join4 _ _ _ _ (rec_lane_wf _ _ _ _ _ _) (rec_lane_wf _ _ _ _ _ _) (rec_lane_wf _ _ _ _ _ _) (rec_lane_wf _ _ _ _ _ _))))).
    unfold rec_lane. rewrite !lane_lxor, lane_land. unfold epi32, sf_mask. now rewrite b3, d3, m3.
Qed.
Lemma sf_rec_simd a b c d : wf 128 a -> wf 128 c -> sf_rec_sse a b c d = sf_rec_c a b c d.
Proof.
  intros A C. rewrite (sf_rec_eq a b c d A C). unfold sf_rec_sse. cbv zeta.
  apply N.bits_inj. intros i. rewrite !N.lxor_spec.
  destruct (N.testbit a i), (N.testbit (wshl 128 a 8) i), (N.testbit (N.land (epi32 (fun w => N.shiftr w 11) b) sf_mask) i),
    (N.testbit (N.shiftr c 8) i), (N.testbit (epi32 (fun w => wshl 32 w 18) d) i); reflexivity.
Qed.
Lemma lxor_5 a b c d e a' b' c' d' e' :
  N.lxor (N.lxor (N.lxor (N.lxor (N.lxor a a') (N.lxor b b')) (N.lxor c c')) (N.lxor d d')) (N.lxor e e')
  = N.lxor (N.lxor (N.lxor (N.lxor (N.lxor a b) c) d) e) (N.lxor (N.lxor (N.lxor (N.lxor a' b') c') d') e').
Proof. rewrite (lxor_4 a a' b b'), (lxor_4 (N.lxor a b)), (lxor_4 (N.lxor (N.lxor a b) c)). apply lxor_4. Qed.
Lemma rec_lane_lin j a x b y d a' x' b' y' d' :
  rec_lane j (N.lxor a a') (N.lxor x x') (N.lxor b b') (N.lxor y y') (N.lxor d d') = N.lxor (rec_lane j a x b y d) (rec_lane j a' x' b' y' d').
Proof. unfold rec_lane. rewrite !lane_lxor, shiftr_lxor, wshl_lxor, land_lxor_l. apply lxor_5. Qed.
Lemma sf_rec_lin a a' b b' c c' d d' :
  sf_rec_c (N.lxor a a') (N.lxor b b') (N.lxor c c') (N.lxor d d') = N.lxor (sf_rec_c a b c d) (sf_rec_c a' b' c' d').
Proof.
  unfold sf_rec_c. rewrite !lshift128_eq, !rshift128_eq. rewrite wshl_lxor, trunc_lxor, shiftr_lxor.
  rewrite !rec_lane_lin. apply join4_lxor.
Qed.
Lemma sf_rec_inj a a' b c d : wf 128 a -> wf 128 a' -> wf 128 c -> sf_rec_c a b c d = sf_rec_c a' b c d -> a = a'.
Proof.
  intros A A' C. rewrite !sf_rec_eq by assumption. intros E.
  apply lxor_inj_r, lxor_inj_r, lxor_inj_r in E.
  now apply (xsl_inj 128 8) in E.
Qed.

(* ------------------------------------------------ the hypotheses of Lagged.v *)
Definition wf128 (x : N) : Prop := wf 128 x.
Definition is0 (u : N) : Prop := u = 0.
Lemma sK2 : (2 <= sfK)%nat. Proof. unfold sfK. lia. Qed.
Lemma sK3 : (3 <= sfK)%nat. Proof. unfold sfK. lia. Qed.
Lemma sPK : (0 < sfP < sfK)%nat. Proof. unfold sfK, sfP. lia. Qed.
Lemma s_ok a b c d u : wf128 a -> wf128 b -> wf128 c -> wf128 d -> is0 u -> wf128 (sf_f a b c d u) /\ is0 (sf_g a b c d u).
Proof. intros. split; [apply sf_rec_wf|reflexivity]. Qed.
Lemma s_inj a a' b c d u u' : wf128 a -> wf128 a' -> wf128 b -> wf128 c -> wf128 d -> is0 u -> is0 u' ->
  sf_f a b c d u = sf_f a' b c d u' -> sf_g a b c d u = sf_g a' b c d u' -> a = a' /\ u = u'.
Proof. intros A A' B C D U U' E _. split; [exact (sf_rec_inj a a' b c d A A' C E)|unfold is0 in *; congruence]. Qed.
Lemma s_flin a a' b b' c c' d d' v v' : sf_f (N.lxor a a') (N.lxor b b') (N.lxor c c') (N.lxor d d') (N.lxor v v') = N.lxor (sf_f a b c d v) (sf_f a' b' c' d' v').
Proof. apply sf_rec_lin. Qed.
Lemma s_glin a a' b b' c c' d d' v v' : sf_g (N.lxor a a') (N.lxor b b') (N.lxor c c') (N.lxor d d') (N.lxor v v') = N.lxor (sf_g a b c d v) (sf_g a' b' c' d' v').
Proof. reflexivity. Qed.
Lemma s_observed (x u y v : N -> N) m : lrec sfK sfP sf_f sf_g x u -> lrec sfK sfP sf_f sf_g y v -> sok wf128 is0 x u -> sok wf128 is0 y v ->
  (forall i, m <= i -> x i = y i) -> exists m', m <= m' /\ u m' = v m'.
Proof. intros _ _ [_ U] [_ V] _. exists m. split; [lia|]. unfold is0 in *. now rewrite U, V. Qed.
Lemma half_join a b : wf 128 a -> wf 128 b -> trunc 64 a = trunc 64 b -> trunc 64 (N.shiftr a 64) = trunc 64 (N.shiftr b 64) -> a = b.
Proof.
  intros A B E F. apply (wf_eq 128); [exact A|exact B|]. intros i Hi. destruct (N.ltb_spec i 64).
  - pose proof (f_equal (fun z => N.testbit z i) E) as G. cbv beta in G. rewrite !trunc_spec in G. replace (i <? 64) with true in G by lia. exact G.
  - pose proof (f_equal (fun z => N.testbit z (i - 64)) F) as G. cbv beta in G. rewrite !trunc_spec, !shr_spec in G. replace (i - 64 <? 64) with true in G by lia.
    replace (i - 64 + 64) with i in G by lia. exact G.
Qed.

(* ------------------------------------------------ words *)
Lemma quads_ok n : forall l, List.length l = (4 * n)%nat -> Forall (wf 32) l -> List.length (quads l) = n /\ Forall (wf 128) (quads l) /\ unquads (quads l) = l.
Proof.
  induction n as [|n IH]; intros l L F.
  - destruct l; [|discriminate]. split; [reflexivity|]. split; [constructor|reflexivity].
  - destruct l as [|a [|b [|c [|d l]]]]; cbn [List.length] in L; try lia.
    inversion F as [|? ? Fa F1]; subst. inversion F1 as [|? ? Fb F2]; subst. inversion F2 as [|? ? Fc F3]; subst. inversion F3 as [|? ? Fd F4]; subst.
    destruct (IH l ltac:(lia) F4) as (A & B & C). cbn [quads List.length].
    split; [now rewrite A|]. split; [constructor; [now apply join4_wf|exact B]|].
    unfold unquads in *. cbn [flat_map app]. destruct (lane_join4 a b c d Fa Fb Fc Fd) as (-> & -> & -> & ->). now rewrite C.
Qed.
Lemma unquads_ok l : List.length (unquads l) = (4 * List.length l)%nat /\ Forall (wf 32) (unquads l).
Proof.
  induction l as [|a l [A B]]; [split; [reflexivity|constructor]|]. unfold unquads in *. cbn [flat_map app List.length].
  split; [rewrite A; lia|]. repeat (constructor; [apply lane_wf|]). exact B.
Qed.
Lemma quads_unquads l : Forall (wf 128) l -> quads (unquads l) = l.
Proof.
  induction 1 as [|a l A F IH]; [reflexivity|]. unfold unquads in *. cbn [flat_map app quads]. rewrite IH, join4_lanes. now rewrite trunc_small.
Qed.

(* ------------------------------------------------ certification *)
(* the inner product is the parity of the bits selected by the parity vector *)
Lemma inner_odd x : sf_inner x = 1 -> x <> 0.
Proof. intros H ->. vm_compute in H. discriminate. Qed.
Lemma fold_bits_lxor x y : fold_bits (N.lxor x y) = N.lxor (fold_bits x) (fold_bits y).
Proof.
  unfold fold_bits. cbv zeta.
  assert (S : forall k x y, N.lxor (N.lxor x y) (N.shiftr (N.lxor x y) k) = N.lxor (N.lxor x (N.shiftr x k)) (N.lxor y (N.shiftr y k))).
  { intros k a b. rewrite shiftr_lxor. apply lxor_4. }
  rewrite (S 16), (S 8), (S 4), (S 2), (S 1). apply land_lxor_l.
Qed.
Lemma fold_bits_bit x : fold_bits x = 0 \/ fold_bits x = 1.
Proof.
  unfold fold_bits. cbv zeta. match goal with |- N.land ?a 1 = 0 \/ _ => generalize a end. intros a. change 1 with (N.ones 1) at 1 2.
  rewrite N.land_ones. pose proof (N.mod_lt a (2 ^ 1) ltac:(discriminate)) as H. change (2 ^ 1) with 2 in *. lia.
Qed.
Lemma inner_lxor x y : sf_inner (N.lxor x y) = N.lxor (sf_inner x) (sf_inner y).
Proof.
  unfold sf_inner. rewrite <- fold_bits_lxor. f_equal. rewrite !lane_lxor, !land_lxor_l.
  rewrite (lxor_4 _ _ (N.land (lane 1 x) _)), (lxor_4 _ _ (N.land (lane 2 x) _)). apply lxor_4.
Qed.
Lemma certify_inner x st : exists y, sf_certify (x :: st) = y :: st /\ sf_inner y = 1.
Proof.
  cbn [sf_certify]. destruct (sf_inner x =? 1) eqn:E; [exists x; split; [reflexivity|lia]|].
  exists (N.lxor x 1). split; [reflexivity|]. rewrite inner_lxor. assert (H : sf_inner x = 0) by (destruct (fold_bits_bit (N.lxor (N.lxor (N.lxor (N.land (lane 0 x) (parity 0)) (N.land (lane 1 x) (parity 1))) (N.land (lane 2 x) (parity 2))) (N.land (lane 3 x) (parity 3)))) as [H|H]; unfold sf_inner in *; lia).
  rewrite H. reflexivity.
Qed.
Definition sfok (st : list N) : Prop := List.length st = sfK /\ Forall (wf 128) st.
Lemma sfok_lok st : sfok st <-> lok sfK wf128 is0 (st, 0).
Proof. unfold sfok, lok. cbn [fst snd]. split; [intros [A B]; split; [exact A|split; [exact B|reflexivity]]|intros (A & B & _); split; assumption]. Qed.
Lemma init_ok key : sfok (sf_init_by_array key) /\ exists y st, sf_init_by_array key = y :: st /\ sf_inner y = 1.
Proof.
  destruct (ini_words_wok 624 key) as [L F]. destruct (quads_ok 156 _ L F) as (A & B & _). unfold sf_init_by_array.
  destruct (quads (ini_words 624 key)) as [|x st]; [discriminate|].
  destruct (certify_inner x st) as (y & E & I). split; [|exists y, st; split; assumption].
  inversion B as [|? ? Bx Bs]; subst. cbn [sf_certify]. split; [exact A|]. constructor; [|exact Bs].
  destruct (sf_inner x =? 1); [exact Bx|]. apply wf_lxor; [exact Bx|reflexivity].
Qed.

(* ------------------------------------------------ never all zero *)
Lemma s_zero n : Forall (eq 0) (fst (wat sfK sfP sf_f sf_g (repeat 0 sfK) 0 n)) /\ List.length (fst (wat sfK sfP sf_f sf_g (repeat 0 sfK) 0 n)) = sfK /\ snd (wat sfK sfP sf_f sf_g (repeat 0 sfK) 0 n) = 0.
Proof.
  induction n as [|n (A & B & C)] using N.peano_ind.
  - split; [|split; [apply repeat_length|reflexivity]]. apply Forall_forall. intros x H. symmetry. exact (repeat_spec _ _ _ H).
  - rewrite <- N.add_1_r, wat_S. destruct (wat sfK sfP sf_f sf_g (repeat 0 sfK) 0 n) as [l u]. cbn [fst snd] in *.
    assert (Z : forall i, nth i l 0 = 0). { intros i. destruct (nth_in_or_default i l 0) as [H|H]; [|exact H]. rewrite Forall_forall in A. symmetry. now apply A. }
    unfold wstep. cbn [fst snd]. rewrite !Z. split; [|split; [|reflexivity]].
    + apply Forall_app. split; [destruct l; [constructor|now inversion A]|]. constructor; [|constructor]. vm_compute. reflexivity.
    + rewrite app_length. destruct l; [discriminate B|]. cbn [tl List.length] in *. lia.
Qed.
Lemma zeros l : Forall (eq 0) l -> l = repeat 0 (List.length l).
Proof. induction 1 as [|x l <- F IH]; [reflexivity|]. cbn [List.length repeat]. now rewrite <- IH. Qed.
Lemma s_never_zero st n : sfok st -> ~ Forall (eq 0) st -> ~ Forall (eq 0) (fst (wat sfK sfP sf_f sf_g st 0 n)).
Proof.
  intros O Z H. apply Z. apply sfok_lok in O.
  assert (O0 : lok sfK wf128 is0 (repeat 0 sfK, 0)).
  { apply sfok_lok. split; [apply repeat_length|]. apply Forall_forall. intros x I. apply repeat_spec in I. subst x. reflexivity. }
  pose proof (wat_lok sfK sfP sf_f sf_g (fun _ => true) sK2 sPK wf128 is0 sK3 s_ok s_inj st 0 n O) as (L & _ & U).
  destruct (s_zero n) as (A & B & C).
  assert (E : wat sfK sfP sf_f sf_g st 0 n = wat sfK sfP sf_f sf_g (repeat 0 sfK) 0 n).
  { destruct (wat sfK sfP sf_f sf_g st 0 n) as [l u]. destruct (wat sfK sfP sf_f sf_g (repeat 0 sfK) 0 n) as [l' u']. cbn [fst snd] in *. unfold is0 in U. subst u u'.
    rewrite (zeros l H), (zeros l' A), L, B. reflexivity. }
  apply (wat_inj sfK sfP sf_f sf_g (fun _ => true) sK2 sPK wf128 is0 sK3 s_ok s_inj _ _ _ _ n O O0) in E.
  apply (f_equal fst) in E. cbn [fst] in E. rewrite E. apply Forall_forall. intros x I. symmetry. exact (repeat_spec _ _ _ I).
Qed.

(* ------------------------------------------------ the setter *)
Lemma cint_in z : (- 2 ^ 31 <= z < 2 ^ 31)%Z -> to_cint (PInt z) = Ok z.
Proof. intros [A B]. unfold to_cint. replace ((- 2 ^ 31 <=? z)%Z && (z <? 2 ^ 31)%Z)%bool with true; [reflexivity|]. symmetry. apply andb_true_iff. split; [now apply Z.leb_le|now apply Z.ltb_lt]. Qed.
Lemma sf_set_get s t :
  sfok (lb_st (core s)) -> lb_u (core s) = lb_u (core t) -> (- 2 ^ 31 <= lb_idx (core s) < 2 ^ 31)%Z -> (- 2 ^ 31 <= lb_loc (core s) < 2 ^ 31)%Z ->
  List.length (lb_buf (core s)) = 312%nat -> Forall (wf 64) (lb_buf (core s)) -> u32 s < 2 ^ 32 -> sf_set (sf_get s) t = (s, Ok tt).
Proof.
  destruct s as [[st u idx buf loc] h w], t as [[st' u' idx' buf' loc'] h' w']. cbn [core lb_st lb_u lb_idx lb_buf lb_loc u32].
  intros [L F] <- I Lo LB FB U. destruct (unquads_ok st) as [A B]. rewrite L in A. change (4 * sfK)%nat with 624%nat in A.
  unfold sf_set, sf_get. cbn [core lb_st lb_u lb_idx lb_buf lb_loc u32 has32].
  assert (C1 : check_arr 624 32 (PArr 32 (unquads st)) = Ok (unquads st)) by (apply check_arr_ok; [|assumption]; first [rewrite A|rewrite LB]; reflexivity).
  assert (C2 : check_arr 312 64 (PArr 64 buf) = Ok buf) by (apply check_arr_ok; [|assumption]; first [rewrite A|rewrite LB]; reflexivity).
  rewrite bind_lift. cbn - [unquads quads check_arr]. rewrite bind_lift. cbn - [unquads quads check_arr]. rewrite C1. rewrite bind_modify. cbn [set_core core lb_st lb_u lb_idx lb_buf lb_loc has32 u32].
  rewrite quads_unquads by exact F.
  rewrite bind_lift. cbn - [unquads quads check_arr]. rewrite cint_in by exact I. rewrite bind_modify. cbn [set_core core lb_st lb_u lb_idx lb_buf lb_loc has32 u32].
  rewrite bind_lift. cbn - [unquads quads check_arr]. rewrite C2. rewrite bind_modify. cbn [set_core core lb_st lb_u lb_idx lb_buf lb_loc has32 u32].
  rewrite bind_lift. cbn - [unquads quads check_arr]. rewrite cint_in by exact Lo. rewrite bind_modify. cbn [set_core core lb_st lb_u lb_idx lb_buf lb_loc has32 u32].
  rewrite (set_half_run _ h w) by (try reflexivity; exact U). reflexivity.
Qed.
