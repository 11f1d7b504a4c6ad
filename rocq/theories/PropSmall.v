(* Properties of JSF, Romu, Tyche and EFIIX64 *)
From Verif Require Import Word Arr Buffer32 Py Half SeedSeq SeedSeqFacts Lcg Jsf Romu Tyche Efiix.
From Coq Require Import String ZifyBool ZifyNat ZifyN.
Open Scope N_scope.
Ltac Zify.zify_post_hook ::= idtac.

Definition w64 (seed : Z) (n : nat) : list N := match ss_pool (SS (SInt seed) [] 4 0) with Some p => generate64 n p | None => [] end.
Definition w32 (seed : Z) (n : nat) : list N := match ss_pool (SS (SInt seed) [] 4 0) with Some p => generate32 n p | None => [] end.
Definition ex_jsf (z : Z) (h : bool) : jsfpy := Buf (Jsf 1 2 3 4 7 13 (if (z =? 64)%Z then 37 else 0) z 1) h 77.
Definition ex_romu (q h : bool) : romupy := Buf (RC (Romu 1 2 3 4) q q) h 77.
Definition ex_tyche (o : bool) : tychepy := TP (Ty 1 2 3 4) o o.
Definition ex_ef (h : bool) : efpy := Buf (EF (map N.of_nat (seq 5 16)) (map N.of_nat (seq 100 32)) 1 2 3 4) h 77.
Fixpoint ty_raws (n : nat) (t : tychepy) : list N := match n with O => [] | S n => let '(t, v) := ty_next64 true t in v :: ty_raws n t end.

(* Known answers, tests/data/<name>-testset-1.csv *)
Example jsf64_known_answers : exists b0 b, jsf_new 64 1 None None None = Ok b0 /\ jsf_seed (nth 0 (w64 0 1) 0) 0 0 b0 = Some b
  /\ js_d (core (N.iter 1 jsf_step b)) = 453862309009115336 /\ js_d (core (N.iter 2 jsf_step b)) = 16821122303052153518.
Proof. eexists. eexists. split; [vm_compute; reflexivity|]. split; [vm_compute; reflexivity|]. split; vm_compute; reflexivity. Qed.
Example jsf32_known_answers : exists b0 b, jsf_new 32 1 None None None = Ok b0 /\ jsf_seed (nth 0 (w32 0 1) 0) 0 0 b0 = Some b
  /\ js_d (core (N.iter 1 jsf_step b)) = 3158011848 /\ js_d (core (N.iter 2 jsf_step b)) = 1917040006.
Proof. eexists. eexists. split; [vm_compute; reflexivity|]. split; [vm_compute; reflexivity|]. split; vm_compute; reflexivity. Qed.
Example romu_known_answers : match w64 0 4 with
  | [w; x; y; z] => snd (raws (romu_next true) 3 (romu_seed true w x y z)) = [0x20338d225ad72c08; 0x1343a2771f13a018; 0x97fb376f34344eab]
                    /\ snd (raws (romu_next false) 3 (romu_seed false w x y z)) = [0xf64128a6cdad82f; 0xaa05e1659e749363; 0x81309c5c1fe495ae]
  | _ => False end.
Proof. vm_compute. split; reflexivity. Qed.
Example tyche_known_answers : exists t t', ty_new true None (nth 0 (w32 0 3) 0) (nth 1 (w32 0 3) 0) (nth 2 (w32 0 3) 0) = Ok t
  /\ ty_new false None (nth 0 (w32 0 3) 0) (nth 1 (w32 0 3) 0) (nth 2 (w32 0 3) 0) = Ok t'
  /\ ty_raws 3 t = [13205267324555374901; 4894088916541909747; 9321482436872508107]
  /\ ty_raws 3 t' = [3853573577507286933; 1511512999001470406; 17958927964385863207].
Proof. eexists. eexists. split; [vm_compute; reflexivity|]. split; [vm_compute; reflexivity|]. split; vm_compute; reflexivity. Qed.
Example efiix_known_answers : match w64 0 4 with
  | [a; b; c; d] => snd (raws efiix_next 3 (efiix_seed (repeat 0 32) a b c d)) = [0xae0f686a3ac34f0b; 0xfb928201b478f670; 0x9cc6b0e10ddead0b]
  | _ => False end.
Proof. vm_compute. reflexivity. Qed.

(* ------------------------------------------------------------------- C24 *)
(* js_good: the rotations are defined (C39) and the words are in range *)
Theorem C24_jsf_never_merges :
  forall n a b, js_good a -> js_good b -> js_w (core a) = js_w (core b) -> a <> b -> jsf_draws n a <> jsf_draws n b.
Proof.
  intros n a b Ha Hb W Hne. rewrite !jsf_draws_ok by (apply Ha || apply Hb). intros [= H]. apply Hne. exact (jsf_iter_inj n a b Ha Hb W H).
Qed.
Theorem C24_romu_never_merges :
  forall quad n s t, rm_wf s -> rm_wf t -> s <> t -> N.iter n (cstep (romu_next quad)) s <> N.iter n (cstep (romu_next quad)) t.
Proof. intros q n s t Hs Ht Hne H. apply Hne. exact (romu_iter_inj q n s t Hs Ht H). Qed.
Theorem C24_tyche_never_merges :
  forall orig n s t, ty_wf s -> ty_wf t -> s <> t -> N.iter n (ty_step orig) s <> N.iter n (ty_step orig) t.
Proof. intros o n s t Hs Ht Hne H. apply Hne. exact (ty_iter_inj o n s t Hs Ht H). Qed.
Theorem C24_efiix_never_merges :
  forall n s t, ef_ok s -> ef_ok t -> s <> t -> N.iter n (cstep efiix_next) s <> N.iter n (cstep efiix_next) t.
Proof. intros n s t Hs Ht Hne H. apply Hne. exact (efiix_iter_inj n s t Hs Ht H). Qed.
Lemma ex_ef_ok h : ef_ok (core (ex_ef h)).
Proof. refine (conj eq_refl (conj _ (conj eq_refl (conj _ (conj _ (conj _ (conj _ _))))))); try reflexivity; repeat constructor. Qed.
Example C24_small_case : js_good (ex_jsf 64 true) /\ js_good (ex_jsf 32 true) /\ rm_wf (Romu 1 2 3 4) /\ ty_wf (Ty 1 2 3 4) /\ ef_ok (core (ex_ef true)).
Proof.
  refine (conj _ (conj _ (conj _ (conj _ (ex_ef_ok true))))).
  - split; [refine (conj _ (conj _ (or_intror _))); split; reflexivity|repeat split].
  - split; [refine (conj _ (conj _ (or_introl eq_refl))); split; reflexivity|repeat split].
  - repeat split.
  - repeat split.
Qed.

(* ------------------------------------------------------------------- C25 *)
Lemma rotl_zero w k : 0 < 2 ^ w -> rotl w 0 k = 0.
Proof. intros H. unfold rotl, wshl. rewrite N.shiftl_0_l, N.shiftr_0_l, N.mod_small by exact H. reflexivity. Qed.
Lemma some_core {A} (x y : buffered A) : Some (reset32 x) = Some (reset32 y) -> core x = core y.
Proof. intros [= H]. exact H. Qed.
Lemma some_inj {A} (x y : A) : Some x = Some y -> x = y. Proof. now intros [= H]. Qed.
Lemma buf_eq {A} (x y : buffered A) : core x = core y -> has32 x = has32 y -> u32 x = u32 y -> x = y.
Proof. destruct x, y. cbn. now intros -> -> ->. Qed.
(* JSF uses the first seed_size words *)
Theorem C25_jsf_seeds_distinct :
  forall s0 s1 s2 t0 t1 t2 b, js_params_ok (core b) -> Forall (wf (js_w (core b))) [s0; s1; s2; t0; t1; t2] ->
  jsf_seed s0 s1 s2 b = jsf_seed t0 t1 t2 b ->
  s0 = t0 /\ ((1 < js_seeds (core b))%Z -> s1 = t1) /\ ((2 < js_seeds (core b))%Z -> s2 = t2).
Proof.
  intros s0 s1 s2 t0 t1 t2 b P F. rewrite Forall_forall in F. unfold jsf_seed.
  rewrite !jsf_draws_ok by exact P. intros C. apply some_core in C.
  assert (HH : forall m (x : jsfpy), has32 (N.iter m jsf_step x) = has32 x /\ u32 (N.iter m jsf_step x) = u32 x).
  { intros m x. apply (Niter_inv (fun y => has32 y = has32 x /\ u32 y = u32 x)); [intros y Hy; exact Hy|split; reflexivity]. }
  assert (G : forall r0 r1 r2, (forall x, In x [r0; r1; r2] -> wf (js_w (core b)) x) -> js_good (set_core (jsf_start r0 r1 r2 (core b)) b)).
  { intros r0 r1 r2 Fr. split; [exact P|]. unfold js_wf, jsf_start, set_core, js_put, js_w. cbn [core js_a js_b js_c js_d js_size].
    refine (conj _ (conj _ (conj _ _))).
    - destruct (js_size (core b) =? 64)%Z; reflexivity.
    - apply Fr. now left.
    - destruct (1 <? js_seeds (core b))%Z; apply Fr; cbn; tauto.
    - destruct (2 <? js_seeds (core b))%Z; apply Fr; cbn; tauto. }
  assert (E' : N.iter 20 jsf_step (set_core (jsf_start s0 s1 s2 (core b)) b) = N.iter 20 jsf_step (set_core (jsf_start t0 t1 t2 (core b)) b)).
  { apply buf_eq; [exact C| |].
    - rewrite (proj1 (HH 20 _)). symmetry. exact (proj1 (HH 20 _)).
    - rewrite (proj2 (HH 20 _)). symmetry. exact (proj2 (HH 20 _)). }
  assert (G1 := G s0 s1 s2 ltac:(intros x Hx; apply F; clear - Hx; cbn in *; tauto)). assert (G2 := G t0 t1 t2 ltac:(intros x Hx; apply F; clear - Hx; cbn in *; tauto)).
  pose proof (jsf_iter_inj 20 (set_core (jsf_start s0 s1 s2 (core b)) b) (set_core (jsf_start t0 t1 t2 (core b)) b) G1 G2 eq_refl E') as E2'. clear E' C.
  apply (f_equal core) in E2'. rename E2' into E'. unfold jsf_start, set_core, js_put in E'. cbn [core] in E'. injection E' as E0 E1 E2.
  split; [exact E0|]. split; intros H.
  - apply Z.ltb_lt in H. rewrite H in E1. exact E1.
  - apply Z.ltb_lt in H. rewrite H in E2. exact E2.
Qed.
Theorem C25_tyche_seeds_distinct :
  forall orig seed idx seed' idx', wf 64 seed -> wf 64 seed' -> wf 32 idx -> wf 32 idx' ->
  tyche_seed orig seed idx = tyche_seed orig seed' idx' -> seed = seed' /\ idx = idx'.
Proof.
  intros o seed idx seed' idx' H1 H2 H3 H4 H. unfold tyche_seed in H. apply ty_iter_inj in H; [|now apply ty_start_wf|now apply ty_start_wf].
  now apply ty_start_inj.
Qed.
(* the idx argument: exactly 0..2^32-1 is accepted, it replaces the third word
   of the seed sequence, and different values give different states *)
Theorem C25_tyche_idx_accepted :
  forall orig i w0 w1 w2, (0 <= i < 2 ^ 32)%Z ->
  ty_new orig (Some i) w0 w1 w2 = Ok (TP (tyche_seed orig (w0 + 2 ^ 32 * w1) (Z.to_N i)) orig orig)
  /\ ty_new orig (Some i) w0 w1 w2 = ty_new orig None w0 w1 (Z.to_N i).
Proof.
  intros o i w0 w1 w2 H. unfold ty_new, ty_seed_from. cbn [tp_orig tp_fn].
  replace ((0 <=? i) && (i <=? 2 ^ 32 - 1))%Z with true; [split; reflexivity|].
  symmetry. apply andb_true_intro. split; apply Z.leb_le; [apply H|]. apply Z.lt_le_pred. apply H.
Qed.
Theorem C25_tyche_idx_rejected :
  forall orig i w0 w1 w2 t, ~ (0 <= i < 2 ^ 32)%Z ->
  ty_new orig (Some i) w0 w1 w2 = Raise ValueError /\ ty_seed_from (Some i) w0 w1 w2 t = Raise ValueError.
Proof.
  intros o i w0 w1 w2 t H. unfold ty_new, ty_seed_from.
  replace ((0 <=? i) && (i <=? 2 ^ 32 - 1))%Z with false; [split; reflexivity|].
  symmetry. apply Bool.not_true_iff_false. intros E. apply andb_prop in E. destruct E as [A B]. apply Z.leb_le in A, B. apply H.
  split; [exact A|]. exact (proj2 (Z.lt_le_pred i (2 ^ 32)) B).
Qed.
Theorem C25_tyche_idx_distinct :
  forall orig i j w0 w1 w2 w2' u v, wf 32 w0 -> wf 32 w1 -> i <> j ->
  ty_new orig (Some i) w0 w1 w2 = Ok u -> ty_new orig (Some j) w0 w1 w2' = Ok v -> tp_s u <> tp_s v.
Proof.
  intros o i j w0 w1 w2 w2' u v H0 H1 N Hu Hv E.
  assert (R : forall k x t, ty_new o (Some k) w0 w1 x = Ok t -> (0 <= k < 2 ^ 32)%Z /\ tp_s t = tyche_seed o (w0 + 2 ^ 32 * w1) (Z.to_N k)).
  { intros k x t Ht. assert (D : {(0 <= k < 2 ^ 32)%Z} + {~ (0 <= k < 2 ^ 32)%Z}).
    { destruct (Z_le_dec 0 k), (Z_lt_dec k (2 ^ 32)); [left; now split|right..]; intros [? ?]; contradiction. }
    destruct D as [D|D].
    - split; [exact D|]. rewrite (proj1 (C25_tyche_idx_accepted o k w0 w1 x D)) in Ht. injection Ht as <-. reflexivity.
    - rewrite (proj1 (C25_tyche_idx_rejected o k w0 w1 x (TP (Ty 0 0 0 0) o o) D)) in Ht. discriminate Ht. }
  destruct (R i w2 u Hu) as [Ri Eu]. destruct (R j w2' v Hv) as [Rj Ev]. rewrite Eu, Ev in E.
  assert (W : wf 64 (w0 + 2 ^ 32 * w1)).
  { unfold wf in *. change (2 ^ 64) with (2 ^ 32 * 2 ^ 32). change (2 ^ 32) with 4294967296 in *. clear - H0 H1. lia. }
  assert (Wi : forall k, (0 <= k < 2 ^ 32)%Z -> wf 32 (Z.to_N k)).
  { intros k Hk. unfold wf. apply N2Z.inj_lt. rewrite Z2N.id by apply Hk. apply Hk. }
  apply C25_tyche_seeds_distinct in E; [|exact W|exact W|now apply Wi|now apply Wi]. destruct E as [_ E].
  apply N. apply Z2N.inj; [apply Ri|apply Rj|exact E].
Qed.
Example ex_tyche_idx : exists u v, ty_new true (Some 0%Z) 1 2 3 = Ok u /\ ty_new true (Some (2 ^ 32 - 1)%Z) 1 2 3 = Ok v.
Proof. eexists. eexists. split; apply C25_tyche_idx_accepted; split; reflexivity || discriminate. Qed.
(* Romu: different words give different states, except that all zeros is
   replaced by z = 1 *)
Theorem C25_romu_seeds_distinct_partial :
  forall w x y z w' x' y' z' b, Forall (wf 64) [w; x; y; z; w'; x'; y'; z'] ->
  [w; x; y; z] <> [0; 0; 0; 0] -> [w'; x'; y'; z'] <> [0; 0; 0; 0] ->
  romu_seed_from w x y z b = romu_seed_from w' x' y' z' b -> [w; x; y; z] = [w'; x'; y'; z'].
Proof.
  intros w x y z w' x' y' z' b F Z Z'. unfold romu_seed_from. rewrite Forall_forall in F.
  assert (A : forall w x y z, [w; x; y; z] <> [0; 0; 0; 0] -> (w =? 0) && (x =? 0) && (y =? 0) && (z =? 0) = false).
  { intros p q r s H. destruct (N.eqb_spec p 0), (N.eqb_spec q 0), (N.eqb_spec r 0), (N.eqb_spec s 0); try reflexivity. subst. now exfalso. }
  rewrite (A _ _ _ _ Z), (A _ _ _ _ Z'). intros H. apply (f_equal (fun v => rc_s (core v))) in H. cbn [core rc_s] in H. unfold romu_seed in H.
  apply romu_iter_inj in H; [injection H as -> -> -> ->; reflexivity| |]; (refine (conj _ (conj _ (conj _ _))); apply F; cbn; tauto).
Qed.
Theorem C25_romu_seeds_distinct_refuted :
  exists b, romu_seed_from 0 0 0 0 b = romu_seed_from 0 0 0 1 b.
Proof. exists (ex_romu true false). reflexivity. Qed.
Example C25_small_case : js_params_ok (core (ex_jsf 64 false)) /\ jsf_seed 5 0 0 (ex_jsf 64 false) <> jsf_seed 6 0 0 (ex_jsf 64 false)
  /\ tyche_seed true 1 2 <> tyche_seed true 1 3 /\ romu_seed_from 1 0 0 0 (ex_romu true false) <> romu_seed_from 2 0 0 0 (ex_romu true false).
Proof.
  split; [refine (conj _ (conj _ (or_intror _))); split; reflexivity|]. split; [vm_compute; discriminate|]. split; vm_compute; discriminate.
Qed.

(* ------------------------------------------------------------------- C27 *)
Theorem C27_efiix_cycles :
  forall n s, ef_ok s -> N.iter n (cstep efiix_next) s = s -> n mod 2 ^ 64 = 0.
Proof. exact efiix_return. Qed.
(* two streams at the same counter value stay apart *)
Theorem C27_efiix_streams_apart :
  forall i j s t, ef_ok s -> ef_ok t -> ef_i s = ef_i t -> i < 2 ^ 64 -> j < 2 ^ 64 -> s <> t ->
  N.iter i (cstep efiix_next) s <> N.iter j (cstep efiix_next) t.
Proof.
  intros i j s t Hs Ht E Hi Hj Hne H. apply Hne. assert (i = j) as <-.
  { rewrite <- (N.mod_small i (2 ^ 64) Hi), <- (N.mod_small j (2 ^ 64) Hj). apply (lcg_states_distinct 64 1 1 (ef_i s)); [reflexivity|reflexivity|apply Hs|].
    rewrite E at 2. rewrite <- !efiix_iter_i, H. reflexivity. }
  exact (efiix_iter_inj i s t Hs Ht H).
Qed.
Example C27_efiix_case : ef_ok (core (ex_ef false)) /\ ef_i (N.iter 5 (cstep efiix_next) (core (ex_ef false))) = 6.
Proof. split; [apply ex_ef_ok|vm_compute; reflexivity]. Qed.

(* ------------------------------------------------------------------- C39 *)
(* rotations that the constructor accepts are defined when p and q are not 0;
   None selects the defaults *)
Theorem C39_jsf_rotations_partial :
  forall size seeds p q r b, jsf_new size seeds p q r = Ok b -> p <> Some 0%Z -> q <> Some 0%Z ->
  js_params_ok (core b) /\ jsf_raw b <> None.
Proof.
  intros size seeds p q r b. unfold jsf_new.
  destruct ((size =? 32) || (size =? 64))%Z eqn:S; [|discriminate]. destruct ((seeds =? 1) || _ || _)%Z; [|discriminate]. cbn [negb].
  destruct (in_range size p && in_range size q && in_range size r) eqn:R; [|discriminate]. cbn [negb]. intros H Hp Hq.
  cut (js_params_ok (core b)). { intros K. split; [exact K|]. rewrite jsf_raw_ok by exact K. discriminate. }
  apply andb_prop in R. destruct R as [R R3]. apply andb_prop in R. destruct R as [R1 R2]. unfold in_range in R1, R2, R3.
  assert (S' : size = 32%Z \/ size = 64%Z) by (clear - S; lia). clear S.
  assert (Np : forall x, p = Some x -> x <> 0%Z) by (intros x -> ->; contradiction).
  assert (Nq : forall x, q = Some x -> x <> 0%Z) by (intros x -> ->; contradiction). clear Hp Hq.
  unfold js_params_ok, js_w, rot_ok.
  destruct S' as [-> | ->]; cbn [Z.eqb jsf_default Pos.eqb nth_error] in H;
  destruct p as [p|], q as [q|], r as [r|]; cbn in H; injection H as <-; cbn [core js_p js_q js_r js_size Z.eqb Pos.eqb];
    try (specialize (Np _ eq_refl)); try (specialize (Nq _ eq_refl)); lia.
Qed.
(* every pair and default in JSF.parameters is defined *)
Theorem C39_jsf_parameters_safe :
  forall size p q r seeds b, In (p, q, r) (if (size =? 64)%Z then jsf64_parameters else jsf32_parameters) ->
  jsf_new size seeds (Some p) (Some q) (Some r) = Ok b -> js_params_ok (core b).
Proof.
  intros size p q r seeds b I H. apply (C39_jsf_rotations_partial _ _ _ _ _ _ H).
  - assert (A : forallb (fun '(p, q, r) => negb (p =? 0)%Z && negb (q =? 0)%Z) (if (size =? 64)%Z then jsf64_parameters else jsf32_parameters) = true) by (destruct (size =? 64)%Z; reflexivity).
    rewrite forallb_forall in A. specialize (A _ I). cbn in A. intros [= ->]. discriminate.
  - assert (A : forallb (fun '(p, q, r) => negb (p =? 0)%Z && negb (q =? 0)%Z) (if (size =? 64)%Z then jsf64_parameters else jsf32_parameters) = true) by (destruct (size =? 64)%Z; reflexivity).
    rewrite forallb_forall in A. specialize (A _ I). cbn in A. intros [= ->]. apply andb_prop in A. destruct A. discriminate.
Qed.
(* p = 0 and q = 0 are documented (0 <= p < size) and accepted, but the code
   then shifts by the word size, which C leaves undefined *)
Theorem C39_jsf_zero_rotation_refuted :
  exists b c, jsf_new 64 1 (Some 0%Z) None None = Ok b /\ jsf_raw b = None
  /\ jsf_new 32 1 None (Some 0%Z) None = Ok c /\ jsf_raw c = None.
Proof. eexists. eexists. split; [vm_compute; reflexivity|]. split; [reflexivity|]. split; [vm_compute; reflexivity|reflexivity]. Qed.
(* the state setter does not check the rotations at all *)
Theorem C39_jsf_setter_refuted :
  exists v t, js_good t /\ snd (jsf_set v t) = Ok tt /\ jsf_raw (fst (jsf_set v t)) = None.
Proof.
  exists (PDict [("bit_generator", PStr "JSF"); ("size", PInt 64); ("seed_size", PInt 1); ("has_uint32", PInt 0); ("uinteger", PInt 0);
     ("state", PDict [("a", PInt 1); ("b", PInt 2); ("c", PInt 3); ("d", PInt 4); ("p", PInt 200); ("q", PInt 13); ("r", PInt (-5))])]%string), (ex_jsf 64 false).
  split; [apply C24_small_case|]. split; vm_compute; reflexivity.
Qed.
Example C39_case : exists b, jsf_new 32 1 None None None = Ok b /\ js_p (core b) = 27%Z. Proof. eexists. split; [vm_compute; reflexivity|reflexivity]. Qed.

(* ------------------------------------------------------------------- C57 *)
(* Which seeds lead to a state that cannot be left? *)
Theorem C57_romu_quad_alive :
  forall w x y z n b, Forall (wf 64) [w; x; y; z] -> rc_variant (core b) = true ->
  ~ rm_dead true (rc_s (N.iter n (cstep rc_next) (core (romu_seed_from w x y z b)))).
Proof.
  intros w x y z n b F V. rewrite Forall_forall in F. rewrite rc_iter. unfold romu_seed_from. rewrite V. cbn [core rc_s rc_fn rc_variant].
  set (z' := if (w =? 0) && (x =? 0) && (y =? 0) && (z =? 0) then N.lor z 1 else z). assert (Wf : rm_wf (Romu w x y z')).
  { refine (conj _ (conj _ (conj _ _))); cbn [rm_w rm_x rm_y rm_z]; try (apply F; cbn; tauto).
    unfold z'. destruct ((w =? 0) && _ && _ && _); [apply wf_lor; [apply F; cbn; tauto|reflexivity]|apply F; cbn; tauto]. }
  unfold romu_seed. rewrite <- Niter_add. apply rm_alive; [exact Wf|].
  unfold rm_dead. cbn [rm_w rm_x rm_y rm_z]. intros (A & B & C & D). specialize (A eq_refl). subst w x y. revert D. unfold z'. rewrite !N.eqb_refl. cbn [andb].
  destruct (N.eqb_spec z 0) as [->|Nz]; [discriminate|]. exact Nz.
Qed.
(* trio ignores w, so the check "all four words zero" does not protect it; the
   default seed sequence (pool of four words) cannot give x = y = z = 0 *)
Theorem C57_romu_trio_alive :
  forall s p w x y z n b, ss_pool s = Some p -> ss_pool_size s = 4%nat -> generate64 4 p = [w; x; y; z] ->
  rc_variant (core b) = false ->
  ~ rm_dead false (rc_s (N.iter n (cstep rc_next) (core (romu_seed_from w x y z b)))).
Proof.
  intros s p w x y z n b Hs HP G V. rewrite rc_iter. unfold romu_seed_from. rewrite V. cbn [core rc_s rc_fn rc_variant].
  assert (O : okm 4 p).
  { unfold ss_pool in Hs. rewrite HP in Hs. cbn [Nat.ltb Nat.leb] in Hs. destruct (coerce (ss_entropy s)); [|discriminate]. destruct (coerce (SSeq _)); [|discriminate]. injection Hs as <-. apply mix_entropy_ok. }
  assert (Nt : forall j, (j < 4)%nat -> nth j (generate64 4 p) 0 = nth (2 * j) (generate32 8 p) 0 + 2 ^ 32 * nth (2 * j + 1) (generate32 8 p) 0).
  { intros j Hj. apply (pair64_nth _ 4); [apply gen32_length|exact Hj]. }
  assert (Wg : forall j, (j < 8)%nat -> wf 32 (nth j (generate32 8 p) 0)).
  { intros j Hj. unfold generate32. rewrite gen32_nth by exact Hj. apply scramble_wf. }
  assert (Wf : forall j, (j < 4)%nat -> wf 64 (nth j (generate64 4 p) 0)).
  { intros j Hj. rewrite Nt by exact Hj. pose proof (Wg (2 * j)%nat ltac:(lia)) as A. pose proof (Wg (2 * j + 1)%nat ltac:(lia)) as B.
    unfold wf in *. change (2 ^ 64) with 18446744073709551616. change (2 ^ 32) with 4294967296 in *. lia. }
  pose proof (Wf 0%nat ltac:(lia)) as W0. pose proof (Wf 1%nat ltac:(lia)) as W1. pose proof (Wf 2%nat ltac:(lia)) as W2. pose proof (Wf 3%nat ltac:(lia)) as W3.
  pose proof (Nt 1%nat ltac:(lia)) as N1. pose proof (Nt 3%nat ltac:(lia)) as N3. rewrite G in *. cbn [nth] in W0, W1, W2, W3, N1, N3.
  set (z' := if (w =? 0) && (x =? 0) && (y =? 0) && (z =? 0) then N.lor z 1 else z). assert (Wz : rm_wf (Romu w x y z')).
  { refine (conj W0 (conj W1 (conj W2 _))). cbn [rm_z]. unfold z'. destruct ((w =? 0) && _ && _ && _); [apply wf_lor; [exact W3|reflexivity]|exact W3]. }
  unfold romu_seed. rewrite <- Niter_add. apply rm_alive; [exact Wz|].
  unfold rm_dead. cbn [rm_w rm_x rm_y rm_z]. intros (_ & A & B & D).
  assert (z = 0) as Z0. { revert D. unfold z'. destruct ((w =? 0) && _ && _ && _); [|trivial]. intros E. exfalso. apply N.lor_eq_0_iff in E. destruct E. discriminate. }
  assert (G2 : nth 2 (generate32 8 p) 0 = 0) by (cbn [Nat.mul Nat.add] in *; lia).
  assert (G6 : nth 6 (generate32 8 p) 0 = 0) by (cbn [Nat.mul Nat.add] in *; lia).
  unfold generate32 in G2, G6. rewrite gen32_nth in G2, G6 by lia. rewrite (proj1 O) in G2, G6. change ((0 + 2) mod 4)%nat with 2%nat in G2. change ((0 + 6) mod 4)%nat with 2%nat in G6.
  assert (Z : forall i, scramble (hcB i INIT_B) (wmul 32 (hcB i INIT_B) MULT_B) (nth 2 p 0) = 0 -> nth 2 p 0 = hcB i INIT_B).
  { intros i Hi. assert (Hi2 := eq_trans Hi (eq_sym (scramble_0 (hcB i INIT_B) (wmul 32 (hcB i INIT_B) MULT_B)))). revert Hi2.
    apply scramble_inj; [apply odd_wmul; [apply hcB_odd|]; reflexivity|apply hcB_wf; reflexivity|now apply (SeedSeqFacts.nth_wf 4)|apply hcB_wf; reflexivity]. }
  apply Z in G2, G6. rewrite G2 in G6. vm_compute in G6. discriminate.
Qed.
(* any other source of seed words (a user's seed sequence) can *)
Theorem C57_romu_trio_dead_refuted :
  exists w x y z, Forall (wf 64) [w; x; y; z] /\ [w; x; y; z] <> [0; 0; 0; 0] /\
  forall n h, snd (rc_next (N.iter n (cstep rc_next) (core (romu_seed_from w x y z (ex_romu false h))))) = 0.
Proof.
  exists 1, 0, 0, 0. split; [repeat constructor|]. split; [discriminate|]. intros n h. rewrite rc_iter. unfold rc_next. cbn [rc_fn rc_s rc_variant].
  change (rc_fn (core (romu_seed_from 1 0 0 0 (ex_romu false h)))) with false.
  change (rc_s (core (romu_seed_from 1 0 0 0 (ex_romu false h)))) with (Romu 1 0 0 0).
  assert (E : N.iter n (cstep (romu_next false)) (Romu 1 0 0 0) = Romu 1 0 0 0).
  { induction n as [|n IH] using N.peano_ind; [reflexivity|]. rewrite N.iter_succ, IH. reflexivity. }
  rewrite E. reflexivity.
Qed.
Example C57_romu_case : exists p w x y z, ss_pool (SS (SInt 7) [] 4 0) = Some p /\ generate64 4 p = [w; x; y; z] /\ x <> 0 /\ rc_variant (core (ex_romu false true)) = false.
Proof. do 5 eexists. split; [vm_compute; reflexivity|]. split; [vm_compute; reflexivity|]. split; [discriminate|reflexivity]. Qed.
(* JSF with one seed word (the default) never starts on a fixed point, hence no
   state of the stream is one *)
Theorem C57_jsf_not_fixed_partial :
  forall s0 s1 s2 b0 b n, js_params_ok (core b0) -> js_seeds (core b0) = 1%Z -> wf (js_w (core b0)) s0 ->
  jsf_seed s0 s1 s2 b0 = Some b -> jsf_step (N.iter n jsf_step b) <> N.iter n jsf_step b.
Proof.
  intros s0 s1 s2 b0 b n P S W. unfold jsf_seed. rewrite jsf_draws_ok by exact P. intros Hb. apply some_inj in Hb. subst b.
  set (a0 := set_core (jsf_start s0 s1 s2 (core b0)) b0).
  assert (R : forall m x, N.iter m jsf_step (reset32 x) = reset32 (N.iter m jsf_step x)).
  { intros m x. induction m as [|m IH] using N.peano_ind; [reflexivity|]. rewrite !N.iter_succ, IH. reflexivity. }
  rewrite R, <- Niter_add. change (jsf_step (reset32 (N.iter (20 + n) jsf_step a0))) with (reset32 (jsf_step (N.iter (20 + n) jsf_step a0))).
  assert (Ga : js_good a0).
  { split; [exact P|]. unfold a0, js_wf, jsf_start, set_core, js_put, js_w. cbn [core js_a js_b js_c js_d js_size]. rewrite S.
    refine (conj _ (conj W (conj W W))). destruct (js_size (core b0) =? 64)%Z; reflexivity. }
  intros H. apply (f_equal (fun v => core v)) in H.
  assert (E : N.iter (20 + n) jsf_step (jsf_step a0) = N.iter (20 + n) jsf_step a0).
  { rewrite N.iter_swap. revert H. generalize (N.iter (20 + n) jsf_step a0). intros x H. destruct x as [c h u]. unfold jsf_step, set_core, reset32 in *. cbn [core has32 u32] in *. now rewrite H. }
  apply jsf_iter_inj in E; [|now apply jsf_step_good|exact Ga|reflexivity]. apply (f_equal (fun v => core v)) in E.
  destruct Ga as [_ Wa]. clear - E Wa S W P. unfold a0, jsf_step, jsf_out, jsf_start, set_core, js_put in *. cbn [core js_a js_b js_c js_d js_p js_q js_r js_size js_seeds js_w] in E.
  rewrite S in *. cbn [Z.ltb Z.compare Pos.compare Pos.compare_cont] in *. change (js_w (Jsf _ _ _ _ _ _ _ (js_size (core b0)) _)) with (js_w (core b0)) in E.
  remember (js_w (core b0)) as w eqn:Ew. assert (Wp : w = 64 \/ w = 32) by (rewrite Ew; unfold js_w; destruct (js_size (core b0) =? 64)%Z; tauto).
  destruct P as (P1 & P2 & P3). rewrite <- Ew in *. injection E as E1 E2 E3 E4.
  assert (Hz : s0 = 0).
  { set (d := if (js_r (core b0) =? 0)%Z then s0 else _) in E2. assert (D : wf w d) by (unfold d; destruct (js_r (core b0) =? 0)%Z; [exact W|now apply wf_rotl]).
    assert (d = 0) as D0. { apply (wadd_inj_l w s0); [exact D|apply pow2_pos|]. rewrite E2. unfold wadd. rewrite N.add_0_r. symmetry. now apply N.mod_small. }
    unfold d in D0. destruct (Z.eqb_spec (js_r (core b0)) 0) as [|Nr]; [exact D0|]. destruct P3 as [|P3]; [contradiction|].
    apply (rotl_inj w (Z.to_N (js_r (core b0))) s0 0); [exact W|apply pow2_pos|unfold rot_ok in P3; lia|unfold rot_ok in P3; lia|]. rewrite D0. symmetry. apply rotl_zero, pow2_pos. }
  subst s0. rewrite !rotl_zero in E1 by apply pow2_pos. cbn in E1. discriminate.
Qed.
Example C57_jsf_case : js_params_ok (core (ex_jsf 64 false)) /\ js_seeds (core (ex_jsf 64 false)) = 1%Z /\ exists b, jsf_seed 9 0 0 (ex_jsf 64 false) = Some b.
Proof. split; [refine (conj _ (conj _ (or_intror _))); split; reflexivity|]. split; [reflexivity|]. eexists. vm_compute. reflexivity. Qed.

(* ------------------------------------------------------------------- C18 *)
Theorem C18_jsf_restores : forall s t, jspy_wf s -> jsf_set (jsf_get s) t = (s, Ok tt).
Proof. exact jsf_set_get. Qed.
Theorem C18_romu_restores : forall s t, rmpy_ok s -> romu_set (romu_get s) t = (s, Ok tt).
Proof. exact romu_set_get. Qed.
Theorem C18_tyche_restores : forall s t, tp_ok s -> ty_set (ty_get s) t = (s, Ok tt).
Proof. exact ty_set_get. Qed.
Theorem C18_efiix_restores : forall s t, efpy_ok s -> ef_set (ef_get s) t = (s, Ok tt).
Proof. exact ef_set_get. Qed.
Example C18_small_case : jspy_wf (ex_jsf 32 true) /\ rmpy_ok (ex_romu false true) /\ tp_ok (ex_tyche false) /\ efpy_ok (ex_ef true).
Proof. refine (conj _ (conj _ (conj _ (conj (ex_ef_ok true) eq_refl)))); repeat split; discriminate. Qed.

(* ------------------------------------------------------------------- C19 *)
Theorem C19_jsf_not_atomic_refuted : ~ atomic jsf_set.
Proof.
  intros A. specialize (A (PDict [("bit_generator", PStr "JSF"); ("size", PInt 32)]%string) (ex_jsf 64 false)).
  revert A. vm_compute. intros A. specialize (A _ _ eq_refl). discriminate.
Qed.
Theorem C19_romu_not_atomic_refuted : ~ atomic romu_set.
Proof.
  intros A. specialize (A (PDict [("bit_generator", PStr "Romu"); ("state", PDict [("w", PInt 32)])]%string) (ex_romu true false)).
  revert A. vm_compute. intros A. specialize (A _ _ eq_refl). discriminate.
Qed.
Theorem C19_tyche_not_atomic_refuted : ~ atomic ty_set.
Proof.
  intros A. specialize (A (PDict [("bit_generator", PStr "Tyche"); ("state", PDict [("original", PInt 0)])]%string) (ex_tyche true)).
  revert A. vm_compute. intros A. specialize (A _ _ eq_refl). discriminate.
Qed.
Theorem C19_efiix_not_atomic_refuted : ~ atomic ef_set.
Proof.
  intros A. specialize (A (PDict [("bit_generator", PStr "EFIIX64"); ("state", PDict [("indirection_table", PArr 64 (repeat 0 16))])]%string) (ex_ef true)).
  revert A. vm_compute. intros A. specialize (A _ _ eq_refl). discriminate.
Qed.

(* ------------------------------------------------------------------- C20 *)
(* the tables of EFIIX64 are indexed within bounds at every draw of every stream *)
Theorem C20_efiix_in_bounds :
  forall n s, ef_ok s -> efiix_raw (N.iter n (cstep efiix_next) s) = Some (efiix_next (N.iter n (cstep efiix_next) s)).
Proof. intros n s H. apply efiix_raw_ok. now apply efiix_iter_ok. Qed.
Theorem C20_efiix_seeded :
  forall s1 s2 s3 s4 b, ef_ok (core b) -> ef_ok (core (ef_seed_from s1 s2 s3 s4 b)).
Proof. intros s1 s2 s3 s4 b H. apply (efiix_seed_spec s1 s2 s3 s4 (ef_iter (core b)) (ef_iter (core b))); apply H. Qed.
Example C20_efiix_case : ef_ok (core (ex_ef false)). Proof. apply ex_ef_ok. Qed.

(* ------------------------------------------------------------------- C21 *)
(* the seeding routine of EFIIX64 overwrites its table in place; every entry is
   overwritten *)
Theorem C21_efiix_reseed :
  forall s1 s2 s3 s4 b c, ef_ok (core b) -> ef_ok (core c) -> ef_seed_from s1 s2 s3 s4 b = ef_seed_from s1 s2 s3 s4 c.
Proof.
  intros s1 s2 s3 s4 b c Hb Hc. unfold ef_seed_from. 
  assert (E : efiix_seed (ef_iter (core b)) s1 s2 s3 s4 = efiix_seed (ef_iter (core c)) s1 s2 s3 s4) by (apply (efiix_seed_spec s1 s2 s3 s4 (ef_iter (core b)) (ef_iter (core c))); [apply Hb|apply Hc|apply Hb]).
  exact (f_equal (fun x => Buf x false 0) E).
Qed.
Theorem C21_romu_reseed :
  forall w x y z b c, rc_variant (core b) = rc_variant (core c) -> romu_seed_from w x y z b = romu_seed_from w x y z c.
Proof. intros w x y z b c H. unfold romu_seed_from. now rewrite H. Qed.
Theorem C21_jsf_reseed :
  forall s0 s1 s2 b c, js_params_ok (core b) -> js_params_ok (core c) ->
  js_p (core b) = js_p (core c) -> js_q (core b) = js_q (core c) -> js_r (core b) = js_r (core c) ->
  js_size (core b) = js_size (core c) -> js_seeds (core b) = js_seeds (core c) -> jsf_seed s0 s1 s2 b = jsf_seed s0 s1 s2 c.
Proof.
  intros s0 s1 s2 b c Pb Pc E1 E2 E3 E4 E5. unfold jsf_seed. rewrite !jsf_draws_ok by assumption.
  assert (HU : forall m (x y : jsfpy), core x = core y -> core (N.iter m jsf_step x) = core (N.iter m jsf_step y)).
  { intros m x y Hxy. induction m as [|m IH] using N.peano_ind; [exact Hxy|]. rewrite !N.iter_succ. exact (f_equal (fun s => jsf_out (js_w s) s) IH). }
  pose proof (HU 20 (set_core (jsf_start s0 s1 s2 (core b)) b) (set_core (jsf_start s0 s1 s2 (core c)) c)) as H.
  assert (E : core (set_core (jsf_start s0 s1 s2 (core b)) b) = core (set_core (jsf_start s0 s1 s2 (core c)) c)) by (unfold jsf_start, set_core, js_put; cbn [core]; now rewrite E1, E2, E3, E4, E5).
  exact (f_equal (fun x => Some (Buf x false 0)) (H E)).
Qed.
Theorem C21_tyche_reseed_partial :
  forall idx w0 w1 w2 s t, tp_orig s = tp_orig t -> tp_fn s = tp_fn t -> ty_seed_from idx w0 w1 w2 s = ty_seed_from idx w0 w1 w2 t.
Proof. intros idx w0 w1 w2 s t E F. unfold ty_seed_from. now rewrite E, F. Qed.
(* Tyche: a state assignment that fails after "original" was stored leaves the
   function pointers of the other variant; seed does not set them again. The
   generator is then seeded for one variant and stepped with the other. *)
Theorem C21_tyche_reseed_refuted :
  exists v t u fresh, tp_ok t /\ snd (ty_set v t) = Raise KeyError
  /\ ty_seed_from None 1 2 3 (fst (ty_set v t)) = Ok u /\ ty_new (tp_orig u) None 1 2 3 = Ok fresh
  /\ snd (ty_next32 u) <> snd (ty_next32 fresh).
Proof.
  exists (PDict [("bit_generator", PStr "Tyche"); ("state", PDict [("original", PInt 0)])]%string), (ex_tyche true). eexists. eexists.
  split; [repeat split|]. split; [vm_compute; reflexivity|]. split; [vm_compute; reflexivity|]. split; [vm_compute; reflexivity|]. vm_compute. discriminate.
Qed.

(* ------------------------------------------------------------------- C22 *)
Theorem C22_romu_halves :
  forall b, rm_wf (rc_s (core b)) -> has32 b = false ->
  let '(b1, lo) := b_next32 rc_next b in
  let '(b2, hi) := b_next32 rc_next b1 in
  let '(b3, v) := b_next64 rc_next b in
  lo + 2 ^ 32 * hi = v /\ core b2 = core b3 /\ has32 b2 = false.
Proof. exact (two32_is_64 rc_next (fun c => rm_wf (rc_s c)) rc_next_wf). Qed.
Theorem C22_romu_any_order :
  forall rs b, rm_wf (rc_s (core b)) -> exists n,
  let '(a, vs) := raws rc_next n (core b) in
  spec rs (queue b) vs = Some (queue (fst (run rc_next rs b)), snd (run rc_next rs b), []) /\ core (fst (run rc_next rs b)) = a.
Proof. exact (run_spec rc_next (fun c => rm_wf (rc_s c)) rc_next_wf). Qed.
Theorem C22_efiix_halves :
  forall b, ef_ok (core b) -> has32 b = false ->
  let '(b1, lo) := b_next32 efiix_next b in
  let '(b2, hi) := b_next32 efiix_next b1 in
  let '(b3, v) := b_next64 efiix_next b in
  lo + 2 ^ 32 * hi = v /\ core b2 = core b3 /\ has32 b2 = false.
Proof. exact (two32_is_64 efiix_next ef_ok efiix_next_ok). Qed.
Theorem C22_efiix_any_order :
  forall rs b, ef_ok (core b) -> exists n,
  let '(a, vs) := raws efiix_next n (core b) in
  spec rs (queue b) vs = Some (queue (fst (run efiix_next rs b)), snd (run efiix_next rs b), []) /\ core (fst (run efiix_next rs b)) = a.
Proof. exact (run_spec efiix_next ef_ok efiix_next_ok). Qed.
(* 64-bit JSF: while the rotations are defined its draws are those of the
   buffered generator over the total step *)
Definition js_core (s : jsf) : jsf * N := (jsf_out 64 s, js_d (jsf_out 64 s)).
Theorem C22_jsf64_buffered :
  forall b, js_params_ok (core b) -> js_size (core b) = 64%Z ->
  jsf_next32 b = Some (b_next32 js_core b) /\ forall lr, jsf_next64 lr b = Some (b_next64 js_core b).
Proof.
  intros b P Z. assert (W : js_w (core b) = 64) by (unfold js_w; rewrite Z; reflexivity).
  pose proof (jsf_next_ok (core b) P) as E. rewrite W in E. unfold jsf_next32, jsf_next64, jsf_raw. rewrite Z, W, E. cbn [Z.eqb Pos.eqb].
  split; [unfold b_next32, js_core; destruct (has32 b); reflexivity|]. intros lr. reflexivity.
Qed.
Theorem C22_jsf64_any_order :
  forall rs b, js_params_ok (core b) /\ js_wf (core b) /\ js_size (core b) = 64%Z -> exists n,
  let '(a, vs) := raws js_core n (core b) in
  spec rs (queue b) vs = Some (queue (fst (run js_core rs b)), snd (run js_core rs b), []) /\ core (fst (run js_core rs b)) = a.
Proof.
  apply (run_spec js_core (fun s => js_params_ok s /\ js_wf s /\ js_size s = 64%Z)). intros s (P & W & Z).
  assert (E : js_w s = 64) by (unfold js_w; rewrite Z; reflexivity). unfold js_core. cbn [fst snd]. pose proof (jsf_out_wf s W) as W'. rewrite E in W'.
  refine (conj (conj P (conj W' Z)) _). destruct W' as (_ & _ & _ & D). unfold js_w in D. change (js_size (jsf_out 64 s)) with (js_size s) in D. rewrite Z in D. exact D.
Qed.
Example C22_small_case : rm_wf (rc_s (core (ex_romu true false))) /\ js_size (core (ex_jsf 64 false)) = 64%Z
  /\ snd (run rc_next [R32; R64; R32] (ex_romu true true)) <> [].
Proof. split; [repeat split|]. split; [reflexivity|vm_compute; discriminate]. Qed.

(* ------------------------------------------------------------------- C54 *)
(* two draws in one expression: the compiler decides which half is which *)
Theorem C54_tyche_order_dependent_refuted :
  exists t, tp_ok t /\ snd (ty_next64 true t) <> snd (ty_next64 false t).
Proof. exists (ex_tyche true). split; [repeat split|vm_compute; discriminate]. Qed.
Theorem C54_jsf32_order_dependent_refuted :
  exists b, js_good b /\ js_size (core b) = 32%Z /\ option_map snd (jsf_next64 true b) <> option_map snd (jsf_next64 false b).
Proof. exists (ex_jsf 32 false). split; [apply C24_small_case|]. split; [reflexivity|vm_compute; discriminate]. Qed.
(* the state reached and, for JSF, the 64-bit size do not depend on it *)
Theorem C54_tyche_state_order_free :
  forall t, fst (ty_next64 true t) = fst (ty_next64 false t).
Proof. intros t. unfold ty_next64. destruct (ty_next32 t) as [t1 u]. destruct (ty_next32 t1) as [t2 v]. reflexivity. Qed.
Theorem C54_jsf64_order_free :
  forall b, js_size (core b) = 64%Z -> jsf_next64 true b = jsf_next64 false b.
Proof. intros b H. unfold jsf_next64. rewrite H. reflexivity. Qed.
Example C54_small_case : js_size (core (ex_jsf 64 false)) = 64%Z. Proof. reflexivity. Qed.

Print Assumptions C24_jsf_never_merges.
Print Assumptions C24_romu_never_merges.
Print Assumptions C24_tyche_never_merges.
Print Assumptions C24_efiix_never_merges.
Print Assumptions C25_jsf_seeds_distinct.
Print Assumptions C25_tyche_seeds_distinct.
Print Assumptions C25_tyche_idx_accepted.
Print Assumptions C25_tyche_idx_rejected.
Print Assumptions C25_tyche_idx_distinct.
Print Assumptions C25_romu_seeds_distinct_partial.
Print Assumptions C25_romu_seeds_distinct_refuted.
Print Assumptions C27_efiix_cycles.
Print Assumptions C27_efiix_streams_apart.
Print Assumptions C39_jsf_rotations_partial.
Print Assumptions C39_jsf_parameters_safe.
Print Assumptions C39_jsf_zero_rotation_refuted.
Print Assumptions C39_jsf_setter_refuted.
Print Assumptions C57_romu_quad_alive.
Print Assumptions C57_romu_trio_alive.
Print Assumptions C57_romu_trio_dead_refuted.
Print Assumptions C57_jsf_not_fixed_partial.
Print Assumptions C18_jsf_restores.
Print Assumptions C18_romu_restores.
Print Assumptions C18_tyche_restores.
Print Assumptions C18_efiix_restores.
Print Assumptions C19_jsf_not_atomic_refuted.
Print Assumptions C19_romu_not_atomic_refuted.
Print Assumptions C19_tyche_not_atomic_refuted.
Print Assumptions C19_efiix_not_atomic_refuted.
Print Assumptions C20_efiix_in_bounds.
Print Assumptions C20_efiix_seeded.
Print Assumptions C21_efiix_reseed.
Print Assumptions C21_romu_reseed.
Print Assumptions C21_jsf_reseed.
Print Assumptions C21_tyche_reseed_partial.
Print Assumptions C21_tyche_reseed_refuted.
Print Assumptions C22_romu_halves.
Print Assumptions C22_romu_any_order.
Print Assumptions C22_efiix_halves.
Print Assumptions C22_efiix_any_order.
Print Assumptions C22_jsf64_buffered.
Print Assumptions C22_jsf64_any_order.
Print Assumptions C54_tyche_order_dependent_refuted.
Print Assumptions C54_jsf32_order_dependent_refuted.
Print Assumptions C54_tyche_state_order_free.
Print Assumptions C54_jsf64_order_free.
