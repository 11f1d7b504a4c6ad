(* AESCounter: the generator and its Python class.
   Model of src/aesctr/aesctr.h, aesctr.c and aes.pyx. *)
From Verif Require Import Word Arr Common MultiWord Blocks Buffer32 LaneCtr Aes Py Half.
From Coq Require Import String ZifyBool ZifyNat ZifyN.
Open Scope N_scope.

(* ------------------------------------------------------ C engine, L = 4 *)
(* state->seed: 22 uint64, seen as 176 bytes by tiny_encrypt *)
Definition rk_bytes (key : list N) : list N := flat_map (to_words 8 8) key.
Definition block16 (p : N * N) : list N := to_words 8 8 (fst p) ++ to_words 8 8 (snd p).
Definition unblock16 (b : list N) : N * N := (lv 8 (firstn 8 b), lv 8 (skipn 8 b)).
(* aesctr.h:80-91, one lane *)
Definition aes_enc (key : list N) (p : N * N) : N * N := unblock16 (tiny_encrypt (rk_bytes key) (block16 p)).
(* aesctr.h:93-97 *)
Definition aes_inc (p : N * N) : N * N :=
  let lo := wadd 64 (fst p) 4 in (lo, wadd 64 (snd p) (N.b2n (lo <? 4))).
(* aesctr.h:51: offset >= 64; offset is a size_t *)
Definition aes_full (o : Z) : bool := (64 <=? o)%Z.
Definition size_wrap (o : Z) : Z := (o mod 2 ^ 64)%Z.
Definition aes_safe (_ : list N) : bool := true.
Definition aes_core := lst (list N).
Definition aes := buffered aes_core.
Definition aes_next : aes_core -> option (aes_core * N) := lnext aes_enc aes_inc aes_full size_wrap aes_safe.
Definition aes_draws : nat -> aes_core -> option (aes_core * list N) := ldraws aes_enc aes_inc aes_full size_wrap aes_safe.
(* aes.pyx:372-415 advance, 305-316 jump_inplace *)
Definition aes_advance : Z -> aes -> option aes := lpyadvance 4 aes_enc aes_inc aes_full size_wrap aes_safe.
Definition aes_jump : Z -> aes -> option aes := lpyjump 4 aes_enc aes_inc aes_full size_wrap aes_safe.
(* specification: half i mod 2 of the encryption of counter i/2 *)
Definition aes_stream : list N -> N -> N := lstream aes_enc.
Definition aes_pos : aes_core -> N := lpos 4.
Definition aes_kok (key : list N) : Prop := words 64 22 key.
Definition aes_inv : aes_core -> Prop := linv 4 aes_enc aes_kok.

(* the AES-NI path of the same functions *)
Definition ni_enc (key : list N) (p : N * N) : N * N := unblock16 (ni_encrypt (rk_bytes key) (block16 p)).
(* aesctr.h:64-71: add (0, 4); if the low word is less than 4 add (1, 0) *)
Definition ni_inc (p : N * N) : N * N :=
  let lo := wadd 64 (fst p) 4 in let hi := wadd 64 (snd p) 0 in
  if lo <? 4 then (wadd 64 lo 0, wadd 64 hi 1) else (lo, hi).
Definition ni_next : aes_core -> option (aes_core * N) := lnext ni_enc ni_inc aes_full size_wrap aes_safe.

(* ---------------------------------------------------------- Python class *)
Fixpoint words_of_bytes (n : nat) (l : list N) : list N :=
  match n with O => [] | S n => lv 8 (firstn 8 l) :: words_of_bytes n (skipn 8 l) end.
(* aes.pyx:233-246 seed(key=.., counter=..) after object_to_int; b: the object
   before (its buffer is kept, the offset is set to 64) *)
Definition aes_seed (key counter : N) (b : aes) : aes :=
  Buf (Lst (map (fun i => psplit ((counter + N.of_nat i) mod 2 ^ 128)) (seq 0 4))
           (words_of_bytes 22 (tiny_expand (block16 (psplit key))))
           (l_buf (core b)) 64) false 0.
(* a new object: calloc'd state *)
Definition aes_zero : aes := Buf (Lst (repeat (0, 0) 4) (repeat 0 22) (repeat 0 64) 0) false 0.

Definition aes_get (b : aes) : pyval :=
  let s := core b in
  PDict [("bit_generator", PStr "randomgen.aes.AESCounter");
         ("s", PDict [("state", PArr 8 (l_buf s)); ("seed", PArr 64 (l_key s));
                      ("counter", PArr 64 (flat_map (fun p => [fst p; snd p]) (l_ctr s)));
                      ("offset", PInt (l_off s))]);
         ("has_uint32", bool_int (has32 b)); ("uinteger", PInt (Z.of_N (u32 b)))]%string.
(* v[i] for an int i, converted to uint8 *)
Definition elem8 (v : pyval) (i : nat) : outcome N :=
  match v with
  | PArr _ l => match nth_error l i with Some x => to_uint 8 (PInt (Z.of_N x)) | None => Raise IndexError end
  | PDict _ => Raise KeyError
  | _ => Raise TypeError
  end.
(* for i in range(64): self.rng_state.state[i] = state[i] *)
Fixpoint aes_wr (v : pyval) (k i : nat) : M aes unit :=
  match k with
  | O => ret tt
  | S k => (x <- lift (elem8 v i);;
            modify (fun b => set_core (Lst (l_ctr (core b)) (l_key (core b)) (upd (l_buf (core b)) i x) (l_off (core b))) b);;
            aes_wr v k (S i))%py
  end.
(* np.ascontiguousarray(v, dtype=uint64): other objects are not tracked
   further (they fail here or in the shape test) *)
Definition asarray64 (v : pyval) : outcome (list N) :=
  match v with PArr _ l => if forallb (fun x => x <? 2 ^ 64) l then Ok l else Raise OverflowError | _ => Raise ValueError end.
Fixpoint pairs (l : list N) : list (N * N) := match l with x :: y :: l => (x, y) :: pairs l | _ => [] end.
(* aes.pyx:278-303 *)
Definition aes_set (v : pyval) : M aes unit := (
  lift (preamble "AESCounter" "randomgen.aes.AESCounter" v);;
  st <- lift (obind (getitem v "s") (fun d => getitem d "state"));;
  aes_wr st 64 0;;
  o <- lift (obind (getitem v "s") (fun d => obind (getitem d "offset") (to_uint 64)));;
  modify (fun b => set_core (set_off (Z.of_N o) (core b)) b);;
  seed <- lift (obind (getitem v "s") (fun d => obind (getitem d "seed") asarray64));;
  ctr <- lift (obind (getitem v "s") (fun d => obind (getitem d "counter") asarray64));;
  lift (if Nat.eqb (List.length seed) 22 then Ok tt else Raise ValueError);;
  lift (if Nat.eqb (List.length ctr) 8 then Ok tt else Raise ValueError);;
  modify (fun b => set_core (Lst (pairs ctr) seed (l_buf (core b)) (l_off (core b))) b);;
  set_half v)%py.
(* aes.pyx:345-370 jumped: a new object, given the state, then jumped *)
Definition aes_jumped (iter : Z) (t b : aes) : option aes :=
  match aes_set (aes_get b) t with (t', Ok _) => aes_jump iter t' | (t', Raise _) => None end.

(* ---------------------------------------------------------------- proofs *)
Lemma block16_words p : words 8 16 (block16 p).
Proof. split; [unfold block16; rewrite app_length, !to_words_length; reflexivity|]. apply Forall_app. auto using to_words_wf. Qed.
Lemma unblock_block p : pwf p -> unblock16 (block16 p) = p.
Proof.
  intros [A B]. unfold unblock16, block16. rewrite firstn_app, skipn_app, !to_words_length.
  replace (8 - 8)%nat with O by reflexivity. rewrite firstn_O, app_nil_r, skipn_O, firstn_all2, skipn_all2 by (rewrite to_words_length; auto).
  cbn [app]. rewrite !to_words_val. change (8 * N.of_nat 8) with 64. rewrite !N.mod_small by assumption. now destruct p.
Qed.
Lemma firstn_wf w n l : Forall (wf w) l -> Forall (wf w) (firstn n l).
Proof. intros H. rewrite <- (firstn_skipn n l) in H. apply Forall_app in H. apply H. Qed.
Lemma skipn_wf w n l : Forall (wf w) l -> Forall (wf w) (skipn n l).
Proof. intros H. rewrite <- (firstn_skipn n l) in H. apply Forall_app in H. apply H. Qed.
Lemma block_unblock b : words 8 16 b -> block16 (unblock16 b) = b.
Proof.
  intros [L W]. unfold block16, unblock16. cbn [fst snd]. rewrite !to_words_lv; auto using firstn_wf, skipn_wf.
  - apply firstn_skipn.
  - now rewrite skipn_length, L.
  - now rewrite firstn_length, L.
Qed.
Lemma unblock_wf b : words 8 16 b -> pwf (unblock16 b).
Proof.
  intros [L W]. split; cbn [unblock16 fst snd]; unfold wf.
  - pose proof (lv_lt 8 (firstn 8 b) (firstn_wf 8 8 b W)) as H. now rewrite firstn_length, L in H.
  - pose proof (lv_lt 8 (skipn 8 b) (skipn_wf 8 8 b W)) as H. now rewrite skipn_length, L in H.
Qed.
Lemma rk_bytes_wf key : Forall (wf 8) (rk_bytes key).
Proof. unfold rk_bytes. apply Forall_flat_map. apply Forall_forall. intros x _. apply to_words_wf. Qed.
(* the block function is a permutation of the 2^128 counters *)
Theorem aes_enc_bij key : (forall p, pwf p -> pwf (aes_enc key p)) /\
  exists g, (forall p, pwf p -> pwf (g p)) /\ (forall p, pwf p -> g (aes_enc key p) = p) /\ (forall p, pwf p -> aes_enc key (g p) = p).
Proof.
  pose proof (tiny_encrypt_permutes (rk_bytes key) (rk_bytes_wf key)) as [Hw (g & Gw & G1 & G2)].
  split; [intros p _; apply unblock_wf, Hw, block16_words|].
  exists (fun p => unblock16 (g (block16 p))). refine (conj _ (conj _ _)).
  - intros p _. apply unblock_wf, Gw, block16_words.
  - intros p Hp. unfold aes_enc. rewrite block_unblock by apply Hw, block16_words. rewrite G1 by apply block16_words. now apply unblock_block.
  - intros p Hp. unfold aes_enc. rewrite block_unblock by apply Gw, block16_words. rewrite G2 by apply block16_words. now apply unblock_block.
Qed.
Lemma aes_inc_val p : pwf p -> aes_inc p = psplit (pval p + 4).
Proof.
  intros Hp. pose proof (lane_add_val (4, 0) p (conj eq_refl eq_refl) Hp) as H. change (pval (4, 0)) with 4 in H. rewrite <- H.
  destruct Hp as [A B]. unfold aes_inc, lane_add. cbn [fst snd]. rewrite (wadd_0_r 64 _ B).
  assert (E : (wadd 64 (fst p) 4 <? 4) = (wadd 64 (fst p) 4 <? fst p)).
  { unfold wadd, wf in *. change (2 ^ 64) with 0x10000000000000000 in *. clear - A. generalize dependent (fst p). intros x A.
    destruct (N.lt_ge_cases (x + 4) 0x10000000000000000) as [H|H]; [rewrite N.mod_small by exact H; lia|].
    replace (x + 4) with (x + 4 - 0x10000000000000000 + 1 * 0x10000000000000000) by lia. rewrite N.mod_add by discriminate. rewrite N.mod_small by lia. lia. }
  rewrite E. destruct (wadd 64 (fst p) 4 <? fst p); cbn [N.b2n]; [reflexivity|]. now rewrite (wadd_0_r 64 _ B).
Qed.
Lemma aes_full_at : aes_full (16 * Z.of_N 4) = true. Proof. reflexivity. Qed.
Lemma aes_nfull o : (0 <= o < 16 * Z.of_N 4)%Z -> aes_full o = false.
Proof. unfold aes_full. lia. Qed.
Lemma aes_wrapo o : (0 <= o < 2 ^ 20)%Z -> size_wrap o = o.
Proof. intros H. unfold size_wrap. apply Z.mod_small. change (2 ^ 64)%Z with 18446744073709551616%Z. change (2 ^ 20)%Z with 1048576%Z in H. lia. Qed.
Lemma aes_HL : 1 <= 4 <= 100. Proof. lia. Qed.
Lemma aes_enc_wf k p : aes_kok k -> pwf p -> pwf (aes_enc k p).
Proof. intros _. apply aes_enc_bij. Qed.

Theorem aes_next_spec s : aes_inv s -> exists s', aes_next s = Some (s', aes_stream (l_key s) (aes_pos s)) /\ aes_inv s' /\ l_key s' = l_key s
  /\ aes_pos s' = (aes_pos s + 1) mod 2 ^ 129.
Proof. exact (lnext_spec 4 aes_enc aes_inc aes_full size_wrap aes_safe aes_kok aes_HL aes_inc_val aes_full_at aes_nfull aes_wrapo (fun _ _ => eq_refl) aes_enc_wf s). Qed.
Theorem aes_draws_spec k s : aes_inv s -> exists s',
  aes_draws k s = Some (s', map (fun i => aes_stream (l_key s) (aes_pos s + N.of_nat i)) (seq 0 k))
  /\ aes_inv s' /\ l_key s' = l_key s /\ aes_pos s' = (aes_pos s + N.of_nat k) mod 2 ^ 129.
Proof. exact (ldraws_spec 4 aes_enc aes_inc aes_full size_wrap aes_safe aes_kok aes_HL aes_inc_val aes_full_at aes_nfull aes_wrapo (fun _ _ => eq_refl) aes_enc_wf k s). Qed.
Theorem aes_advance_spec delta b : aes_inv (core b) -> exists b', aes_advance delta b = Some b' /\ aes_inv (core b') /\ l_key (core b') = l_key (core b)
    /\ Z.of_N (aes_pos (core b')) = ((Z.of_N (aes_pos (core b)) + delta) mod 2 ^ 129)%Z
    /\ ((delta mod 2 ^ 129 <> 0)%Z -> has32 b' = false) /\ ((delta mod 2 ^ 129 = 0)%Z -> b' = b).
Proof. exact (lpyadvance_spec 4 aes_enc aes_inc aes_full size_wrap aes_safe aes_kok aes_HL aes_inc_val aes_full_at aes_wrapo (fun _ _ => eq_refl) aes_enc_wf delta b). Qed.
Theorem aes_indist s t k : aes_inv s -> aes_inv t -> l_key s = l_key t -> aes_pos s = aes_pos t ->
    option_map snd (aes_draws k s) = option_map snd (aes_draws k t).
Proof. exact (l_indist 4 aes_enc aes_inc aes_full size_wrap aes_safe aes_kok aes_HL aes_inc_val aes_full_at aes_nfull aes_wrapo (fun _ _ => eq_refl) aes_enc_wf s t k). Qed.

(* advance(delta), delta >= 0, against delta draws *)
Theorem aes_advance_draws delta b : aes_inv (core b) ->
  exists s1 vs b', aes_draws (N.to_nat delta) (core b) = Some (s1, vs) /\ aes_advance (Z.of_N delta) b = Some b' /\ aes_inv (core b') /\
  forall k, option_map snd (aes_draws k (core b')) = option_map snd (aes_draws k s1).
Proof.
  intros Hi. destruct (aes_draws_spec (N.to_nat delta) (core b) Hi) as (s1 & E1 & I1 & K1 & P1).
  destruct (aes_advance_spec (Z.of_N delta) b Hi) as (b' & E2 & I2 & K2 & P2 & _).
  exists s1. eexists. exists b'. split; [exact E1|]. split; [exact E2|]. split; [exact I2|]. intros k. apply aes_indist; try assumption; [congruence|].
  rewrite N2Nat.id in P1. apply N2Z.inj. rewrite P2, P1, N2Z.inj_mod, N2Z.inj_add. reflexivity.
Qed.
(* advance(-delta) undoes delta draws *)
Theorem aes_advance_back delta b s1 vs : aes_inv (core b) -> aes_draws (N.to_nat delta) (core b) = Some (s1, vs) ->
  exists b', aes_advance (- Z.of_N delta) (Buf s1 (has32 b) (u32 b)) = Some b' /\ aes_inv (core b') /\
  forall k, option_map snd (aes_draws k (core b')) = option_map snd (aes_draws k (core b)).
Proof.
  intros Hi E. destruct (aes_draws_spec (N.to_nat delta) (core b) Hi) as (s1' & E1 & I1 & K1 & P1). rewrite E in E1. injection E1 as -> _.
  destruct (aes_advance_spec (- Z.of_N delta) (Buf s1' (has32 b) (u32 b)) I1) as (b' & E2 & I2 & K2 & P2 & _).
  exists b'. split; [exact E2|]. split; [exact I2|]. intros k. apply aes_indist; try assumption; [cbn [core] in K2; congruence|].
  rewrite N2Nat.id in P1. apply N2Z.inj. cbn [core] in P2. rewrite P2, P1, N2Z.inj_mod, N2Z.inj_add.
  change (Z.of_N (2 ^ 129)) with (2 ^ 129)%Z. rewrite Zplus_mod_idemp_l.
  replace (Z.of_N (aes_pos (core b)) + Z.of_N delta + - Z.of_N delta)%Z with (Z.of_N (aes_pos (core b))) by (clear; lia).
  apply Z.mod_small. split; [apply N2Z.is_nonneg|]. change (2 ^ 129)%Z with (Z.of_N (2 ^ 129)). apply N2Z.inj_lt. unfold aes_pos, lpos, Q. apply N.mod_lt, pow2_nz.
Qed.
(* AES-NI and software: the same draws *)
Lemma ni_enc_eq key p : ni_enc key p = aes_enc key p.
Proof. unfold ni_enc, aes_enc. now rewrite ni_encrypt_tiny by (apply rk_bytes_wf || apply block16_words). Qed.
Lemma ni_inc_eq p : pwf p -> ni_inc p = aes_inc p.
Proof.
  intros [A B]. unfold ni_inc, aes_inc. rewrite (wadd_0_r 64 (snd p) B), (wadd_0_r 64 (wadd 64 (fst p) 4)) by apply wf_wadd.
  destruct (_ <? _); cbn [N.b2n]; [reflexivity|]. now rewrite (wadd_0_r 64 (snd p) B).
Qed.
Theorem ni_next_eq s : Forall pwf (l_ctr s) -> ni_next s = aes_next s.
Proof.
  intros H. unfold ni_next, aes_next, lnext. destruct (aes_full (l_off s)); [|reflexivity].
  assert (E : lgen ni_enc ni_inc aes_safe s = lgen aes_enc aes_inc aes_safe s); [|now rewrite E].
  unfold lgen, aes_safe. f_equal. f_equal.
  - apply map_ext_in. intros p Hp. apply ni_inc_eq. rewrite Forall_forall in H. now apply H.
  - f_equal. apply flat_map_ext. intros p. now rewrite ni_enc_eq.
Qed.
(* seeding *)
Lemma words_of_bytes_ok n : forall l, words 8 (8 * n) l -> words 64 n (words_of_bytes n l) /\ flat_map (to_words 8 8) (words_of_bytes n l) = l.
Proof.
  induction n as [|n IH]; intros l [L W]; cbn [words_of_bytes flat_map].
  - destruct l; [|discriminate]. split; [split; [reflexivity|constructor]|reflexivity].
  - assert (W1 : words 8 (8 * n) (skipn 8 l)) by (split; [rewrite skipn_length, L; clear; lia|now apply skipn_wf]).
    destruct (IH _ W1) as [[L2 F2] E]. split.
    + split; [cbn [List.length]; now rewrite L2|]. constructor; [|exact F2]. unfold wf.
      pose proof (lv_lt 8 (firstn 8 l) (firstn_wf 8 8 l W)) as H. rewrite firstn_length, L in H.
      replace (Nat.min 8 (8 * S n)) with 8%nat in H by (clear; lia). exact H.
    + rewrite E, to_words_lv; [apply firstn_skipn|rewrite firstn_length, L; clear; lia|now apply firstn_wf].
Qed.
Lemma aes_seed_key key counter b : rk_bytes (l_key (core (aes_seed key counter b))) = tiny_expand (block16 (psplit key)).
Proof. cbn [aes_seed core l_key]. apply words_of_bytes_ok. exact (tiny_expand_words _ (block16_words _)). Qed.
Theorem aes_seed_inv key counter b : counter < 2 ^ 128 -> List.length (l_buf (core b)) = 64%nat ->
  aes_inv (core (aes_seed key counter b)) /\ aes_pos (core (aes_seed key counter b)) = 2 * counter.
Proof.
  intros Hc Hb. unfold aes_inv, aes_pos.
  assert (K : aes_kok (l_key (core (aes_seed key counter b)))).
  { cbn [aes_seed core l_key]. apply words_of_bytes_ok. exact (tiny_expand_words _ (block16_words _)). }
  assert (G : good 4 aes_enc counter (l_key (core (aes_seed key counter b))) (l_buf (core b)) 8).
  { split; [rewrite Hb; reflexivity|]. intros j Hj. exfalso. clear - Hj. lia. }
  assert (E : core (aes_seed key counter b) = Lst (lanes 4 counter) (l_key (core (aes_seed key counter b))) (l_buf (core b)) (8 * Z.of_N 8)).
  { cbn [aes_seed core l_key]. f_equal. unfold lanes. apply map_ext. intros i. apply psplit_mod. }
  destruct (mk_linv 4 aes_enc aes_kok aes_HL counter _ (l_buf (core b)) 8 K ltac:(clear; lia) G) as [I P].
  rewrite E. split; [exact I|]. rewrite P. unfold Q. change (2 ^ 129) with (2 * 2 ^ 128).
  replace (2 * counter + (2 * 2 ^ 128 - 2 * 4) + 8) with (2 * counter + 1 * (2 * 2 ^ 128)).
  - rewrite N.mod_add by discriminate. rewrite N.mod_small; [reflexivity|]. revert Hc. generalize (2 ^ 128). clear. lia.
  - clear. change (2 ^ 128) with 340282366920938463463374607431768211456. lia.
Qed.
(* the setter restores what the getter returned *)
Definition aes_ok (b : aes) : Prop :=
  Forall pwf (l_ctr (core b)) /\ List.length (l_ctr (core b)) = 4%nat /\ words 64 22 (l_key (core b)) /\ words 8 64 (l_buf (core b))
  /\ (0 <= l_off (core b) < 2 ^ 64)%Z /\ wf 32 (u32 b).
Lemma aes_wr_spec l : words 8 64 l -> forall k i b, (i + k = 64)%nat -> List.length (l_buf (core b)) = 64%nat ->
  firstn i (l_buf (core b)) = firstn i l ->
  aes_wr (PArr 8 l) k i b = (set_core (Lst (l_ctr (core b)) (l_key (core b)) l (l_off (core b))) b, Ok tt).
Proof.
  intros [L W]. induction k as [|k IH]; intros i b Hk Hb Hf; cbn [aes_wr].
  - assert (i = 64%nat) by (clear - Hk; lia). subst i. rewrite !firstn_all2 in Hf by (rewrite ?Hb, ?L; auto).
    destruct b as [[ctr key buf off] h u]. cbn in Hf. subst buf. reflexivity.
  - rewrite bind_lift. unfold elem8.
    assert (Hi : (i < List.length l)%nat) by (rewrite L; clear - Hk; lia).
    rewrite (nth_error_nth' l 0 Hi).
    assert (Wi : wf 8 (nth i l 0)) by (rewrite Forall_forall in W; now apply W, nth_In).
    rewrite (to_uint_ok 8 _ Wi). rewrite bind_modify. rewrite IH.
    + reflexivity.
    + clear - Hk. lia.
    + cbn [set_core core l_buf]. now rewrite upd_length.
    + cbn [set_core core l_buf]. set (buf := l_buf (core b)) in *.
      apply (nth_ext _ _ 0 0); [rewrite !firstn_length, upd_length, Hb, L; reflexivity|].
      intros j Hj. rewrite firstn_length, upd_length, Hb in Hj.
      assert (Hj' : (j < S i)%nat) by (clear - Hj Hk; lia).
      assert (F : forall m, nth j (firstn (S i) m) 0 = nth j m 0).
      { intros m. clear - Hj'. generalize dependent m. revert i Hj'. induction j as [|j IHj]; intros i Hj' [|y m]; cbn; try reflexivity. destruct i; [exfalso; lia|]. apply IHj. lia. }
      rewrite !F. rewrite upd_nth by (rewrite Hb; clear - Hk; lia). destruct (Nat.eqb_spec i j) as [->|Ne]; [reflexivity|].
      assert (F2 : forall m, nth j (firstn i m) 0 = nth j m 0).
      { assert (Hji : (j < i)%nat) by (clear - Hj' Ne; lia). intros m. clear - Hji. generalize dependent m. revert i Hji. induction j as [|j IHj]; intros i Hj' [|y m]; destruct i; cbn; try reflexivity; try (exfalso; lia). apply IHj. lia. }
      rewrite <- F2, Hf, F2. reflexivity.
Qed.
Lemma pairs_flat ps : pairs (flat_map (fun p => [fst p; snd p]) ps) = ps.
Proof. induction ps as [|[x y] ps IH]; [reflexivity|]. cbn [flat_map app fst snd pairs]. now rewrite IH. Qed.
Lemma forallb_wf64 l : Forall (wf 64) l -> forallb (fun x => x <? 2 ^ 64) l = true.
Proof. intros H. apply forallb_forall. intros x Hx. rewrite Forall_forall in H. apply N.ltb_lt, H, Hx. Qed.
Theorem aes_set_get b t : aes_ok b -> List.length (l_buf (core t)) = 64%nat -> aes_set (aes_get b) t = (b, Ok tt).
Proof.
  intros (Cw & Cl & [Kl Kw] & Bw & Ho & Hu) Ht. destruct b as [[ctr key buf off] h u]. cbn [core l_ctr l_key l_buf l_off u32] in *.
  unfold aes_set, aes_get. cbn [core l_ctr l_key l_buf l_off has32 u32].
  rewrite bind_lift. cbn [preamble get_default assoc String.eqb Ascii.eqb Bool.eqb orb].
  rewrite bind_lift. cbn [getitem assoc String.eqb Ascii.eqb Bool.eqb obind].
  unfold bind at 1. rewrite (aes_wr_spec buf Bw 64 0 t eq_refl Ht eq_refl).
  rewrite bind_lift. replace off with (Z.of_N (Z.to_N off)) at 1 by (apply Z2N.id; apply Ho).
  rewrite to_uint_ok by (unfold wf; apply N2Z.inj_lt; rewrite Z2N.id by apply Ho; apply Ho).
  rewrite bind_modify, Z2N.id by apply Ho. rewrite bind_lift. cbn [asarray64]. rewrite forallb_wf64 by exact Kw.
  rewrite bind_lift. cbn [asarray64]. rewrite forallb_wf64.
  2:{ apply Forall_flat_map. apply (Forall_impl _ (fun p Hp => Forall_cons _ (proj1 Hp) (Forall_cons _ (proj2 Hp) (Forall_nil _))) Cw). }
  rewrite bind_lift, Kl. cbn [Nat.eqb]. rewrite bind_lift, flat2_length, Cl. cbn [Nat.mul Nat.add Nat.eqb].
  rewrite bind_modify. rewrite (set_half_run _ h u) by (try reflexivity; exact Hu).
  cbn [set_core core set_off l_buf l_off]. rewrite pairs_flat. reflexivity.
Qed.
Lemma aes_inv_ok b : aes_inv (core b) -> Forall (wf 8) (l_buf (core b)) -> wf 32 (u32 b) -> aes_ok b.
Proof.
  intros Hi Hb Hu. destruct (linv_bounds 4 aes_enc aes_kok _ Hi) as (Cw & Cl & Bl & Ob). pose proof Hi as (Kk & _).
  refine (conj Cw (conj Cl (conj Kk (conj (conj Bl Hb) (conj _ Hu))))). change (2 ^ 64)%Z with 18446744073709551616%Z. clear - Ob. lia.
Qed.
(* states of live objects *)
Definition aes_live (b : aes) : Prop := aes_inv (core b) /\ Forall (wf 8) (l_buf (core b)) /\ wf 32 (u32 b).
Lemma aes_live_ok b : aes_live b -> aes_ok b.
Proof. intros (A & B & C). now apply aes_inv_ok. Qed.
Lemma aes_live_draws k b s' vs : aes_live b -> aes_draws k (core b) = Some (s', vs) -> aes_live (set_core s' b).
Proof.
  intros (Hi & Hb & Hu) E. destruct (aes_draws_spec k (core b) Hi) as (s1 & E1 & I1 & _). rewrite E in E1. injection E1 as <- _.
  refine (conj I1 (conj (ldraws_bytes _ _ _ _ _ k _ _ _ E Hb) Hu)).
Qed.
Lemma aes_live_advance d b b' : aes_live b -> aes_advance d b = Some b' -> aes_live b'.
Proof.
  intros (Hi & Hb & Hu) E. destruct (aes_advance_spec d b Hi) as (b1 & E1 & I1 & _). rewrite E in E1. injection E1 as <-.
  refine (conj I1 (conj (lpyadvance_bytes _ _ _ _ _ _ d b b' E Hb) _)).
  unfold aes_advance, lpyadvance in E. destruct (_ =? _)%Z; [injection E as <-; exact Hu|]. destruct (ladv _ _ _ _ _ _ _ _); [|discriminate]. injection E as <-. exact eq_refl.
Qed.
Lemma aes_live_seed key counter b : counter < 2 ^ 128 -> words 8 64 (l_buf (core b)) -> aes_live (aes_seed key counter b).
Proof. intros Hc [Lb Wb]. exact (conj (proj1 (aes_seed_inv key counter b Hc Lb)) (conj Wb eq_refl)). Qed.
Lemma aes_zero_buf : words 8 64 (l_buf (core aes_zero)).
Proof. split; [reflexivity|]. apply Forall_forall. intros x Hx. apply repeat_spec in Hx. subst. reflexivity. Qed.
Theorem aes_jumped_spec iter t b : aes_live b -> List.length (l_buf (core t)) = 64%nat ->
  exists b', aes_jumped iter t b = Some b' /\ aes_inv (core b') /\ l_key (core b') = l_key (core b)
  /\ Z.of_N (aes_pos (core b')) = ((Z.of_N (aes_pos (core b)) + iter * 2 ^ 64) mod 2 ^ 129)%Z.
Proof.
  intros H Ht. unfold aes_jumped. rewrite (aes_set_get b t (aes_live_ok b H) Ht).
  destruct (aes_advance_spec (iter * 2 ^ 64) b (proj1 H)) as (b' & E & I & K & P & _). exists b'. refine (conj _ (conj I (conj K P))). exact E.
Qed.

Lemma add_mod_cancel q k a b : a < q -> b < q -> (a + k) mod q = (b + k) mod q -> a = b.
Proof.
  intros A B E. assert (Q0 : q <> 0) by (clear - A; lia).
  assert (H : forall c, c < q -> ((c + k) mod q + (q - k mod q)) mod q = c).
  { intros c Hc. rewrite N.add_mod_idemp_l by exact Q0. rewrite <- N.add_assoc. rewrite <- (N.add_mod_idemp_r c _ q Q0).
    replace ((k + (q - k mod q)) mod q) with 0; [rewrite N.add_0_r; now apply N.mod_small|].
    pose proof (N.mod_lt k q Q0). rewrite (N.div_mod k q Q0) at 1. replace (q * (k / q) + k mod q + (q - k mod q)) with ((k / q + 1) * q); [symmetry; now apply N.mod_mul|].
    revert H. generalize (k / q) (k mod q). clear. intros; nia. }
  rewrite <- (H a A), <- (H b B), E. reflexivity.
Qed.
Theorem aes_never_merges k s t s' t' vs ws : aes_inv s -> aes_inv t -> aes_pos s <> aes_pos t ->
  aes_draws k s = Some (s', vs) -> aes_draws k t = Some (t', ws) -> aes_pos s' <> aes_pos t'.
Proof.
  intros Hs Ht Ne E1 E2 Eq. apply Ne. destruct (aes_draws_spec k s Hs) as (s1 & F1 & _ & _ & P1). rewrite E1 in F1. injection F1 as <- _.
  destruct (aes_draws_spec k t Ht) as (t1 & F2 & _ & _ & P2). rewrite E2 in F2. injection F2 as <- _.
  rewrite P1, P2 in Eq. exact (add_mod_cancel (2 ^ 129) (N.of_nat k) _ _ (lpos_lt 4 s) (lpos_lt 4 t) Eq).
Qed.

Theorem aes_restores : restores aes_live aes_get aes_set.
Proof. intros b t Hb Ht. apply aes_set_get; [now apply aes_live_ok|]. pose proof (aes_live_ok t Ht) as (_ & _ & _ & (L & _) & _). exact L. Qed.
Theorem aes_jumps_compose i j t1 t2 t3 b b1 b2 b3 k : aes_live b -> List.length (l_buf (core t1)) = 64%nat -> List.length (l_buf (core t2)) = 64%nat ->
  List.length (l_buf (core t3)) = 64%nat ->
  aes_jumped i t1 b = Some b1 -> aes_jumped j t2 b1 = Some b2 -> aes_jumped (i + j) t3 b = Some b3 ->
  option_map snd (aes_draws k (core b2)) = option_map snd (aes_draws k (core b3)).
Proof.
  intros Hb H1 H2 H3 E1 E2 E3. unfold aes_jumped in *. rewrite aes_set_get in E1, E3 by (auto using aes_live_ok).
  pose proof (aes_live_advance _ _ _ Hb E1) as Hb1. rewrite aes_set_get in E2 by (auto using aes_live_ok).
  unfold aes_jump, lpyjump in E1, E2, E3. rewrite Z.mul_add_distr_r in E3.
  destruct (lpyadvance_add 4 aes_enc aes_inc aes_full size_wrap aes_safe aes_kok aes_HL aes_inc_val aes_full_at aes_wrapo (fun _ _ => eq_refl) aes_enc_wf
              _ _ b b1 b2 b3 (proj1 Hb) E1 E2 E3) as (P & K & I2 & I3). now apply aes_indist.
Qed.
