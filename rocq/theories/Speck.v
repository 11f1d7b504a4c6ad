(* SPECK128: the generator and its Python class.
   Model of src/speck-128/*.h, speck-128.c and speck128.pyx. *)
From Verif Require Import Word Arr Common MultiWord Blocks Buffer32 LaneCtr Aes AesPy Py Half.
From Coq Require Import String ZifyBool ZifyNat ZifyN.
Open Scope N_scope.

(* ------------------------------------------------------------ block cipher *)
(* speck-128.h:22-30 ER64(x, y, s); the pair is (y, x), as a lane is
   (u64[0], u64[1]) and generate_block_fast calls ER64(buffer[1], buffer[0]) *)
Definition er64 (k : N) (p : N * N) : N * N :=
  let x := N.lxor (wadd 64 (rotr 64 (snd p) 8) (fst p)) k in
  (N.lxor (rotl 64 (fst p) 3) x, x).
Definition er64_inv (k : N) (p : N * N) : N * N :=
  let y := rotr 64 (N.lxor (fst p) (snd p)) 3 in
  (y, rotl 64 (wsub 64 (N.lxor (snd p) k) y) 8).
(* round_key: 34 pairs (u64[0], u64[1]); rounds: C int *)
Record skey := SKey { sk_rk : list (N * N); sk_rounds : Z }.
Definition sk_used (k : skey) : list (N * N) := firstn (Z.to_nat (sk_rounds k)) (sk_rk k).
(* speck-128.h:83-103 generate_block_fast, one lane *)
Definition sp_enc (k : skey) (p : N * N) : N * N := fold_left (fun p r => er64 (fst r) p) (sk_used k) p.
(* the loop reads round_key[0..rounds-1] *)
Definition sp_safe (k : skey) : bool := (sk_rounds k <=? Z.of_nat (List.length (sk_rk k)))%Z.
(* speck-128-common.h:35-44 *)
Definition sp_inc (p : N * N) : N * N :=
  let lo := wadd 64 (fst p) 6 in (lo, if lo <? fst p then wadd 64 (snd p) 1 else snd p).
(* speck-128.h:109 offset == SPECK_BUFFER_SZ; offset is an int *)
Definition sp_full (o : Z) : bool := (o =? 96)%Z.
Definition int_wrap (o : Z) : Z := ((o + 2 ^ 31) mod 2 ^ 32 - 2 ^ 31)%Z.

Definition sp_core := lst skey.
Definition speck := buffered sp_core.
Definition sp_next : sp_core -> option (sp_core * N) := lnext sp_enc sp_inc sp_full int_wrap sp_safe.
Definition sp_draws : nat -> sp_core -> option (sp_core * list N) := ldraws sp_enc sp_inc sp_full int_wrap sp_safe.
(* speck128.pyx:402-445 advance, 340-349 jump_inplace *)
Definition sp_advance : Z -> speck -> option speck := lpyadvance 6 sp_enc sp_inc sp_full int_wrap sp_safe.
Definition sp_jump : Z -> speck -> option speck := lpyjump 6 sp_enc sp_inc sp_full int_wrap sp_safe.
Definition sp_stream : skey -> N -> N := lstream sp_enc.
Definition sp_pos : sp_core -> N := lpos 6.
Definition sp_kok (k : skey) : Prop := List.length (sk_rk k) = 34%nat /\ Forall pwf (sk_rk k) /\ (0 < sk_rounds k <= 34)%Z.
Definition sp_inv : sp_core -> Prop := linv 6 sp_enc sp_kok.

(* ------------------------------------------------------------- SSE path *)
(* an __m128i as its two 64-bit halves (low, high) *)
Definition v128 : Type := N * N.
Definition v_low (a b : v128) : v128 := (fst a, fst b).     (* _mm_unpacklo_epi64 *)
Definition v_high (a b : v128) : v128 := (snd a, snd b).    (* _mm_unpackhi_epi64 *)
Definition v_add (a b : v128) : v128 := (wadd 64 (fst a) (fst b), wadd 64 (snd a) (snd b)).
Definition v_xor (a b : v128) : v128 := (N.lxor (fst a) (fst b), N.lxor (snd a) (snd b)).
Definition v_sl (a : v128) (r : N) : v128 := (wshl 64 (fst a) r, wshl 64 (snd a) r).
Definition v_sr (a : v128) (r : N) : v128 := (N.shiftr (fst a) r, N.shiftr (snd a) r).
(* _mm_shuffle_epi8: byte i of the result is byte (mask[i] & 15) of a, or 0
   when the top bit of mask[i] is set *)
Definition v_shuffle (a mask : v128) : v128 :=
  let src := block16 a in
  unblock16 (map (fun m => if N.testbit m 7 then 0 else nth (N.to_nat (N.land m 15)) src 0) (block16 mask)).
(* speck-128-sse.h:22-24 *)
Definition R8 : v128 := (0x0007060504030201, 0x080f0e0d0c0b0a09).
Definition ROR8 (a : v128) : v128 := v_shuffle a R8.
Definition ROL (a : v128) (r : N) : v128 := v_xor (v_sl a r) (v_sr a (64 - r)).
(* one column of Rx6, speck-128-sse.h:36-41: (X[j], Y[j]) *)
Definition rx (k : v128) (xy : v128 * v128) : v128 * v128 :=
  let x := v_xor (v_add (ROR8 (fst xy)) (snd xy)) k in
  (x, v_xor (ROL (snd xy) 3) x).
(* speck-128-sse.h:69-91 LOAD and 93-115 STORE, one column: lanes R and S *)
Definition v_load (r s : v128) : v128 * v128 := (v_high r s, v_low r s).
Definition v_store (xy : v128 * v128) : v128 * v128 := (v_low (snd xy) (fst xy), v_high (snd xy) (fst xy)).
Definition sse_pair (k : skey) (r s : v128) : v128 * v128 :=
  v_store (fold_left (fun xy key => rx key xy) (sk_used k) (v_load r s)).
(* speck-128-sse.h:117-133, the buffer as a list of lanes *)
Fixpoint sse_lanes (k : skey) (l : list v128) : list v128 :=
  match l with
  | r :: s :: l => fst (sse_pair k r s) :: snd (sse_pair k r s) :: sse_lanes k l
  | _ => []
  end.
(* speck-128-sse.h:135-142 generate_block_ssse3 *)
Definition sse_gen (s : sp_core) : option sp_core :=
  if sp_safe (l_key s) then
    Some (Lst (map sp_inc (l_ctr s)) (l_key s)
            (flat_map (to_words 8 8) (flat_map (fun p => [fst p; snd p]) (sse_lanes (l_key s) (l_ctr s)))) 0)
  else None.
(* speck-128.h:105-122 with RANDOMGEN_USE_SSE41 == 1 *)
Definition sse_next (s : sp_core) : option (sp_core * N) :=
  match (if sp_full (l_off s) then sse_gen s else Some s) with
  | Some s => match rd64 (l_buf s) (l_off s) with
              | Some v => Some (Lst (l_ctr s) (l_key s) (l_buf s) (int_wrap (l_off s + 8)), v)
              | None => None end
  | None => None
  end.
(* a run in which use_sse41 may be toggled between any two draws *)
Fixpoint mixed_draws (path : list bool) (s : sp_core) : option (sp_core * list N) :=
  match path with
  | [] => Some (s, [])
  | b :: path => match (if b then sse_next s else sp_next s) with
                 | Some (s1, v) => match mixed_draws path s1 with Some (s2, vs) => Some (s2, v :: vs) | None => None end
                 | None => None end
  end.

(* ------------------------------------------------------------ key schedule *)
(* speck-128.h:44-64: i = 0, 3, ..., 30; state (A, B, C, D) *)
Definition kx_step (st : N * N * N * N * list N) (i : N) : N * N * N * N * list N :=
  let '(a, b, c, d, out) := st in
  let out := out ++ [a] in
  let '(a, b) := er64 i (a, b) in
  let out := out ++ [a] in
  let '(a, c) := er64 (i + 1) (a, c) in
  let out := out ++ [a] in
  let '(a, d) := er64 (i + 2) (a, d) in
  (a, b, c, d, out).
Definition sp_expand (key : N) : list N :=
  match to_words 64 4 key with
  | [a; b; c; d] => let '(a, _, _, _, out) := fold_left kx_step [0; 3; 6; 9; 12; 15; 18; 21; 24; 27; 30] (a, b, c, d, []) in out ++ [a]
  | _ => []
  end.
(* speck-128.c:36-45 speck_set_counter *)
Definition sp_set_counter (c : N * N) : list (N * N) :=
  map (fun i => let lo := wadd 64 (fst c) (N.of_nat i) in
                (lo, wadd 64 (snd c) (N.b2n (lo <? fst c)))) (seq 0 6).
(* speck128.pyx:221-230 seed(key=.., counter=..) after object_to_int *)
Definition sp_seed (key counter : N) (b : speck) : speck :=
  Buf (Lst (sp_set_counter (psplit counter)) (SKey (map (fun a => (a, a)) (sp_expand key)) (sk_rounds (l_key (core b))))
           (l_buf (core b)) 96) false 0.
(* speck128.pyx:141-164: a calloc'd state with rounds set (1..34 enforced) *)
Definition sp_zero (rounds : Z) : speck := Buf (Lst (repeat (0, 0) 6) (SKey (repeat (0, 0) 34) rounds) (repeat 0 96) 0) false 0.

(* ---------------------------------------------------------------- state *)
Definition flat2 (l : list (N * N)) : list N := flat_map (fun p => [fst p; snd p]) l.
(* speck128.pyx:261-300 *)
Definition sp_get (b : speck) : pyval :=
  let s := core b in
  PDict [("bit_generator", PStr "randomgen.speck128.SPECK128");
         ("state", PDict [("ctr", PArr 64 (flat2 (l_ctr s))); ("buffer", PArr 64 (words_of_bytes 12 (l_buf s)));
                          ("round_key", PArr 64 (flat2 (sk_rk (l_key s)))); ("offset", PInt (l_off s)); ("rounds", PInt (sk_rounds (l_key s)))]);
         ("has_uint32", bool_int (has32 b)); ("uinteger", PInt (Z.of_N (u32 b)))]%string.
(* speck128.pyx:302-338 *)
Definition sp_set (v : pyval) : M speck unit := (
  lift (preamble "SPECK128" "randomgen.speck128.SPECK128" v);;
  ctr <- lift (obind (getitem v "state") (fun d => obind (getitem d "ctr") (check_arr 12 64)));;
  buf <- lift (obind (getitem v "state") (fun d => obind (getitem d "buffer") (check_arr 12 64)));;
  rk <- lift (obind (getitem v "state") (fun d => obind (getitem d "round_key") (check_arr 68 64)));;
  modify (fun b => set_core (Lst (pairs ctr) (SKey (pairs rk) (sk_rounds (l_key (core b)))) (flat_map (to_words 8 8) buf) (l_off (core b))) b);;
  r <- lift (obind (getitem v "state") (fun d => obind (getitem d "rounds") to_cint));;
  modify (fun b => set_core (Lst (l_ctr (core b)) (SKey (sk_rk (l_key (core b))) r) (l_buf (core b)) (l_off (core b))) b);;
  o <- lift (obind (getitem v "state") (fun d => obind (getitem d "offset") to_cint));;
  modify (fun b => set_core (set_off o (core b)) b);;
  set_half v)%py.
Definition sp_jumped (iter : Z) (t b : speck) : option speck :=
  match sp_set (sp_get b) t with (t', Ok _) => sp_jump iter t' | (t', Raise _) => None end.

(* ---------------------------------------------------------------- proofs *)
Lemma er64_wf k p : wf 64 k -> pwf p -> pwf (er64 k p).
Proof. intros Hk [A B]. split; cbn [er64 fst snd]; repeat apply wf_lxor; auto using wf_wadd, wf_rotl. Qed.
Lemma er64_inv_wf k p : wf 64 k -> pwf p -> pwf (er64_inv k p).
Proof. intros Hk [A B]. split; cbn [er64_inv fst snd]; auto using wf_rotr, wf_rotl, wf_lxor, wf_wsub. Qed.
Lemma er64_left k p : pwf p -> er64_inv k (er64 k p) = p.
Proof.
  intros [A B]. destruct p as [y x]. unfold er64, er64_inv. cbn [fst snd] in *.
  rewrite !lxor_cancel. rewrite (rotr_rotl_inv 64 y 3 A eq_refl eq_refl). rewrite wsub_wadd by now apply wf_rotr.
  now rewrite rotl_rotr_inv.
Qed.
Lemma er64_right k p : wf 64 k -> pwf p -> er64 k (er64_inv k p) = p.
Proof.
  intros Hk [A B]. destruct p as [y x]. unfold er64, er64_inv. cbn [fst snd] in *.
  rewrite rotr_rotl_inv by (auto using wf_wsub; reflexivity). rewrite wadd_wsub by now apply wf_lxor.
  rewrite lxor_cancel, rotl_rotr_inv by (auto using wf_lxor; reflexivity). now rewrite lxor_cancel.
Qed.
Lemma sk_used_wf k : Forall pwf (sk_rk k) -> Forall pwf (sk_used k).
Proof. intros H. unfold sk_used. rewrite <- (firstn_skipn (Z.to_nat (sk_rounds k)) (sk_rk k)) in H. apply Forall_app in H. apply H. Qed.
Lemma fold_er_bij l : Forall pwf l -> (forall p, pwf p -> pwf (fold_left (fun p r => er64 (fst r) p) l p)) /\
  exists g, (forall p, pwf p -> pwf (g p)) /\ (forall p, pwf p -> g (fold_left (fun p r => er64 (fst r) p) l p) = p)
            /\ (forall p, pwf p -> fold_left (fun p r => er64 (fst r) p) l (g p) = p).
Proof.
  induction l as [|r l IH]; intros H; cbn [fold_left].
  - split; [auto|]. exists (fun p => p). auto.
  - pose proof (Forall_inv H) as [R _]. destruct (IH (Forall_inv_tail H)) as [W (g & G0 & G1 & G2)].
    split; [intros p Hp; apply W; now apply er64_wf|].
    exists (fun p => er64_inv (fst r) (g p)). refine (conj _ (conj _ _)); intros p Hp.
    + apply er64_inv_wf; auto.
    + rewrite G1 by now apply er64_wf. now apply er64_left.
    + rewrite er64_right by auto. now apply G2.
Qed.
Theorem sp_enc_bij k : Forall pwf (sk_rk k) -> (forall p, pwf p -> pwf (sp_enc k p)) /\
  exists g, (forall p, pwf p -> pwf (g p)) /\ (forall p, pwf p -> g (sp_enc k p) = p) /\ (forall p, pwf p -> sp_enc k (g p) = p).
Proof. intros H. exact (fold_er_bij _ (sk_used_wf k H)). Qed.

Lemma sp_inc_val p : pwf p -> sp_inc p = psplit (pval p + 6).
Proof.
  intros Hp. pose proof (lane_add_val (6, 0) p (conj eq_refl eq_refl) Hp) as H. change (pval (6, 0)) with 6 in H. rewrite <- H.
  destruct Hp as [A B]. unfold sp_inc, lane_add. cbn [fst snd]. now rewrite (wadd_0_r 64 _ B).
Qed.
Lemma sp_full_at : sp_full (16 * Z.of_N 6) = true. Proof. reflexivity. Qed.
Lemma sp_nfull o : (0 <= o < 16 * Z.of_N 6)%Z -> sp_full o = false.
Proof. unfold sp_full. lia. Qed.
Lemma sp_wrapo o : (0 <= o < 2 ^ 20)%Z -> int_wrap o = o.
Proof. intros H. unfold int_wrap. change (2 ^ 32)%Z with 4294967296%Z. change (2 ^ 31)%Z with 2147483648%Z. change (2 ^ 20)%Z with 1048576%Z in H. rewrite Z.mod_small; clear - H; lia. Qed.
Lemma sp_HL : 1 <= 6 <= 100. Proof. lia. Qed.
Lemma sp_Hsafe k : sp_kok k -> sp_safe k = true.
Proof. intros (L & _ & R). unfold sp_safe. rewrite L. clear - R. lia. Qed.
Lemma sp_enc_wf k p : sp_kok k -> pwf p -> pwf (sp_enc k p).
Proof. intros (_ & H & _). now apply sp_enc_bij. Qed.
Theorem sp_next_spec s : sp_inv s -> exists s', sp_next s = Some (s', sp_stream (l_key s) (sp_pos s)) /\ sp_inv s' /\ l_key s' = l_key s
  /\ sp_pos s' = (sp_pos s + 1) mod 2 ^ 129.
Proof. exact (lnext_spec 6 sp_enc sp_inc sp_full int_wrap sp_safe sp_kok sp_HL sp_inc_val sp_full_at sp_nfull sp_wrapo sp_Hsafe sp_enc_wf s). Qed.
Theorem sp_draws_spec k s : sp_inv s -> exists s',
  sp_draws k s = Some (s', map (fun i => sp_stream (l_key s) (sp_pos s + N.of_nat i)) (seq 0 k))
  /\ sp_inv s' /\ l_key s' = l_key s /\ sp_pos s' = (sp_pos s + N.of_nat k) mod 2 ^ 129.
Proof. exact (ldraws_spec 6 sp_enc sp_inc sp_full int_wrap sp_safe sp_kok sp_HL sp_inc_val sp_full_at sp_nfull sp_wrapo sp_Hsafe sp_enc_wf k s). Qed.
Theorem sp_advance_spec delta b : sp_inv (core b) -> exists b', sp_advance delta b = Some b' /\ sp_inv (core b') /\ l_key (core b') = l_key (core b)
    /\ Z.of_N (sp_pos (core b')) = ((Z.of_N (sp_pos (core b)) + delta) mod 2 ^ 129)%Z
    /\ ((delta mod 2 ^ 129 <> 0)%Z -> has32 b' = false) /\ ((delta mod 2 ^ 129 = 0)%Z -> b' = b).
Proof. exact (lpyadvance_spec 6 sp_enc sp_inc sp_full int_wrap sp_safe sp_kok sp_HL sp_inc_val sp_full_at sp_wrapo sp_Hsafe sp_enc_wf delta b). Qed.
Theorem sp_indist s t k : sp_inv s -> sp_inv t -> l_key s = l_key t -> sp_pos s = sp_pos t ->
    option_map snd (sp_draws k s) = option_map snd (sp_draws k t).
Proof. exact (l_indist 6 sp_enc sp_inc sp_full int_wrap sp_safe sp_kok sp_HL sp_inc_val sp_full_at sp_nfull sp_wrapo sp_Hsafe sp_enc_wf s t k). Qed.
Theorem sp_advance_draws delta b : sp_inv (core b) ->
  exists s1 vs b', sp_draws (N.to_nat delta) (core b) = Some (s1, vs) /\ sp_advance (Z.of_N delta) b = Some b' /\ sp_inv (core b') /\
  forall k, option_map snd (sp_draws k (core b')) = option_map snd (sp_draws k s1).
Proof.
  intros Hi. destruct (sp_draws_spec (N.to_nat delta) (core b) Hi) as (s1 & E1 & I1 & K1 & P1).
  destruct (sp_advance_spec (Z.of_N delta) b Hi) as (b' & E2 & I2 & K2 & P2 & _).
  exists s1. eexists. exists b'. split; [exact E1|]. split; [exact E2|]. split; [exact I2|]. intros k. apply sp_indist; try assumption; [congruence|].
  rewrite N2Nat.id in P1. apply N2Z.inj. rewrite P2, P1, N2Z.inj_mod, N2Z.inj_add. reflexivity.
Qed.
Theorem sp_advance_back delta b s1 vs : sp_inv (core b) -> sp_draws (N.to_nat delta) (core b) = Some (s1, vs) ->
  exists b', sp_advance (- Z.of_N delta) (Buf s1 (has32 b) (u32 b)) = Some b' /\ sp_inv (core b') /\
  forall k, option_map snd (sp_draws k (core b')) = option_map snd (sp_draws k (core b)).
Proof.
  intros Hi E. destruct (sp_draws_spec (N.to_nat delta) (core b) Hi) as (s1' & E1 & I1 & K1 & P1). rewrite E in E1. injection E1 as -> _.
  destruct (sp_advance_spec (- Z.of_N delta) (Buf s1' (has32 b) (u32 b)) I1) as (b' & E2 & I2 & K2 & P2 & _).
  exists b'. split; [exact E2|]. split; [exact I2|]. intros k. apply sp_indist; try assumption; [cbn [core] in K2; congruence|].
  rewrite N2Nat.id in P1. apply N2Z.inj. cbn [core] in P2. rewrite P2, P1, N2Z.inj_mod, N2Z.inj_add.
  change (Z.of_N (2 ^ 129)) with (2 ^ 129)%Z. rewrite Zplus_mod_idemp_l.
  replace (Z.of_N (sp_pos (core b)) + Z.of_N delta + - Z.of_N delta)%Z with (Z.of_N (sp_pos (core b))) by (clear; lia).
  apply Z.mod_small. split; [apply N2Z.is_nonneg|]. change (2 ^ 129)%Z with (Z.of_N (2 ^ 129)). apply N2Z.inj_lt. unfold sp_pos, lpos, Q. apply N.mod_lt, pow2_nz.
Qed.

(* ---- SSE = scalar ---- *)
Lemma lor_disjoint a b n : a < 2 ^ n -> N.lor a (b * 2 ^ n) = a + b * 2 ^ n.
Proof.
  intros H. rewrite <- N.shiftl_mul_pow2. symmetry. rewrite <- N.lxor_lor.
  - apply N.add_nocarry_lxor. apply N.bits_inj. intros i. rewrite N.land_spec, N.bits_0.
    destruct (N.lt_ge_cases i n); [rewrite N.shiftl_spec_low by assumption; apply andb_false_r|].
    replace (N.testbit a i) with false; [reflexivity|]. symmetry. apply (proj1 (wf_testbit n a)); assumption.
  - apply N.bits_inj. intros i. rewrite N.land_spec, N.bits_0.
    destruct (N.lt_ge_cases i n); [rewrite N.shiftl_spec_low by assumption; apply andb_false_r|].
    replace (N.testbit a i) with false; [reflexivity|]. symmetry. apply (proj1 (wf_testbit n a)); assumption.
Qed.
Lemma rotr8_bytes b r : b < 256 -> r < 2 ^ 56 -> rotr 64 (b + 256 * r) 8 = r + 2 ^ 56 * b.
Proof.
  intros Hb Hr. unfold rotr, wshl. rewrite N.shiftr_div_pow2. change (2 ^ 8) with 256. rewrite (N.mul_comm 256 r), N.div_add, N.div_small, N.add_0_l by (discriminate || assumption).
  rewrite N.shiftl_mul_pow2. change (64 - 8) with 56.
  replace ((b + r * 256) * 2 ^ 56) with (b * 2 ^ 56 + r * 2 ^ 64) by (change (2 ^ 64) with (256 * 2 ^ 56); generalize (2 ^ 56); clear; intros; lia).
  rewrite N.mod_add by discriminate. rewrite N.mod_small by (change (2 ^ 64) with (256 * 2 ^ 56); revert Hb; generalize (2 ^ 56) (pow2_pos 56); clear; intros; nia).
  rewrite lor_disjoint by assumption. now rewrite (N.mul_comm b).
Qed.
Lemma rotr8_words b0 l : words 8 8 (b0 :: l) -> lv 8 (l ++ [b0]) = rotr 64 (lv 8 (b0 :: l)) 8.
Proof.
  intros [L W]. cbn [List.length] in L. injection L as L.
  rewrite lv_app. cbn [lv]. change (2 ^ 8) with 256. rewrite rotr8_bytes.
  - rewrite L. change (2 ^ (8 * N.of_nat 7)) with (2 ^ 56). rewrite N.mul_0_r, N.add_0_r. reflexivity.
  - exact (Forall_inv W).
  - pose proof (lv_lt 8 l (Forall_inv_tail W)) as H. now rewrite L in H.
Qed.
Lemma shuffle_words la lb : words 8 8 la -> words 8 8 lb ->
  unblock16 (map (fun m => if N.testbit m 7 then 0 else nth (N.to_nat (N.land m 15)) (la ++ lb) 0) (block16 R8))
  = (rotr 64 (lv 8 la) 8, rotr 64 (lv 8 lb) 8).
Proof.
  intros Wa Wb. replace (block16 R8) with [1; 2; 3; 4; 5; 6; 7; 0; 9; 10; 11; 12; 13; 14; 15; 8] by (vm_compute; reflexivity).
  pose proof Wa as [La _]. pose proof Wb as [Lb _].
  do 8 (destruct la as [|? la]; [discriminate|]). destruct la; [|discriminate].
  do 8 (destruct lb as [|? lb]; [discriminate|]). destruct lb; [|discriminate].
  unfold unblock16. rewrite <- (rotr8_words _ _ Wa), <- (rotr8_words _ _ Wb). reflexivity.
Qed.
Lemma ROR8_val a : pwf a -> ROR8 a = (rotr 64 (fst a) 8, rotr 64 (snd a) 8).
Proof.
  intros [A B]. unfold ROR8, v_shuffle. unfold block16 at 1.
  rewrite shuffle_words by (split; [apply to_words_length|apply to_words_wf]).
  rewrite !to_words_val. change (8 * N.of_nat 8) with 64. now rewrite !N.mod_small.
Qed.
Lemma ROL3_val a : pwf a -> ROL a 3 = (rotl 64 (fst a) 3, rotl 64 (snd a) 3).
Proof. intros [A B]. unfold ROL, v_xor, v_sl, v_sr. cbn [fst snd]. now rewrite !(rotl_xor 64) by (assumption || reflexivity). Qed.
(* one vector round is one scalar round on each of the two lanes *)
Lemma rx_er64 kk p q : pwf p -> pwf q -> wf 64 (fst kk) -> wf 64 (snd kk) ->
  rx kk (v_load p q) = v_load (er64 (fst kk) p) (er64 (snd kk) q).
Proof.
  intros [A B] [C D] K1 K2. unfold rx, v_load, v_high, v_low. cbn [fst snd]. rewrite ROR8_val, ROL3_val by (split; assumption).
  unfold v_xor, v_add, er64. cbn [fst snd]. reflexivity.
Qed.
Definition twin (k : skey) : Prop := Forall (fun r => fst r = snd r) (sk_rk k).
Lemma rx_fold l : Forall pwf l -> Forall (fun r => fst r = snd r) l -> forall p q, pwf p -> pwf q ->
  fold_left (fun xy key => rx key xy) l (v_load p q)
  = v_load (fold_left (fun p r => er64 (fst r) p) l p) (fold_left (fun p r => er64 (fst r) p) l q).
Proof.
  induction l as [|r l IH]; intros Hl Ht p q Hp Hq; [reflexivity|]. cbn [fold_left].
  pose proof (Forall_inv Hl) as [R1 R2]. pose proof (Forall_inv Ht) as R. rewrite rx_er64, <- R by assumption.
  apply IH; [exact (Forall_inv_tail Hl)|exact (Forall_inv_tail Ht)|now apply er64_wf|now apply er64_wf].
Qed.
Lemma used_Forall {P : N * N -> Prop} k : Forall P (sk_rk k) -> Forall P (sk_used k).
Proof. intros H. unfold sk_used. rewrite <- (firstn_skipn (Z.to_nat (sk_rounds k)) (sk_rk k)) in H. apply Forall_app in H. apply H. Qed.
Lemma sse_pair_eq k p q : Forall pwf (sk_rk k) -> twin k -> pwf p -> pwf q -> sse_pair k p q = (sp_enc k p, sp_enc k q).
Proof.
  intros Hk Ht Hp Hq. unfold sse_pair. rewrite rx_fold by (auto using sk_used_wf; exact (used_Forall k Ht)).
  unfold v_store, v_load, v_low, v_high. cbn [fst snd]. fold (sp_enc k p) (sp_enc k q). now rewrite <- !surjective_pairing.
Qed.
Lemma sse_lanes_eq k n : Forall pwf (sk_rk k) -> twin k -> forall l, List.length l = (2 * n)%nat -> Forall pwf l -> sse_lanes k l = map (sp_enc k) l.
Proof.
  intros Hk Ht. induction n as [|n IH]; intros l L W.
  - destruct l; [reflexivity|discriminate].
  - destruct l as [|p [|q l]]; [discriminate|cbn in L; exfalso; clear - L; lia|]. cbn [sse_lanes map].
    rewrite (sse_pair_eq k p q Hk Ht (Forall_inv W) (Forall_inv (Forall_inv_tail W))). cbn [fst snd]. do 2 f_equal.
    apply IH; [cbn in L; clear - L; lia|exact (Forall_inv_tail (Forall_inv_tail W))].
Qed.
Lemma flat_map_map {A B C} (f : A -> B) (g : B -> list C) l : flat_map g (map f l) = flat_map (fun x => g (f x)) l.
Proof. induction l as [|a l IH]; [reflexivity|]. cbn [map flat_map]. now rewrite IH. Qed.
Theorem sse_next_eq s : Forall pwf (sk_rk (l_key s)) -> twin (l_key s) -> Forall pwf (l_ctr s) -> List.length (l_ctr s) = 6%nat ->
  sse_next s = sp_next s.
Proof.
  intros Hk Ht W L. unfold sse_next, sp_next, lnext. destruct (sp_full (l_off s)); [|reflexivity].
  assert (E : sse_gen s = lgen sp_enc sp_inc sp_safe s); [|now rewrite E].
  unfold sse_gen, lgen. destruct (sp_safe (l_key s)); [|reflexivity].
  rewrite (sse_lanes_eq (l_key s) 3 Hk Ht _ L W), flat_map_map. reflexivity.
Qed.
Theorem mixed_draws_eq path : forall s, sp_inv s -> twin (l_key s) -> mixed_draws path s = sp_draws (List.length path) s.
Proof.
  induction path as [|b path IH]; intros s Hi Ht; [reflexivity|]. cbn [mixed_draws List.length].
  pose proof (linv_bounds 6 sp_enc sp_kok s Hi) as (W & L & _ & _). pose proof Hi as ((_ & Wk & _) & _).
  assert (E : (if b then sse_next s else sp_next s) = sp_next s) by (destruct b; [now apply sse_next_eq|reflexivity]).
  rewrite E. destruct (sp_next_spec s Hi) as (s1 & E1 & I1 & K1 & _).
  unfold sp_draws. cbn [ldraws]. fold sp_next. change (lnext sp_enc sp_inc sp_full int_wrap sp_safe s) with (sp_next s).
  rewrite E1, IH by (assumption || now rewrite K1). reflexivity.
Qed.

(* ---- seeding ---- *)
Definition kx_ok (n : nat) (st : N * N * N * N * list N) : Prop :=
  let '(a, b, c, d, out) := st in wf 64 a /\ wf 64 b /\ wf 64 c /\ wf 64 d /\ words 64 n out.
Lemma er64_pair k a b : wf 64 k -> wf 64 a -> wf 64 b -> exists a' b', er64 k (a, b) = (a', b') /\ wf 64 a' /\ wf 64 b'.
Proof. intros Hk Ha Hb. destruct (er64_wf k (a, b) Hk (conj Ha Hb)) as [A B]. exists (fst (er64 k (a, b))), (snd (er64 k (a, b))). now rewrite <- surjective_pairing. Qed.
Lemma words_snoc w n l x : words w n l -> wf w x -> words w (S n) (l ++ [x]).
Proof. intros [L W] Hx. split; [rewrite app_length, L; cbn; clear; lia|]. apply Forall_app. auto. Qed.
Lemma kx_step_ok n st i : i + 2 < 2 ^ 64 -> kx_ok n st -> kx_ok (3 + n) (kx_step st i).
Proof.
  destruct st as [[[[a b] c] d] out]. intros Hi (A & B & C & D & O). unfold kx_step.
  assert (I0 : wf 64 i) by (unfold wf; clear - Hi; lia). assert (I1 : wf 64 (i + 1)) by (unfold wf; clear - Hi; lia). assert (I2 : wf 64 (i + 2)) by exact Hi.
  destruct (er64_pair i a b I0 A B) as (a1 & b1 & E1 & A1 & B1). rewrite E1.
  destruct (er64_pair (i + 1) a1 c I1 A1 C) as (a2 & c1 & E2 & A2 & C1). rewrite E2.
  destruct (er64_pair (i + 2) a2 d I2 A2 D) as (a3 & d1 & E3 & A3 & D1). rewrite E3.
  refine (conj A3 (conj B1 (conj C1 (conj D1 _)))). repeat apply words_snoc; assumption.
Qed.
Lemma kx_fold l : Forall (fun i => i + 2 < 2 ^ 64) l -> forall n st, kx_ok n st -> kx_ok (3 * List.length l + n) (fold_left kx_step l st).
Proof.
  induction l as [|i l IH]; intros H n st Hs; [exact Hs|]. cbn [fold_left List.length].
  replace (3 * S (List.length l) + n)%nat with (3 * List.length l + (3 + n))%nat by (clear; lia).
  apply IH; [exact (Forall_inv_tail H)|]. apply kx_step_ok; [exact (Forall_inv H)|exact Hs].
Qed.
Lemma sp_expand_words key : words 64 34 (sp_expand key).
Proof.
  unfold sp_expand. pose proof (to_words_length 64 4 key) as L. pose proof (to_words_wf 64 4 key) as W.
  destruct (to_words 64 4 key) as [|a [|b [|c [|d [|? ?]]]]]; try discriminate.
  pose proof (Forall_inv W) as A. apply Forall_inv_tail in W. pose proof (Forall_inv W) as B. apply Forall_inv_tail in W.
  pose proof (Forall_inv W) as C. apply Forall_inv_tail in W. pose proof (Forall_inv W) as D.
  pose proof (kx_fold [0; 3; 6; 9; 12; 15; 18; 21; 24; 27; 30] ltac:(repeat constructor) 0 (a, b, c, d, []) (conj A (conj B (conj C (conj D (conj eq_refl (Forall_nil _))))))) as H.
  revert H. generalize (fold_left kx_step [0; 3; 6; 9; 12; 15; 18; 21; 24; 27; 30] (a, b, c, d, [])). intros [[[[a' b'] c'] d'] out] (A' & _ & _ & _ & O).
  exact (words_snoc 64 33 out a' O A').
Qed.
Lemma sp_set_counter_lanes counter : sp_set_counter (psplit counter) = lanes 6 counter.
Proof.
  unfold sp_set_counter, lanes. apply map_ext_in. intros i Hi. apply in_seq in Hi.
  pose proof (lane_add_val (N.of_nat i, 0) (psplit counter)) as H.
  assert (Wi : pwf (N.of_nat i, 0)).
  { split; cbn [fst snd]; [|exact eq_refl]. unfold wf. change (2 ^ 64) with 0x10000000000000000. clear - Hi. lia. }
  specialize (H Wi (psplit_wf counter)).
  rewrite pval_psplit in H. replace (pval (N.of_nat i, 0)) with (N.of_nat i) in H by (unfold pval; cbn [fst snd]; rewrite N.mul_0_r; symmetry; apply N.add_0_r).
  rewrite (psplit_mod_eq (counter mod 2 ^ 128 + N.of_nat i) (counter + N.of_nat i)) in H by now rewrite N.add_mod_idemp_l by apply pow2_nz.
  rewrite <- H. destruct (psplit_wf counter) as [A B]. unfold lane_add. cbn [fst snd]. rewrite (wadd_0_r 64 (snd (psplit counter)) B).
  destruct (wadd 64 (fst (psplit counter)) (N.of_nat i) <? fst (psplit counter)); cbn [N.b2n]; [reflexivity|]. now rewrite wadd_0_r by exact B.
Qed.
Lemma twin_seed key counter b : twin (l_key (core (sp_seed key counter b))).
Proof. unfold twin. cbn [sp_seed core l_key sk_rk]. apply Forall_map, Forall_forall. reflexivity. Qed.
Lemma sp_seed_kok key counter b : (0 < sk_rounds (l_key (core b)) <= 34)%Z -> sp_kok (l_key (core (sp_seed key counter b))).
Proof.
  intros Hr. destruct (sp_expand_words key) as [L W]. refine (conj _ (conj _ Hr)); cbn [sp_seed core l_key sk_rk].
  - now rewrite map_length.
  - apply Forall_map. apply (Forall_impl _ (fun x Hx => conj Hx Hx) W).
Qed.
Theorem sp_seed_inv key counter b : counter < 2 ^ 128 -> List.length (l_buf (core b)) = 96%nat -> (0 < sk_rounds (l_key (core b)) <= 34)%Z ->
  sp_inv (core (sp_seed key counter b)) /\ sp_pos (core (sp_seed key counter b)) = 2 * counter.
Proof.
  intros Hc Hb Hr. unfold sp_inv, sp_pos. pose proof (sp_seed_kok key counter b Hr) as K.
  assert (G : good 6 sp_enc counter (l_key (core (sp_seed key counter b))) (l_buf (core b)) 12).
  { split; [rewrite Hb; reflexivity|]. intros j Hj. exfalso. clear - Hj. lia. }
  assert (E : core (sp_seed key counter b) = Lst (lanes 6 counter) (l_key (core (sp_seed key counter b))) (l_buf (core b)) (8 * Z.of_N 12)).
  { cbn [sp_seed core l_key]. rewrite sp_set_counter_lanes. reflexivity. }
  destruct (mk_linv 6 sp_enc sp_kok sp_HL counter _ (l_buf (core b)) 12 K ltac:(clear; lia) G) as [I P].
  rewrite E. split; [exact I|]. rewrite P. unfold Q. change (2 ^ 129) with (2 * 2 ^ 128).
  replace (2 * counter + (2 * 2 ^ 128 - 2 * 6) + 12) with (2 * counter + 1 * (2 * 2 ^ 128)).
  - rewrite N.mod_add by discriminate. rewrite N.mod_small; [reflexivity|]. revert Hc. generalize (2 ^ 128). clear. lia.
  - clear. change (2 ^ 128) with 340282366920938463463374607431768211456. lia.
Qed.

(* ---- state ---- *)
Definition sp_ok (b : speck) : Prop := sp_inv (core b) /\ Forall (wf 8) (l_buf (core b)) /\ wf 32 (u32 b).
Lemma flat2_length l : List.length (flat2 l) = (2 * List.length l)%nat.
Proof. unfold flat2. induction l as [|a l IH]; [reflexivity|]. cbn [flat_map app List.length]. rewrite IH. clear. lia. Qed.
Lemma flat2_wf l : Forall pwf l -> Forall (wf 64) (flat2 l).
Proof. intros H. apply Forall_flat_map. apply (Forall_impl _ (fun p Hp => Forall_cons _ (proj1 Hp) (Forall_cons _ (proj2 Hp) (Forall_nil _))) H). Qed.
Lemma to_cint_ok z : (- 2 ^ 31 <= z < 2 ^ 31)%Z -> to_cint (PInt z) = Ok z.
Proof. intros H. unfold to_cint. replace ((- 2 ^ 31 <=? z) && (z <? 2 ^ 31))%Z with true; [reflexivity|]. symmetry. apply andb_true_intro. split; [apply Z.leb_le|apply Z.ltb_lt]; apply H. Qed.
Theorem sp_set_get b t : sp_ok b -> sp_set (sp_get b) t = (b, Ok tt).
Proof.
  intros (Hi & Hb & Hu). destruct (linv_bounds 6 sp_enc sp_kok _ Hi) as (Cw & Cl & Bl & Ob). pose proof Hi as ((Kl & Kw & Kr) & _).
  destruct b as [[ctr [rk r] buf off] h u]. cbn [core l_ctr l_key l_buf l_off u32 sk_rk sk_rounds] in *. clear Hi.
  destruct (words_of_bytes_ok 12 buf (conj Bl Hb)) as [[Wl Ww] We].
  unfold sp_set, sp_get. cbn [core l_ctr l_key l_buf l_off has32 u32 sk_rk sk_rounds].
  rewrite bind_lift. cbn [preamble get_default assoc String.eqb Ascii.eqb Bool.eqb orb].
  rewrite bind_lift. cbn [getitem assoc String.eqb Ascii.eqb Bool.eqb obind].
  rewrite check_arr_ok by (rewrite ?flat2_length, ?Cl; auto using flat2_wf).
  rewrite bind_lift, check_arr_ok by (rewrite ?Wl; auto).
  rewrite bind_lift, check_arr_ok by (rewrite ?flat2_length, ?Kl; auto using flat2_wf).
  rewrite bind_modify, bind_lift. rewrite to_cint_ok by (change (2 ^ 31)%Z with 2147483648%Z; clear - Kr; lia).
  rewrite bind_modify, bind_lift. rewrite to_cint_ok by (change (2 ^ 31)%Z with 2147483648%Z; clear - Ob; lia).
  rewrite bind_modify. rewrite (set_half_run _ h u) by (try reflexivity; exact Hu).
  cbn [set_core core set_off l_buf l_off l_key l_ctr sk_rk sk_rounds]. rewrite We. unfold flat2. rewrite !pairs_flat. reflexivity.
Qed.
Theorem sp_jumped_spec iter t b : sp_ok b -> exists b', sp_jumped iter t b = Some b' /\ sp_inv (core b') /\ l_key (core b') = l_key (core b)
  /\ Z.of_N (sp_pos (core b')) = ((Z.of_N (sp_pos (core b)) + iter * 2 ^ 64) mod 2 ^ 129)%Z.
Proof.
  intros H. unfold sp_jumped. rewrite (sp_set_get b t H).
  destruct (sp_advance_spec (iter * 2 ^ 64) b (proj1 H)) as (b' & E & I & K & P & _). exists b'. refine (conj _ (conj I (conj K P))). exact E.
Qed.
Lemma sp_ok_draws k b s' vs : sp_ok b -> sp_draws k (core b) = Some (s', vs) -> sp_ok (set_core s' b).
Proof.
  intros (Hi & Hb & Hu) E. destruct (sp_draws_spec k (core b) Hi) as (s1 & E1 & I1 & _). rewrite E in E1. injection E1 as <- _.
  refine (conj I1 (conj (ldraws_bytes _ _ _ _ _ k _ _ _ E Hb) Hu)).
Qed.
Lemma sp_ok_advance d b b' : sp_ok b -> sp_advance d b = Some b' -> sp_ok b'.
Proof.
  intros (Hi & Hb & Hu) E. destruct (sp_advance_spec d b Hi) as (b1 & E1 & I1 & _). rewrite E in E1. injection E1 as <-.
  refine (conj I1 (conj (lpyadvance_bytes _ _ _ _ _ _ d b b' E Hb) _)).
  unfold sp_advance, lpyadvance in E. destruct (_ =? _)%Z; [injection E as <-; exact Hu|]. destruct (ladv _ _ _ _ _ _ _ _); [|discriminate]. injection E as <-. exact eq_refl.
Qed.
Lemma sp_seed_ok key counter rounds : counter < 2 ^ 128 -> (0 < rounds <= 34)%Z -> sp_ok (sp_seed key counter (sp_zero rounds)).
Proof.
  intros Hc Hr. refine (conj (proj1 (sp_seed_inv key counter (sp_zero rounds) Hc eq_refl Hr)) (conj _ eq_refl)).
  cbn [sp_seed core l_buf sp_zero]. apply Forall_forall. intros x Hx. apply repeat_spec in Hx. subst. reflexivity.
Qed.
(* Random known answer: the test vector for Speck128/256 of the designers'
   implementation guide *)
Example speck_vector :
  sp_enc (SKey (map (fun a => (a, a)) (sp_expand 0x1f1e1d1c1b1a191817161514131211100f0e0d0c0b0a09080706050403020100)) 34)
         (0x202e72656e6f6f70, 0x65736f6874206e49) = (0x4eeeb48d9c188f43, 0x4109010405c0f53e).
Proof. vm_compute. reflexivity. Qed.

Theorem sp_never_merges k s t s' t' vs ws : sp_inv s -> sp_inv t -> sp_pos s <> sp_pos t ->
  sp_draws k s = Some (s', vs) -> sp_draws k t = Some (t', ws) -> sp_pos s' <> sp_pos t'.
Proof.
  intros Hs Ht Ne E1 E2 Eq. apply Ne. destruct (sp_draws_spec k s Hs) as (s1 & F1 & _ & _ & P1). rewrite E1 in F1. injection F1 as <- _.
  destruct (sp_draws_spec k t Ht) as (t1 & F2 & _ & _ & P2). rewrite E2 in F2. injection F2 as <- _.
  rewrite P1, P2 in Eq. exact (add_mod_cancel (2 ^ 129) (N.of_nat k) _ _ (lpos_lt 6 s) (lpos_lt 6 t) Eq).
Qed.

Theorem sp_jumps_compose i j t1 t2 t3 b b1 b2 b3 k : sp_ok b ->
  sp_jumped i t1 b = Some b1 -> sp_jumped j t2 b1 = Some b2 -> sp_jumped (i + j) t3 b = Some b3 ->
  option_map snd (sp_draws k (core b2)) = option_map snd (sp_draws k (core b3)).
Proof.
  intros Hb E1 E2 E3. unfold sp_jumped in *. rewrite sp_set_get in E1, E3 by assumption.
  pose proof (sp_ok_advance _ _ _ Hb E1) as Hb1. rewrite sp_set_get in E2 by assumption.
  unfold sp_jump, lpyjump in E1, E2, E3. rewrite Z.mul_add_distr_r in E3.
  destruct (lpyadvance_add 6 sp_enc sp_inc sp_full int_wrap sp_safe sp_kok sp_HL sp_inc_val sp_full_at sp_wrapo sp_Hsafe sp_enc_wf
              _ _ b b1 b2 b3 (proj1 Hb) E1 E2 E3) as (P & K & I2 & I3). now apply sp_indist.
Qed.
