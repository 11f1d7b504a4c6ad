(* Properties of AESCounter and SPECK128.

   aes_draws k s, sp_draws k s: the values of k draws from s and the state
   after them (None: an array is read out of bounds). aes_stream key i,
   sp_stream key i: half i mod 2 of the block at counter i / 2. aes_pos,
   sp_pos: the index in this stream of the next value. aes_inv, sp_inv: the
   states that seeding, drawing, advancing, jumping and restoring a saved state
   produce (the C20 theorems). *)
From Verif Require Import Word MultiWord Blocks Buffer32 LaneCtr Aes AesPy Speck Py Half Arr.
From Coq Require Import String.
Open Scope N_scope.

Definition ex_aes : aes := aes_seed 0x2b7e151628aed2a6abf7158809cf4f3c (2 ^ 128 - 2) aes_zero.
Definition ex_sp : speck := sp_seed 0x0123456789abcdef0123456789abcdef (2 ^ 128 - 2) (sp_zero 34).
Lemma ex_aes_live : aes_live ex_aes.
Proof. apply aes_live_seed; [reflexivity|exact aes_zero_buf]. Qed.
Lemma ex_sp_ok : sp_ok ex_sp.
Proof. apply sp_seed_ok; [reflexivity|]. split; [reflexivity|discriminate]. Qed.

(* -------------------------------------------------------------- C05, C06 *)
(* a seeded generator produces the blocks at counter, counter+1, ... *)
Theorem C05_aes_seeded_stream :
  forall key counter k b, counter < 2 ^ 128 -> List.length (l_buf (core b)) = 64%nat ->
  option_map snd (aes_draws k (core (aes_seed key counter b)))
  = Some (map (fun i => aes_stream (l_key (core (aes_seed key counter b))) (2 * counter + N.of_nat i)) (seq 0 k)).
Proof.
  intros key counter k b Hc Hb. destruct (aes_seed_inv key counter b Hc Hb) as [I P].
  destruct (aes_draws_spec k _ I) as (s' & E & _). rewrite E, P. reflexivity.
Qed.
Theorem C06_speck_seeded_stream :
  forall key counter k b, counter < 2 ^ 128 -> List.length (l_buf (core b)) = 96%nat -> (0 < sk_rounds (l_key (core b)) <= 34)%Z ->
  option_map snd (sp_draws k (core (sp_seed key counter b)))
  = Some (map (fun i => sp_stream (l_key (core (sp_seed key counter b))) (2 * counter + N.of_nat i)) (seq 0 k)).
Proof.
  intros key counter k b Hc Hb Hr. destruct (sp_seed_inv key counter b Hc Hb Hr) as [I P].
  destruct (sp_draws_spec k _ I) as (s' & E & _). rewrite E, P. reflexivity.
Qed.
(* advance(delta) is delta draws, at any position in the buffer *)
Theorem C05_aes_advance_is_drawing :
  forall delta b, aes_inv (core b) ->
  exists s1 vs b', aes_draws (N.to_nat delta) (core b) = Some (s1, vs) /\ aes_advance (Z.of_N delta) b = Some b' /\ aes_inv (core b') /\
  forall k, option_map snd (aes_draws k (core b')) = option_map snd (aes_draws k s1).
Proof. exact aes_advance_draws. Qed.
Theorem C06_speck_advance_is_drawing :
  forall delta b, sp_inv (core b) ->
  exists s1 vs b', sp_draws (N.to_nat delta) (core b) = Some (s1, vs) /\ sp_advance (Z.of_N delta) b = Some b' /\ sp_inv (core b') /\
  forall k, option_map snd (sp_draws k (core b')) = option_map snd (sp_draws k s1).
Proof. exact sp_advance_draws. Qed.
(* advance(-delta) undoes delta draws *)
Theorem C05_aes_advance_negative :
  forall delta b s1 vs, aes_inv (core b) -> aes_draws (N.to_nat delta) (core b) = Some (s1, vs) ->
  exists b', aes_advance (- Z.of_N delta) (Buf s1 (has32 b) (u32 b)) = Some b' /\ aes_inv (core b') /\
  forall k, option_map snd (aes_draws k (core b')) = option_map snd (aes_draws k (core b)).
Proof. exact aes_advance_back. Qed.
Theorem C06_speck_advance_negative :
  forall delta b s1 vs, sp_inv (core b) -> sp_draws (N.to_nat delta) (core b) = Some (s1, vs) ->
  exists b', sp_advance (- Z.of_N delta) (Buf s1 (has32 b) (u32 b)) = Some b' /\ sp_inv (core b') /\
  forall k, option_map snd (sp_draws k (core b')) = option_map snd (sp_draws k (core b)).
Proof. exact sp_advance_back. Qed.
(* every integer delta: the position moves by delta modulo the cycle 2^129 *)
Theorem C05_aes_advance_position :
  forall delta b, aes_inv (core b) -> exists b', aes_advance delta b = Some b' /\ aes_inv (core b') /\ l_key (core b') = l_key (core b)
  /\ Z.of_N (aes_pos (core b')) = ((Z.of_N (aes_pos (core b)) + delta) mod 2 ^ 129)%Z
  /\ ((delta mod 2 ^ 129 <> 0)%Z -> has32 b' = false) /\ ((delta mod 2 ^ 129 = 0)%Z -> b' = b).
Proof. exact aes_advance_spec. Qed.
Theorem C06_speck_advance_position :
  forall delta b, sp_inv (core b) -> exists b', sp_advance delta b = Some b' /\ sp_inv (core b') /\ l_key (core b') = l_key (core b)
  /\ Z.of_N (sp_pos (core b')) = ((Z.of_N (sp_pos (core b)) + delta) mod 2 ^ 129)%Z
  /\ ((delta mod 2 ^ 129 <> 0)%Z -> has32 b' = false) /\ ((delta mod 2 ^ 129 = 0)%Z -> b' = b).
Proof. exact sp_advance_spec. Qed.
(* "Advancing the RNG state resets any pre-computed random numbers": not when
   delta is a multiple of 2^129, as advance(0) *)
Theorem C05_aes_advance_zero_keeps_half_refuted :
  ~ (forall delta b b', aes_live b -> aes_advance delta b = Some b' -> has32 b' = false).
Proof.
  intros H. pose (b := Buf (core ex_aes) true 7). assert (L : aes_live b) by (refine (conj (proj1 ex_aes_live) (conj (proj1 (proj2 ex_aes_live)) _)); reflexivity).
  specialize (H 0%Z b b L eq_refl). discriminate H.
Qed.
Theorem C06_speck_advance_zero_keeps_half_refuted :
  ~ (forall delta b b', sp_ok b -> sp_advance delta b = Some b' -> has32 b' = false).
Proof.
  intros H. pose (b := Buf (core ex_sp) true 7). assert (L : sp_ok b) by (refine (conj (proj1 ex_sp_ok) (conj (proj1 (proj2 ex_sp_ok)) _)); reflexivity).
  specialize (H 0%Z b b L eq_refl). discriminate H.
Qed.
Example C05_case : aes_inv (core ex_aes) /\ exists b', aes_advance 9 ex_aes = Some b' /\ l_off (core b') <> 64%Z /\
  option_map snd (aes_draws 2 (core b')) = option_map (fun r => skipn 9 (snd r)) (aes_draws 11 (core ex_aes)).
Proof.
  split; [exact (proj1 ex_aes_live)|]. eexists. split; [vm_compute; reflexivity|]. split; [vm_compute; discriminate|]. vm_compute. reflexivity.
Qed.
Example C06_case : sp_inv (core ex_sp) /\ exists b', sp_advance 13 ex_sp = Some b' /\ l_off (core b') <> 96%Z /\
  option_map snd (sp_draws 2 (core b')) = option_map (fun r => skipn 13 (snd r)) (sp_draws 15 (core ex_sp)).
Proof.
  split; [exact (proj1 ex_sp_ok)|]. eexists. split; [vm_compute; reflexivity|]. split; [vm_compute; discriminate|]. vm_compute. reflexivity.
Qed.

(* ------------------------------------------------------------------- C17 *)
(* jumped(iter) gives a new object iter * 2^64 draws ahead; the original is
   not an output of the function, so it is untouched *)
Theorem C17_aes_jumped :
  forall iter t b, aes_live b -> List.length (l_buf (core t)) = 64%nat ->
  exists b', aes_jumped iter t b = Some b' /\ aes_inv (core b') /\ l_key (core b') = l_key (core b)
  /\ Z.of_N (aes_pos (core b')) = ((Z.of_N (aes_pos (core b)) + iter * 2 ^ 64) mod 2 ^ 129)%Z.
Proof. exact aes_jumped_spec. Qed.
Theorem C17_speck_jumped :
  forall iter t b, sp_ok b ->
  exists b', sp_jumped iter t b = Some b' /\ sp_inv (core b') /\ l_key (core b') = l_key (core b)
  /\ Z.of_N (sp_pos (core b')) = ((Z.of_N (sp_pos (core b)) + iter * 2 ^ 64) mod 2 ^ 129)%Z.
Proof. exact sp_jumped_spec. Qed.
(* jumps compose: the draws after jumped(i).jumped(j) are those after jumped(i+j) *)
Theorem C17_aes_jumps_compose :
  forall i j t1 t2 t3 b b1 b2 b3 k, aes_live b -> List.length (l_buf (core t1)) = 64%nat -> List.length (l_buf (core t2)) = 64%nat ->
  List.length (l_buf (core t3)) = 64%nat ->
  aes_jumped i t1 b = Some b1 -> aes_jumped j t2 b1 = Some b2 -> aes_jumped (i + j) t3 b = Some b3 ->
  option_map snd (aes_draws k (core b2)) = option_map snd (aes_draws k (core b3)).
Proof. exact aes_jumps_compose. Qed.
Theorem C17_speck_jumps_compose :
  forall i j t1 t2 t3 b b1 b2 b3 k, sp_ok b ->
  sp_jumped i t1 b = Some b1 -> sp_jumped j t2 b1 = Some b2 -> sp_jumped (i + j) t3 b = Some b3 ->
  option_map snd (sp_draws k (core b2)) = option_map snd (sp_draws k (core b3)).
Proof. exact sp_jumps_compose. Qed.
Example C17_lane_case : exists b1 b2 b3, sp_jumped 1 (sp_zero 7) ex_sp = Some b1 /\ sp_jumped 2 (sp_zero 1) b1 = Some b2 /\ sp_jumped 3 (sp_zero 1) ex_sp = Some b3.
Proof. do 3 eexists. split; [vm_compute; reflexivity|]. split; vm_compute; reflexivity. Qed.

(* ------------------------------------------------------------------- C18 *)
Theorem C18_aes_restores : restores aes_live aes_get aes_set.
Proof. exact aes_restores. Qed.
Theorem C18_speck_restores : restores sp_ok sp_get sp_set.
Proof. intros b t Hb _. exact (sp_set_get b t Hb). Qed.
Example C18_lane_case : aes_set (aes_get ex_aes) aes_zero = (ex_aes, Ok tt) /\ sp_set (sp_get ex_sp) (sp_zero 3) = (ex_sp, Ok tt).
Proof. split; vm_compute; reflexivity. Qed.

(* ------------------------------------------------------------------- C19 *)
(* AESCounter's setter writes the buffer before it looks at the rest *)
Theorem C19_aes_not_atomic_refuted : ~ atomic aes_set.
Proof.
  intros H.
  pose (v := PDict [("bit_generator", PStr "AESCounter"); ("s", PDict [("state", PArr 8 (repeat 1 64)); ("offset", PInt 0); ("seed", PArr 64 [1]); ("counter", PArr 64 [1])])]%string).
  specialize (H v ex_aes (fst (aes_set v ex_aes)) ValueError).
  assert (E : aes_set v ex_aes = (fst (aes_set v ex_aes), Raise ValueError)) by (vm_compute; reflexivity).
  specialize (H E). apply (f_equal (fun b => l_off (core b))) in H. vm_compute in H. discriminate H.
Qed.
Theorem C19_speck_not_atomic_refuted : ~ atomic sp_set.
Proof.
  intros H.
  pose (v := PDict [("bit_generator", PStr "SPECK128"); ("state", PDict [("ctr", PArr 64 (repeat 1 12)); ("buffer", PArr 64 (repeat 1 12)); ("round_key", PArr 64 (repeat 1 68))])]%string).
  specialize (H v ex_sp (fst (sp_set v ex_sp)) KeyError).
  assert (E : sp_set v ex_sp = (fst (sp_set v ex_sp), Raise KeyError)) by (vm_compute; reflexivity).
  specialize (H E). apply (f_equal (fun b => nth 0 (l_ctr (core b)) (0, 0))) in H. vm_compute in H. discriminate H.
Qed.

(* ------------------------------------------------------------------- C20 *)
(* from a seeded object no draw, advance or jump reads out of bounds *)
Theorem C20_aes_seed_safe :
  forall key counter b, counter < 2 ^ 128 -> words 8 64 (l_buf (core b)) -> aes_live (aes_seed key counter b).
Proof. exact aes_live_seed. Qed.
Theorem C20_aes_draws_safe :
  forall k b, aes_live b -> exists s' vs, aes_draws k (core b) = Some (s', vs) /\ aes_live (set_core s' b).
Proof.
  intros k b H. destruct (aes_draws_spec k (core b) (proj1 H)) as (s' & E & _). exists s'. eexists. split; [exact E|]. exact (aes_live_draws k b s' _ H E).
Qed.
Theorem C20_aes_advance_safe :
  forall d b, aes_live b -> exists b', aes_advance d b = Some b' /\ aes_live b'.
Proof. intros d b H. destruct (aes_advance_spec d b (proj1 H)) as (b' & E & _). exists b'. split; [exact E|]. exact (aes_live_advance d b b' H E). Qed.
Theorem C20_speck_seed_safe :
  forall key counter rounds, counter < 2 ^ 128 -> (0 < rounds <= 34)%Z -> sp_ok (sp_seed key counter (sp_zero rounds)).
Proof. exact sp_seed_ok. Qed.
Theorem C20_speck_draws_safe :
  forall k b, sp_ok b -> exists s' vs, sp_draws k (core b) = Some (s', vs) /\ sp_ok (set_core s' b).
Proof.
  intros k b H. destruct (sp_draws_spec k (core b) (proj1 H)) as (s' & E & _). exists s'. eexists. split; [exact E|]. exact (sp_ok_draws k b s' _ H E).
Qed.
Theorem C20_speck_advance_safe :
  forall d b, sp_ok b -> exists b', sp_advance d b = Some b' /\ sp_ok b'.
Proof. intros d b H. destruct (sp_advance_spec d b (proj1 H)) as (b' & E & _). exists b'. split; [exact E|]. exact (sp_ok_advance d b b' H E). Qed.
(* a dictionary the setter accepts can make the next draw read out of bounds:
   AESCounter offset 57; SPECK128 offset 100 or -8, rounds 35 *)
Theorem C20_aes_state_offset_refuted :
  exists v b, aes_set v ex_aes = (b, Ok tt) /\ aes_next (core b) = None.
Proof.
  exists (PDict [("bit_generator", PStr "AESCounter"); ("s", PDict [("state", PArr 8 (repeat 1 64)); ("offset", PInt 57); ("seed", PArr 64 (repeat 1 22)); ("counter", PArr 64 (repeat 1 8))]);
    ("has_uint32", PInt 0); ("uinteger", PInt 0)]%string).
  eexists. split; [vm_compute; reflexivity|]. vm_compute. reflexivity.
Qed.
Theorem C20_speck_state_offset_refuted :
  exists v b, sp_set v ex_sp = (b, Ok tt) /\ sp_next (core b) = None.
Proof.
  exists (PDict [("bit_generator", PStr "SPECK128"); ("state", PDict [("ctr", PArr 64 (repeat 1 12)); ("buffer", PArr 64 (repeat 1 12)); ("round_key", PArr 64 (repeat 1 68)); ("rounds", PInt 34); ("offset", PInt (-8))]);
    ("has_uint32", PInt 0); ("uinteger", PInt 0)]%string).
  eexists. split; [vm_compute; reflexivity|]. vm_compute. reflexivity.
Qed.
Theorem C20_speck_state_rounds_refuted :
  exists v b, sp_set v ex_sp = (b, Ok tt) /\ sp_next (core b) = None.
Proof.
  exists (PDict [("bit_generator", PStr "SPECK128"); ("state", PDict [("ctr", PArr 64 (repeat 1 12)); ("buffer", PArr 64 (repeat 1 12)); ("round_key", PArr 64 (repeat 1 68)); ("rounds", PInt 35); ("offset", PInt 96)]);
    ("has_uint32", PInt 0); ("uinteger", PInt 0)]%string).
  eexists. split; [vm_compute; reflexivity|]. vm_compute. reflexivity.
Qed.

(* ------------------------------------------------------------------- C24 *)
(* two live states with the same key and different positions never come
   together after the same number of draws *)
Theorem C24_aes_never_merges :
  forall k s t s' t' vs ws, aes_inv s -> aes_inv t -> aes_pos s <> aes_pos t ->
  aes_draws k s = Some (s', vs) -> aes_draws k t = Some (t', ws) -> aes_pos s' <> aes_pos t'.
Proof. exact aes_never_merges. Qed.
Theorem C24_speck_never_merges :
  forall k s t s' t' vs ws, sp_inv s -> sp_inv t -> sp_pos s <> sp_pos t ->
  sp_draws k s = Some (s', vs) -> sp_draws k t = Some (t', ws) -> sp_pos s' <> sp_pos t'.
Proof. exact sp_never_merges. Qed.
Example C24_lane_case : aes_pos (core ex_aes) <> aes_pos (core (aes_seed 0 5 aes_zero)).
Proof. vm_compute. discriminate. Qed.

(* -------------------------------------------------------------- C35, C36 *)
Theorem C35_aes_block_permutation :
  forall key, (forall p, pwf p -> pwf (aes_enc key p)) /\
  exists g, (forall p, pwf p -> pwf (g p)) /\ (forall p, pwf p -> g (aes_enc key p) = p) /\ (forall p, pwf p -> aes_enc key (g p) = p).
Proof. exact aes_enc_bij. Qed.
(* any round keys and any number of rounds *)
Theorem C35_speck_block_permutation :
  forall k, Forall pwf (sk_rk k) -> (forall p, pwf p -> pwf (sp_enc k p)) /\
  exists g, (forall p, pwf p -> pwf (g p)) /\ (forall p, pwf p -> g (sp_enc k p) = p) /\ (forall p, pwf p -> sp_enc k (g p) = p).
Proof. exact sp_enc_bij. Qed.
Example C35_speck_case : Forall pwf (sk_rk (l_key (core ex_sp))) /\ sp_enc (l_key (core ex_sp)) (1, 2) <> (1, 2).
Proof. split; [exact (proj1 (proj2 (proj1 (proj1 ex_sp_ok))))|]. vm_compute. discriminate. Qed.
(* the SSE path and the scalar path agree draw by draw, even when use_sse41 is
   changed between draws, for round keys whose two halves are equal *)
Theorem C36_speck_sse_is_scalar :
  forall path s, sp_inv s -> twin (l_key s) -> mixed_draws path s = sp_draws (List.length path) s.
Proof. exact mixed_draws_eq. Qed.
(* seeding makes such round keys and nothing but state assignment changes them *)
Theorem C36_speck_seed_twin : forall key counter b, twin (l_key (core (sp_seed key counter b))).
Proof. exact twin_seed. Qed.
Example C36_case : sp_inv (core ex_sp) /\ twin (l_key (core ex_sp)) /\
  option_map snd (mixed_draws [true; false; true] (core ex_sp)) = option_map snd (sp_draws 3 (core ex_sp)).
Proof. split; [exact (proj1 ex_sp_ok)|]. split; [exact (twin_seed _ _ _)|]. vm_compute. reflexivity. Qed.
(* a state assignment that the setter accepts can set unequal halves; then the
   two paths give different numbers *)
Definition bad_halves : pyval :=
  PDict [("bit_generator", PStr "SPECK128"); ("state", PDict [("ctr", PArr 64 (repeat 1 12)); ("buffer", PArr 64 (repeat 1 12));
    ("round_key", PArr 64 (flat_map (fun i => [N.of_nat i; 99]) (seq 0 34))); ("rounds", PInt 34); ("offset", PInt 96)]);
    ("has_uint32", PInt 0); ("uinteger", PInt 0)]%string.
Theorem C36_speck_state_halves_refuted :
  exists v b vs ws, sp_set v ex_sp = (b, Ok tt) /\ option_map snd (mixed_draws [true; true; true] (core b)) = Some vs
  /\ option_map snd (sp_draws 3 (core b)) = Some ws /\ vs <> ws.
Proof.
  exists bad_halves. do 3 eexists. split; [vm_compute; reflexivity|]. split; [vm_compute; reflexivity|]. split; [vm_compute; reflexivity|]. discriminate.
Qed.

(* ------------------------------------------------------------------- C51 *)
(* the software AES and the AES-NI instructions give the same draws *)
Theorem C51_aes_ni_next : forall s, Forall pwf (l_ctr s) -> ni_next s = aes_next s.
Proof. exact ni_next_eq. Qed.
Theorem C51_aes_ni_key_expansion : forall key, words 8 16 key -> ni_expand key = tiny_expand key.
Proof. exact ni_expand_tiny. Qed.

Print Assumptions C05_aes_seeded_stream.
Print Assumptions C06_speck_seeded_stream.
Print Assumptions C05_aes_advance_is_drawing.
Print Assumptions C06_speck_advance_is_drawing.
Print Assumptions C05_aes_advance_negative.
Print Assumptions C06_speck_advance_negative.
Print Assumptions C05_aes_advance_position.
Print Assumptions C06_speck_advance_position.
Print Assumptions C05_aes_advance_zero_keeps_half_refuted.
Print Assumptions C06_speck_advance_zero_keeps_half_refuted.
Print Assumptions C17_aes_jumped.
Print Assumptions C17_speck_jumped.
Print Assumptions C17_aes_jumps_compose.
Print Assumptions C17_speck_jumps_compose.
Print Assumptions C18_aes_restores.
Print Assumptions C18_speck_restores.
Print Assumptions C19_aes_not_atomic_refuted.
Print Assumptions C19_speck_not_atomic_refuted.
Print Assumptions C20_aes_seed_safe.
Print Assumptions C20_aes_draws_safe.
Print Assumptions C20_aes_advance_safe.
Print Assumptions C20_speck_seed_safe.
Print Assumptions C20_speck_draws_safe.
Print Assumptions C20_speck_advance_safe.
Print Assumptions C20_aes_state_offset_refuted.
Print Assumptions C20_speck_state_offset_refuted.
Print Assumptions C20_speck_state_rounds_refuted.
Print Assumptions C24_aes_never_merges.
Print Assumptions C24_speck_never_merges.
Print Assumptions C35_aes_block_permutation.
Print Assumptions C35_speck_block_permutation.
Print Assumptions C36_speck_sse_is_scalar.
Print Assumptions C36_speck_seed_twin.
Print Assumptions C36_speck_state_halves_refuted.
Print Assumptions C51_aes_ni_next.
Print Assumptions C51_aes_ni_key_expansion.
