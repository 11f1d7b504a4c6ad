(* C22 and C54 for the generators that keep half of a 64-bit value. *)
From Verif Require Import Word Arr Buffer32 OptBuffer Lcg Pcg Xoshiro XoshiroLin Xorshift1024Facts LaneCtr AesPy Speck
  MultiWord Ctr Blocks CtrPy CtrFacts CtrDraw HalfFacts PcgFacts Rdrand.
From Coq Require Import ZifyBool ZifyNat ZifyN.
Open Scope N_scope.
Ltac Zify.zify_post_hook ::= idtac.

(* ------------------------------------------------------------------- C22 *)
(* rs: any list of 32-bit and 64-bit draws. The answers are what a reader of the list
   of 64-bit values gives who hands out each value either whole, or as its low half
   now and its high half at the next 32-bit draw (Buffer32.spec); no value is left
   over, and the generator ends after the last value. *)
Definition any_order {A} (next : A -> A * N) (ok : A -> Prop) : Prop :=
  forall rs b, ok (core b) -> exists n,
  let '(a, vs) := raws next n (core b) in
  spec rs (queue b) vs = Some (queue (fst (run next rs b)), snd (run next rs b), []) /\ core (fst (run next rs b)) = a.
Definition any_order_opt {A} (next : A -> option (A * N)) (ok : A -> Prop) : Prop :=
  forall rs b, ok (core b) -> exists n b' vs a ws,
  orun next rs b = Some (b', vs) /\ odraws next n (core b) = Some (a, ws) /\
  spec rs (queue b) ws = Some (queue b', vs, []) /\ core b' = a.

Theorem C22_xoshiro256_any_order : any_order xoshiro256_next v4_wf.
Proof. exact (run_spec xoshiro256_next v4_wf xoshiro256_ok). Qed.
Theorem C22_xoshiro512_any_order : any_order xoshiro512_next v8_wf.
Proof. exact (run_spec xoshiro512_next v8_wf xoshiro512_ok). Qed.
Theorem C22_xoroshiro128_any_order : any_order xoroc_next (fun c => v2_wf (xo_s c)).
Proof. exact (run_spec xoroc_next _ xoroc_ok). Qed.
Theorem C22_xorshift1024_any_order : any_order_opt xorshift1024_next xs_ok.
Proof. exact (orun_spec xorshift1024_next xs_ok xs_ok_step). Qed.
Theorem C22_lxm_any_order : any_order lxm_next lxmc_wf.
Proof. exact (run_spec lxm_next lxmc_wf lxm_ok). Qed.
(* PCG64 in its three variants, PCG64DXSM among them *)
Theorem C22_pcg64_any_order : any_order p64_next (fun c => wf 128 (p_state c)).
Proof. exact (run_spec p64_next p64_ok p64_next_ok). Qed.
(* whatever the user's output function computes *)
Theorem C22_lcg128mix_any_order : forall cfun, any_order (lcg_next cfun) (fun c => wf 128 (l_state c)).
Proof. intros cfun. exact (run_spec (lcg_next cfun) lcg_ok (lcg_next_ok cfun)). Qed.
Theorem C22_aes_any_order : any_order_opt aes_next aes_inv.
Proof. exact (orun_spec aes_next aes_inv aes_ok_step). Qed.
Theorem C22_speck_any_order : any_order_opt sp_next sp_inv.
Proof. exact (orun_spec sp_next sp_inv sp_ok_step). Qed.
Example C22_case :
  v4_wf (V4 1 2 3 4) /\ snd (run xoshiro256_next [R32; R64; R32; R32] (Buf (V4 1 2 3 4) false 0)) = [11520; 0; 0; 1509978240]
  /\ xs_ok (XS (map N.of_nat (seq 1 16)) 15) /\ wf 128 (p_state (core (pcg64_seed CmDxsm 5 6))).
Proof.
  split; [repeat split|]. split; [vm_compute; reflexivity|]. split; [|reflexivity].
  split; [reflexivity|]. split; [|split; [discriminate|reflexivity]]. apply Forall_forall. intros x Hx. apply in_map_iff in Hx as (k & <- & Hk). apply in_seq in Hk. unfold wf. lia.
Qed.

(* Philox and ThreeFry, n x 64 *)
Theorem C22_counter64_any_order :
  forall c n lr rs s, In (n, 64) variants -> vok c n 64 s -> exists k s' ws t vs,
  crun c n 64 lr rs s = Some (t, vs) /\ vdraws c n 64 k s = Some (s', ws) /\
  spec rs (cqueue s) ws = Some (cqueue t, vs, []) /\ csame t s'.
Proof.
  intros c n lr rs s Hv H. destruct (crun64 c n 64 Hv lr rs eq_refl s H) as (k & s' & ws & t & vs & R & D & S & C & _).
  exists (N.of_nat k), s', ws, t, vs. unfold vdraws. rewrite Nat2N.id. auto.
Qed.
(* Philox and ThreeFry, n x 32: each 64-bit value is two consecutive 32-bit ones *)
Theorem C22_counter32_64_from_32 :
  forall c n lr rs s, In (n, 32) variants -> vok c n 32 s -> exists s' vs,
  crun c n 32 lr rs s = Some (s', vs) /\ length vs = length rs /\
  vdraws c n 32 (N.of_nat (length (all_pieces lr rs vs))) s = Some (s', all_pieces lr rs vs).
Proof.
  intros c n lr rs s Hv H. destruct (crun32 c n 32 Hv lr rs eq_refl s H) as (s' & vs & R & D & L & _).
  exists s', vs. unfold vdraws. rewrite Nat2N.id. auto.
Qed.
Lemma seeded_ok c n w key counter : In (n, w) variants -> vok c n w (o_st (seed_key c (n, w) key counter)).
Proof.
  intros Hv. split; [|split; [apply to_words_length|apply to_words_wf]].
  pose proof (variant_lg n w Hv) as (E & _). split; [apply to_words_wf|]. rewrite E. split; [apply to_words_length|]. split; [reflexivity|]. split; [split; discriminate|].
  cbn [seed_key o_st c_pos]. intros i Hi. cbn in Hv. change (Z.to_nat 4) with 4%nat in Hi. destruct Hv as [[= <- <-]|[[= <- <-]|[[= <- <-]|[[= <- <-]|[]]]]]; cbn in Hi; lia.
Qed.
Example C22_counter_case :
  vok Philox 4 64 (o_st (seed_key Philox (4, 64) 3 9)) /\ vok ThreeFry 2 32 (o_st (seed_key ThreeFry (2, 32) 3 9)).
Proof. split; apply seeded_ok; cbn; auto. Qed.


(* PCG32: the 64-bit value is two consecutive 32-bit ones *)
Fixpoint pcg32_run (hf : bool) (rs : list req) (s : pcg32) : pcg32 * list N :=
  match rs with
  | [] => (s, [])
  | r :: rs => let '(s1, v) := match r with R32 => pcg32_next32 s | R64 => pcg32_next64 hf s end in
               let '(s2, vs) := pcg32_run hf rs s1 in (s2, v :: vs)
  end.
Fixpoint pcg32_words (n : nat) (s : pcg32) : pcg32 * list N :=
  match n with O => (s, []) | S n => let '(s1, v) := pcg32_next32 s in let '(s2, vs) := pcg32_words n s1 in (s2, v :: vs) end.
Theorem C22_pcg32_64_from_32 :
  forall hf rs s, pcg32_wf s ->
  let '(s', vs) := pcg32_run hf rs s in pcg32_words (length (all_pieces hf rs vs)) s = (s', all_pieces hf rs vs) /\ length vs = length rs.
Proof.
  intros hf rs. induction rs as [|r rs IH]; intros s H; [split; reflexivity|].
  assert (W : forall s, pcg32_wf s -> pcg32_wf (pcg32_step s)) by (intros t T; split; [apply wf_lcg_step|apply T]).
  destruct r; cbn [pcg32_run].
  - cbn [pcg32_next32]. specialize (IH (pcg32_step s) (W s H)). destruct (pcg32_run hf rs (pcg32_step s)) as [s' vs]. destruct IH as [E L].
    cbn [all_pieces pieces app length pcg32_words pcg32_next32]. rewrite E. split; [reflexivity|now rewrite L].
  - unfold pcg32_next64. cbn [pcg32_next32]. set (x := xsh_rr (p32_state s)). set (y := xsh_rr (p32_state (pcg32_step s))).
    specialize (IH (pcg32_step (pcg32_step s)) (W _ (W s H))). destruct (pcg32_run hf rs (pcg32_step (pcg32_step s))) as [s' vs]. destruct IH as [E L].
    rewrite (pair_pieces hf x y) by apply xsh_rr_wf. cbn [app length pcg32_words pcg32_next32]. rewrite E. split; [reflexivity|now rewrite L].
Qed.
(* RDRAND: a 32-bit draw uses up a whole 64-bit value; its high half is never seen *)
Theorem C22_rdrand_drops_halves_refuted :
  exists hw s s1 s2 t v lo1 lo2, rd_next hw s = Some (t, v, false) /\ rd_next32 hw s = Some (s1, lo1, false) /\ rd_next32 hw s1 = Some (s2, lo2, false)
  /\ lo1 = v mod 2 ^ 32 /\ lo2 <> v / 2 ^ 32 /\ s1 = t.
Proof.
  exists (fun p => Some (p + 2 ^ 32)). set (b := 2 ^ 32 + 1 :: 2 ^ 32 + 5 :: repeat 0 254).
  exists (RD b 0 true 10 0), (RD b 1 true 10 0), (RD b 2 true 10 0), (RD b 1 true 10 0), (2 ^ 32 + 1), 1, 5.
  repeat split; vm_compute; try reflexivity. discriminate.
Qed.
Theorem C22_rdrand_low_half :
  forall hw s t v e, rd_next hw s = Some (t, v, e) -> rd_next32 hw s = Some (t, v mod 2 ^ 32, e).
Proof. intros hw s t v e H. unfold rd_next32. now rewrite H. Qed.

(* ------------------------------------------------------------------- C54 *)
Theorem C54_pcg32_order_dependent_refuted :
  exists s, pcg32_wf s /\ snd (pcg32_next64 true s) <> snd (pcg32_next64 false s).
Proof. exists (P32 5 7). split; [split; reflexivity|vm_compute; discriminate]. Qed.
Theorem C54_pcg32_order_same_state : forall s, fst (pcg32_next64 true s) = fst (pcg32_next64 false s).
Proof. reflexivity. Qed.
Theorem C54_counter64_order_free :
  forall c n lr lr' rs s, crun c n 64 lr rs s = crun c n 64 lr' rs s.
Proof.
  intros c n lr lr' rs. induction rs as [|r rs IH]; intros s; [reflexivity|]. cbn [crun]. change (c_next64 c n 64 lr s) with (c_next64 c n 64 lr' s).
  destruct (match r with R32 => c_next32 c n 64 s | R64 => c_next64 c n 64 lr' s end) as [[s1 v]|]; [|reflexivity]. now rewrite IH.
Qed.
(* random_raw gives the 32-bit words one by one, and is not concerned *)
Theorem C54_counter_raw_order_free :
  forall c n w lr lr' s, In (n, w) variants -> c_raw c n w lr s = c_raw c n w lr' s.
Proof. intros c n w lr lr' s Hv. cbn in Hv. destruct Hv as [[= <- <-]|[[= <- <-]|[[= <- <-]|[[= <- <-]|[]]]]]; reflexivity. Qed.
(* and is the next word of the stream *)
Theorem C54_counter_raw_next :
  forall c n w lr s, In (n, w) variants -> vok c n w s -> c_raw c n w lr s = vnext c n w s.
Proof.
  intros c n w lr s Hv Hs. destruct (vnext_ok c n w Hv s Hs) as (s' & v & E & _ & W & _). cbn in Hv.
  destruct Hv as [[= <- <-]|[[= <- <-]|[[= <- <-]|[[= <- <-]|[]]]]]; try reflexivity; unfold c_raw, c_next32; cbn [N.eqb Pos.eqb]; rewrite E; now rewrite trunc_small by exact W.
Qed.
Theorem C54_counter32_order_same_state :
  forall c n s, option_map fst (c_next64 c n 32 true s) = option_map fst (c_next64 c n 32 false s).
Proof. intros c n s. unfold c_next64. cbn [N.eqb Pos.eqb]. destruct (vnext c n 32 s) as [[s1 x]|]; [|reflexivity]. now destruct (vnext c n 32 s1) as [[s2 y]|]. Qed.
Theorem C54_counter32_order_dependent_refuted :
  forall c, exists n key counter, In (n, 32) variants /\
  option_map snd (c_next64 c n 32 true (o_st (seed_key c (n, 32) key counter))) <> option_map snd (c_next64 c n 32 false (o_st (seed_key c (n, 32) key counter))).
Proof. intros c. exists 4, 3, 9. split; [cbn; auto|]. destruct c; vm_compute; discriminate. Qed.

Print Assumptions C22_xoshiro256_any_order.
Print Assumptions C22_xoshiro512_any_order.
Print Assumptions C22_xoroshiro128_any_order.
Print Assumptions C22_xorshift1024_any_order.
Print Assumptions C22_lxm_any_order.
Print Assumptions C22_pcg64_any_order.
Print Assumptions C22_lcg128mix_any_order.
Print Assumptions C22_aes_any_order.
Print Assumptions C22_speck_any_order.
Print Assumptions C22_counter64_any_order.
Print Assumptions C22_counter32_64_from_32.
Print Assumptions C22_pcg32_64_from_32.
Print Assumptions C22_rdrand_drops_halves_refuted.
Print Assumptions C22_rdrand_low_half.
Print Assumptions C54_pcg32_order_dependent_refuted.
Print Assumptions C54_pcg32_order_same_state.
Print Assumptions C54_counter64_order_free.
Print Assumptions C54_counter_raw_order_free.
Print Assumptions C54_counter_raw_next.
Print Assumptions C54_counter32_order_same_state.
Print Assumptions C54_counter32_order_dependent_refuted.
