(* How far jumped() moves (C55), and that the streams of generators jumped a
   different number of times do not overlap (C77), for the counter-based classes.
   The other generators are in PropPcg, PropXoshiro, PropSquares, PropMt19937,
   PropSfmtJump and PropDsfmtJump.

   Documented lengths: Philox and ThreeFry (philox.pyx:429-463, threefry.pyx)
   "2**(W*N/2) random numbers" for jump and "2**(2*W * iter) random numbers" for
   jumped; AESCounter and SPECK128 (aes.pyx, speck128.pyx) iter * 2**64. *)
From Verif Require Import Word MultiWord Ctr Blocks MulHilo CtrPy CtrFacts Py.
From Verif Require Import Buffer32 LaneCtr Aes AesPy Speck.
From Coq Require Import String.
Open Scope N_scope.
Ltac Zify.zify_post_hook ::= idtac.

Lemma mod_shift_inj c p a b : a < c -> b < c -> (p + a) mod c = (p + b) mod c -> a = b.
Proof.
  intros Ha Hb E. assert (Hc : c <> 0) by lia.
  rewrite <- (N.add_mod_idemp_l p a), <- (N.add_mod_idemp_l p b) in E by exact Hc.
  pose proof (N.mod_lt p c Hc) as Hp. set (q := p mod c) in *. clearbody q.
  pose proof (N.div_mod (q + a) c Hc) as D1. pose proof (N.div_mod (q + b) c Hc) as D2. rewrite E in D1.
  set (x := (q + a) / c) in *. set (y := (q + b) / c) in *. set (r := (q + b) mod c) in *.
  assert (x < 2) by (apply N.div_lt_upper_bound; lia). assert (y < 2) by (apply N.div_lt_upper_bound; lia).
  assert (Rc : r < c) by (apply N.mod_lt, Hc). clearbody x y r.
  assert (x = 0 \/ x = 1) as [-> | ->] by lia; assert (y = 0 \/ y = 1) as [-> | ->] by lia; lia.
Qed.
(* position p of a cycle of 2^129 values, jumps of 2^64 *)
Lemma lane_index_inj p i j n m : (0 <= i < 2 ^ 65)%Z -> (0 <= j < 2 ^ 65)%Z -> n < 2 ^ 64 -> m < 2 ^ 64 ->
  forall p1 p2, Z.of_N p1 = ((Z.of_N p + i * 2 ^ 64) mod 2 ^ 129)%Z -> Z.of_N p2 = ((Z.of_N p + j * 2 ^ 64) mod 2 ^ 129)%Z ->
  (p1 + n) mod 2 ^ 129 = (p2 + m) mod 2 ^ 129 -> i = j /\ n = m.
Proof.
  intros Hi Hj Hn Hm p1 p2 E1 E2 E.
  assert (A1 : p1 = (p + Z.to_N i * 2 ^ 64) mod 2 ^ 129).
  { apply N2Z.inj. rewrite E1, N2Z.inj_mod, N2Z.inj_add, N2Z.inj_mul, Z2N.id by lia. reflexivity. }
  assert (A2 : p2 = (p + Z.to_N j * 2 ^ 64) mod 2 ^ 129).
  { apply N2Z.inj. rewrite E2, N2Z.inj_mod, N2Z.inj_add, N2Z.inj_mul, Z2N.id by lia. reflexivity. }
  rewrite A1, A2, !N.add_mod_idemp_l, <- !N.add_assoc in E by discriminate.
  assert (Bi : Z.to_N i < 2 ^ 65) by lia. assert (Bj : Z.to_N j < 2 ^ 65) by lia.
  apply mod_shift_inj in E; [|lia..]. lia.
Qed.

(* ------------------------------------------------------- Philox, ThreeFry *)
Section Counter.
  Context (c : cls) (n w : N) (Hv : In (n, w) variants).
  Lemma vjump_at k s : vinv c n w s -> 0 < k -> k < 2 ^ (w * n / 2 - lgn n) ->
    vpos n w (vjump c n w (Z.of_N k) s) mod vcycle n w = (n * (lv w (c_ctr s) + 1) + n * (k * 2 ^ (w * n / 2))) mod vcycle n w.
  Proof.
    intros Hi H0 Hk. destruct (vjump_spec c n w Hv k s Hi H0 Hk) as [E1 E2]. rewrite E2, E1.
    unfold vcycle. rewrite N.mul_add_distr_l, <- N.mul_mod_distr_l.
    2: apply N.pow_nonzero; discriminate.
    2: rewrite <- (vn n w Hv); apply N.pow_nonzero; discriminate.
    rewrite N.add_mod_idemp_l. 2: exact (vcycle_nz c n w Hv). f_equal. lia.
  Qed.
  Lemma vend s : c_pos s = Z.of_N n -> vpos n w s = n * (lv w (c_ctr s) + 1).
  Proof. intros Hp. unfold vpos, cpos. rewrite Hp, (vn n w Hv), N2Z.id, N.min_id. lia. Qed.
  Lemma vjump_moves k s : vinv c n w s -> c_pos s = Z.of_N n -> 0 < k -> k < 2 ^ (w * n / 2 - lgn n) ->
    vpos n w (vjump c n w (Z.of_N k) s) mod vcycle n w = (vpos n w s + n * (k * 2 ^ (w * n / 2))) mod vcycle n w.
  Proof. intros Hi Hp H0 Hk. rewrite (vend s Hp). now apply vjump_at. Qed.
  Lemma vjump_not s d : vinv c n w s -> c_pos s = Z.of_N n -> d < vcycle n w -> n * 2 ^ (w * n / 2) <> d ->
    vpos n w (vjump c n w 1 s) mod vcycle n w <> (vpos n w s + d) mod vcycle n w.
  Proof.
    intros Hi Hp Hd Hne E. change 1%Z with (Z.of_N 1) in E. rewrite vjump_moves in E; try assumption; try reflexivity.
    2: destruct Hv as [[= <- <-]|[[= <- <-]|[[= <- <-]|[[= <- <-]|[]]]]]; reflexivity.
    apply mod_shift_inj in E; [lia| |exact Hd]. clear E Hne.
    destruct Hv as [[= <- <-]|[[= <- <-]|[[= <- <-]|[[= <- <-]|[]]]]]; reflexivity.
  Qed.
  Lemma vjump_doc s : vinv c n w s -> c_pos s = Z.of_N n ->
    vpos n w (vjump c n w 1 s) mod vcycle n w <> (vpos n w s + 2 ^ (w * n / 2)) mod vcycle n w /\
    vpos n w (vjump c n w 1 s) mod vcycle n w <> (vpos n w s + 2 ^ (2 * w)) mod vcycle n w.
  Proof.
    intros Hi Hp. split; (apply vjump_not; [exact Hi|exact Hp| |]; clear Hi;
      destruct Hv as [[= <- <-]|[[= <- <-]|[[= <- <-]|[[= <- <-]|[]]]]]; clear; vm_compute; (reflexivity || discriminate)).
  Qed.
  Lemma vjump_disjoint i j a b s s1 vs1 s2 vs2 : vinv c n w s ->
    0 < i -> i < 2 ^ (w * n / 2 - lgn n) -> 0 < j -> j < 2 ^ (w * n / 2 - lgn n) ->
    a < n * 2 ^ (w * n / 2) -> b < n * 2 ^ (w * n / 2) ->
    vdraws c n w a (vjump c n w (Z.of_N i) s) = Some (s1, vs1) ->
    vdraws c n w b (vjump c n w (Z.of_N j) s) = Some (s2, vs2) ->
    vpos n w s1 mod vcycle n w = vpos n w s2 mod vcycle n w -> i = j /\ a = b.
  Proof.
    intros Hi I0 I1 J0 J1 Ha Hb E1 E2 E.
    assert (Inv : forall k, vinv c n w (vjump c n w k s)).
    { intros k. apply (pyadvance_inv w (lgn n) (blockfn c (n, w)) (vlg n w Hv) (vw n w Hv) (vblk c n w Hv)). exact Hi. }
    destruct (vdraws_spec c n w Hv a _ (Inv (Z.of_N i))) as (t1 & F1 & _ & _ & P1 & _). rewrite E1 in F1. injection F1 as <- _.
    destruct (vdraws_spec c n w Hv b _ (Inv (Z.of_N j))) as (t2 & F2 & _ & _ & P2 & _). rewrite E2 in F2. injection F2 as <- _.
    rewrite P1, P2 in E. pose proof (vcycle_nz c n w Hv) as Nz.
    rewrite <- (N.add_mod_idemp_l _ a), <- (N.add_mod_idemp_l _ b) in E by exact Nz.
    rewrite !vjump_at, !N.add_mod_idemp_l, <- !N.add_assoc in E by assumption.
    assert (B : forall k x, k < 2 ^ (w * n / 2 - lgn n) -> x < n * 2 ^ (w * n / 2) -> n * (k * 2 ^ (w * n / 2)) + x < vcycle n w).
    { intros k x Hk Hx. assert (Q : 2 ^ (w * n / 2 - lgn n) <= 2 ^ (w * n / 2)) by (apply N.pow_le_mono_r; lia).
      assert (R : 2 ^ (w * n) = 2 ^ (w * n / 2) * 2 ^ (w * n / 2)).
      { rewrite <- N.pow_add_r. f_equal. destruct Hv as [[= <- <-]|[[= <- <-]|[[= <- <-]|[[= <- <-]|[]]]]]; reflexivity. }
      unfold vcycle. rewrite R. set (K := 2 ^ (w * n / 2)) in *. clearbody K.
      apply N.lt_le_trans with (n * ((k + 1) * K)); [lia|]. apply N.mul_le_mono_l, N.mul_le_mono_r. lia. }
    apply mod_shift_inj in E; [|now apply B..].
    set (K := 2 ^ (w * n / 2)) in *. clearbody K.
    assert (D : i * (n * K) + a = j * (n * K) + b) by lia. set (M := n * K) in *. clearbody M.
    destruct (N.lt_trichotomy i j) as [H|[H|H]]; [exfalso|subst; split; lia|exfalso].
    - assert ((i + 1) * M <= j * M) by (apply N.mul_le_mono_r; lia). lia.
    - assert ((j + 1) * M <= i * M) by (apply N.mul_le_mono_r; lia). lia.
  Qed.
End Counter.

Definition ex_ph : cst := o_st (seed_key Philox (4, 64) 12345 (2 ^ 256 - 1)).
Definition ex_tf : cst := o_st (seed_key ThreeFry (4, 64) 12345 (2 ^ 256 - 1)).
Lemma in42 : In (4, 64) variants. Proof. now left. Qed.

(* At the end of a block (as after seeding), k jumps skip N * k * 2^(W*N/2)
   values: the counter counts blocks of N values. *)
Theorem C55_philox_jump_length :
  forall n w k s, In (n, w) variants -> vinv Philox n w s -> c_pos s = Z.of_N n -> 0 < k -> k < 2 ^ (w * n / 2 - lgn n) ->
  vpos n w (vjump Philox n w (Z.of_N k) s) mod vcycle n w = (vpos n w s + n * (k * 2 ^ (w * n / 2))) mod vcycle n w.
Proof. intros n w k s Hv. exact (vjump_moves Philox n w Hv k s). Qed.
Theorem C55_threefry_jump_length :
  forall n w k s, In (n, w) variants -> vinv ThreeFry n w s -> c_pos s = Z.of_N n -> 0 < k -> k < 2 ^ (w * n / 2 - lgn n) ->
  vpos n w (vjump ThreeFry n w (Z.of_N k) s) mod vcycle n w = (vpos n w s + n * (k * 2 ^ (w * n / 2))) mod vcycle n w.
Proof. intros n w k s Hv. exact (vjump_moves ThreeFry n w Hv k s). Qed.
(* So neither documented length is right, for any number and width: the first
   is that of jump's documentation, the second that of jumped's. *)
Theorem C55_philox_documented_jump_refuted :
  forall n w s, In (n, w) variants -> vinv Philox n w s -> c_pos s = Z.of_N n ->
  vpos n w (vjump Philox n w 1 s) mod vcycle n w <> (vpos n w s + 2 ^ (w * n / 2)) mod vcycle n w /\
  vpos n w (vjump Philox n w 1 s) mod vcycle n w <> (vpos n w s + 2 ^ (2 * w)) mod vcycle n w.
Proof. intros n w s Hv. exact (vjump_doc Philox n w Hv s). Qed.
Theorem C55_threefry_documented_jump_refuted :
  forall n w s, In (n, w) variants -> vinv ThreeFry n w s -> c_pos s = Z.of_N n ->
  vpos n w (vjump ThreeFry n w 1 s) mod vcycle n w <> (vpos n w s + 2 ^ (w * n / 2)) mod vcycle n w /\
  vpos n w (vjump ThreeFry n w 1 s) mod vcycle n w <> (vpos n w s + 2 ^ (2 * w)) mod vcycle n w.
Proof. intros n w s Hv. exact (vjump_doc ThreeFry n w Hv s). Qed.
Example C55_counter_case : vinv Philox 4 64 ex_ph /\ c_pos ex_ph = 4%Z /\ vinv ThreeFry 4 64 ex_tf /\ c_pos ex_tf = 4%Z.
Proof.
  split; [exact (proj1 (vseed_inv Philox 4 64 in42 12345 (2 ^ 256 - 1) eq_refl))|]. split; [reflexivity|].
  split; [exact (proj1 (vseed_inv ThreeFry 4 64 in42 12345 (2 ^ 256 - 1) eq_refl))|]. reflexivity.
Qed.

(* ---------------------------------------------------- AESCounter, SPECK128 *)
(* iter * 2^64 draws, as documented *)
Theorem C55_aes_jump_length :
  forall iter t b, aes_live b -> List.length (l_buf (core t)) = 64%nat ->
  exists s1 vs b', aes_draws (N.to_nat (iter * 2 ^ 64)) (core b) = Some (s1, vs) /\ aes_jumped (Z.of_N iter) t b = Some b' /\
  forall k, option_map snd (aes_draws k (core b')) = option_map snd (aes_draws k s1).
Proof.
  intros iter t b Hb Ht. destruct (aes_advance_draws (iter * 2 ^ 64) b (proj1 Hb)) as (s1 & vs & b' & E1 & E2 & _ & H).
  exists s1, vs, b'. split; [exact E1|]. split; [|exact H].
  unfold aes_jumped. rewrite aes_set_get by (auto using aes_live_ok). rewrite N2Z.inj_mul in E2. exact E2.
Qed.
Theorem C55_speck_jump_length :
  forall iter t b, sp_ok b ->
  exists s1 vs b', sp_draws (N.to_nat (iter * 2 ^ 64)) (core b) = Some (s1, vs) /\ sp_jumped (Z.of_N iter) t b = Some b' /\
  forall k, option_map snd (sp_draws k (core b')) = option_map snd (sp_draws k s1).
Proof.
  intros iter t b Hb. destruct (sp_advance_draws (iter * 2 ^ 64) b (proj1 Hb)) as (s1 & vs & b' & E1 & E2 & _ & H).
  exists s1, vs, b'. split; [exact E1|]. split; [|exact H].
  unfold sp_jumped. rewrite sp_set_get by assumption. rewrite N2Z.inj_mul in E2. exact E2.
Qed.

(* ------------------------------------------------------------------- C77 *)
(* a values after i jumps and b values after j jumps are at different places of
   the cycle, unless i = j and a = b *)
Theorem C77_philox_jumped_streams_disjoint :
  forall n w i j a b s s1 vs1 s2 vs2, In (n, w) variants -> vinv Philox n w s ->
  0 < i -> i < 2 ^ (w * n / 2 - lgn n) -> 0 < j -> j < 2 ^ (w * n / 2 - lgn n) ->
  a < n * 2 ^ (w * n / 2) -> b < n * 2 ^ (w * n / 2) ->
  vdraws Philox n w a (vjump Philox n w (Z.of_N i) s) = Some (s1, vs1) ->
  vdraws Philox n w b (vjump Philox n w (Z.of_N j) s) = Some (s2, vs2) ->
  vpos n w s1 mod vcycle n w = vpos n w s2 mod vcycle n w -> i = j /\ a = b.
Proof. intros n w i j a b s s1 vs1 s2 vs2 Hv. exact (vjump_disjoint Philox n w Hv i j a b s s1 vs1 s2 vs2). Qed.
Theorem C77_threefry_jumped_streams_disjoint :
  forall n w i j a b s s1 vs1 s2 vs2, In (n, w) variants -> vinv ThreeFry n w s ->
  0 < i -> i < 2 ^ (w * n / 2 - lgn n) -> 0 < j -> j < 2 ^ (w * n / 2 - lgn n) ->
  a < n * 2 ^ (w * n / 2) -> b < n * 2 ^ (w * n / 2) ->
  vdraws ThreeFry n w a (vjump ThreeFry n w (Z.of_N i) s) = Some (s1, vs1) ->
  vdraws ThreeFry n w b (vjump ThreeFry n w (Z.of_N j) s) = Some (s2, vs2) ->
  vpos n w s1 mod vcycle n w = vpos n w s2 mod vcycle n w -> i = j /\ a = b.
Proof. intros n w i j a b s s1 vs1 s2 vs2 Hv. exact (vjump_disjoint ThreeFry n w Hv i j a b s s1 vs1 s2 vs2). Qed.
Theorem C77_aes_jumped_streams_disjoint :
  forall i j a c t u b b1 b2 s1 vs1 s2 vs2, aes_live b -> List.length (l_buf (core t)) = 64%nat -> List.length (l_buf (core u)) = 64%nat ->
  (0 <= i < 2 ^ 65)%Z -> (0 <= j < 2 ^ 65)%Z -> N.of_nat a < 2 ^ 64 -> N.of_nat c < 2 ^ 64 ->
  aes_jumped i t b = Some b1 -> aes_jumped j u b = Some b2 ->
  aes_draws a (core b1) = Some (s1, vs1) -> aes_draws c (core b2) = Some (s2, vs2) ->
  aes_pos s1 = aes_pos s2 -> i = j /\ a = c.
Proof.
  intros i j a c t u b b1 b2 s1 vs1 s2 vs2 Hb Ht Hu Hi Hj Ha Hc J1 J2 E1 E2 E.
  destruct (aes_jumped_spec i t b Hb Ht) as (b1' & F1 & I1 & _ & P1). rewrite J1 in F1. injection F1 as <-.
  destruct (aes_jumped_spec j u b Hb Hu) as (b2' & F2 & I2 & _ & P2). rewrite J2 in F2. injection F2 as <-.
  destruct (aes_draws_spec a _ I1) as (t1 & G1 & _ & _ & Q1). rewrite E1 in G1. injection G1 as <- _.
  destruct (aes_draws_spec c _ I2) as (t2 & G2 & _ & _ & Q2). rewrite E2 in G2. injection G2 as <- _.
  rewrite Q1, Q2 in E. destruct (lane_index_inj _ i j _ _ Hi Hj Ha Hc _ _ P1 P2 E) as [-> H]. split; [reflexivity|lia].
Qed.
Theorem C77_speck_jumped_streams_disjoint :
  forall i j a c t u b b1 b2 s1 vs1 s2 vs2, sp_ok b ->
  (0 <= i < 2 ^ 65)%Z -> (0 <= j < 2 ^ 65)%Z -> N.of_nat a < 2 ^ 64 -> N.of_nat c < 2 ^ 64 ->
  sp_jumped i t b = Some b1 -> sp_jumped j u b = Some b2 ->
  sp_draws a (core b1) = Some (s1, vs1) -> sp_draws c (core b2) = Some (s2, vs2) ->
  sp_pos s1 = sp_pos s2 -> i = j /\ a = c.
Proof.
  intros i j a c t u b b1 b2 s1 vs1 s2 vs2 Hb Hi Hj Ha Hc J1 J2 E1 E2 E.
  destruct (sp_jumped_spec i t b Hb) as (b1' & F1 & I1 & _ & P1). rewrite J1 in F1. injection F1 as <-.
  destruct (sp_jumped_spec j u b Hb) as (b2' & F2 & I2 & _ & P2). rewrite J2 in F2. injection F2 as <-.
  destruct (sp_draws_spec a _ I1) as (t1 & G1 & _ & _ & Q1). rewrite E1 in G1. injection G1 as <- _.
  destruct (sp_draws_spec c _ I2) as (t2 & G2 & _ & _ & Q2). rewrite E2 in G2. injection G2 as <- _.
  rewrite Q1, Q2 in E. destruct (lane_index_inj _ i j _ _ Hi Hj Ha Hc _ _ P1 P2 E) as [-> H]. split; [reflexivity|lia].
Qed.
Definition ex_sp : speck := sp_seed 0x0123456789abcdef0123456789abcdef (2 ^ 128 - 2) (sp_zero 34).
Example C77_case : sp_ok ex_sp /\ exists b1 b2, sp_jumped 1 (sp_zero 7) ex_sp = Some b1 /\ sp_jumped 2 (sp_zero 1) ex_sp = Some b2 /\
  sp_pos (core b1) = 2 ^ 64 - 4 /\ sp_pos (core b2) = 2 ^ 65 - 4 /\
  aes_live (aes_seed 0x2b7e151628aed2a6abf7158809cf4f3c (2 ^ 128 - 2) aes_zero) /\
  option_map snd (vdraws Philox 4 64 3 (vjump Philox 4 64 1 ex_ph)) <> option_map snd (vdraws Philox 4 64 3 (vjump Philox 4 64 2 ex_ph)).
Proof.
  split; [apply sp_seed_ok; [reflexivity|]; split; [reflexivity|discriminate]|].
  do 2 eexists. split; [vm_compute; reflexivity|]. split; [vm_compute; reflexivity|]. split; [vm_compute; reflexivity|]. split; [vm_compute; reflexivity|].
  split; [apply aes_live_seed; [reflexivity|exact aes_zero_buf]|]. vm_compute. discriminate.
Qed.

Print Assumptions C55_philox_jump_length.
Print Assumptions C55_threefry_jump_length.
Print Assumptions C55_philox_documented_jump_refuted.
Print Assumptions C55_threefry_documented_jump_refuted.
Print Assumptions C55_aes_jump_length.
Print Assumptions C55_speck_jump_length.
Print Assumptions C77_philox_jumped_streams_disjoint.
Print Assumptions C77_threefry_jumped_streams_disjoint.
Print Assumptions C77_aes_jumped_streams_disjoint.
Print Assumptions C77_speck_jumped_streams_disjoint.
