(* Proofs about the class Xorshift1024. *)
From Verif Require Import Word Buffer32 Gf2 Lcg Py Xoshiro XoshiroLin Xorshift1024Lin Xorshift1024Facts
  Order Primes Period Period1024 XoshiroFacts.
From Coq Require Import String ZifyBool ZifyNat ZifyN.
Open Scope N_scope.

Lemma xs_draws_ok n c : xs_ok c -> xs_ok (N.iter n xs_draw c).
Proof. intros H. apply (xs_draws n c H). Qed.
Lemma opt_iter_jump K : (forall c, xs_ok c -> xorshift1024_jump c = Some (N.iter K xs_draw c)) ->
  forall k c, xs_ok c -> opt_iter k xorshift1024_jump c = Some (N.iter (N.of_nat k * K) xs_draw c).
Proof.
  intros HK. induction k as [|k IH]; intros c Hc; [reflexivity|].
  cbn [opt_iter]. rewrite HK by exact Hc. rewrite IH by now apply xs_draws_ok.
  rewrite <- Niter_add. do 2 f_equal. lia.
Qed.
Lemma jump_inplace_gen K : (forall c, xs_ok c -> xorshift1024_jump c = Some (N.iter K xs_draw c)) ->
  forall k b, xs_ok (core b) ->
  xorshift1024_jump_inplace (Z.of_N k) b = Some (Buf (N.iter (k * K) xs_draw (core b)) false 0).
Proof.
  intros HK k b Hb. unfold xorshift1024_jump_inplace. rewrite (opt_iter_jump K HK) by exact Hb.
  do 3 f_equal. f_equal. lia.
Qed.
Lemma xorshift1024_jump_inplace_draws k b : xs_ok (core b) ->
  xorshift1024_jump_inplace (Z.of_N k) b = Some (Buf (N.iter (k * 2 ^ 512) xs_draw (core b)) false 0).
Proof. exact (jump_inplace_gen (2 ^ 512) xorshift1024_jump_draws k b). Qed.

Lemma jump_add_gen K : (forall c, xs_ok c -> xorshift1024_jump c = Some (N.iter K xs_draw c)) ->
  forall i j b, (0 <= i)%Z -> (0 <= j)%Z -> xs_ok (core b) ->
  exists b', xorshift1024_jump_inplace i b = Some b' /\ xorshift1024_jump_inplace j b' = xorshift1024_jump_inplace (i + j) b.
Proof.
  intros HK i j b Hi Hj Hb. rewrite <- (Z2N.id i), <- (Z2N.id j) by assumption.
  generalize (Z.to_N i) (Z.to_N j). clear Hi Hj. intros m n. rewrite <- N2Z.inj_add.
  rewrite !(jump_inplace_gen K HK) by exact Hb. eexists. split; [reflexivity|].
  rewrite (jump_inplace_gen K HK) by (apply xs_draws_ok; exact Hb). cbn [core].
  rewrite <- Niter_add. do 3 f_equal. lia.
Qed.
Lemma xorshift1024_jump_add i j b : (0 <= i)%Z -> (0 <= j)%Z -> xs_ok (core b) ->
  exists b', xorshift1024_jump_inplace i b = Some b' /\ xorshift1024_jump_inplace j b' = xorshift1024_jump_inplace (i + j) b.
Proof. exact (jump_add_gen (2 ^ 512) xorshift1024_jump_draws i j b). Qed.

(* the zero window *)
Lemma wl_nth c i : xs_ok c -> (i < 16)%nat ->
  exists j, (j < 16)%nat /\ nth i (xs_s c) 0 = nth j (wl c) 0.
Proof.
  intros (Hl & _ & Hp) Hi. exists (Z.to_nat ((Z.of_nat i - xs_p c) mod 16)).
  pose proof (Z.mod_pos_bound (Z.of_nat i - xs_p c) 16 ltac:(lia)) as B. split; [lia|].
  set (j := Z.to_nat ((Z.of_nat i - xs_p c) mod 16)).
  assert (Hj : (j < 16)%nat) by (unfold j; lia).
  set (f := fun j => nth (Z.to_nat (Z.land (Z.of_nat j + xs_p c) 15)) (xs_s c) 0).
  change (wl c) with (map f (seq 0 16)).
  rewrite (nth_indep (map f (seq 0 16)) 0 (f 0%nat)) by exact Hj. rewrite map_nth. unfold f.
  rewrite seq_nth by exact Hj. f_equal. rewrite (Z.land_ones _ 4) by lia. cbn [Nat.add].
  unfold j. rewrite Z2Nat.id by lia. rewrite Z.add_mod_idemp_l by lia.
  replace (Z.of_nat i - xs_p c + xs_p c)%Z with (Z.of_nat i) by lia. 
  change (2 ^ 4)%Z with 16%Z. rewrite Z.mod_small by lia. lia.
Qed.
Lemma win_zero c : xs_ok c -> win c = 0 -> xs_s c = repeat 0 16.
Proof.
  intros Hc E. assert (W : wl c = repeat 0 16).
  { apply pack_inj; [reflexivity|now apply wl_wf|repeat constructor|exact E]. }
  apply (nth_ext _ _ 0 0).
  - rewrite repeat_length. apply Hc.
  - intros i Hi. rewrite (proj1 Hc) in Hi. destruct (wl_nth c i Hc Hi) as (j & Hj & ->).
    rewrite W, !nth_repeat. reflexivity.
Qed.
Lemma win_wf c : xs_ok c -> wf 1024 (win c).
Proof. intros H. exact (pack_wf (wl c) (wl_wf c H)). Qed.
Lemma xs_draws_win n c : xs_ok c -> win (N.iter n xs_draw c) = N.iter n xs_T (win c).
Proof. intros H. apply (xs_draws n c H). Qed.
Lemma xs_draws_p n c : xs_ok c -> xs_p (N.iter n xs_draw c) = ((xs_p c + Z.of_N n) mod 16)%Z.
Proof. intros H. apply (xs_draws n c H). Qed.
Lemma xs_nonzero n c : xs_ok c -> xs_s c <> repeat 0 16 -> xs_s (N.iter n xs_draw c) <> repeat 0 16.
Proof.
  intros Hc Hz E.
  assert (N : win c <> 0) by (intros E'; now apply Hz, win_zero).
  apply (l_nonzero _ _ _ _ xs_linear phi1024 phi1024_annihilates xs1024_odd n (win c) (win_wf c Hc) N).
  rewrite <- xs_draws_win by exact Hc. unfold win, wl. rewrite E.
  assert (A : forall j, nth j (repeat 0 16) 0 = 0) by (intros j; apply nth_repeat).
  rewrite (map_ext _ (fun _ => 0)) by (intros; apply A). reflexivity.
Qed.
Lemma xs_T_inj a b : wf 1024 a -> wf 1024 b -> xs_T a = xs_T b -> a = b.
Proof. exact (l_T_inj _ _ _ _ xs_linear phi1024 phi1024_annihilates xs1024_odd a b). Qed.
Lemma xs_draw_inj c d : xs_ok c -> xs_ok d -> xs_draw c = xs_draw d -> c = d.
Proof.
  intros Hc Hd E. apply xs_win_inj; [assumption..| |].
  - apply xs_T_inj; [now apply win_wf..|]. rewrite <- !xs_draw_win by assumption. now rewrite E.
  - pose proof (f_equal xs_p E) as Ep.
    rewrite (proj1 (proj2 (xs_next_window c Hc))), (proj1 (proj2 (xs_next_window d Hd))) in Ep.
    destruct Hc as (_ & _ & Pc), Hd as (_ & _ & Pd). clear - Ep Pc Pd. lia.
Qed.
Lemma xs_draws_inj n : forall c d, xs_ok c -> xs_ok d -> N.iter n xs_draw c = N.iter n xs_draw d -> c = d.
Proof.
  induction n as [|n IH] using N.peano_ind; [auto|]. intros c d Hc Hd. rewrite !N.iter_succ.
  intros E. apply IH; auto. apply xs_draw_inj in E; auto; now apply xs_draws_ok.
Qed.

(* the window (16 last words) repeats exactly every 2^1024 - 1 draws; the array
   with its index every 16 * (2^1024 - 1) *)
Lemma xs_window_period_gen M : 
  (forall v i j, wf 1024 v -> v <> 0 -> (N.iter i xs_T v = N.iter j xs_T v <-> i mod M = j mod M)) ->
  forall c i j, xs_ok c -> xs_s c <> repeat 0 16 ->
  (wl (N.iter i xs_draw c) = wl (N.iter j xs_draw c) <-> i mod M = j mod M).
Proof.
  intros HM c i j Hc Hz.
  assert (Nz : win c <> 0) by (intros E; now apply Hz, win_zero).
  rewrite <- (HM (win c) i j (win_wf c Hc) Nz). rewrite <- !xs_draws_win by exact Hc. split.
  - unfold win. now intros ->.
  - intros E. apply pack_inj in E; [exact E|reflexivity|apply wl_wf; now apply xs_draws_ok..].
Qed.
Lemma xs_window_period c i j : xs_ok c -> xs_s c <> repeat 0 16 ->
  (wl (N.iter i xs_draw c) = wl (N.iter j xs_draw c) <-> i mod (2 ^ 1024 - 1) = j mod (2 ^ 1024 - 1)).
Proof. exact (xs_window_period_gen (2 ^ 1024 - 1) xs1024_distinct c i j). Qed.
Lemma xs_state_period_gen M : M <> 0 -> N.gcd M 16 = 1 ->
  (forall v k, wf 1024 v -> v <> 0 -> (N.iter k xs_T v = v <-> k mod M = 0)) ->
  forall c k, xs_ok c -> xs_s c <> repeat 0 16 ->
  (N.iter k xs_draw c = c <-> k mod (M * 16) = 0).
Proof.
  intros HM Hg HP c k Hc Hz.
  assert (Nz : win c <> 0) by (intros E; now apply Hz, win_zero).
  rewrite <- crt_mod by (try assumption; discriminate).
  rewrite <- (HP (win c) k (win_wf c Hc) Nz). rewrite <- xs_draws_win by exact Hc.
  pose proof (xs_draws_p k c Hc) as Ep. destruct Hc as (Hl & Hf & Hp) eqn:Q. clear Q.
  assert (Hc' : xs_ok c) by (repeat split; assumption || apply Hp).
  split.
  - intros E. rewrite E in *. split; [reflexivity|]. clear - Ep Hp. lia.
  - intros [Ew Ek]. apply xs_win_inj; [now apply xs_draws_ok|exact Hc'|exact Ew|].
    rewrite Ep. clear - Ek Hp. lia.
Qed.
Lemma xs_M1 : 2 ^ 1024 - 1 <> 0. Proof. discriminate. Qed.
Lemma xs_M2 : N.gcd (2 ^ 1024 - 1) 16 = 1. Proof. vm_compute. reflexivity. Qed.
Lemma xs_state_period c k : xs_ok c -> xs_s c <> repeat 0 16 ->
  (N.iter k xs_draw c = c <-> k mod ((2 ^ 1024 - 1) * 16) = 0).
Proof. exact (xs_state_period_gen (2 ^ 1024 - 1) xs_M1 xs_M2 xs1024_period c k). Qed.
(* the value returned by a draw is a function of the window alone *)
Lemma xs_out_window c d : xs_ok c -> xs_ok d -> wl c = wl d ->
  option_map snd (xorshift1024_next c) = option_map snd (xorshift1024_next d).
Proof.
  assert (H : forall c, xs_ok c -> option_map snd (xorshift1024_next c) =
    Some (wmul 64 (xs_mix (nth 0 (wl c) 0) (nth 1 (wl c) 0)) 0x9e3779b97f4a7c13)).
  { clear. intros c (Hl & Hf & Hp). cases16 c Hl; reflexivity. }
  intros Hc Hd E. rewrite (H c Hc), (H d Hd), E. reflexivity.
Qed.

Lemma xorshift1024_restores : restores xorshift1024_wf xorshift1024_get xorshift1024_set.
Proof.
  intros [[x p] h u] [[x' p'] h' u'] (Hl & Hf & Hp & Hu) _. cbn [core u32 xs_s xs_p] in *.
  unfold xorshift1024_set, xorshift1024_get. cbn [core has32 u32 xs_s xs_p].
  rewrite bind_lift. cbn [preamble get_default assoc String.eqb Ascii.eqb Bool.eqb orb].
  rewrite bind_lift. cbn [getitem assoc String.eqb Ascii.eqb Bool.eqb obind].
  rewrite check_arr_ok by (try assumption; now rewrite Hl).
  rewrite bind_modify, bind_lift. cbn [getitem assoc String.eqb Ascii.eqb Bool.eqb obind].
  unfold to_cint. replace ((- 2 ^ 31 <=? p) && (p <? 2 ^ 31))%Z with true by lia.
  rewrite bind_modify. rewrite (set_half_run _ h u) by (try reflexivity; assumption).
  reflexivity.
Qed.
