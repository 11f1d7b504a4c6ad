(* C78 for the counter-based classes: in one full cycle of the counter every
   output word occurs equally often.

   vdraws, aes_draws, sp_draws: the values of that many draws (see PropCtr and
   PropLane); vcycle n w = n * 2^(w n) values for Philox and ThreeFry with n words
   of w bits, 2^129 for AESCounter and SPECK128. *)
From Verif Require Import Word Count MultiWord Ctr Blocks CtrPy CtrFacts Buffer32 LaneCtr Aes AesPy Speck PropJumpDoc.
From Coq Require Import String ZifyBool ZifyNat ZifyN.
Open Scope N_scope.
Notation length := Datatypes.length.
Ltac Zify.zify_post_hook ::= idtac.

(* E r b: block number b with word r moved to the front *)
Lemma block_count n A B (E : N -> N -> N) Q : n <> 0 -> A <> 0 -> B <> 0 ->
  (forall r b, r < n -> b < A * B -> E r b < A * B) ->
  (forall r b b', r < n -> b < A * B -> b' < A * B -> E r b = E r b' -> b = b') ->
  count (fun x => Q (E (x mod n) (x / n) mod B)) (n * (A * B)) = n * A * count Q B.
Proof.
  intros Hn HA HB Hb Hi. assert (T0 : A * B <> 0) by now apply N.neq_mul_0.
  assert (D : forall x, x < n * (A * B) -> x mod n < n /\ x / n < A * B).
  { intros x Hx. split; [now apply N.mod_lt|]. now apply N.div_lt_upper_bound. }
  rewrite <- (count_low (fun _ l => l) Q (n * A) B) by (intros; assumption).
  rewrite <- N.mul_assoc. rewrite <- (count_perm (fun x => E (x mod n) (x / n) + A * B * (x mod n)) (fun x => Q (x mod B))).
  - apply count_ext. intros x Hx. f_equal. rewrite (N.mul_comm A B), <- N.mul_assoc, (N.mul_comm B), N.mod_add by exact HB. reflexivity.
  - intros x Hx. destruct (D x Hx) as [D1 D2]. pose proof (Hb _ _ D1 D2) as L. apply N.lt_le_trans with (A * B * (x mod n + 1)); [lia|].
    rewrite (N.mul_comm n). apply N.mul_le_mono_l. lia.
  - intros x y Hx Hy F. destruct (D x Hx) as [X1 X2], (D y Hy) as [Y1 Y2]. pose proof (Hb _ _ X1 X2) as LX. pose proof (Hb _ _ Y1 Y2) as LY.
    assert (M : x mod n = y mod n).
    { apply (f_equal (fun z => z / (A * B))) in F. cbv beta in F. rewrite !(N.mul_comm (A * B)), !N.div_add, !N.div_small, !N.add_0_l in F by assumption. exact F. }
    rewrite M in F. apply N.add_cancel_r in F. apply Hi in F; [|assumption..].
    rewrite (N.div_mod x n), (N.div_mod y n), M, F by exact Hn. reflexivity.
Qed.
Lemma count_shift P p n : n <> 0 -> (forall i, P (i mod n) = P i) -> count (fun i => P (p + i)) n = count P n.
Proof.
  intros Hn H. rewrite <- (count_perm (fun i => (p + i) mod n) P n).
  - apply count_ext. intros i _. now rewrite H.
  - intros i _. now apply N.mod_lt.
  - intros i j Hi Hj E. exact (mod_shift_inj n p i j Hi Hj E).
Qed.
(* the number of values in Q among k listed values *)
Definition among (Q : N -> bool) (vs : list N) : N := N.of_nat (length (filter Q vs)).
Lemma filter_map_length {A B} (f : A -> B) Q l : length (filter Q (map f l)) = length (filter (fun x => Q (f x)) l).
Proof. induction l as [|x l IH]; [reflexivity|]. cbn [map filter]. destruct (Q (f x)); cbn [length]; now rewrite IH. Qed.
Lemma among_count Q f k : among Q (map (fun i => f (N.of_nat i)) (seq 0 (N.to_nat k))) = count (fun i => Q (f i)) k.
Proof. unfold among, count, range. now rewrite filter_map_length, filter_map_length. Qed.

(* ------------------------------------------------------- Philox, ThreeFry *)
(* word r first *)
Definition front (r : nat) (l : list N) : list N := skipn r l ++ firstn r l.
Lemma front_inj r a b : length a = length b -> front r a = front r b -> a = b.
Proof.
  intros L E. unfold front in E. assert (Ls : length (skipn r a) = length (skipn r b)) by now rewrite !skipn_length, L.
  assert (S : skipn r a = skipn r b) by (apply (f_equal (firstn (length (skipn r a)))) in E; rewrite firstn_app, Nat.sub_diag, firstn_O, app_nil_r, firstn_all, Ls, firstn_app, Nat.sub_diag, firstn_O, app_nil_r, firstn_all in E; exact E).
  rewrite S in E. apply app_inv_head in E. rewrite <- (firstn_skipn r a), <- (firstn_skipn r b), S, E. reflexivity.
Qed.
Lemma front_words w k r l : words w k l -> words w k (front r l).
Proof.
  intros [L H]. split.
  - unfold front. rewrite app_length, Nat.add_comm, <- app_length, firstn_skipn. exact L.
  - rewrite <- (firstn_skipn r l) in H. apply Forall_app in H as [H1 H2]. now apply Forall_app.
Qed.
Lemma nth_front r l : (r < length l)%nat -> nth 0 (front r l) 0 = nth r l 0.
Proof.
  intros H. unfold front. rewrite <- (firstn_skipn r l) at 3. rewrite (app_nth2 (firstn r l)) by (rewrite firstn_length; lia).
  rewrite firstn_length, Nat.min_l, Nat.sub_diag by lia. destruct (skipn r l) as [|x m] eqn:F; [|reflexivity].
  apply (f_equal (@List.length N)) in F. rewrite skipn_length in F. cbn in F. lia.
Qed.
Lemma lv_head w l : l <> [] -> Forall (wf w) l -> lv w l mod 2 ^ w = nth 0 l 0.
Proof.
  intros Hl Hw. destruct l as [|x l]; [contradiction|]. inversion Hw; subst. cbn [lv nth]. rewrite N.mul_comm, N.mod_add by apply pow2_nz. now apply N.mod_small.
Qed.
Lemma words_count w n m f Q : n = N.of_nat m -> (0 < m)%nat -> permutes (words w m) f ->
  count (fun x => Q (nth (N.to_nat (x mod n)) (f (to_words w m (x / n))) 0)) (n * 2 ^ (w * n)) = n * 2 ^ (w * (n - 1)) * count Q (2 ^ w).
Proof.
  intros Hn Hm Hf. assert (Hn0 : n <> 0) by lia.
  assert (ET : 2 ^ (w * n) = 2 ^ (w * (n - 1)) * 2 ^ w) by (rewrite <- N.pow_add_r; f_equal; nia).
  assert (Wt : forall b, words w m (to_words w m b)) by (intros b; split; [apply to_words_length|apply to_words_wf]).
  assert (Wf : forall b, words w m (f (to_words w m b))) by (intros b; now apply Hf).
  rewrite ET. rewrite <- (block_count n (2 ^ (w * (n - 1))) (2 ^ w) (fun r b => lv w (front (N.to_nat r) (f (to_words w m b))))); try apply pow2_nz; [|exact Hn0|..].
  - apply count_ext. intros x _. f_equal. pose proof (N.mod_lt x n Hn0) as L. pose proof (Wf (x / n)) as [Wl Ww]. destruct (front_words w m (N.to_nat (x mod n)) _ (Wf (x / n))) as [Fl Fw].
    rewrite lv_head; [|intros F; rewrite F in Fl; cbn in Fl; lia|exact Fw]. rewrite nth_front; [reflexivity|rewrite Wl; lia].
  - intros r b _ _. destruct (front_words w m (N.to_nat r) _ (Wf b)) as [Fl Fw]. pose proof (lv_lt w _ Fw) as G. rewrite Fl, <- Hn, ET in G. exact G.
  - intros r b b' Hr Hb Hb' F. destruct (front_words w m (N.to_nat r) _ (Wf b)) as [Fl Fw], (front_words w m (N.to_nat r) _ (Wf b')) as [Gl Gw].
    apply lv_inj in F; [|congruence|assumption..]. apply front_inj in F; [|now rewrite (proj1 (Wf b)), (proj1 (Wf b'))].
    apply (permutes_inj (words w m) f) in F; [|exact Hf|apply Wt..]. apply (f_equal (lv w)) in F. rewrite !to_words_val, <- Hn, ET, !N.mod_small in F by assumption. exact F.
Qed.
(* the keys the classes build: Philox n/2 words (philox.pyx), ThreeFry any *)
Definition blk_key (c : cls) (n w : N) (key : list N) : Prop := match c with Philox => words w (N.to_nat (n / 2)) key | ThreeFry => True end.
Lemma blockfn_permutes c n w key : In (n, w) variants -> blk_key c n w key -> permutes (words w (N.to_nat n)) (blockfn c (n, w) key).
Proof.
  intros Hv Hk. destruct Hv as [[= <- <-]|[[= <- <-]|[[= <- <-]|[[= <- <-]|[]]]]]; destruct c; cbn [blk_key] in Hk.
  - now apply philox4x64_permutes.
  - apply threefry4x64_permutes.
  - now apply philox2x64_permutes.
  - apply threefry2x64_permutes.
  - now apply philox4x32_permutes.
  - apply threefry4x32_permutes.
  - now apply philox2x32_permutes.
  - apply threefry2x32_permutes.
Qed.
Theorem C78_counter_equidistributed :
  forall c n w s s' vs Q, In (n, w) variants -> vinv c n w s -> blk_key c n w (c_key s) ->
  vdraws c n w (vcycle n w) s = Some (s', vs) -> among Q vs = n * 2 ^ (w * (n - 1)) * count Q (2 ^ w).
Proof.
  intros c n w s s' vs Q Hv Hi Hk E. destruct (vdraws_spec c n w Hv (vcycle n w) s Hi) as (t & F & _). rewrite F in E. injection E as _ <-.
  rewrite (among_count Q (fun i => vstream c n w (c_key s) (vpos n w s + i))).
  rewrite (count_shift (fun i => Q (vstream c n w (c_key s) i)) (vpos n w s) (vcycle n w)).
  - apply (words_count w n (N.to_nat n) (blockfn c (n, w) (c_key s)) Q); [now rewrite N2Nat.id| |now apply blockfn_permutes].
    destruct Hv as [[= <- <-]|[[= <- <-]|[[= <- <-]|[[= <- <-]|[]]]]]; reflexivity || (cbn; lia).
  - exact (vcycle_nz c n w Hv).
  - intros i. f_equal. rewrite <- !(vstream_eq c n w Hv), <- (vcycle_eq n w Hv). apply (cstream_mod w (lgn n) _ (vlg n w Hv) (vw n w Hv) (vblk c n w Hv)).
Qed.

(* --------------------------------------------------- AESCounter, SPECK128 *)
Lemma pair_lanes p : pwf p -> pval p mod 2 ^ 64 = fst p /\ pval (snd p, fst p) mod 2 ^ 64 = snd p.
Proof.
  intros [H0 H1]. unfold pval. cbn [fst snd]. rewrite !(N.mul_comm (2 ^ 64)), !N.mod_add by discriminate. split; now apply N.mod_small.
Qed.
Lemma lanes_count {K} (enc : K -> N * N -> N * N) key Q : (forall p, pwf p -> pwf (enc key p)) ->
  (forall p q, pwf p -> pwf q -> enc key p = enc key q -> p = q) ->
  count (fun x => Q (lstream enc key x)) (2 ^ 129) = 2 ^ 65 * count Q (2 ^ 64).
Proof.
  intros Hw Hi. set (E := fun r b => let p := enc key (psplit b) in if r =? 0 then pval p else pval (snd p, fst p)).
  assert (We : forall b, pwf (enc key (psplit b))) by (intros b; apply Hw, psplit_wf).
  assert (Ws : forall b, pwf (snd (enc key (psplit b)), fst (enc key (psplit b)))) by (intros b; destruct (We b); now split).
  pose proof (block_count 2 (2 ^ 64) (2 ^ 64) E Q ltac:(discriminate) ltac:(discriminate) ltac:(discriminate)) as H.
  change (2 * (2 ^ 64 * 2 ^ 64)) with (2 ^ 129) in H. change (2 * 2 ^ 64) with (2 ^ 65) in H. rewrite <- H.
  - apply count_ext. intros x _. f_equal. unfold lstream, E. cbv zeta. destruct (pair_lanes _ (We (x / 2))) as [P0 P1].
    destruct (x mod 2 =? 0); [now rewrite P0|now rewrite P1].
  - intros r b _ _. unfold E. cbv zeta. change (2 ^ 64 * 2 ^ 64) with (2 ^ 128). destruct (r =? 0); now apply pval_lt.
  - intros r b b' _ Hb Hb' F. unfold E in F. cbv zeta in F. change (2 ^ 64 * 2 ^ 64) with (2 ^ 128) in *.
    assert (G : enc key (psplit b) = enc key (psplit b')).
    { destruct (r =? 0); apply pval_inj in F; auto. injection F as F1 F2. destruct (enc key (psplit b)), (enc key (psplit b')). cbn [fst snd] in *. now subst. }
    apply Hi in G; [|apply psplit_wf..]. apply (f_equal pval) in G. now rewrite !pval_psplit, !N.mod_small in G by assumption.
Qed.
Lemma aes_cycle_count k s s' vs Q : k = 2 ^ 129 -> aes_inv s -> aes_draws (N.to_nat k) s = Some (s', vs) -> among Q vs = 2 ^ 65 * count Q (2 ^ 64).
Proof.
  intros Ek Hi E. destruct (aes_draws_spec (N.to_nat k) s Hi) as (t & F & _). rewrite F in E. injection E as _ <-.
  rewrite (among_count Q (fun i => aes_stream (l_key s) (aes_pos s + i))).
  subst k. rewrite (count_shift (fun i => Q (aes_stream (l_key s) i)) (aes_pos s) (2 ^ 129)).
  - destruct (aes_enc_bij (l_key s)) as (W & g & _ & G & _). apply (lanes_count aes_enc (l_key s) Q W).
    intros p q Hp Hq H. rewrite <- (G p Hp), <- (G q Hq), H. reflexivity.
  - discriminate.
  - intros i. f_equal. apply lstream_mod.
Qed.
Theorem C78_aes_equidistributed :
  forall s s' vs Q, aes_inv s -> aes_draws (N.to_nat (2 ^ 129)) s = Some (s', vs) -> among Q vs = 2 ^ 65 * count Q (2 ^ 64).
Proof. intros s s' vs Q. exact (aes_cycle_count (2 ^ 129) s s' vs Q eq_refl). Qed.
Lemma sp_cycle_count k s s' vs Q : k = 2 ^ 129 -> sp_inv s -> sp_draws (N.to_nat k) s = Some (s', vs) -> among Q vs = 2 ^ 65 * count Q (2 ^ 64).
Proof.
  intros Ek Hi E. destruct (sp_draws_spec (N.to_nat k) s Hi) as (t & F & _). rewrite F in E. injection E as _ <-.
  rewrite (among_count Q (fun i => sp_stream (l_key s) (sp_pos s + i))).
  subst k. rewrite (count_shift (fun i => Q (sp_stream (l_key s) i)) (sp_pos s) (2 ^ 129)).
  - destruct (sp_enc_bij (l_key s)) as (W & g & _ & G & _); [apply Hi|]. apply (lanes_count sp_enc (l_key s) Q W).
    intros p q Hp Hq H. rewrite <- (G p Hp), <- (G q Hq), H. reflexivity.
  - discriminate.
  - intros i. f_equal. apply lstream_mod.
Qed.
Theorem C78_speck_equidistributed :
  forall s s' vs Q, sp_inv s -> sp_draws (N.to_nat (2 ^ 129)) s = Some (s', vs) -> among Q vs = 2 ^ 65 * count Q (2 ^ 64).
Proof. intros s s' vs Q. exact (sp_cycle_count (2 ^ 129) s s' vs Q eq_refl). Qed.
Theorem C78_counter_draws_defined :
  forall c n w s k, In (n, w) variants -> vinv c n w s -> exists s' vs, vdraws c n w k s = Some (s', vs) /\ N.of_nat (length vs) = k.
Proof.
  intros c n w s k Hv Hi. destruct (vdraws_spec c n w Hv k s Hi) as (s' & E & _). exists s'. eexists. split; [exact E|].
  rewrite map_length, seq_length. apply N2Nat.id.
Qed.
Example C78_counter_case :
  (vinv Philox 4 64 ex_ph /\ blk_key Philox 4 64 (c_key ex_ph)) /\ (vinv ThreeFry 4 64 ex_tf /\ blk_key ThreeFry 4 64 (c_key ex_tf)) /\
  sp_inv (core ex_sp) /\ aes_inv (core (aes_seed 5 7 aes_zero)) /\ among (fun x => x <? 3) [1; 2; 3; 1] = 3.
Proof.
  destruct C55_counter_case as (I1 & _ & I2 & _). destruct C77_case as (I3 & _).
  split; [split; [exact I1|split; [reflexivity|repeat constructor]]|]. split; [split; [exact I2|exact I]|].
  split; [apply I3|]. split; [apply aes_seed_inv; reflexivity|]. reflexivity.
Qed.

Print Assumptions C78_counter_equidistributed.
Print Assumptions C78_aes_equidistributed.
Print Assumptions C78_speck_equidistributed.
Print Assumptions C78_counter_draws_defined.
