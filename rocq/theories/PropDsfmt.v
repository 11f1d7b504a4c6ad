(* dSFMT: refinement to the published recurrence, SIMD recursion, doubles, jumps, seeding and state *)
From Coq Require Import QArith Qpower.
From Verif Require Import Word Arr Buffer32 Py SeedSeq Lagged LaggedBuf JumpN SfmtSeed Sfmt Lanes SfmtFacts Dsfmt DsfmtFacts Doubles Kat PropSfmt.
From Coq Require Import String ZifyBool ZifyNat ZifyN.
Open Scope N_scope.
Ltac Zify.zify_post_hook ::= idtac.

(* a 128-bit word as two 64-bit lanes, low lane first *)
Definition lanes64 (f : N -> N) (x : N) : N := f (x mod 2 ^ 64) + 2 ^ 64 * f (x / 2 ^ 64 mod 2 ^ 64).
(* the four 32-bit lanes in the opposite order *)
Definition reversed (x : N) : N := join4 (lane 3 x) (lane 2 x) (lane 1 x) (lane 0 x).
(* the recurrence of dSFMT19937 on 128-bit words w and the lung u:
   u_(n+1) = w_n << 19 xor perm(u_n) xor w_(n+117)
   w_(n+191) = w_n xor u_(n+1) >> 12 xor u_(n+1) and mask *)
Definition published (x u : N -> N) : Prop := forall n,
  u (n + 1) = N.lxor (N.lxor (lanes64 (fun w => w * 2 ^ 19 mod 2 ^ 64) (x n)) (reversed (u n))) (x (n + 117)) /\
  x (n + 191) = N.lxor (N.lxor (lanes64 (fun w => w / 2 ^ 12) (u (n + 1))) (N.land (u (n + 1)) 0xffdfffc90fffd000ffafffffffb3f)) (x n).
(* a legal array: 191 words of 128 bits *)
Definition legal (st : list N) : Prop := List.length st = 191%nat /\ Forall (fun w => w < 2 ^ 128) st.
Definition starts (st : list N) (u0 : N) (x u : N -> N) : Prop :=
  (forall n, x n < 2 ^ 128 /\ u n < 2 ^ 128) /\ published x u /\ u 0 = u0 /\ forall i, i < 191 -> x i = nth (N.to_nat i) st 0.

Lemma lanes64_dw f x : (forall w, wf 64 w -> wf 64 (f w)) -> lanes64 f x = dw (f (dlo x)) (f (dhi x)).
Proof.
  intros F. unfold lanes64, dlo, dhi, trunc. rewrite N.shiftr_div_pow2. set (a := f _). set (b := f (x / 2 ^ 64 mod 2 ^ 64)).
  assert (A : wf 64 a) by (apply F, N.mod_lt; discriminate). unfold dw. rewrite N.shiftl_mul_pow2, N.mul_comm. symmetry.
  rewrite <- N.add_nocarry_lxor; [reflexivity|]. apply N.bits_inj. intros i. rewrite N.land_spec, N.bits_0. destruct (N.ltb_spec i 64).
  - rewrite N.mul_pow2_bits_low by assumption. apply andb_false_r.
  - rewrite (wf_off 64 a) by assumption. reflexivity.
Qed.
Lemma published_lrec x u : (forall n, wf 128 (x n) /\ wf 128 (u n)) -> published x u <-> lrec dsK dsP ds_f ds_g x u.
Proof.
  intros W. unfold published, lrec. change (N.of_nat dsK) with 191. change (N.of_nat dsP) with 117.
  assert (G : forall n, N.lxor (N.lxor (lanes64 (fun w => w * 2 ^ 19 mod 2 ^ 64) (x n)) (reversed (u n))) (x (n + 117)) = d_lung (x n) (x (n + 117)) (u n)).
  { intros n. rewrite lanes64_dw by (intros; apply N.mod_lt; discriminate). change (reversed (u n)) with (d_shuffle (u n)). rewrite shuffle_eq, d_lung_eq.
    rewrite <- (dw_eta (x (n + 117))) at 1 by apply W. rewrite <- !dw_lxor. unfold wshl, trunc. rewrite !N.shiftl_mul_pow2. reflexivity. }
  assert (F : forall n, N.lxor (N.lxor (lanes64 (fun w => w / 2 ^ 12) (u (n + 1))) (N.land (u (n + 1)) 0xffdfffc90fffd000ffafffffffb3f)) (x n) = d_out (x n) (u (n + 1))).
  { intros n. rewrite lanes64_dw by (intros w Hw; apply (N.le_lt_trans _ w); [apply N.div_le_upper_bound; [discriminate|]; lia|exact Hw]). rewrite d_out_eq. unfold hh.
    rewrite <- (dw_eta (u (n + 1))) at 3 by apply W. change 0xffdfffc90fffd000ffafffffffb3f with (dw d_msk1 d_msk2). rewrite dw_land by (apply wf_trunc || reflexivity).
    rewrite <- (dw_eta (x n)) at 1 by apply W. rewrite <- !dw_lxor. now rewrite !N.shiftr_div_pow2. }
  split; intros H n; destruct (H n) as [A B].
  - rewrite G in A. rewrite F in B. unfold ds_f, ds_g. rewrite <- A. split; [exact B|reflexivity].
  - unfold ds_f, ds_g in *. rewrite G, F, B. split; [reflexivity|exact A].
Qed.
Lemma legal_lok st u : legal st -> wf 128 u -> lok dsK wf128 wf128 (st, u).
Proof. intros [A B] U. split; [exact A|]. split; [exact B|exact U]. Qed.
Lemma starts_lstarts st u0 x u : legal st -> starts st u0 x u -> lstarts dsK dsP ds_f ds_g st u0 x u.
Proof.
  intros [L F] (W & R & U & B). split; [exact L|]. split; [|split; [exact U|now apply published_lrec]].
  intros i Hi. rewrite B by (unfold dsK in Hi; lia). f_equal. lia.
Qed.
Lemma starts_lx st u : legal st -> wf 128 u -> starts st u (lx dsK dsP ds_f ds_g st u) (lu dsK dsP ds_f ds_g st u).
Proof.
  intros O U. pose proof (legal_lok st u O U) as O'.
  pose proof (lseq_sok dsK dsP ds_f ds_g (fun _ => true) dK2 dPK wf128 wf128 dK3 d_ok d_inj st u O') as [A V].
  pose proof (lseq_starts dsK dsP ds_f ds_g dK2 dPK st u (proj1 O)) as (_ & B & C & R).
  split; [intros n; split; [apply A|apply V]|]. split; [apply published_lrec; [intros n; split; [apply A|apply V]|exact R]|].
  split; [exact C|]. intros i Hi; rewrite B by (unfold dsK; lia); f_equal; lia.
Qed.
Lemma starts_unique st u0 x u y v : legal st -> starts st u0 x u -> starts st u0 y v -> forall n, x n = y n /\ u n = v n.
Proof. intros O X Y n. apply (Lagged.starts_unique dsK dsP ds_f ds_g dK2 dPK st u0 x u y v); now apply starts_lstarts. Qed.
Definition ex_st : list N := map (fun i => d_mask (N.of_nat i * 25214903917000000000000000000000000011 mod 2 ^ 128)) (seq 1 191).
Lemma ex_st_unit : Forall unit_word ex_st.
Proof. apply Forall_forall. intros w I. apply in_map_iff in I. destruct I as (i & <- & _). apply mask_ok. Qed.
Lemma ex_st_legal : legal ex_st.
Proof. split; [reflexivity|]. eapply Forall_impl; [|exact ex_st_unit]. intros w H. apply H. Qed.

(* ------------------------------------------------------------------- C60 *)
(* a state at the end of a block: the draws are the halves of the words that the
   recurrence adds to the array, whatever is left in the buffer *)
Theorem C60_dsfmt_is_the_recurrence :
  forall st u0 idx buf x u n, legal st -> List.length buf = 382%nat -> starts st u0 x u ->
  option_map snd (ds_draws n (LB st u0 idx buf 382)) = Some (map (fun i => half64 x (382 + N.of_nat i)) (seq 0 n)).
Proof.
  intros st u0 idx buf x u n L B S.
  assert (G : lgood dsK ds_fine (LB st u0 idx buf 382)).
  { split; [exact (proj1 L)|]. split; [exact B|]. split; [discriminate|reflexivity]. }
  assert (U : wf 128 u0) by (destruct S as (W & _ & <- & _); apply W).
  destruct (draws_outs dsK dsP ds_f ds_g ds_fine dK2 dPK n _ G) as (s' & E & _). unfold ds_draws. rewrite E. cbn [option_map snd]. f_equal.
  apply map_ext. intros i. unfold outs. cbn [lb_st lb_buf lb_loc lb_u]. change (2 * dsK - Z.to_nat 382)%nat with 0%nat. cbn [Nat.ltb Nat.leb].
  rewrite Nat.sub_0_r. rewrite (half64_lhalf x). apply lhalf_ext. intros j. apply (starts_unique st u0 _ (lu dsK dsP ds_f ds_g st u0) x u L); [now apply starts_lx|exact S].
Qed.
(* inside a block, with the buffer holding the array, as it does after every draw *)
Theorem C60_dsfmt_inside_a_block :
  forall st u0 idx loc x u n, legal st -> (0 <= loc <= 382)%Z -> starts st u0 x u ->
  option_map snd (ds_draws n (LB st u0 idx (halves st) loc)) = Some (map (fun i => half64 x (Z.to_N loc + N.of_nat i)) (seq 0 n)).
Proof.
  intros st u0 idx loc x u n L P S.
  assert (B : List.length (halves st) = 382%nat) by (rewrite halves_length, (proj1 L); reflexivity).
  assert (G : lgood dsK ds_fine (LB st u0 idx (halves st) loc)).
  { split; [exact (proj1 L)|]. split; [exact B|]. split; [apply P|reflexivity]. }
  assert (U : wf 128 u0) by (destruct S as (W & _ & <- & _); apply W).
  destruct (draws_outs dsK dsP ds_f ds_g ds_fine dK2 dPK n _ G) as (s' & E & _). unfold ds_draws. rewrite E. cbn [option_map snd]. f_equal.
  apply map_ext. intros i. unfold outs. cbn [lb_st lb_buf lb_loc lb_u]. rewrite (half64_lhalf x).
  pose proof (fun n => proj1 (starts_unique st u0 _ _ _ _ L (starts_lx st u0 L U) S n)) as X.
  change (2 * dsK)%nat with 382%nat. destruct (i <? 382 - Z.to_nat loc)%nat eqn:H.
  - pose proof (halves_nth st (Z.to_nat loc + i) ltac:(rewrite (proj1 L); lia)) as A. rewrite nth_err_nth in A by (rewrite B; lia). apply some_inj in A. rewrite A.
    unfold lhalf. destruct S as (_ & _ & _ & S). set (m := (Z.to_nat loc + i)%nat) in *.
    replace (Z.to_N loc + N.of_nat i) with (N.of_nat m) by (unfold m; lia).
    change 2 with (N.of_nat 2). rewrite <- Nat2N.inj_div, <- Nat2N.inj_mod. change (N.of_nat 2) with 2.
    rewrite S, Nat2N.id; [reflexivity|]. pose proof (Nat.div_lt_upper_bound m 2 191 ltac:(lia) ltac:(unfold m; lia)). lia.
  - rewrite (lhalf_ext _ x) by exact X. f_equal. change (2 * N.of_nat dsK) with 382. lia.
Qed.
(* what a draw leaves behind; A: a property of words that the recursion keeps *)
Section Keep.
  Variable A : N -> Prop.
  Hypothesis A_ok : forall a b c d u, A a -> A b -> A c -> A d -> wf128 u -> A (ds_f a b c d u) /\ wf128 (ds_g a b c d u).
  Hypothesis A_inj : forall a a' b c d u u', A a -> A a' -> A b -> A c -> A d -> wf128 u -> wf128 u' ->
    ds_f a b c d u = ds_f a' b c d u' -> ds_g a b c d u = ds_g a' b c d u' -> a = a' /\ u = u'.
  Definition kept (s : lb) : Prop := List.length (lb_st s) = 191%nat /\ Forall A (lb_st s) /\ wf 128 (lb_u s).
  Lemma next_cases s s' v : kept s -> ds_next s = Some (s', v) ->
    ((lb_loc s < 382)%Z /\ rd (lb_buf s) (lb_loc s) = Some v /\ s' = LB (lb_st s) (lb_u s) (lb_idx s) (lb_buf s) (lb_loc s + 1)) \/
    ((382 <= lb_loc s)%Z /\ kept s' /\ lb_idx s' = lb_idx s /\ lb_buf s' = halves (lb_st s') /\ lb_loc s' = 1%Z /\ rd (lb_buf s') 0 = Some v).
  Proof.
    intros (L & F & U) E. unfold ds_next, lb_next in E. change (2 * Z.of_nat dsK)%Z with 382%Z in E. destruct (lb_loc s <? 382)%Z eqn:P.
    - left. destruct (rd (lb_buf s) (lb_loc s)) as [w|]; [|discriminate E]. injection E as <- <-. split; [lia|]. split; reflexivity.
    - right. split; [lia|]. cbn [ds_fine] in E. change (ds_fine (lb_idx s)) with true in E. cbv iota in E. rewrite (block_wat dsK dsP ds_f ds_g dK2 dPK _ _ L) in E.
      pose proof (wat_lok dsK dsP ds_f ds_g (fun _ => true) dK2 dPK A wf128 dK3 A_ok A_inj (lb_st s) (lb_u s) (N.of_nat dsK) (conj L (conj F U))) as (A1 & A2 & A3).
      destruct (wat dsK dsP ds_f ds_g (lb_st s) (lb_u s) (N.of_nat dsK)) as [arr u]. cbn [fst snd] in A1, A2, A3. destruct (rd (halves arr) 0) as [w|] eqn:R; [|discriminate E].
      injection E as <- <-. cbn [lb_st lb_u lb_idx lb_buf lb_loc]. split; [split; [exact A1|split; assumption]|]. repeat (split; [reflexivity|]). exact R.
  Qed.
  Lemma next_kept s s' v : kept s -> ds_next s = Some (s', v) -> kept s'.
  Proof. intros K E. destruct (next_cases s s' v K E) as [(_ & _ & ->)|(_ & K' & _)]; [exact K|exact K']. Qed.
End Keep.
Theorem C60_dsfmt_buffer_holds_the_array :
  forall n st u0 idx buf s vs, legal st -> u0 < 2 ^ 128 -> List.length buf = 382%nat -> ds_draws (S n) (LB st u0 idx buf 382) = Some (s, vs) ->
  lb_buf s = halves (lb_st s) /\ lb_u s < 2 ^ 128 /\ legal (lb_st s) /\ (1 <= lb_loc s <= 382)%Z.
Proof.
  intros n st u0 idx buf s vs L U B E.
  set (Q := fun s => kept wf128 s /\ lb_buf s = halves (lb_st s) /\ (1 <= lb_loc s <= 382)%Z).
  assert (Q1 : forall t t' v, Q t -> ds_next t = Some (t', v) -> Q t').
  { intros t t' v (K & H & P) N1. destruct (next_cases wf128 d_ok d_inj t t' v K N1) as [(P1 & _ & ->)|(_ & K' & _ & H' & P' & _)].
    - split; [exact K|]. cbn [lb_st lb_buf lb_loc]. split; [exact H|lia].
    - split; [exact K'|]. split; [exact H'|lia]. }
  assert (R : Q s -> lb_buf s = halves (lb_st s) /\ lb_u s < 2 ^ 128 /\ legal (lb_st s) /\ (1 <= lb_loc s <= 382)%Z).
  { intros ((K1 & K2 & K3) & H & P). split; [exact H|]. split; [exact K3|]. split; [split; assumption|exact P]. }
  apply R. clear R. unfold ds_draws in E. cbn [lb_draws] in E. destruct (lb_next _ _ _ _ _ _) as [[s1 v]|] eqn:E1; [|discriminate E].
  destruct (lb_draws _ _ _ _ _ n s1) as [[s2 ws]|] eqn:E2; [|discriminate E]. injection E as <- _.
  assert (H1 : Q s1).
  { destruct (next_cases wf128 d_ok d_inj (LB st u0 idx buf 382) s1 v (conj (proj1 L) (conj (proj2 L) U)) E1) as [(P1 & _)|(_ & K' & _ & H' & P' & _)];
    [cbn [lb_loc] in P1; lia|]. split; [exact K'|]. split; [exact H'|lia]. }
  clear E1. revert s1 s2 ws E2 H1.
  induction n as [|n IH]; intros s1 s2 ws E H; cbn [lb_draws] in E; [injection E as <- _; exact H|].
  destruct (lb_next _ _ _ _ _ _) as [[s3 v3]|] eqn:E3; [|discriminate E]. destruct (lb_draws _ _ _ _ _ n s3) as [[s4 ws4]|] eqn:E4; [|discriminate E].
  injection E as <- _. exact (IH s3 s4 ws4 E4 (Q1 _ _ _ H E3)).
Qed.
Theorem C60_dsfmt_sequence_exists : forall st u0, legal st -> u0 < 2 ^ 128 -> exists x u, starts st u0 x u /\ forall y v, starts st u0 y v -> forall n, y n = x n /\ v n = u n.
Proof.
  intros st u0 L U. exists (lx dsK dsP ds_f ds_g st u0), (lu dsK dsP ds_f ds_g st u0). split; [now apply starts_lx|].
  intros y v Y n. apply (starts_unique st u0); [exact L|exact Y|now apply starts_lx].
Qed.
(* tests/data/dSFMT-testset-2.csv *)
Example C60_dsfmt_known_answers : opt_raws ds_next 3 (ds_new (k32 0 764)) = [4610666343634932272; 4608484501440040936; 4608963949701812086].
Proof. vm_compute. reflexivity. Qed.
Example C60_dsfmt_case : legal ex_st /\ starts ex_st 1 (lx dsK dsP ds_f ds_g ex_st 1) (lu dsK dsP ds_f ds_g ex_st 1).
Proof. split; [exact ex_st_legal|]. apply starts_lx; [apply ex_st_legal|reflexivity]. Qed.

(* ------------------------------------------------------------------- C64 *)
Theorem C64_dsfmt_simd_recursion : forall a b c d u, a < 2 ^ 128 -> b < 2 ^ 128 ->
  ds_f_sse a b c d u = ds_f a b c d u /\ ds_g_sse a b c d u = ds_g a b c d u.
Proof. exact rec_simd. Qed.
Definition sse_draws : nat -> lb -> option (lb * list N) := lb_draws dsK dsP ds_f_sse ds_g_sse ds_fine.
Lemma sse_wat st u n : legal st -> wf 128 u -> wat dsK dsP ds_f_sse ds_g_sse st u n = wat dsK dsP ds_f ds_g st u n.
Proof.
  intros L U. pose proof (legal_lok st u L U) as L'. induction n as [|n IH] using N.peano_ind; [reflexivity|]. rewrite <- N.add_1_r, !wat_S, IH.
  pose proof (wat_lok dsK dsP ds_f ds_g (fun _ => true) dK2 dPK wf128 wf128 dK3 d_ok d_inj st u n L') as (A & B & C).
  destruct (wat dsK dsP ds_f ds_g st u n) as [l v]. cbn [fst snd] in A, B, C. unfold wstep.
  destruct (rec_simd (nth 0 l 0) (nth dsP l 0) (nth (dsK - 2) l 0) (nth (dsK - 1) l 0) v) as [E1 E2]; try (apply (nth_ok wf128); try exact B; rewrite A; unfold dsP, dsK; lia).
  now rewrite E1, E2.
Qed.
Theorem C64_dsfmt_simd_block : forall st u, legal st -> u < 2 ^ 128 -> lg_block dsK dsP ds_f_sse ds_g_sse st u = lg_block dsK dsP ds_f ds_g st u.
Proof. intros st u L U. rewrite !(block_wat dsK dsP _ _ dK2 dPK st u (proj1 L)). f_equal. now apply sse_wat. Qed.
Theorem C64_dsfmt_simd_draws : forall n s, legal (lb_st s) -> lb_u s < 2 ^ 128 -> sse_draws n s = ds_draws n s.
Proof.
  intros n. unfold sse_draws, ds_draws. induction n as [|n IH]; intros s L U; [reflexivity|]. cbn [lb_draws].
  assert (E : lb_next dsK dsP ds_f_sse ds_g_sse ds_fine s = lb_next dsK dsP ds_f ds_g ds_fine s).
  { unfold lb_next. now rewrite C64_dsfmt_simd_block. }
  rewrite E. destruct (lb_next dsK dsP ds_f ds_g ds_fine s) as [[s1 v]|] eqn:N1; [|reflexivity].
  destruct (next_kept wf128 d_ok d_inj s s1 v (conj (proj1 L) (conj (proj2 L) U)) N1) as (K1 & K2 & K3).
  rewrite IH by (try split; assumption). reflexivity.
Qed.

(* ------------------------------------------------------------------- C24 *)
Theorem C24_dsfmt_block_injective : forall st u st' u', legal st -> legal st' -> u < 2 ^ 128 -> u' < 2 ^ 128 ->
  lg_block dsK dsP ds_f ds_g st u = lg_block dsK dsP ds_f ds_g st' u' -> st = st' /\ u = u'.
Proof.
  intros st u st' u' L L' U U' E.
  pose proof (block_inj dsK dsP ds_f ds_g (fun _ => true) dK2 dPK wf128 wf128 dK3 d_ok d_inj st u st' u' (legal_lok _ _ L U) (legal_lok _ _ L' U') E) as H. split; congruence.
Qed.

(* ------------------------------------------------------------------- C20 *)
Definition good (s : lb) : Prop := legal (lb_st s) /\ lb_u s < 2 ^ 128 /\ List.length (lb_buf s) = 382%nat /\ (0 <= lb_loc s)%Z.
Lemma good_lgood s : good s -> lgood dsK ds_fine s.
Proof. intros (L & U & B & P). split; [exact (proj1 L)|]. split; [exact B|]. split; [exact P|reflexivity]. Qed.
Lemma good_kept s : good s -> kept wf128 s.
Proof. intros (L & U & B & P). split; [apply L|]. split; [apply L|exact U]. Qed.
Lemma next_good s : good s -> exists s', ds_next s = Some (s', outs dsK dsP ds_f ds_g s 0) /\ good s' /\ forall i, outs dsK dsP ds_f ds_g s' i = outs dsK dsP ds_f ds_g s (S i).
Proof.
  intros G. destruct (next_outs dsK dsP ds_f ds_g ds_fine dK2 dPK s (good_lgood s G)) as (s' & E & (_ & B & P & _) & O).
  exists s'. split; [exact E|]. split; [|exact O]. destruct (next_kept wf128 d_ok d_inj s s' _ (good_kept s G) E) as (K1 & K2 & K3). split; [split; assumption|]. split; [exact K3|]. split; [exact B|exact P].
Qed.
(* 32- and 64-bit draws in any order; the doubles and raw values are ds_next *)
Fixpoint ds_run (rs : list req) (s : lb) : option (lb * list N) :=
  match rs with
  | [] => Some (s, [])
  | r :: rs => match (match r with R32 => ds_next32 s | R64 => ds_next64 s end) with
               | None => None
               | Some (s1, v) => match ds_run rs s1 with None => None | Some (s2, vs) => Some (s2, v :: vs) end
               end
  end.
Theorem C20_dsfmt_draws_safe : forall rs s, good s -> exists s' vs, ds_run rs s = Some (s', vs) /\ good s'.
Proof.
  induction rs as [|r rs IH]; intros s G; [exists s, []; split; [reflexivity|exact G]|]. cbn [ds_run]. unfold ds_next32, ds_next64.
  destruct (next_good s G) as (s1 & E1 & G1 & _). rewrite E1. destruct r.
  - destruct (IH s1 G1) as (s' & vs & E & G'). rewrite E. eexists _, _. split; [reflexivity|exact G'].
  - destruct (next_good s1 G1) as (s2 & E2 & G2 & _). rewrite E2. destruct (IH s2 G2) as (s' & vs & E & G'). rewrite E. eexists _, _. split; [reflexivity|exact G'].
Qed.
Theorem C20_dsfmt_seeded : forall words s, List.length (lb_buf s) = 382%nat -> good (ds_seed words s).
Proof.
  intros words s B. destruct (d_init_ok words) as [(L & F & U) _]. unfold ds_seed. destruct (ds_init_by_array words) as [st u]. cbn [fst snd] in L, F, U.
  unfold good. cbn [lb_st lb_u lb_buf lb_loc]. split; [split; [exact L|]|].
  - eapply Forall_impl; [|exact F]. intros w H. apply H.
  - split; [exact U|]. split; [exact B|discriminate].
Qed.
Theorem C20_dsfmt_new : forall words, good (ds_new words).
Proof. intros words. apply C20_dsfmt_seeded. apply repeat_length. Qed.
(* exactly which of the states that the setter takes can be drawn from *)
Theorem C20_dsfmt_accepted_states : forall st u buf idx loc, legal st -> u < 2 ^ 128 -> List.length buf = 382%nat ->
  (ds_next (LB st u idx buf loc) <> None <-> (0 <= loc)%Z).
Proof.
  intros st u buf idx loc L U B. destruct (Z_lt_dec loc 0) as [A|A].
  - split; [|lia]. intros H. exfalso. apply H. unfold ds_next, lb_next. cbn [lb_buf lb_loc]. change (2 * Z.of_nat dsK)%Z with 382%Z. replace (loc <? 382)%Z with true by lia.
    now rewrite rd_none by lia.
  - split; [lia|]. intros P. assert (G : good (LB st u idx buf loc)) by (split; [exact L|]; split; [exact U|]; split; [exact B|exact P]).
    destruct (next_good _ G) as (s' & E & _). rewrite E. discriminate.
Qed.
Lemma halves_ex : List.length (halves ex_st) = 382%nat.
Proof. rewrite halves_length, (proj1 ex_st_legal). reflexivity. Qed.
Theorem C20_dsfmt_setter_unchecked_refuted :
  forall loc t, (- 2 ^ 31 <= loc < 0)%Z -> List.length (lb_buf t) = 382%nat -> exists v s, ds_set v t = (s, Ok tt) /\ ds_next s = None.
Proof.
  intros loc t P B. set (s := LB ex_st 1 382 (halves ex_st) loc). exists (ds_get s), s. pose proof ex_st_legal as L. split.
  - apply ds_set_get; [exact (proj1 L)|exact (proj2 L)|reflexivity|split; [discriminate|reflexivity]|split; [apply P|apply (Z.lt_trans _ 0); [apply P|reflexivity]]|exact halves_ex|exact B].
  - destruct (ds_next s) eqn:E; [|reflexivity]. exfalso.
    assert (H : ds_next s <> None) by (rewrite E; discriminate). apply (C20_dsfmt_accepted_states ex_st 1 (halves ex_st) 382 loc L eq_refl halves_ex) in H. lia.
Qed.
Example C20_dsfmt_case : good (LB ex_st 1 382 (halves ex_st) 5).
Proof. split; [exact ex_st_legal|]. split; [reflexivity|]. split; [exact halves_ex|discriminate]. Qed.

(* ------------------------------------------------------------------- C18, C19 *)
Theorem C18_dsfmt_restores :
  forall s t, good s -> (lb_loc s <= 382)%Z -> (- 2 ^ 31 <= lb_idx s < 2 ^ 31)%Z -> List.length (lb_buf t) = 382%nat -> ds_set (ds_get s) t = (s, Ok tt).
Proof.
  intros s t (L & U & B & P) Q I T. apply ds_set_get; try assumption; [apply L|apply L|].
  split; [apply (Z.le_trans _ 0); [discriminate|exact P]|apply (Z.le_lt_trans _ 382); [exact Q|reflexivity]].
Qed.
Theorem C19_dsfmt_not_atomic_refuted : ~ atomic ds_set.
Proof.
  intros A. set (v := PDict [("bit_generator", PStr "DSFMT"); ("state", PDict [("state", PArr 64 (repeat 1 384)); ("idx", PNone)])]%string).
  set (t := LB (repeat 0 191) 0 382 (repeat 0 382) 382). specialize (A v t).
  assert (E : ds_set v t = (LB (firstn 191 (pairs (repeat 1 384))) (nth 191 (pairs (repeat 1 384)) 0) 382 (repeat 0 382) 382, Raise TypeError)) by (vm_compute; reflexivity).
  specialize (A _ _ E). apply (f_equal (fun s => hd 0 (lb_st s))) in A. vm_compute in A. discriminate A.
Qed.

(* ------------------------------------------------------------------- C21 *)
(* what is drawn after seeding does not depend on the object before *)
Theorem C21_dsfmt_seed_resets :
  forall words s s' rs, option_map snd (ds_run rs (ds_seed words s)) = option_map snd (ds_run rs (ds_seed words s')).
Proof.
  intros words s s' rs. assert (N1 : ds_next (ds_seed words s) = ds_next (ds_seed words s')) by (unfold ds_seed; destruct (ds_init_by_array words); reflexivity).
  destruct rs as [|r rs]; [reflexivity|]. cbn [ds_run]. unfold ds_next32, ds_next64. rewrite N1. reflexivity.
Qed.

(* ------------------------------------------------------------------- C22 *)
Definition pieces (r : req) (v : N) : list N := match r with R32 => [v] | R64 => [N.shiftr v 32; trunc 32 v] end.
Definition middle (v : N) : N := trunc 32 (N.shiftr v 16).
Lemma next32_middle v : trunc 32 (N.land (N.shiftr v 16) 0xffffffff) = middle v.
Proof. unfold middle, trunc. change 0xffffffff with (N.ones 32). rewrite N.land_ones, N.mod_mod; [reflexivity|discriminate]. Qed.
Lemma next64_pieces u v : pieces R64 (N.lor (wshl 64 (N.shiftr u 16) 32) (N.land (N.shiftr v 16) 0xffffffff)) = [middle u; middle v].
Proof.
  assert (M : N.land (N.shiftr v 16) 0xffffffff = middle v) by (unfold middle, trunc; change 0xffffffff with (N.ones 32); apply N.land_ones).
  rewrite M. unfold pieces. assert (A : N.shiftr (N.lor (wshl 64 (N.shiftr u 16) 32) (middle v)) 32 = middle u).
  { apply N.bits_inj. intros i. unfold middle. rewrite shr_spec, N.lor_spec, wshl_spec, !trunc_spec. destruct (N.ltb_spec i 32).
    - replace (i + 32 <? 64) with true by lia. replace (32 <=? i + 32) with true by lia. replace (i + 32 <? 32) with false by lia. cbn [andb]. rewrite orb_false_r. f_equal. lia.
    - replace (i + 32 <? 64) with false by lia. replace (i + 32 <? 32) with false by lia. reflexivity. }
  assert (B : trunc 32 (N.lor (wshl 64 (N.shiftr u 16) 32) (middle v)) = middle v).
  { apply N.bits_inj. intros i. unfold middle. rewrite trunc_spec, N.lor_spec, wshl_spec, !trunc_spec. destruct (N.ltb_spec i 32); [|reflexivity].
    replace (32 <=? i) with false by lia. rewrite andb_false_r. reflexivity. }
  now rewrite A, B.
Qed.
(* a 64-bit draw is two 32-bit draws, the first one on top: in whatever order they are
   made, the 32-bit pieces are those of consecutive values of the buffer *)
Fixpoint all_pieces (rs : list req) (vs : list N) : list N :=
  match rs, vs with r :: rs, v :: vs => (pieces r v ++ all_pieces rs vs)%list | _, _ => [] end.
Theorem C22_dsfmt_any_order :
  forall rs s, good s -> exists n s' vs ws,
  ds_run rs s = Some (s', vs) /\ ds_draws n s = Some (s', ws) /\ List.length vs = List.length rs /\ all_pieces rs vs = map middle ws.
Proof.
  induction rs as [|r rs IH]; intros s G; [exists 0%nat, s, [], []; repeat split|].
  cbn [ds_run]. unfold ds_next32, ds_next64. destruct (next_good s G) as (s1 & E1 & G1 & _). rewrite E1. set (u := outs dsK dsP ds_f ds_g s 0) in *. destruct r.
  - destruct (IH s1 G1) as (n & s' & vs & ws & R & D & Ln & Q). rewrite R. exists (S n), s', (trunc 32 (N.land (N.shiftr u 16) 0xffffffff) :: vs), (u :: ws).
    split; [reflexivity|]. split; [unfold ds_draws in *; cbn [lb_draws]; unfold ds_next in E1; now rewrite E1, D|]. split; [cbn [List.length]; now rewrite Ln|].
    cbn [all_pieces pieces map app]. now rewrite next32_middle, Q.
  - destruct (next_good s1 G1) as (s2 & E2 & G2 & _). rewrite E2. set (v := outs dsK dsP ds_f ds_g s1 0) in *.
    destruct (IH s2 G2) as (n & s' & vs & ws & R & D & Ln & Q). rewrite R. eexists (S (S n)), s', _, (u :: v :: ws).
    split; [reflexivity|]. split; [unfold ds_draws in *; cbn [lb_draws]; unfold ds_next in E1, E2; now rewrite E1, E2, D|]. split; [cbn [List.length]; now rewrite Ln|].
    cbn [all_pieces map]. rewrite next64_pieces, Q. reflexivity.
Qed.

(* ------------------------------------------------------------------- C34 *)
(* the value of a finite normal double with sign 0, from its bits *)
Definition val64 (v : N) : Q := (inject_Z (2 ^ 52 + Z.of_N (v mod 2 ^ 52)) * p2 (Z.of_N (v / 2 ^ 52) - 1075))%Q.
(* dsfmt.h:664-666 dsfmt_next_double *)
Definition ds_double (rnd : Q -> Q) (s : lb) : option (lb * Q) :=
  match ds_next s with Some (s1, v) => Some (s1, rnd (val64 v - 1)%Q) | None => None end.
(* the words of the array, and the values still in the buffer, are doubles in [1, 2) *)
Definition units (s : lb) : Prop :=
  Forall unit_word (lb_st s) /\ forall i v, (lb_loc s <= i)%Z -> rd (lb_buf s) i = Some v -> v < 2 ^ 64 /\ v / 2 ^ 52 = 0x3FF.
Lemma unit_halves l : Forall unit_word l -> Forall (fun v => v < 2 ^ 64 /\ v / 2 ^ 52 = 0x3FF) (halves l).
Proof.
  induction 1 as [|x l (W & A & B) F IH]; [constructor|]. unfold halves in *. cbn [flat_map app]. rewrite N.shiftr_div_pow2 in A, B.
  constructor; [split; [apply wf_trunc|exact A]|]. constructor; [split; [apply wf_trunc|exact B]|exact IH].
Qed.
Lemma next_units s : good s -> units s -> exists s' v, ds_next s = Some (s', v) /\ good s' /\ units s' /\ v < 2 ^ 64 /\ v / 2 ^ 52 = 0x3FF.
Proof.
  intros G [F H]. destruct (next_good s G) as (s' & E & G' & _). exists s', (outs dsK dsP ds_f ds_g s 0). split; [exact E|]. split; [exact G'|].
  destruct (next_cases unit_word unit_ok unit_inj s s' _ (conj (proj1 (proj1 G)) (conj F (proj1 (proj2 G)))) E) as [(P & R & ->)|(P & (K1 & K2 & K3) & _ & Hb & Hl & R)].
  - split; [split; [exact F|]|].
    + cbn [lb_buf lb_loc]. intros i v Hi. apply H. lia.
    + apply (H _ _ (Z.le_refl _) R).
  - assert (U : forall i v, rd (lb_buf s') i = Some v -> v < 2 ^ 64 /\ v / 2 ^ 52 = 0x3FF).
    { intros i v Hr. apply rd_In in Hr. rewrite Hb in Hr. pose proof (unit_halves _ K2) as Fh. rewrite Forall_forall in Fh. now apply Fh. }
    split; [split; [exact K2|intros i v _; apply U]|exact (U _ _ R)].
Qed.
Theorem C34_dsfmt_seeded_units : forall words s, List.length (lb_buf s) = 382%nat -> good (ds_seed words s) /\ units (ds_seed words s).
Proof.
  intros words s B. split; [now apply C20_dsfmt_seeded|]. destruct (d_init_ok words) as [(L & F & U) _]. unfold ds_seed. destruct (ds_init_by_array words) as [st u]. cbn [fst snd] in L, F, U.
  split; [exact F|]. cbn [lb_buf lb_loc]. intros i v Hi R. rewrite rd_none in R by lia. discriminate R.
Qed.
Lemma val64_unit rnd v : (forall x, rep 53 (-1074) 971 x -> (rnd x == x)%Q) -> v / 2 ^ 52 = 0x3FF -> (rnd (val64 v - 1)%Q == frac (Z.of_N (v mod 2 ^ 52)) 52)%Q.
Proof.
  intros R H. assert (E : (val64 v - 1 == inject_Z (Z.of_N (v mod 2 ^ 52)) * p2 (- 52))%Q).
  { unfold val64. rewrite H. change (Z.of_N 0x3FF - 1075)%Z with (- 52)%Z. rewrite inject_Z_plus.
    assert (P : (inject_Z (2 ^ 52) * p2 (- 52) == 1)%Q) by reflexivity. rewrite Qmult_plus_distr_l, P. ring. }
  rewrite R; [exact E|]. exists (Z.of_N (v mod 2 ^ 52)), (- 52)%Z. split; [|split; [lia|exact E]].
  pose proof (N.mod_lt v (2 ^ 52) ltac:(discriminate)) as M. rewrite Z.abs_eq by lia. apply (Z.lt_trans _ (2 ^ 52)); [|reflexivity]. change (2 ^ 52)%Z with (Z.of_N (2 ^ 52)). lia.
Qed.
(* every double is k / 2^52 in [0, 1), k the 52 low bits of the value drawn *)
Theorem C34_dsfmt_doubles :
  forall rnd s, (forall x, rep 53 (-1074) 971 x -> (rnd x == x)%Q) -> good s -> units s ->
  exists s' v d, ds_next s = Some (s', v) /\ ds_double rnd s = Some (s', d) /\ (d == frac (Z.of_N (v mod 2 ^ 52)) 52)%Q /\ (0 <= d)%Q /\ (d < 1)%Q /\ good s' /\ units s'.
Proof.
  intros rnd s R G U. destruct (next_units s G U) as (s' & v & E & G' & U' & W & H). exists s', v, (rnd (val64 v - 1)%Q). split; [exact E|]. split; [unfold ds_double; now rewrite E|].
  pose proof (val64_unit rnd v R H) as V. split; [exact V|]. pose proof (N.mod_lt v (2 ^ 52) ltac:(discriminate)) as M.
  destruct (frac_bounds (Z.of_N (v mod 2 ^ 52)) 52 ltac:(lia)) as [B1 B2]; [split; [lia|]; change (2 ^ 52)%Z with (Z.of_N (2 ^ 52)); lia|].
  rewrite V. split; [exact B1|]. split; [exact B2|]. split; assumption.
Qed.
(* the setter does not check that the values are in [1, 2): here 3.0, giving 2 *)
Theorem C34_dsfmt_setter_unchecked_refuted :
  forall rnd t, (forall x, rep 53 (-1074) 971 x -> (rnd x == x)%Q) -> List.length (lb_buf t) = 382%nat ->
  exists v s s' d, ds_set v t = (s, Ok tt) /\ good s /\ ds_double rnd s = Some (s', d) /\ (d == 2)%Q.
Proof.
  intros rnd t R B. set (s := LB ex_st 1 382 (repeat 0x4008000000000000 382) 0). pose proof ex_st_legal as L.
  exists (ds_get s), s, (LB ex_st 1 382 (repeat 0x4008000000000000 382) 1), (rnd (val64 0x4008000000000000 - 1)%Q). split; [|split; [|split]].
  - apply ds_set_get; [exact (proj1 L)|exact (proj2 L)|reflexivity|split; [discriminate|reflexivity]|split; [discriminate|reflexivity]|apply repeat_length|exact B].
  - split; [exact L|]. split; [reflexivity|]. split; [apply repeat_length|discriminate].
  - reflexivity.
  - assert (V : (val64 0x4008000000000000 - 1 == 2)%Q) by reflexivity. rewrite R; [exact V|]. exists 2%Z, 0%Z. split; [reflexivity|]. split; [lia|exact V].
Qed.
(* the words of a seeded generator never are zero, nor is the lung's parity *)
Theorem C26_dsfmt_certified : forall words s, d_inner (lb_u (ds_seed words s)) = 1 /\ lb_u (ds_seed words s) < 2 ^ 128.
Proof. intros words s. destruct (d_init_ok words) as [(_ & _ & U) I]. unfold ds_seed. destruct (ds_init_by_array words). split; assumption. Qed.
Theorem C26_dsfmt_words_not_zero : forall n s s' vs, good s -> units s -> ds_draws n s = Some (s', vs) -> Forall (fun w => w <> 0) (lb_st s').
Proof.
  induction n as [|n IH]; intros s s' vs G U E; unfold ds_draws in E; cbn [lb_draws] in E.
  - injection E as <- _. eapply Forall_impl; [|apply U]. intros w (_ & A & _) ->. discriminate A.
  - destruct (next_units s G U) as (s1 & v & E1 & G1 & U1 & _). unfold ds_next in E1. rewrite E1 in E. destruct (lb_draws _ _ _ _ _ n s1) as [[s2 ws]|] eqn:E2; [|discriminate E].
    injection E as <- _. exact (IH s1 s2 ws G1 U1 E2).
Qed.
Lemma halves_not_zero l : Forall (fun w => w <> 0) l -> (0 < List.length l)%nat -> Forall (wf 128) l -> halves l <> repeat 0 (2 * List.length l).
Proof.
  intros F L W E. destruct l as [|x l]; [cbn in L; lia|]. inversion F as [|? ? X _]; subst. inversion W as [|? ? Wx _]; subst. cbn [List.length] in E.
  replace (2 * S (List.length l))%nat with (S (S (2 * List.length l))) in E by lia. unfold halves in E. cbn [flat_map app repeat] in E.
  pose proof (f_equal (fun l => nth 0 l 0) E) as E0. pose proof (f_equal (fun l => nth 1 l 0) E) as E1. cbn [nth] in E0, E1. apply X. apply half_join; [exact Wx|reflexivity|exact E0|exact E1].
Qed.
(* the state of the object after seeding does depend on it: buffered_uniforms is left
   as it was. Here a new object and one that has made a draw are given the same seed *)
Theorem C21_dsfmt_stale_buffer_refuted :
  forall words s v, ds_next (ds_new words) = Some (s, v) -> ds_get (ds_seed words (ds_new words)) <> ds_get (ds_seed words s).
Proof.
  intros words s v E H. destruct (C34_dsfmt_seeded_units words (LB [] 0 0 (repeat 0 382) 382) (repeat_length _ _)) as [G U]. fold (ds_new words) in G, U.
  assert (D : lb_buf s = halves (lb_st s) /\ lb_u s < 2 ^ 128 /\ legal (lb_st s) /\ (1 <= lb_loc s <= 382)%Z).
  { destruct (d_init_ok words) as [(L & F & Uu) _]. unfold ds_new, ds_seed in E. destruct (ds_init_by_array words) as [st u]. cbn [fst snd lb_buf] in L, F, Uu, E.
    apply (C60_dsfmt_buffer_holds_the_array 0 st u 382 (repeat 0 382) s [v]).
    - split; [exact L|]. eapply Forall_impl; [|exact F]. intros w Hw. apply Hw.
    - exact Uu.
    - apply repeat_length.
    - unfold ds_draws. cbn [lb_draws]. unfold ds_next in E. now rewrite E. }
  assert (Z : Forall (fun w => w <> 0) (lb_st s)).
  { apply (C26_dsfmt_words_not_zero 1 (ds_new words) s [v] G U). unfold ds_draws. cbn [lb_draws]. unfold ds_next in E. now rewrite E. }
  destruct D as (D1 & _ & [D2 D3] & _). apply (halves_not_zero (lb_st s) Z); [rewrite D2; lia|exact D3|]. rewrite D2, <- D1. change (2 * 191)%nat with 382%nat.
  unfold ds_new, ds_seed in H. destruct (ds_init_by_array words) as [st u]. unfold ds_get in H. cbn [lb_buf lb_st lb_u lb_idx lb_loc] in H.
  revert H. generalize (repeat 0 382). intros l H. injection H as H. now symmetry.
Qed.
Example C34_dsfmt_case : good (LB ex_st 1 382 (halves ex_st) 5) /\ units (LB ex_st 1 382 (halves ex_st) 5).
Proof.
  split; [exact C20_dsfmt_case|]. split; [exact ex_st_unit|]. cbn [lb_buf lb_loc]. intros i v _ R. apply rd_In in R. pose proof (unit_halves _ ex_st_unit) as F. rewrite Forall_forall in F. now apply F.
Qed.

(* ------------------------------------------------------------------- C16 *)
(* what the generator gives from now on *)
Notation future s := (outs dsK dsP ds_f ds_g s).
(* jump() forgets how much of the buffer had been used *)
Theorem C16_dsfmt_jump_ignores_position :
  forall ps iter s s', lb_st s = lb_st s' -> lb_u s = lb_u s' ->
  match ds_jump_py ps iter s, ds_jump_py ps iter s' with
  | Some (Ok c), Some (Ok c') => lb_st c = lb_st c' /\ lb_u c = lb_u c' /\ lb_loc c = 382%Z /\ lb_loc c' = 382%Z
  | Some (Raise e), Some (Raise e') => e = e'
  | None, None => True
  | _, _ => False
  end.
Proof.
  intros ps iter b b' S U. unfold ds_jump_py. destruct (iter <? 0)%Z; [reflexivity|]. destruct (2 ^ 31 <=? iter)%Z; [reflexivity|].
  assert (H : forall fuel r s s', lb_st s = lb_st s' -> lb_u s = lb_u s' ->
    match jump_n ds_jump ps fuel r s, jump_n ds_jump ps fuel r s' with Some c, Some c' => lb_st c = lb_st c' /\ lb_u c = lb_u c' | None, None => True | _, _ => False end).
  { induction fuel as [|fuel IH]; intros r s s' Es Eu; cbn [jump_n].
    - destruct (r <=? 0)%Z; [split; assumption|trivial].
    - destruct (r <=? 0)%Z; [split; assumption|].
      match goal with |- context[let '(p, k) := ?e in _] => destruct e as [p k] end.
      assert (J : forall t, ds_jump p t = match lg_jump dsK dsP ds_f ds_g p (lb_st t) (lb_u t) with Some (st, u) => Some (LB st u (lb_idx t) (lb_buf t) (lb_loc t)) | None => None end) by reflexivity.
      rewrite !J, Es, Eu. destruct (lg_jump dsK dsP ds_f ds_g p (lb_st s') (lb_u s')) as [[st u]|]; [|trivial].
      apply IH; reflexivity. }
  specialize (H (Z.to_nat iter) iter _ _ S U).
  destruct (jump_n ds_jump ps (Z.to_nat iter) iter b), (jump_n ds_jump ps (Z.to_nat iter) iter b'); try exact H.
  cbn [lb_reset lb_st lb_u lb_loc]. destruct H. repeat (split; [assumption || reflexivity|]). reflexivity.
Qed.
Theorem C16_dsfmt_draws_within_a_block :
  forall k s s' vs, (lb_loc s + Z.of_nat k <= 382)%Z -> ds_draws k s = Some (s', vs) -> lb_st s' = lb_st s /\ lb_u s' = lb_u s.
Proof.
  intros k. unfold ds_draws. induction k as [|k IH]; intros s s' vs P E; cbn [lb_draws] in E; [injection E as <- _; split; reflexivity|].
  destruct (lb_next _ _ _ _ _ s) as [[s1 v]|] eqn:E1; [|discriminate E]. destruct (lb_draws _ _ _ _ _ k s1) as [[s2 ws]|] eqn:E2; [|discriminate E]. injection E as <- _.
  destruct (next_within dsK dsP ds_f ds_g _ dK2 dPK s s1 v E1 ltac:(unfold dsK; lia)) as (A & B & C & _).
  destruct (IH s1 s2 ws ltac:(lia) E2) as [D F]. split; congruence.
Qed.
(* so no number of draws J describes the jump, whatever the polynomial is *)
Theorem C16_dsfmt_jump_is_no_number_of_draws_refuted :
  forall cs J, ~ forall n s1 vs s', ds_draws n (LB ex_st 1 382 (halves ex_st) 382) = Some (s1, vs) -> ds_jump cs s1 = Some s' ->
  forall i, future (lb_reset dsK s') i = future s1 (J + i)%nat.
Proof.
  intros cs J H. pose proof ex_st_legal as L.
  pose proof (jump_constant dsK dsP ds_f ds_g ds_fine dK2 dPK wf128 wf128 dK3 d_ok d_inj d_flin d_glin d_observed half_join cs J ex_st 1 382 (halves ex_st)
    (legal_lok ex_st 1 L eq_refl) eq_refl halves_ex H 1) as C.
  destruct (starts_lx ex_st 1 L eq_refl) as (_ & _ & _ & B). rewrite (B 1), (B 0) in C by lia. vm_compute in C. discriminate C.
Qed.
(* at the end of a block, a polynomial that moves every sequence of doubles by J words
   moves the output by 2 J values. The polynomials of dSFMT-poly-19937-*.h are for
   sequences whose words are doubles in [1, 2) *)
Definition moves (cs : list bool) (J : N) : Prop :=
  forall x u, (forall n, unit_word (x n) /\ u n < 2 ^ 128) -> published x u -> forall n, lpol cs x n = x (J + n) /\ lpol cs u n = u (J + n).
Lemma moves_lshifts cs J : moves cs J -> lshifts dsK dsP ds_f ds_g unit_word wf128 cs J.
Proof.
  intros M x u [A U] R n. apply M; [intros m; split; [apply A|apply U]|]. apply published_lrec; [|exact R]. intros m. split; [apply A|apply U].
Qed.
Lemma jump_step cs J s : good s -> Forall unit_word (lb_st s) -> moves cs J ->
  exists s', ds_jump cs s = Some s' /\ good s' /\ Forall unit_word (lb_st s') /\
  (forall n, lx dsK dsP ds_f ds_g (lb_st s') (lb_u s') n = lx dsK dsP ds_f ds_g (lb_st s) (lb_u s) (J + n) /\ lu dsK dsP ds_f ds_g (lb_st s') (lb_u s') n = lu dsK dsP ds_f ds_g (lb_st s) (lb_u s) (J + n)) /\
  lb_idx s' = lb_idx s /\ lb_buf s' = lb_buf s /\ lb_loc s' = lb_loc s.
Proof.
  intros G Fu M. pose proof G as (L & U & B & P).
  destruct (jump_outs dsK dsP ds_f ds_g ds_fine dK2 dPK unit_word wf128 dK3 unit_ok unit_inj d_flin d_glin cs s (good_lgood s G)) as (s' & E & G' & O & W & Ls).
  exists s'. split; [exact E|].
  pose proof (lseq_sok dsK dsP ds_f ds_g (fun _ => true) dK2 dPK unit_word wf128 dK3 unit_ok unit_inj (lb_st s) (lb_u s) (conj (proj1 L) (conj Fu U))) as Ok.
  pose proof (lseq_rec dsK dsP ds_f ds_g dK2 dPK (lb_st s) (lb_u s) (proj1 L)) as R.
  pose proof (moves_lshifts cs J M _ _ Ok R) as Sh.
  unfold ds_jump, lb_jump in E. destruct (lg_jump dsK dsP ds_f ds_g cs (lb_st s) (lb_u s)) as [[st u]|] eqn:Ej; [|discriminate E]. injection E as <-.
  cbn [lb_st lb_u lb_idx lb_buf lb_loc] in W, Ls |- *.
  assert (W2 : forall n, lx dsK dsP ds_f ds_g st u n = lx dsK dsP ds_f ds_g (lb_st s) (lb_u s) (J + n) /\ lu dsK dsP ds_f ds_g st u n = lu dsK dsP ds_f ds_g (lb_st s) (lb_u s) (J + n)).
  { intros n. rewrite (proj1 (W n)), (proj2 (W n)). apply Sh. }
  assert (Fu' : Forall unit_word st).
  { pose proof (lseq_starts dsK dsP ds_f ds_g dK2 dPK st u Ls) as (_ & Bs & _). apply Forall_forall. intros w Iw. apply (In_nth _ _ 0) in Iw.
    destruct Iw as (i & Hi & <-). rewrite Ls in Hi. rewrite Bs by exact Hi. rewrite (proj1 (W2 _)). apply Ok. }
  split; [|split; [exact Fu'|split; [exact W2|repeat split]]]. split; [split; [exact Ls|eapply Forall_impl; [|exact Fu']; intros w Hw; apply Hw]|].
  split; [|split; [exact B|exact P]]. pose proof (proj2 (W2 0)) as W0. change (lu dsK dsP ds_f ds_g st u 0) with u in W0. cbn [lb_u]. rewrite W0. apply Ok.
Qed.
Lemma block_end_future s x u : good s -> lb_loc s = 382%Z -> starts (lb_st s) (lb_u s) x u -> forall i, future s i = half64 x (382 + N.of_nat i).
Proof.
  intros (L & U & _) Lo X i. unfold outs. rewrite Lo. change (2 * dsK - Z.to_nat 382)%nat with 0%nat. cbn [Nat.ltb Nat.leb]. rewrite Nat.sub_0_r, (half64_lhalf x).
  apply lhalf_ext. intros j. apply (starts_unique (lb_st s) (lb_u s) _ _ x u L (starts_lx _ _ L U) X).
Qed.
Lemma reset_good s : good s -> good (lb_reset dsK s).
Proof. intros (L & U & B & P). split; [exact L|]. split; [exact U|]. split; [exact B|discriminate]. Qed.
(* the sequences n words on *)
Lemma starts_shift st u x v st' u' J : legal st -> starts st u x v -> legal st' -> u' < 2 ^ 128 ->
  (forall n, lx dsK dsP ds_f ds_g st' u' n = lx dsK dsP ds_f ds_g st u (J + n) /\ lu dsK dsP ds_f ds_g st' u' n = lu dsK dsP ds_f ds_g st u (J + n)) ->
  starts st' u' (fun n => x (J + n)) (fun n => v (J + n)).
Proof.
  intros L X L' U' H. assert (U : u < 2 ^ 128) by (destruct X as (W & _ & <- & _); apply W).
  pose proof (starts_unique st u _ _ x v L (starts_lx st u L U) X) as Q. destruct X as (W & P & _). split; [intros n; apply W|]. split; [intros n; rewrite !N.add_assoc; apply P|].
  pose proof (starts_lx st' u' L' U') as (_ & _ & C & B). split; [rewrite <- C, (proj2 (H 0)); symmetry; apply Q|].
  intros i Hi. rewrite <- B by exact Hi. rewrite (proj1 (H i)). symmetry. apply Q.
Qed.
Theorem C16_dsfmt_jump_any_polynomial :
  forall cs J s x u, good s -> Forall unit_word (lb_st s) -> starts (lb_st s) (lb_u s) x u -> moves cs J ->
  exists s', ds_jump cs s = Some s' /\ good (lb_reset dsK s') /\ (forall i, future (lb_reset dsK s') i = half64 x (382 + 2 * J + N.of_nat i)) /\
  (lb_loc s = 382%Z -> forall i, future s i = half64 x (382 + N.of_nat i)).
Proof.
  intros cs J s x u G Fu X M. destruct (jump_step cs J s G Fu M) as (s' & E & G' & Fu' & W & _). exists s'. split; [exact E|]. split; [now apply reset_good|]. split.
  - intros i. rewrite (block_end_future (lb_reset dsK s') (fun n => x (J + n)) (fun n => u (J + n)) (reset_good _ G') eq_refl).
    + transitivity (lhalf (shifted J x) (382 + N.of_nat i)); [reflexivity|]. rewrite <- lhalf_add. unfold half64, lhalf. replace (2 * J + (382 + N.of_nat i)) with (382 + 2 * J + N.of_nat i) by lia. reflexivity.
    + apply (starts_shift (lb_st s) (lb_u s) x u); [apply G|exact X|apply G'|apply G'|exact W].
  - intros Lo. now apply (block_end_future s x u).
Qed.

(* ------------------------------------------------------------------- C48, C55, C17 *)
(* the polynomials are those for 65536, 4096, 256, 16 and 1 moves by B words *)
Definition polys_move (ps : polys) (B : N) : Prop :=
  moves (p144 ps) (65536 * B) /\ moves (p140 ps) (4096 * B) /\ moves (p136 ps) (256 * B) /\ moves (p132 ps) (16 * B) /\ moves (p128 ps) B.
Lemma polys_units ps B p k : polys_move ps B -> In (p, k) (JumpN.units ps) -> moves p (Z.to_N k * B).
Proof.
  intros (M1 & M2 & M3 & M4 & M5) H. unfold JumpN.units in H. cbn [In] in H.
  destruct H as [H|[H|[H|[H|[H|[]]]]]]; injection H as <- <-; try assumption. change (Z.to_N 1) with 1. now rewrite N.mul_1_l.
Qed.
Theorem C48_dsfmt_jump_any_polynomials :
  forall ps B iter s x u, polys_move ps B -> good s -> Forall unit_word (lb_st s) -> starts (lb_st s) (lb_u s) x u -> (0 <= iter < 2 ^ 31)%Z ->
  exists s', ds_jump_py ps iter s = Some (Ok s') /\ good s' /\ Forall unit_word (lb_st s') /\ lb_loc s' = 382%Z /\
  starts (lb_st s') (lb_u s') (fun n => x (Z.to_N iter * B + n)) (fun n => u (Z.to_N iter * B + n)) /\
  (forall i, future s' i = half64 x (382 + 2 * (Z.to_N iter * B) + N.of_nat i)).
Proof.
  intros ps B iter s x u Ps G Fu X It. unfold ds_jump_py. replace (iter <? 0)%Z with false by lia.
  replace (2 ^ 31 <=? iter)%Z with false by (symmetry; apply Z.leb_gt; apply It).
  destruct (jump_n_plan ds_jump ps (Z.to_nat iter) iter s ltac:(lia)) as (us & Fus & Wt & ->).
  set (R := fun (s : lb) (J : N) => good s /\ Forall unit_word (lb_st s) /\ starts (lb_st s) (lb_u s) (fun m => x (J + m)) (fun m => u (J + m))).
  destruct (plan_shift ds_jump ps B R) with (us := us) (s := s) (J := 0) as (s' & E & G' & Fu' & S').
  - intros p k t J Hin (Gt & Ft & Xt). destruct (jump_step p (Z.to_N k * B) t Gt Ft (polys_units ps B p k Ps Hin)) as (t' & E1 & G1 & F1 & W & _).
    exists t'. split; [exact E1|]. split; [exact G1|]. split; [exact F1|].
    pose proof (starts_shift _ _ _ _ _ _ _ (proj1 Gt) Xt (proj1 G1) (proj1 (proj2 G1)) W) as Q.
    destruct Q as (Q1 & Q2 & Q3 & Q4). split; [intros n; rewrite <- !N.add_assoc; apply Q1|]. split; [intros n; rewrite <- !N.add_assoc, (N.add_assoc J), !(N.add_assoc (Z.to_N k * B)); rewrite <- !N.add_assoc; specialize (Q2 n); exact Q2|].
    split; [rewrite <- Q3; f_equal; lia|]. intros i Hi. rewrite <- Q4 by exact Hi. f_equal; lia.
  - exact Fus.
  - split; [exact G|]. split; [exact Fu|exact X].
  - rewrite E. eexists. split; [reflexivity|]. rewrite Wt in S'. replace (Z.max 0 iter) with iter in S' by lia. rewrite N.add_0_l in S'.
    split; [now apply reset_good|]. split; [exact Fu'|]. split; [reflexivity|]. split; [exact S'|].
    intros i. rewrite (block_end_future (lb_reset dsK s') _ _ (reset_good _ G') eq_refl S').
    transitivity (lhalf (shifted (Z.to_N iter * B) x) (382 + N.of_nat i)); [reflexivity|]. rewrite <- lhalf_add. unfold half64, lhalf.
    replace (2 * (Z.to_N iter * B) + (382 + N.of_nat i)) with (382 + 2 * (Z.to_N iter * B) + N.of_nat i) by lia. reflexivity.
Qed.
(* jump(iter) and jumped(iter) at the end of a block, with polynomials for 2^128
   words: 2^129 iter values, not the documented 2^128 (or 2^(128 iter)) *)
Theorem C55_dsfmt_jump_length_any_polynomials :
  forall ps iter s x u, polys_move ps (2 ^ 128) -> good s -> Forall unit_word (lb_st s) -> lb_loc s = 382%Z -> starts (lb_st s) (lb_u s) x u -> (0 <= iter < 2 ^ 31)%Z ->
  exists s', ds_jump_py ps iter s = Some (Ok s') /\ forall i,
  future s i = half64 x (382 + N.of_nat i) /\ future s' i = half64 x (382 + 2 ^ 129 * Z.to_N iter + N.of_nat i).
Proof.
  intros ps iter s x u Ps G Fu Lo X It. destruct (C48_dsfmt_jump_any_polynomials ps (2 ^ 128) iter s x u Ps G Fu X It) as (s' & E & _ & _ & _ & _ & O).
  exists s'. split; [exact E|]. intros i. split; [now apply (block_end_future s x u)|]. rewrite O. f_equal. change (2 ^ 129) with (2 * 2 ^ 128). lia.
Qed.
(* two jumps are one *)
Theorem C17_dsfmt_jumps_add_any_polynomials :
  forall ps B i j s, polys_move ps B -> good s -> Forall unit_word (lb_st s) -> (0 <= i)%Z -> (0 <= j)%Z -> (i + j < 2 ^ 31)%Z ->
  exists s1 s2 s3, ds_jump_py ps i s = Some (Ok s1) /\ ds_jump_py ps j s1 = Some (Ok s2) /\ ds_jump_py ps (i + j) s = Some (Ok s3) /\
  lb_u s2 = lb_u s3 /\ forall n, future s2 n = future s3 n.
Proof.
  intros ps B i j s Ps G Fu Hi Hj Hs. pose proof (starts_lx _ _ (proj1 G) (proj1 (proj2 G))) as X.
  set (x := lx dsK dsP ds_f ds_g (lb_st s) (lb_u s)) in *. set (u := lu dsK dsP ds_f ds_g (lb_st s) (lb_u s)) in *.
  assert (Bi : (0 <= i < 2 ^ 31)%Z) by (split; [exact Hi|apply (Z.le_lt_trans _ (i + j)); [lia|exact Hs]]).
  assert (Bj : (0 <= j < 2 ^ 31)%Z) by (split; [exact Hj|apply (Z.le_lt_trans _ (i + j)); [lia|exact Hs]]).
  destruct (C48_dsfmt_jump_any_polynomials ps B i s x u Ps G Fu X Bi) as (s1 & E1 & G1 & F1 & _ & X1 & O1).
  destruct (C48_dsfmt_jump_any_polynomials ps B j s1 _ _ Ps G1 F1 X1 Bj) as (s2 & E2 & G2 & F2 & _ & X2 & O2).
  destruct (C48_dsfmt_jump_any_polynomials ps B (i + j) s x u Ps G Fu X (conj (Z.add_nonneg_nonneg _ _ Hi Hj) Hs)) as (s3 & E3 & G3 & F3 & _ & X3 & O3).
  exists s1, s2, s3. split; [exact E1|]. split; [exact E2|]. split; [exact E3|]. split.
  - destruct X2 as (_ & _ & <- & _), X3 as (_ & _ & <- & _). f_equal. rewrite Z2N.inj_add by assumption. ring.
  - intros n. rewrite O2, O3. transitivity (lhalf (shifted (Z.to_N i * B) x) (382 + 2 * (Z.to_N j * B) + N.of_nat n)); [reflexivity|]. rewrite <- lhalf_add.
    unfold half64; fold (lhalf x (382 + 2 * (Z.to_N (i + j) * B) + N.of_nat n)). f_equal. rewrite Z2N.inj_add by assumption. ring.
Qed.
(* negative numbers of jumps are rejected *)
Theorem C55_dsfmt_negative_jumps : forall ps iter s, (iter < 0)%Z -> ds_jump_py ps iter s = Some (Raise ValueError).
Proof. intros ps iter s H. unfold ds_jump_py. now replace (iter <? 0)%Z with true by lia. Qed.
Lemma lpol_power (x : N -> N) n : forall i, lpol (repeat false n ++ [true]) x i = x (N.of_nat n + i).
Proof. induction n as [|n IH]; intros i; cbn [repeat app lpol]; [rewrite N.lxor_0_r; f_equal; lia|]. rewrite N.lxor_0_l, IH. f_equal. lia. Qed.
Lemma moves_power n : moves (repeat false n ++ [true]) (N.of_nat n).
Proof. intros x u _ _ i. split; apply lpol_power. Qed.
Example C48_dsfmt_case : exists ps, polys_move ps 1.
Proof.
  exists (Polys (repeat false (N.to_nat 65536) ++ [true]) (repeat false (N.to_nat 4096) ++ [true]) (repeat false (N.to_nat 256) ++ [true]) (repeat false (N.to_nat 16) ++ [true]) (repeat false (N.to_nat 1) ++ [true])).
  unfold polys_move. cbn [p144 p140 p136 p132 p128]. rewrite !N.mul_1_r.
  rewrite <- (N2Nat.id 65536) at 2. rewrite <- (N2Nat.id 4096) at 2. rewrite <- (N2Nat.id 256) at 2. rewrite <- (N2Nat.id 16) at 2. rewrite <- (N2Nat.id 1) at 2.
  split; [apply moves_power|]. split; [apply moves_power|]. split; [apply moves_power|]. split; [apply moves_power|apply moves_power].
Qed.

Print Assumptions C60_dsfmt_is_the_recurrence.
Print Assumptions C60_dsfmt_inside_a_block.
Print Assumptions C60_dsfmt_buffer_holds_the_array.
Print Assumptions C60_dsfmt_sequence_exists.
Print Assumptions C64_dsfmt_simd_recursion.
Print Assumptions C64_dsfmt_simd_block.
Print Assumptions C64_dsfmt_simd_draws.
Print Assumptions C24_dsfmt_block_injective.
Print Assumptions C20_dsfmt_draws_safe.
Print Assumptions C20_dsfmt_seeded.
Print Assumptions C20_dsfmt_new.
Print Assumptions C20_dsfmt_accepted_states.
Print Assumptions C20_dsfmt_setter_unchecked_refuted.
Print Assumptions C18_dsfmt_restores.
Print Assumptions C19_dsfmt_not_atomic_refuted.
Print Assumptions C21_dsfmt_seed_resets.
Print Assumptions C22_dsfmt_any_order.
Print Assumptions C34_dsfmt_seeded_units.
Print Assumptions C34_dsfmt_doubles.
Print Assumptions C34_dsfmt_setter_unchecked_refuted.
Print Assumptions C26_dsfmt_certified.
Print Assumptions C26_dsfmt_words_not_zero.
Print Assumptions C21_dsfmt_stale_buffer_refuted.
Print Assumptions C16_dsfmt_jump_ignores_position.
Print Assumptions C16_dsfmt_draws_within_a_block.
Print Assumptions C16_dsfmt_jump_is_no_number_of_draws_refuted.
Print Assumptions C16_dsfmt_jump_any_polynomial.
Print Assumptions C48_dsfmt_jump_any_polynomials.
Print Assumptions C55_dsfmt_jump_length_any_polynomials.
Print Assumptions C17_dsfmt_jumps_add_any_polynomials.
Print Assumptions C55_dsfmt_negative_jumps.
