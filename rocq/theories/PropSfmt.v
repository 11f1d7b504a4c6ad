(* SFMT: refinement to the published recurrence, SIMD recursion, jumps, seeding and state *)
From Verif Require Import Word Arr Buffer32 OptBuffer Py Half SeedSeq SeedSeqFacts Lagged LaggedBuf JumpN SfmtSeed Sfmt Lanes SfmtFacts Kat.
From Coq Require Import String ZifyBool ZifyNat ZifyN.
Open Scope N_scope.
Ltac Zify.zify_post_hook ::= idtac.

(* each of the four 32-bit lanes of a 128-bit word shifted *)
Definition lanes_shr (k x : N) : N := join4 (N.shiftr (lane 0 x) k) (N.shiftr (lane 1 x) k) (N.shiftr (lane 2 x) k) (N.shiftr (lane 3 x) k).
Definition lanes_shl (k x : N) : N := join4 (wshl 32 (lane 0 x) k) (wshl 32 (lane 1 x) k) (wshl 32 (lane 2 x) k) (wshl 32 (lane 3 x) k).
(* the recurrence of SFMT19937 on 128-bit words:
   w_(n+156) = w_n A xor w_(n+122) B xor w_(n+154) C xor w_(n+155) D *)
Definition published (x : N -> N) : Prop := forall n,
  x (n + 156) = N.lxor (N.lxor (N.lxor (N.lxor (x n) (wshl 128 (x n) 8))
                 (N.land (lanes_shr 11 (x (n + 122))) 0xbffffff6bffaffffddfecb7fdfffffef))
                 (N.shiftr (x (n + 154)) 8)) (lanes_shl 18 (x (n + 155))).
(* a legal array: 156 words of 128 bits *)
Definition legal (st : list N) : Prop := List.length st = 156%nat /\ Forall (fun w => w < 2 ^ 128) st.
Definition starts (st : list N) (x : N -> N) : Prop :=
  (forall n, x n < 2 ^ 128) /\ published x /\ forall i, i < 156 -> x i = nth (N.to_nat i) st 0.
(* the m-th 64-bit value of the sequence: low half first *)
Definition half64 (x : N -> N) (m : N) : N := trunc 64 (N.shiftr (x (m / 2)) (64 * (m mod 2))).

Lemma published_lrec x : (forall n, x n < 2 ^ 128) -> published x <-> lrec sfK sfP sf_f sf_g x (fun _ => 0).
Proof.
  intros W. unfold published, lrec. assert (M : sf_mask = 0xbffffff6bffaffffddfecb7fdfffffef) by (vm_compute; reflexivity).
  change (N.of_nat sfK) with 156. change (N.of_nat sfP) with 122. change (156 - 2) with 154. change (156 - 1) with 155. rewrite <- M. unfold sf_f, sf_g.
  split; intros H n; specialize (H n).
  - split; [|reflexivity]. rewrite sf_rec_eq by apply W. exact H.
  - destruct H as [H _]. rewrite sf_rec_eq in H by apply W. exact H.
Qed.
Lemma starts_lstarts st x : legal st -> starts st x -> lstarts sfK sfP sf_f sf_g st 0 x (fun _ => 0).
Proof.
  intros [L F] (W & R & B). split; [exact L|]. split; [|split; [reflexivity|now apply published_lrec]].
  intros i Hi. rewrite B by (unfold sfK in Hi; lia). f_equal. lia.
Qed.
Lemma starts_lx st : legal st -> starts st (lx sfK sfP sf_f sf_g st 0).
Proof.
  intros O. pose proof (proj1 (sfok_lok st) O) as O'.
  pose proof (lseq_sok sfK sfP sf_f sf_g (fun _ => true) sK2 sPK wf128 is0 sK3 s_ok s_inj st 0 O') as [A U].
  pose proof (lseq_starts sfK sfP sf_f sf_g sK2 sPK st 0 (proj1 O)) as (_ & B & _ & R).
  split; [exact A|]. split; [|intros i Hi; rewrite B by (unfold sfK; lia); f_equal; lia].
  apply published_lrec; [exact A|]. intros n. destruct (R n) as [R1 _]. split; [exact R1|reflexivity].
Qed.
Lemma starts_unique st x y : legal st -> starts st x -> starts st y -> forall n, x n = y n.
Proof.
  intros O X Y n. apply (starts_unique sfK sfP sf_f sf_g sK2 sPK st 0 x (fun _ => 0) y (fun _ => 0)); now apply starts_lstarts.
Qed.
Lemma half64_lhalf x m : half64 x m = lhalf x m.
Proof. reflexivity. Qed.
Definition ex_st : list N := map (fun i => N.of_nat i * 25214903917000000000000000000000000011 mod 2 ^ 128) (seq 1 156).
Lemma ex_st_legal : legal ex_st.
Proof. split; [reflexivity|]. apply Forall_forall. intros w I. apply in_map_iff in I. destruct I as (i & <- & _). apply N.mod_lt. discriminate. Qed.

(* ------------------------------------------------------------------- C60 *)
(* a state at the end of a block: the draws are the halves of the words that the
   recurrence adds to the array, whatever is left in the buffer *)
Theorem C60_sfmt_is_the_recurrence :
  forall dbg st buf x n, legal st -> List.length buf = 312%nat -> starts st x ->
  option_map snd (sf_draws dbg n (LB st 0 624 buf 312)) = Some (map (fun i => half64 x (312 + N.of_nat i)) (seq 0 n)).
Proof.
  intros dbg st buf x n L B S.
  assert (G : lgood sfK (sf_fine dbg) (LB st 0 624 buf 312)).
  { split; [exact (proj1 L)|]. split; [exact B|]. split; [discriminate|]. unfold sf_fine. cbn [lb_idx]. now destruct dbg. }
  destruct (draws_outs sfK sfP sf_f sf_g (sf_fine dbg) sK2 sPK n _ G) as (s' & E & _). unfold sf_draws. rewrite E. cbn [option_map snd]. f_equal.
  apply map_ext. intros i. unfold outs. cbn [lb_st lb_buf lb_loc lb_u]. change (2 * sfK - Z.to_nat 312)%nat with 0%nat. cbn [Nat.ltb Nat.leb].
  rewrite Nat.sub_0_r. rewrite (half64_lhalf x). apply lhalf_ext. intros j. apply (starts_unique st); [exact L|now apply starts_lx|exact S].
Qed.
(* inside a block, with the buffer holding the array, as it does after every draw *)
Theorem C60_sfmt_inside_a_block :
  forall dbg st loc x n, legal st -> (0 <= loc <= 312)%Z -> starts st x ->
  option_map snd (sf_draws dbg n (LB st 0 624 (halves st) loc)) = Some (map (fun i => half64 x (Z.to_N loc + N.of_nat i)) (seq 0 n)).
Proof.
  intros dbg st loc x n L P S.
  assert (B : List.length (halves st) = 312%nat) by (rewrite halves_length, (proj1 L); reflexivity).
  assert (G : lgood sfK (sf_fine dbg) (LB st 0 624 (halves st) loc)).
  { split; [exact (proj1 L)|]. split; [exact B|]. split; [apply P|]. unfold sf_fine. cbn [lb_idx]. now destruct dbg. }
  destruct (draws_outs sfK sfP sf_f sf_g (sf_fine dbg) sK2 sPK n _ G) as (s' & E & _). unfold sf_draws. rewrite E. cbn [option_map snd]. f_equal.
  apply map_ext. intros i. unfold outs. cbn [lb_st lb_buf lb_loc lb_u]. rewrite (half64_lhalf x).
  pose proof (fun n => starts_unique st _ _ L (starts_lx st L) S n) as X.
  change (2 * sfK)%nat with 312%nat. destruct (i <? 312 - Z.to_nat loc)%nat eqn:H.
  - pose proof (halves_nth st (Z.to_nat loc + i) ltac:(rewrite (proj1 L); lia)) as A. rewrite nth_err_nth in A by (rewrite B; lia). apply some_inj in A. rewrite A.
    unfold lhalf. destruct S as (_ & _ & S). set (m := (Z.to_nat loc + i)%nat) in *.
    replace (Z.to_N loc + N.of_nat i) with (N.of_nat m) by (unfold m; lia).
    change 2 with (N.of_nat 2). rewrite <- Nat2N.inj_div, <- Nat2N.inj_mod. change (N.of_nat 2) with 2.
    rewrite S, Nat2N.id; [reflexivity|]. pose proof (Nat.div_lt_upper_bound m 2 156 ltac:(lia) ltac:(unfold m; lia)). lia.
  - rewrite (lhalf_ext _ x) by exact X. f_equal. change (2 * N.of_nat sfK) with 312. lia.
Qed.
Theorem C60_sfmt_buffer_holds_the_array :
  forall dbg n st buf s vs, legal st -> List.length buf = 312%nat -> sf_draws dbg (S n) (LB st 0 624 buf 312) = Some (s, vs) ->
  lb_buf s = halves (lb_st s) /\ lb_u s = 0 /\ lb_idx s = 624%Z /\ legal (lb_st s) /\ (1 <= lb_loc s <= 312)%Z.
Proof.
  intros dbg n st buf s vs L B.
  set (Q := fun s => lb_buf s = halves (lb_st s) /\ lb_u s = 0 /\ lb_idx s = 624%Z /\ legal (lb_st s) /\ (1 <= lb_loc s <= 312)%Z).
  assert (BL : forall t t' v, legal (lb_st t) -> lb_u t = 0 -> lb_idx t = 624%Z -> lb_loc t = 312%Z -> sf_next dbg t = Some (t', v) -> Q t').
  { intros t t' v Lt U I P E. unfold sf_next, lb_next in E. rewrite P, U, I in E. change (312 <? 2 * Z.of_nat sfK)%Z with false in E. cbv iota in E.
    replace (sf_fine dbg 624) with true in E by (destruct dbg; reflexivity).
    rewrite (block_wat sfK sfP sf_f sf_g sK2 sPK (lb_st t) 0 (proj1 Lt)) in E.
    pose proof (wat_lok sfK sfP sf_f sf_g (fun _ => true) sK2 sPK wf128 is0 sK3 s_ok s_inj _ 0 (N.of_nat sfK) (proj1 (sfok_lok _) Lt)) as (A1 & A2 & A3).
    destruct (wat sfK sfP sf_f sf_g (lb_st t) 0 (N.of_nat sfK)) as [arr u]. cbn [fst snd] in A1, A2, A3. destruct (rd (halves arr) 0); [|discriminate E].
    injection E as <- _. unfold Q. cbn [lb_st lb_u lb_idx lb_buf lb_loc]. split; [reflexivity|]. split; [exact A3|]. split; [reflexivity|]. split; [split; assumption|lia]. }
  assert (Q1 : forall t t' v, Q t -> sf_next dbg t = Some (t', v) -> Q t').
  { intros t t' v (Q1 & Q2 & Q3 & Q4 & Q5) E. destruct (Z.eq_dec (lb_loc t) 312) as [P|P]; [exact (BL t t' v Q4 Q2 Q3 P E)|].
    unfold sf_next, lb_next in E. replace (lb_loc t <? 2 * Z.of_nat sfK)%Z with true in E by (unfold sfK; lia).
    destruct (rd (lb_buf t) (lb_loc t)); [|discriminate E]. injection E as <- _. unfold Q. cbn [lb_st lb_u lb_idx lb_buf lb_loc].
    repeat (split; [assumption || reflexivity|]). lia. }
  intros E. unfold sf_draws in E. cbn [lb_draws] in E. destruct (lb_next _ _ _ _ _ _) as [[s1 v]|] eqn:E1; [|discriminate E].
  destruct (lb_draws _ _ _ _ _ n s1) as [[s2 ws]|] eqn:E2; [|discriminate E]. injection E as <- _.
  assert (H1 : Q s1) by (refine (BL _ _ _ _ _ _ _ E1); cbn; trivial; exact L). clear E1. revert s1 s2 ws E2 H1.
  induction n as [|n IH]; intros s1 s2 ws E H; cbn [lb_draws] in E; [injection E as <- _; exact H|].
  destruct (lb_next _ _ _ _ _ _) as [[s3 v3]|] eqn:E3; [|discriminate E]. destruct (lb_draws _ _ _ _ _ n s3) as [[s4 ws4]|] eqn:E4; [|discriminate E].
  injection E as <- _. exact (IH s3 s4 ws4 E4 (Q1 _ _ _ H E3)).
Qed.
Theorem C60_sfmt_sequence_exists : forall st, legal st -> exists x, starts st x /\ forall y, starts st y -> forall n, y n = x n.
Proof.
  intros st L. exists (lx sfK sfP sf_f sf_g st 0). split; [now apply starts_lx|]. intros y Y n. apply (starts_unique st); [exact L|exact Y|now apply starts_lx].
Qed.
Definition k32 (seed : Z) (n : nat) : list N := match ss_pool (SS (SInt seed) [] 4 0) with Some p => generate32 n p | None => [] end.
(* tests/data/sfmt-testset-2.csv *)
Example C60_sfmt_known_answers : opt_raws (sf_next true) 3 (core (sf_new (k32 0 624))) = [6854809487986069749; 3963091263073130146; 3661431580913240072].
Proof. vm_compute. reflexivity. Qed.
Example C60_sfmt_case : legal ex_st /\ starts ex_st (lx sfK sfP sf_f sf_g ex_st 0).
Proof. split; [exact ex_st_legal|]. apply starts_lx, ex_st_legal. Qed.

(* ------------------------------------------------------------------- C64 *)
Theorem C64_sfmt_simd_recursion : forall a b c d, a < 2 ^ 128 -> c < 2 ^ 128 -> sf_rec_sse a b c d = sf_rec_c a b c d.
Proof. exact sf_rec_simd. Qed.
(* the SSE2 build: the loops of sfmt-sse2.h:79-112 are those of sfmt.c with mm_recursion *)
Definition sse_f (a b c d u : N) : N := sf_rec_sse a b c d.
Definition sse_draws (dbg : bool) : nat -> lb -> option (lb * list N) := lb_draws sfK sfP sse_f sf_g (sf_fine dbg).
Lemma sse_wat st n : legal st -> wat sfK sfP sse_f sf_g st 0 n = wat sfK sfP sf_f sf_g st 0 n.
Proof.
  intros L. apply sfok_lok in L. induction n as [|n IH] using N.peano_ind; [reflexivity|]. rewrite <- N.add_1_r, !wat_S, IH.
  pose proof (wat_lok sfK sfP sf_f sf_g (fun _ => true) sK2 sPK wf128 is0 sK3 s_ok s_inj st 0 n L) as (A & B & C).
  destruct (wat sfK sfP sf_f sf_g st 0 n) as [l u]. cbn [fst snd] in A, B, C. unfold wstep, sse_f, sf_f.
  rewrite sf_rec_simd; [reflexivity| |]; apply (nth_ok wf128); try exact B; rewrite A; unfold sfK; lia.
Qed.
Theorem C64_sfmt_simd_block : forall st, legal st -> lg_block sfK sfP sse_f sf_g st 0 = lg_block sfK sfP sf_f sf_g st 0.
Proof. intros st L. rewrite !(block_wat sfK sfP _ sf_g sK2 sPK st 0 (proj1 L)). f_equal. now apply sse_wat. Qed.
Theorem C64_sfmt_simd_draws : forall dbg n s, legal (lb_st s) -> lb_u s = 0 -> sse_draws dbg n s = sf_draws dbg n s.
Proof.
  intros dbg n. unfold sse_draws, sf_draws. induction n as [|n IH]; intros s L U; [reflexivity|]. cbn [lb_draws].
  assert (E : lb_next sfK sfP sse_f sf_g (sf_fine dbg) s = lb_next sfK sfP sf_f sf_g (sf_fine dbg) s).
  { unfold lb_next. now rewrite U, C64_sfmt_simd_block. }
  rewrite E. destruct (lb_next sfK sfP sf_f sf_g (sf_fine dbg) s) as [[s1 v]|] eqn:N1; [|reflexivity].
  assert (K : legal (lb_st s1) /\ lb_u s1 = 0).
  { unfold lb_next in N1. rewrite U in N1. destruct (lb_loc s <? 2 * Z.of_nat sfK)%Z.
    - destruct (rd (lb_buf s) (lb_loc s)); [|discriminate N1]. injection N1 as <- _. cbn [lb_st lb_u]. split; [exact L|reflexivity].
    - destruct (sf_fine dbg (lb_idx s)); [|discriminate N1]. rewrite (block_wat sfK sfP sf_f sf_g sK2 sPK _ 0 (proj1 L)) in N1.
      pose proof (wat_lok sfK sfP sf_f sf_g (fun _ => true) sK2 sPK wf128 is0 sK3 s_ok s_inj _ 0 (N.of_nat sfK) (proj1 (sfok_lok _) L)) as (A1 & A2 & A3).
      destruct (wat sfK sfP sf_f sf_g (lb_st s) 0 (N.of_nat sfK)) as [arr u]. cbn [fst snd] in A1, A2, A3. destruct (rd (halves arr) 0); [|discriminate N1].
      injection N1 as <- _. cbn [lb_st lb_u]. split; [split; assumption|exact A3]. }
  rewrite IH by apply K. reflexivity.
Qed.

(* ------------------------------------------------------------------- C24 *)
Theorem C24_sfmt_block_injective : forall st st', legal st -> legal st' -> lg_block sfK sfP sf_f sf_g st 0 = lg_block sfK sfP sf_f sf_g st' 0 -> st = st'.
Proof.
  intros st st' L L' E. apply sfok_lok in L, L'.
  pose proof (block_inj sfK sfP sf_f sf_g (fun _ => true) sK2 sPK wf128 is0 sK3 s_ok s_inj st 0 st' 0 L L' E) as H. now injection H.
Qed.
Theorem C24_sfmt_recursion_injective : forall a a' b c d, a < 2 ^ 128 -> a' < 2 ^ 128 -> c < 2 ^ 128 -> sf_rec_c a b c d = sf_rec_c a' b c d -> a = a'.
Proof. exact sf_rec_inj. Qed.

(* ------------------------------------------------------------------- C20 *)
(* the states the generator can be in; idx matters only to an assertion *)
Definition good (dbg : bool) (s : lb) : Prop :=
  legal (lb_st s) /\ lb_u s = 0 /\ List.length (lb_buf s) = 312%nat /\ Forall (fun w => w < 2 ^ 64) (lb_buf s) /\ (0 <= lb_loc s)%Z /\ (dbg = true -> lb_idx s = 624%Z).
Lemma good_lgood dbg s : good dbg s -> lgood sfK (sf_fine dbg) s.
Proof.
  intros (L & _ & B & _ & P & I). split; [exact (proj1 L)|]. split; [exact B|]. split; [exact P|]. unfold sf_fine. destruct dbg; [|reflexivity]. now rewrite I.
Qed.
Lemma halves_wf l : Forall (wf 64) (halves l).
Proof. induction l as [|a l IH]; [constructor|]. unfold halves in *. cbn [flat_map app]. repeat (constructor; [apply wf_trunc|]). exact IH. Qed.
Lemma next_good dbg s : good dbg s -> exists s' v, sf_next dbg s = Some (s', v) /\ good dbg s' /\ wf 64 v.
Proof.
  intros G. pose proof G as (L & U & B & F & P & I).
  destruct (next_outs sfK sfP sf_f sf_g (sf_fine dbg) sK2 sPK s (good_lgood dbg s G)) as (s' & E & _).
  exists s', (outs sfK sfP sf_f sf_g s 0). split; [exact E|]. unfold lb_next in E. rewrite U in E.
  destruct (lb_loc s <? 2 * Z.of_nat sfK)%Z.
  - destruct (rd (lb_buf s) (lb_loc s)) as [v|] eqn:R; [|discriminate E]. injection E as <- <-. split; [|].
    + unfold good. cbn [lb_st lb_u lb_idx lb_buf lb_loc]. repeat (split; [assumption || reflexivity|]). split; [lia|exact I].
    + apply rd_In in R. rewrite Forall_forall in F. now apply F.
  - destruct (sf_fine dbg (lb_idx s)); [|discriminate E]. rewrite (block_wat sfK sfP sf_f sf_g sK2 sPK _ 0 (proj1 L)) in E.
    pose proof (wat_lok sfK sfP sf_f sf_g (fun _ => true) sK2 sPK wf128 is0 sK3 s_ok s_inj _ 0 (N.of_nat sfK) (proj1 (sfok_lok _) L)) as (A1 & A2 & A3).
    destruct (wat sfK sfP sf_f sf_g (lb_st s) 0 (N.of_nat sfK)) as [arr u]. cbn [fst snd] in A1, A2, A3.
    destruct (rd (halves arr) 0) as [v|] eqn:R; [|discriminate E]. injection E as <- <-. split.
    + unfold good. cbn [lb_st lb_u lb_idx lb_buf lb_loc]. split; [split; assumption|]. split; [exact A3|]. split; [rewrite halves_length, A1; reflexivity|].
      split; [apply halves_wf|]. split; [lia|exact I].
    + apply rd_In in R. pose proof (halves_wf arr) as H. rewrite Forall_forall in H. now apply H.
Qed.
(* any sequence of 32- and 64-bit draws stays in bounds *)
Theorem C20_sfmt_draws_safe :
  forall dbg rs b, good dbg (core b) -> exists b' vs, orun (sf_next dbg) rs b = Some (b', vs) /\ good dbg (core b').
Proof.
  intros dbg rs b G. destruct (orun_run (sf_next dbg) (good dbg) (next_good dbg) rs b G) as [E I]. destruct (run (tot (sf_next dbg)) rs b) as [b' vs]. exists b', vs. split; assumption.
Qed.
Theorem C20_sfmt_seeded : forall dbg words b, List.length (lb_buf (core b)) = 312%nat -> Forall (fun w => w < 2 ^ 64) (lb_buf (core b)) -> good dbg (core (sf_seed words b)).
Proof.
  intros dbg words b B F. destruct (init_ok words) as [O _]. unfold good, sf_seed. cbn [core lb_st lb_u lb_idx lb_buf lb_loc].
  split; [exact O|]. split; [reflexivity|]. split; [exact B|]. split; [exact F|]. split; [lia|reflexivity].
Qed.
Theorem C20_sfmt_new : forall dbg words, good dbg (core (sf_new words)).
Proof.
  intros dbg words. apply C20_sfmt_seeded; cbn [core lb_buf]; [apply repeat_length|]. apply Forall_forall. intros x H. apply repeat_spec in H. subst x. reflexivity.
Qed.
(* exactly which of the states that the setter takes can be drawn from *)
Theorem C20_sfmt_accepted_states :
  forall dbg st buf idx loc, legal st -> List.length buf = 312%nat ->
  (sf_next dbg (LB st 0 idx buf loc) <> None <-> (0 <= loc)%Z /\ ((loc < 312)%Z \/ dbg = false \/ idx = 624%Z)).
Proof.
  intros dbg st buf idx loc L B. unfold sf_next, lb_next. cbn [lb_st lb_u lb_idx lb_buf lb_loc]. change (2 * Z.of_nat sfK)%Z with 312%Z.
  destruct (loc <? 312)%Z eqn:E.
  - destruct (Z_lt_dec loc 0) as [A|A].
    + rewrite rd_none by lia. split; [congruence|lia].
    + rewrite (rd_nth _ _ 0) by lia. split; [lia|discriminate].
  - rewrite (block_wat sfK sfP sf_f sf_g sK2 sPK st 0 (proj1 L)). unfold sf_fine.
    pose proof (wat_lok sfK sfP sf_f sf_g (fun _ => true) sK2 sPK wf128 is0 sK3 s_ok s_inj _ 0 (N.of_nat sfK) (proj1 (sfok_lok _) L)) as (A1 & _).
    destruct (wat sfK sfP sf_f sf_g st 0 (N.of_nat sfK)) as [arr u]. cbn [fst] in A1.
    rewrite (rd_nth _ _ 0) by (rewrite halves_length, A1; cbn; lia).
    destruct dbg, (idx =? 624)%Z eqn:I; cbn [negb orb]; (split; [intros; try congruence; lia|intros; try discriminate; lia]).
Qed.
Theorem C20_sfmt_setter_unchecked_refuted :
  forall loc t dbg, (- 2 ^ 31 <= loc < 0)%Z -> lb_u (core t) = 0 -> exists v b, sf_set v t = (b, Ok tt) /\ sf_next dbg (core b) = None.
Proof.
  intros loc t dbg P U. set (b := Buf (LB ex_st 0 624 (halves ex_st) loc) false 0). exists (sf_get b), b. pose proof ex_st_legal as L.
  assert (B : List.length (halves ex_st) = 312%nat) by (rewrite halves_length, (proj1 L); reflexivity). split.
  - apply sf_set_get; [exact L|symmetry; exact U|split; [discriminate|reflexivity]|split; [apply P|apply (Z.lt_trans _ 0); [apply P|reflexivity]]|exact B|apply halves_wf|reflexivity].
  - destruct (sf_next dbg (core b)) eqn:E; [|reflexivity]. exfalso.
    assert (H : sf_next dbg (core b) <> None) by (rewrite E; discriminate). apply (C20_sfmt_accepted_states dbg ex_st (halves ex_st) 624 loc L B) in H. lia.
Qed.
(* with assertions compiled in, a state with another idx is taken and the process
   dies when the buffer runs out *)
Theorem C20_sfmt_idx_unchecked_refuted :
  forall idx t, (- 2 ^ 31 <= idx < 2 ^ 31)%Z -> idx <> 624%Z -> lb_u (core t) = 0 -> exists v b, sf_set v t = (b, Ok tt) /\ sf_next true (core b) = None.
Proof.
  intros idx t P D U. set (b := Buf (LB ex_st 0 idx (halves ex_st) 312) false 0). exists (sf_get b), b. pose proof ex_st_legal as L.
  assert (B : List.length (halves ex_st) = 312%nat) by (rewrite halves_length, (proj1 L); reflexivity). split.
  - apply sf_set_get; [exact L|symmetry; exact U|exact P|split; [discriminate|reflexivity]|exact B|apply halves_wf|reflexivity].
  - destruct (sf_next true (core b)) eqn:E; [|reflexivity]. exfalso.
    assert (H : sf_next true (core b) <> None) by (rewrite E; discriminate). apply (C20_sfmt_accepted_states true ex_st (halves ex_st) idx 312 L B) in H.
    destruct H as [_ [H|[H|H]]]; [lia|discriminate|contradiction].
Qed.
Example C20_sfmt_case : good true (LB ex_st 0 624 (halves ex_st) 5).
Proof.
  split; [exact ex_st_legal|]. split; [reflexivity|]. split; [reflexivity|]. split; [apply halves_wf|]. split; [discriminate|reflexivity].
Qed.

(* ------------------------------------------------------------------- C18, C19 *)
Theorem C18_sfmt_restores :
  forall dbg s t, good dbg (core s) -> (lb_loc (core s) <= 312)%Z -> lb_idx (core s) = 624%Z -> lb_u (core t) = 0 -> u32 s < 2 ^ 32 -> sf_set (sf_get s) t = (s, Ok tt).
Proof.
  intros dbg s t (L & U & B & F & P & _) Q I T W. apply sf_set_get; try assumption; [congruence|rewrite I; split; [discriminate|reflexivity]|].
  split; [apply (Z.le_trans _ 0); [discriminate|exact P]|apply (Z.le_lt_trans _ 312); [exact Q|reflexivity]].
Qed.
Theorem C19_sfmt_not_atomic_refuted : ~ atomic sf_set.
Proof.
  intros A. set (v := PDict [("bit_generator", PStr "SFMT"); ("state", PDict [("state", PArr 32 (repeat 1 624)); ("idx", PNone)])]%string).
  set (t := Buf (LB (repeat 0 156) 0 624 (repeat 0 312) 312) false 0). specialize (A v t).
  assert (E : sf_set v t = (Buf (LB (quads (repeat 1 624)) 0 624 (repeat 0 312) 312) false 0, Raise TypeError)) by (vm_compute; reflexivity).
  specialize (A _ _ E). apply (f_equal (fun s => hd 0 (lb_st (core s)))) in A. discriminate A.
Qed.

(* ------------------------------------------------------------------- C26 *)
(* the certified state stays non-zero for ever *)
Theorem C26_sfmt_never_all_zero :
  forall dbg words b n s vs, sf_draws dbg n (core (sf_seed words b)) = Some (s, vs) -> ~ Forall (eq 0) (lb_st s).
Proof.
  intros dbg words b n.
  set (Q := fun s => legal (lb_st s) /\ lb_u s = 0 /\ ~ Forall (eq 0) (lb_st s)).
  assert (H0 : Q (core (sf_seed words b))).
  { destruct (init_ok words) as (O & y & st & E & I). split; [exact O|]. split; [reflexivity|]. cbn [sf_seed core lb_st]. rewrite E. intros F. inversion F as [|? ? Y _]; subst. now apply inner_odd in I. }
  assert (Q1 : forall t t' v, Q t -> sf_next dbg t = Some (t', v) -> Q t').
  { intros t t' v (L & U & Z) E. unfold sf_next, lb_next in E. rewrite U in E. destruct (lb_loc t <? 2 * Z.of_nat sfK)%Z.
    - destruct (rd (lb_buf t) (lb_loc t)); [|discriminate E]. injection E as <- _. split; [exact L|split; [reflexivity|exact Z]].
    - destruct (sf_fine dbg (lb_idx t)); [|discriminate E]. rewrite (block_wat sfK sfP sf_f sf_g sK2 sPK _ 0 (proj1 L)) in E.
      pose proof (wat_lok sfK sfP sf_f sf_g (fun _ => true) sK2 sPK wf128 is0 sK3 s_ok s_inj _ 0 (N.of_nat sfK) (proj1 (sfok_lok _) L)) as (A1 & A2 & A3).
      pose proof (s_never_zero (lb_st t) (N.of_nat sfK) L Z) as A4.
      destruct (wat sfK sfP sf_f sf_g (lb_st t) 0 (N.of_nat sfK)) as [arr u]. cbn [fst snd] in A1, A2, A3, A4.
      destruct (rd (halves arr) 0); [|discriminate E]. injection E as <- _. split; [split; assumption|split; [exact A3|exact A4]]. }
  revert H0. generalize (core (sf_seed words b)). unfold sf_draws. induction n as [|n IH]; intros t H0 s vs E; cbn [lb_draws] in E.
  - injection E as <- _. apply H0.
  - destruct (lb_next _ _ _ _ _ t) as [[s1 v]|] eqn:E1; [|discriminate E]. destruct (lb_draws _ _ _ _ _ n s1) as [[s2 ws]|] eqn:E2; [|discriminate E].
    injection E as <- _. exact (IH s1 (Q1 _ _ _ H0 E1) s2 ws E2).
Qed.

(* ------------------------------------------------------------------- C21 *)
(* what is drawn after seeding does not depend on the object before *)
Theorem C21_sfmt_seed_resets :
  forall dbg words b b' rs, List.length (lb_buf (core b)) = 312%nat -> List.length (lb_buf (core b')) = 312%nat ->
  Forall (fun w => w < 2 ^ 64) (lb_buf (core b)) -> Forall (fun w => w < 2 ^ 64) (lb_buf (core b')) ->
  option_map snd (orun (sf_next dbg) rs (sf_seed words b)) = option_map snd (orun (sf_next dbg) rs (sf_seed words b')).
Proof.
  intros dbg words b b' rs B B' F F'.
  assert (N1 : ob_next64 (sf_next dbg) (sf_seed words b) = ob_next64 (sf_next dbg) (sf_seed words b')) by reflexivity.
  destruct rs as [|r rs]; [reflexivity|]. cbn [orun]. destruct r.
  - assert (N2 : ob_next32 (sf_next dbg) (sf_seed words b) = ob_next32 (sf_next dbg) (sf_seed words b')) by reflexivity. now rewrite N2.
  - now rewrite N1.
Qed.
(* but the state of the object does: buffered_uint64 is left as it was. Here a new
   object and one that has made a draw are given the same seed *)
Theorem C21_sfmt_stale_buffer_refuted :
  forall dbg words s v, sf_next dbg (core (sf_new words)) = Some (s, v) ->
  sf_get (sf_seed words (sf_new words)) <> sf_get (sf_seed words (Buf s false 0)).
Proof.
  intros dbg words s v E H.
  assert (D : lb_buf s = halves (lb_st s) /\ Forall (wf 128) (lb_st s) /\ List.length (lb_st s) = 156%nat).
  { destruct (C60_sfmt_buffer_holds_the_array dbg 0 (lb_st (core (sf_new words))) (repeat 0 312) s [v]) as (A & _ & _ & [A1 A2] & _).
    - apply (init_ok words).
    - apply repeat_length.
    - unfold sf_draws. cbn [lb_draws]. unfold sf_next in E. change (LB (lb_st (core (sf_new words))) 0 624 (repeat 0 312) 312) with (core (sf_new words)). rewrite E. reflexivity.
    - split; [exact A|]. split; assumption. }
  destruct D as (D1 & D2 & D3).
  assert (Z : ~ Forall (eq 0) (lb_st s)).
  { apply (C26_sfmt_never_all_zero dbg words (Buf (LB [] 0 0 (repeat 0 312) 312) false 0) 1 s [v]). unfold sf_draws. cbn [lb_draws]. unfold sf_next, sf_new in E. rewrite E. reflexivity. }
  unfold sf_get in H. cbn [sf_seed sf_new core lb_buf lb_st lb_idx lb_loc] in H.
  assert (Hb : repeat 0 312 = lb_buf s).
  { revert H. generalize (repeat 0 312). intros l H. injection H as H. exact H. }
  apply Z. rewrite D1 in Hb. clear - Hb D2 D3. assert (A : Forall (eq 0) (halves (lb_st s))).
  { rewrite <- Hb. apply Forall_forall. intros x I. symmetry. exact (repeat_spec _ _ _ I). }
  clear Hb D3. induction D2 as [|x l X D IH]; [constructor|]. unfold halves in A. cbn [flat_map app] in A.
  inversion A as [|? ? A1 A']; subst. inversion A' as [|? ? A2 A3]; subst. constructor; [|apply IH; exact A3].
  apply half_join; [reflexivity|exact X|exact A1|exact A2].
Qed.

(* ------------------------------------------------------------------- C22 *)
Theorem C22_sfmt_any_order :
  forall dbg rs b, good dbg (core b) -> exists n b' vs a ws,
  orun (sf_next dbg) rs b = Some (b', vs) /\ sf_draws dbg n (core b) = Some (a, ws) /\
  spec rs (queue b) ws = Some (queue b', vs, []) /\ core b' = a.
Proof.
  intros dbg rs b G. destruct (orun_run (sf_next dbg) (good dbg) (next_good dbg) rs b G) as [E _].
  destruct (run_spec (tot (sf_next dbg)) (good dbg) (tot_ok (sf_next dbg) (good dbg) (next_good dbg)) rs b G) as [n H].
  assert (D : forall n s, good dbg s -> sf_draws dbg n s = Some (raws (tot (sf_next dbg)) n s)).
  { clear. intros n. unfold sf_draws. induction n as [|n IH]; intros s G; [reflexivity|]. cbn [lb_draws raws]. destruct (next_good dbg s G) as (s1 & v & E & G1 & _).
    unfold tot at 1. rewrite E. unfold sf_next in E. rewrite E, (IH s1 G1). destruct (raws (tot (sf_next dbg)) n s1). reflexivity. }
  destruct (raws (tot (sf_next dbg)) n (core b)) as [a ws] eqn:R. destruct (run (tot (sf_next dbg)) rs b) as [b' vs]. cbn [fst snd] in H.
  exists n, b', vs, a, ws. split; [exact E|]. split; [rewrite D by exact G; now rewrite R|exact H].
Qed.

(* ------------------------------------------------------------------- C16 *)
(* what the generator b gives from now on *)
Notation future s := (outs sfK sfP sf_f sf_g s).
(* jump() forgets how much of the buffer had been used: objects with equal state
   arrays are at the same place afterwards, and arrays change only every 312 draws *)
Theorem C16_sfmt_jump_ignores_position :
  forall ps iter b b', lb_st (core b) = lb_st (core b') -> lb_u (core b) = lb_u (core b') ->
  match sf_jump_py ps iter b, sf_jump_py ps iter b' with
  | Some (Ok c), Some (Ok c') => lb_st (core c) = lb_st (core c') /\ lb_u (core c) = lb_u (core c') /\ lb_loc (core c) = 312%Z /\ lb_loc (core c') = 312%Z /\ has32 c = false /\ has32 c' = false
  | Some (Raise e), Some (Raise e') => e = e'
  | None, None => True
  | _, _ => False
  end.
Proof.
  intros ps iter b b' S U. unfold sf_jump_py. destruct (iter <? 0)%Z; [reflexivity|]. destruct (2 ^ 31 <=? iter)%Z; [reflexivity|].
  assert (H : forall fuel r s s', lb_st s = lb_st s' -> lb_u s = lb_u s' ->
    match jump_n sf_jump ps fuel r s, jump_n sf_jump ps fuel r s' with Some c, Some c' => lb_st c = lb_st c' /\ lb_u c = lb_u c' | None, None => True | _, _ => False end).
  { induction fuel as [|fuel IH]; intros r s s' Es Eu; cbn [jump_n].
    - destruct (r <=? 0)%Z; [split; assumption|trivial].
    - destruct (r <=? 0)%Z; [split; assumption|].
      match goal with |- context[let '(p, k) := ?e in _] => destruct e as [p k] end.
      assert (J : forall t, sf_jump p t = match lg_jump sfK sfP sf_f sf_g p (lb_st t) (lb_u t) with Some (st, u) => Some (LB st u (lb_idx t) (lb_buf t) (lb_loc t)) | None => None end) by reflexivity.
      rewrite !J, Es, Eu. destruct (lg_jump sfK sfP sf_f sf_g p (lb_st s') (lb_u s')) as [[st u]|]; [|trivial].
      apply IH; reflexivity. }
  specialize (H (Z.to_nat iter) iter _ _ S U).
  destruct (jump_n sf_jump ps (Z.to_nat iter) iter (core b)), (jump_n sf_jump ps (Z.to_nat iter) iter (core b')); try exact H.
  cbn [core has32 lb_reset lb_st lb_u lb_loc]. destruct H. repeat (split; [assumption || reflexivity|]). repeat split.
Qed.
Theorem C16_sfmt_draws_within_a_block :
  forall dbg k s s' vs, (lb_loc s + Z.of_nat k <= 312)%Z -> sf_draws dbg k s = Some (s', vs) -> lb_st s' = lb_st s /\ lb_u s' = lb_u s.
Proof.
  intros dbg k. unfold sf_draws. induction k as [|k IH]; intros s s' vs P E; cbn [lb_draws] in E; [injection E as <- _; split; reflexivity|].
  destruct (lb_next _ _ _ _ _ s) as [[s1 v]|] eqn:E1; [|discriminate E]. destruct (lb_draws _ _ _ _ _ k s1) as [[s2 ws]|] eqn:E2; [|discriminate E]. injection E as <- _.
  destruct (next_within sfK sfP sf_f sf_g _ sK2 sPK s s1 v E1 ltac:(unfold sfK; lia)) as (A & B & C & _).
  destruct (IH s1 s2 ws ltac:(lia) E2) as [D F]. split; congruence.
Qed.
(* so no number of draws J describes the jump, whatever the polynomial is: there is
   a state from which, for every J, jump() after some number n of draws does not lead to
   the values that come J draws later *)
Theorem C16_sfmt_jump_is_no_number_of_draws_refuted :
  forall cs J, ~ forall n s1 vs s', sf_draws true n (LB ex_st 0 624 (halves ex_st) 312) = Some (s1, vs) -> sf_jump cs s1 = Some s' ->
  forall i, future (lb_reset sfK s') i = future s1 (J + i)%nat.
Proof.
  intros cs J H. pose proof ex_st_legal as L.
  pose proof (jump_constant sfK sfP sf_f sf_g (sf_fine true) sK2 sPK wf128 is0 sK3 s_ok s_inj s_flin s_glin s_observed half_join cs J ex_st 0 624 (halves ex_st)
    (proj1 (sfok_lok _) L) eq_refl ltac:(rewrite halves_length, (proj1 L); reflexivity) H 1) as C.
  destruct (starts_lx ex_st L) as (_ & _ & B). rewrite (B 1), (B 0) in C by lia. vm_compute in C. discriminate C.
Qed.
(* at the end of a block, a polynomial that moves every sequence by J words moves the
   output by 2 J values *)
Definition moves (cs : list bool) (J : N) : Prop :=
  forall x, (forall n, x n < 2 ^ 128) -> published x -> forall n, lpol cs x n = x (J + n).
Lemma moves_lshifts cs J : moves cs J -> lshifts sfK sfP sf_f sf_g wf128 is0 cs J.
Proof.
  intros M x u [A U] R n. split.
  - apply M; [exact A|]. apply published_lrec; [exact A|]. intros m. destruct (R m) as [R1 _]. split; [exact R1|reflexivity].
  - unfold is0 in U. rewrite U. clear - U. revert n. induction cs as [|c cs IH]; intros n; [reflexivity|]. cbn [lpol]. rewrite IH, U. now destruct c.
Qed.
Theorem C16_sfmt_jump_any_polynomial :
  forall dbg cs J s x, good dbg s -> starts (lb_st s) x -> moves cs J ->
  exists s', sf_jump cs s = Some s' /\ good dbg (lb_reset sfK s') /\ (forall i, future (lb_reset sfK s') i = half64 x (312 + 2 * J + N.of_nat i)) /\
  (lb_loc s = 312%Z -> forall i, future s i = half64 x (312 + N.of_nat i)).
Proof.
  intros dbg cs J s x G X M. pose proof G as (L & U & B & F & P & I).
  destruct (jump_outs sfK sfP sf_f sf_g (sf_fine dbg) sK2 sPK wf128 is0 sK3 s_ok s_inj s_flin s_glin cs s (good_lgood dbg s G)) as (s' & E & G' & O & W & Ls).
  exists s'. split; [exact E|]. rewrite U in O, W.
  pose proof (lseq_sok sfK sfP sf_f sf_g (fun _ => true) sK2 sPK wf128 is0 sK3 s_ok s_inj _ 0 (proj1 (sfok_lok _) L)) as Ok.
  pose proof (lseq_rec sfK sfP sf_f sf_g sK2 sPK (lb_st s) 0 (proj1 L)) as R.
  pose proof (moves_lshifts cs J M _ _ Ok R) as Sh.
  assert (X' : forall n, x n = lx sfK sfP sf_f sf_g (lb_st s) 0 n) by (intros n; apply (starts_unique (lb_st s)); [exact L|exact X|now apply starts_lx]).
  unfold sf_jump, lb_jump in E. destruct (lg_jump sfK sfP sf_f sf_g cs (lb_st s) (lb_u s)) as [[st u]|] eqn:Ej; [|discriminate E]. injection E as <-.
  cbn [lb_st lb_u] in W, Ls.
  assert (W2 : forall n, lx sfK sfP sf_f sf_g st u n = lx sfK sfP sf_f sf_g (lb_st s) 0 (J + n)) by (intros n; rewrite (proj1 (W n)); apply Sh).
  split; [|split].
  - unfold good. cbn [lb_reset lb_st lb_u lb_idx lb_buf lb_loc]. split; [split; [exact Ls|]|].
    + pose proof (lseq_starts sfK sfP sf_f sf_g sK2 sPK st u Ls) as (_ & Bs & _). apply Forall_forall. intros w Iw. apply (In_nth _ _ 0) in Iw.
      destruct Iw as (i & Hi & <-). rewrite Ls in Hi. rewrite Bs by exact Hi. rewrite W2. apply Ok.
    + split; [|split; [exact B|split; [exact F|split; [discriminate|exact I]]]]. pose proof (proj2 (W 0)) as W0. rewrite (proj2 (Sh 0)) in W0. change (lu sfK sfP sf_f sf_g st u 0) with u in W0. rewrite W0. apply Ok.
  - intros i. rewrite O, (half64_lhalf x). change (2 * N.of_nat sfK) with 312. rewrite (lhalf_ext _ (shifted J x)) by (intros j; unfold shifted; rewrite X'; apply Sh).
    rewrite <- lhalf_add. f_equal. lia.
  - intros Lo i. unfold outs. rewrite Lo, U. change (2 * sfK - Z.to_nat 312)%nat with 0%nat. cbn [Nat.ltb Nat.leb]. rewrite Nat.sub_0_r, (half64_lhalf x). symmetry. now apply lhalf_ext.
Qed.

(* ------------------------------------------------------------------- C48, C55, C17 *)
(* the polynomials are those for 65536, 4096, 256, 16 and 1 moves by B words *)
Definition polys_move (ps : polys) (B : N) : Prop :=
  moves (p144 ps) (65536 * B) /\ moves (p140 ps) (4096 * B) /\ moves (p136 ps) (256 * B) /\ moves (p132 ps) (16 * B) /\ moves (p128 ps) B.
Lemma polys_units ps B p k : polys_move ps B -> In (p, k) (units ps) -> moves p (Z.to_N k * B).
Proof.
  intros (M1 & M2 & M3 & M4 & M5) H. unfold units in H. cbn [In] in H.
  destruct H as [H|[H|[H|[H|[H|[]]]]]]; injection H as <- <-; try assumption. change (Z.to_N 1) with 1. now rewrite N.mul_1_l.
Qed.
Theorem C48_sfmt_jump_any_polynomials :
  forall dbg ps B iter b x, polys_move ps B -> good dbg (core b) -> starts (lb_st (core b)) x -> (0 <= iter < 2 ^ 31)%Z ->
  exists b', sf_jump_py ps iter b = Some (Ok b') /\ good dbg (core b') /\ lb_st (core b') = map (fun i => x (Z.to_N iter * B + N.of_nat i)) (seq 0 156) /\
  has32 b' = false /\ (forall i, future (core b') i = half64 x (312 + 2 * (Z.to_N iter * B) + N.of_nat i)).
Proof.
  intros dbg ps B iter b x Ps G X It. unfold sf_jump_py. replace (iter <? 0)%Z with false by lia.
  replace (2 ^ 31 <=? iter)%Z with false by (symmetry; apply Z.leb_gt; apply It).
  destruct (jump_n_plan sf_jump ps (Z.to_nat iter) iter (core b) ltac:(lia)) as (us & Fu & Wt & ->).
  set (R := fun (s : lb) (J : N) => good dbg s /\ starts (lb_st s) (fun m => x (J + m))).
  destruct (plan_shift sf_jump ps B R) with (us := us) (s := core b) (J := 0) as (s' & E & [G' S']).
  - intros p k s J Hin [Gs Xs0].
    pose proof Gs as (L & U & Bf & F & P & I).
    destruct (C16_sfmt_jump_any_polynomial dbg p (Z.to_N k * B) s _ Gs Xs0 (polys_units ps B p k Ps Hin)) as (s1 & E1 & G1 & _). exists s1. split; [exact E1|].
    assert (Gs1 : good dbg s1).
    { destruct G1 as (Q1 & Q2 & Q3 & Q4 & Q5 & Q6). cbn [lb_reset lb_st lb_u lb_idx lb_buf lb_loc] in *. unfold sf_jump, lb_jump in E1.
      destruct (lg_jump sfK sfP sf_f sf_g p (lb_st s) (lb_u s)) as [[st u]|]; [|discriminate E1]. injection E1 as <-. repeat (split; [assumption || reflexivity|]). exact Q6. }
    split; [exact Gs1|].
    destruct (jump_outs sfK sfP sf_f sf_g (sf_fine dbg) sK2 sPK wf128 is0 sK3 s_ok s_inj s_flin s_glin p s (good_lgood dbg s Gs)) as (s2 & E2 & _ & _ & W & Ls).
    assert (s2 = s1) by (unfold sf_jump in E1; congruence). subst s2.
    pose proof (lseq_sok sfK sfP sf_f sf_g (fun _ => true) sK2 sPK wf128 is0 sK3 s_ok s_inj _ 0 (proj1 (sfok_lok _) L)) as Ok.
    pose proof (lseq_rec sfK sfP sf_f sf_g sK2 sPK (lb_st s) 0 (proj1 L)) as Rr.
    pose proof (moves_lshifts p _ (polys_units ps B p k Ps Hin) _ _ Ok Rr) as Sh. rewrite U in W.
    assert (X' : forall n, x (J + n) = lx sfK sfP sf_f sf_g (lb_st s) 0 n) by (intros m; apply (starts_unique (lb_st s) (fun m => x (J + m))); [exact L|exact Xs0|now apply starts_lx]).
    destruct Xs0 as (Wx & Px & _). split; [|split].
    + intros m. rewrite <- N.add_assoc. apply Wx.
    + intros m. pose proof (Px (Z.to_N k * B + m)) as Q. cbv beta in Q. rewrite !N.add_assoc in *. exact Q.
    + intros i Hi. rewrite <- N.add_assoc, X'. pose proof (lseq_starts sfK sfP sf_f sf_g sK2 sPK (lb_st s1) (lb_u s1) Ls) as (_ & Bs & _).
      rewrite Bs by (unfold sfK; lia). rewrite N2Nat.id. rewrite (proj1 (W i)). symmetry. apply Sh.
  - exact Fu.
  - split; [exact G|exact X].
  - rewrite E. eexists. split; [reflexivity|]. rewrite Wt in S'. replace (Z.max 0 iter) with iter in S' by lia. rewrite N.add_0_l in S'.
    cbn [core has32 lb_reset lb_st]. pose proof G' as (L & U & Bf & F & P & I). split; [|split; [|split; [reflexivity|]]].
    + unfold good. cbn [lb_reset lb_st lb_u lb_idx lb_buf lb_loc]. repeat (split; [assumption || reflexivity|]). split; [discriminate|exact I].
    + apply list_eq; [rewrite map_length, seq_length; exact (proj1 L)|]. intros i Hi. rewrite (proj1 L) in Hi. rewrite nth_error_map_seq by exact Hi.
      rewrite nth_err_nth by (rewrite (proj1 L); exact Hi). destruct S' as (_ & _ & S'). rewrite S' by lia. now rewrite Nat2N.id.
    + intros i. unfold outs. cbn [lb_reset lb_st lb_u lb_idx lb_buf lb_loc]. change (2 * sfK - Z.to_nat (2 * Z.of_nat sfK))%nat with 0%nat. cbn [Nat.ltb Nat.leb]. rewrite Nat.sub_0_r, U, (half64_lhalf x).
      rewrite (lhalf_ext _ (shifted (Z.to_N iter * B) x)) by (intros j; apply (starts_unique (lb_st s')); [exact L|now apply starts_lx|exact S']).
      rewrite <- lhalf_add. f_equal. change (N.of_nat sfK) with 156. lia.
Qed.
(* jump(iter) and jumped(iter) at the end of a block, with polynomials for 2^128
   words: 2^129 iter values, not the documented 2^128 (or 2^(128 iter)) *)
Theorem C55_sfmt_jump_length_any_polynomials :
  forall dbg ps iter b x, polys_move ps (2 ^ 128) -> good dbg (core b) -> lb_loc (core b) = 312%Z -> starts (lb_st (core b)) x -> (0 <= iter < 2 ^ 31)%Z ->
  exists b', sf_jump_py ps iter b = Some (Ok b') /\ forall i,
  future (core b) i = half64 x (312 + N.of_nat i) /\ future (core b') i = half64 x (312 + 2 ^ 129 * Z.to_N iter + N.of_nat i).
Proof.
  intros dbg ps iter b x Ps G Lo X It. destruct (C48_sfmt_jump_any_polynomials dbg ps (2 ^ 128) iter b x Ps G X It) as (b' & E & _ & _ & _ & O).
  exists b'. split; [exact E|]. intros i. split.
  - destruct G as (L & U & _). unfold outs. rewrite Lo, U. change (2 * sfK - Z.to_nat 312)%nat with 0%nat. cbn [Nat.ltb Nat.leb]. rewrite Nat.sub_0_r, (half64_lhalf x).
    apply lhalf_ext. intros j. apply (starts_unique (lb_st (core b))); [exact L|now apply starts_lx|exact X].
  - rewrite O. f_equal. change (2 ^ 129) with (2 * 2 ^ 128). lia.
Qed.
(* two jumps are one: the same array *)
Theorem C17_sfmt_jumps_add_any_polynomials :
  forall dbg ps B i j b, polys_move ps B -> good dbg (core b) -> (0 <= i)%Z -> (0 <= j)%Z -> (i + j < 2 ^ 31)%Z ->
  exists b1 b2 b3, sf_jump_py ps i b = Some (Ok b1) /\ sf_jump_py ps j b1 = Some (Ok b2) /\ sf_jump_py ps (i + j) b = Some (Ok b3) /\
  lb_st (core b2) = lb_st (core b3) /\ forall n, future (core b2) n = future (core b3) n.
Proof.
  intros dbg ps B i j b Ps G Hi Hj Hs. pose proof (starts_lx _ (proj1 G)) as X. set (x := lx sfK sfP sf_f sf_g (lb_st (core b)) 0) in *.
  assert (Bi : (0 <= i < 2 ^ 31)%Z) by (split; [exact Hi|apply (Z.le_lt_trans _ (i + j)); [lia|exact Hs]]).
  assert (Bj : (0 <= j < 2 ^ 31)%Z) by (split; [exact Hj|apply (Z.le_lt_trans _ (i + j)); [lia|exact Hs]]).
  destruct (C48_sfmt_jump_any_polynomials dbg ps B i b x Ps G X Bi) as (b1 & E1 & G1 & S1 & _ & O1).
  assert (X1 : starts (lb_st (core b1)) (fun m => x (Z.to_N i * B + m))).
  { destruct X as (W & P & _). split; [|split].
    - intros n. apply W.
    - intros n. pose proof (P (Z.to_N i * B + n)) as Q. rewrite !N.add_assoc. exact Q.
    - intros n Hn. rewrite S1. pose proof (nth_error_map_seq (fun i0 => x (Z.to_N i * B + N.of_nat i0)) 156 (N.to_nat n) ltac:(lia)) as Q.
      rewrite nth_err_nth in Q by (rewrite map_length, seq_length; lia). apply some_inj in Q. rewrite Q. now rewrite N2Nat.id. }
  destruct (C48_sfmt_jump_any_polynomials dbg ps B j b1 _ Ps G1 X1 Bj) as (b2 & E2 & G2 & S2 & _ & O2).
  destruct (C48_sfmt_jump_any_polynomials dbg ps B (i + j) b x Ps G X (conj (Z.add_nonneg_nonneg _ _ Hi Hj) Hs)) as (b3 & E3 & G3 & S3 & _ & O3).
  exists b1, b2, b3. split; [exact E1|]. split; [exact E2|]. split; [exact E3|].
  assert (St : lb_st (core b2) = lb_st (core b3)).
  { rewrite S2, S3. apply map_ext. intros n. f_equal. rewrite Z2N.inj_add by assumption. ring. }
  split; [exact St|]. intros n. rewrite O2, O3.
  transitivity (lhalf (shifted (Z.to_N i * B) x) (312 + 2 * (Z.to_N j * B) + N.of_nat n)); [reflexivity|]. rewrite <- lhalf_add.
  unfold half64; fold (lhalf x (312 + 2 * (Z.to_N (i + j) * B) + N.of_nat n)). f_equal. rewrite Z2N.inj_add by assumption. ring.
Qed.
(* negative numbers of jumps are rejected *)
Theorem C55_sfmt_negative_jumps : forall ps iter b, (iter < 0)%Z -> sf_jump_py ps iter b = Some (Raise ValueError).
Proof. intros ps iter b H. unfold sf_jump_py. now replace (iter <? 0)%Z with true by lia. Qed.
(* polynomials that move by one word, the powers of x *)
Lemma moves_power n : moves (repeat false n ++ [true]) (N.of_nat n).
Proof.
  intros x _ _. induction n as [|n IH]; intros i; cbn [repeat app lpol]; [rewrite N.lxor_0_r; f_equal; lia|]. rewrite N.lxor_0_l, IH. f_equal. lia.
Qed.
Example C48_sfmt_case : exists ps, polys_move ps 1.
Proof.
  exists (Polys (repeat false (N.to_nat 65536) ++ [true]) (repeat false (N.to_nat 4096) ++ [true]) (repeat false (N.to_nat 256) ++ [true]) (repeat false (N.to_nat 16) ++ [true]) (repeat false (N.to_nat 1) ++ [true])).
  unfold polys_move. cbn [p144 p140 p136 p132 p128]. rewrite !N.mul_1_r.
  rewrite <- (N2Nat.id 65536) at 2. rewrite <- (N2Nat.id 4096) at 2. rewrite <- (N2Nat.id 256) at 2. rewrite <- (N2Nat.id 16) at 2. rewrite <- (N2Nat.id 1) at 2.
  split; [apply moves_power|]. split; [apply moves_power|]. split; [apply moves_power|]. split; [apply moves_power|apply moves_power].
Qed.

Print Assumptions C60_sfmt_is_the_recurrence.
Print Assumptions C60_sfmt_inside_a_block.
Print Assumptions C60_sfmt_buffer_holds_the_array.
Print Assumptions C60_sfmt_sequence_exists.
Print Assumptions C64_sfmt_simd_recursion.
Print Assumptions C64_sfmt_simd_block.
Print Assumptions C64_sfmt_simd_draws.
Print Assumptions C24_sfmt_block_injective.
Print Assumptions C24_sfmt_recursion_injective.
Print Assumptions C20_sfmt_draws_safe.
Print Assumptions C20_sfmt_seeded.
Print Assumptions C20_sfmt_new.
Print Assumptions C20_sfmt_accepted_states.
Print Assumptions C20_sfmt_setter_unchecked_refuted.
Print Assumptions C20_sfmt_idx_unchecked_refuted.
Print Assumptions C18_sfmt_restores.
Print Assumptions C19_sfmt_not_atomic_refuted.
Print Assumptions C26_sfmt_never_all_zero.
Print Assumptions C21_sfmt_seed_resets.
Print Assumptions C21_sfmt_stale_buffer_refuted.
Print Assumptions C22_sfmt_any_order.
Print Assumptions C16_sfmt_jump_ignores_position.
Print Assumptions C16_sfmt_draws_within_a_block.
Print Assumptions C16_sfmt_jump_is_no_number_of_draws_refuted.
Print Assumptions C16_sfmt_jump_any_polynomial.
Print Assumptions C48_sfmt_jump_any_polynomials.
Print Assumptions C55_sfmt_jump_length_any_polynomials.
Print Assumptions C17_sfmt_jumps_add_any_polynomials.
Print Assumptions C55_sfmt_negative_jumps.
