(* C41: concurrent calls on one bit generator *)
From Coq Require Import NArith Arith List Lia Bool.
From Verif Require Import Word Xoshiro Conc.
Import ListNotations.
Open Scope nat_scope.

(* every number of threads, calls and steps, every interleaving: if all calls hold the lock of the bit
   generator (or all hold the interpreter lock) the outcome is that of the calls made one after another *)
Theorem C41_calls_holding_one_lock_serialise S L (r : res) (m : S) (progs : nat -> list (call S L)) c :
  all_hold r progs -> steps (init m progs) c -> finished c ->
  exists s, serial_steps (sinit m progs) s /\ matches c s /\ forall i, stodo s i = [].
Proof.
  intros H ST F. destruct (inv_steps S L r m progs _ c ST (inv_init S L r m progs H)) as (_ & _ & s & SS & [(_ & _ & M)|(i & R)]).
  - exists s. split; [exact SS|]. split; [exact M|]. intros i. destruct M as [_ M]. destruct (M i) as [<- _]. apply F.
  - destruct R as (k & pre & rest & l & _ & C & _). destruct (F i) as [_ X]. congruence.
Qed.
(* also between calls, while threads are waiting *)
Theorem C41_idle_states_are_serial S L (r : res) (m : S) (progs : nat -> list (call S L)) c :
  all_hold r progs -> steps (init m progs) c -> idle c -> exists s, serial_steps (sinit m progs) s /\ matches c s.
Proof.
  intros H ST F. destruct (inv_steps S L r m progs _ c ST (inv_init S L r m progs H)) as (_ & _ & s & SS & [(_ & _ & M)|(i & R)]); [eauto|].
  destruct R as (k & pre & rest & l & _ & C & _). specialize (F i). congruence.
Qed.
(* no deadlock: until all calls are made some thread can go on *)
Theorem C41_no_deadlock S L (m : S) (progs : nat -> list (call S L)) c i :
  steps (init m progs) c -> (todo (thr c i) <> [] \/ cur (thr c i) <> None) -> exists c', step c c'.
Proof.
  intros ST H. pose proof (owns_steps S L _ c ST (owns_init S L m progs)) as [O1 _].
  assert (Run : forall j, cur (thr c j) <> None -> exists c', step c c').
  { intros j J. destruct c as [m0 o t]. cbn [thr] in *. destruct (t j) as [td [[[k b] l]|] rs] eqn:E; [|contradiction].
    destruct b as [|f b]; eexists; [eapply step_end; exact E|eapply step_micro; exact E]. }
  destruct (cur (thr c i)) as [x|] eqn:Ci; [apply (Run i); congruence|]. destruct H as [H|H]; [|contradiction].
  destruct (owner c LOCK) as [j|] eqn:OL; [destruct (O1 LOCK j OL) as (k & b & l & X & _); apply (Run j); congruence|].
  destruct (owner c GIL) as [j|] eqn:OG; [destruct (O1 GIL j OG) as (k & b & l & X & _); apply (Run j); congruence|].
  destruct c as [m0 o t]. cbn [thr owner] in *. destruct (t i) as [td cu rs] eqn:E. cbn in Ci, H. subst cu. destruct td as [|k td]; [contradiction|].
  eexists. eapply step_begin; [exact E|]. intros [|] _; assumption.
Qed.

(* xoroshiro128, as memory accesses. The memory of a call: two words and the list of values returned *)
Definition loc := (N * N * list N)%type.
Definition loc0 : loc := (0%N, 0%N, []).
(* xoroshiro128.h:19-27 and 32-40: s0 = s[0]; s1 = s[1]; s[0] = ...; s[1] = ...; result *)
Definition draw_steps (pp : bool) : list (micro v2 loc) :=
  [ fun '(s, (a, b, o)) => (s, (v2_0 s, b, o));
    fun '(s, (a, b, o)) => (s, (a, v2_1 s, o));
    fun '(s, (a, b, o)) => (V2 (v2_0 (xoroshiro_step pp (V2 a b))) (v2_1 s), (a, b, o));
    fun '(s, (a, b, o)) => (V2 (v2_0 s) (v2_1 (xoroshiro_step pp (V2 a b))), (a, b, o ++ [xoroshiro_out pp (V2 a b)])) ].
(* xoroshiro128.pyx:273-274: state[0] = s[0]; state[1] = s[1] *)
Definition get_steps : list (micro v2 loc) :=
  [ fun '(s, (a, b, o)) => (s, (a, b, o ++ [v2_0 s])); fun '(s, (a, b, o)) => (s, (a, b, o ++ [v2_1 s])) ].
Definition only (r : res) : res -> bool := fun x => res_eqb x r.
(* common.pyx:251, generator.pyx:276: with lock, nogil *)
Definition draw_call (pp : bool) : call v2 loc := Build_call (only LOCK) (draw_steps pp) loc0.
(* the state property takes no lock; nothing in it is nogil *)
Definition get_call : call v2 loc := Build_call (only GIL) get_steps loc0.
(* generator.pyx:650-656 complex_normal with scalar parameters and size None: two draws, no lock
   (simplification: one raw value for each normal) *)
Definition complex_call (pp : bool) : call v2 loc := Build_call (only GIL) (draw_steps pp ++ draw_steps pp) loc0.
(* common.pyx:244 random_raw with size None: with lock, the interpreter lock is kept *)
Definition raw_call (pp : bool) : call v2 loc := Build_call (fun _ => true) (draw_steps pp) loc0.

(* the accesses add up to the step of the model *)
Theorem C41_draw_is_the_step pp s a b o : run_body (draw_steps pp) (s, (a, b, o)) = (xoroshiro_step pp s, (v2_0 s, v2_1 s, o ++ [xoroshiro_out pp s])).
Proof. destruct s as [u v]. unfold run_body, draw_steps. cbn [fold_left v2_0 v2_1]. destruct (xoroshiro_step pp (V2 u v)); reflexivity. Qed.
(* random_raw of one value and the state property both hold the interpreter lock; fills of arrays all hold the lock *)
Theorem C41_fills_serialise pp (m : v2) (n : nat -> nat) c :
  steps (init m (fun i => repeat (draw_call pp) (n i))) c -> finished c -> exists s, serial_steps (sinit m (fun i => repeat (draw_call pp) (n i))) s /\ matches c s /\ forall i, stodo s i = [].
Proof. intros ST F. apply (C41_calls_holding_one_lock_serialise _ _ LOCK); [|exact ST|exact F]. intros i k K. apply repeat_spec in K. subst k. reflexivity. Qed.
Theorem C41_raw_and_state_serialise pp (m : v2) progs c :
  (forall i k, In k (progs i) -> k = raw_call pp \/ k = get_call \/ k = complex_call pp) ->
  steps (init m progs) c -> finished c -> exists s, serial_steps (sinit m progs) s /\ matches c s /\ forall i, stodo s i = [].
Proof. intros H ST F. apply (C41_calls_holding_one_lock_serialise _ _ GIL); [|exact ST|exact F]. intros i k K. destruct (H i k K) as [->|[->| ->]]; reflexivity. Qed.

(* two threads: one call each *)
Definition two (a b : call v2 loc) (i : nat) : list (call v2 loc) := match i with O => [a] | 1%nat => [b] | _ => [] end.
(* what the two threads get when the two calls run one after the other *)
Lemma serial_two a b m s : serial_steps (sinit m (two a b)) s -> (forall i, stodo s i = []) ->
  let ra := run_body (body a) (m, start a) in
  let rb := run_body (body b) (m, start b) in
  (sresults s 0 = [snd ra] /\ sresults s 1 = [snd (run_body (body b) (fst ra, start b))])
  \/ (sresults s 1 = [snd rb] /\ sresults s 0 = [snd (run_body (body a) (fst rb, start a))]).
Proof.
  intros SS F ra rb.
  assert (I : (forall i, 2 <= i -> stodo s i = [])
    /\ ((stodo s 0 = [a] /\ stodo s 1 = [b] /\ sresults s 0 = [] /\ sresults s 1 = [] /\ smem s = m)
       \/ (stodo s 0 = [] /\ stodo s 1 = [b] /\ sresults s 0 = [snd ra] /\ sresults s 1 = [] /\ smem s = fst ra)
       \/ (stodo s 0 = [a] /\ stodo s 1 = [] /\ sresults s 0 = [] /\ sresults s 1 = [snd rb] /\ smem s = fst rb)
       \/ (stodo s 0 = [] /\ stodo s 1 = [] /\ ((sresults s 0 = [snd ra] /\ sresults s 1 = [snd (run_body (body b) (fst ra, start b))])
             \/ (sresults s 1 = [snd rb] /\ sresults s 0 = [snd (run_body (body a) (fst rb, start a))]))))).
  { clear F. remember (sinit m (two a b)) as s0 eqn:E. induction SS as [s|s1 s2 s3 SS IH ST]; subst.
    - cbn. split; [intros [|[|i]]; [lia|lia|reflexivity]|]. left. repeat split.
    - specialize (IH eq_refl). destruct ST as [mm td rs i c rest T]. cbn [stodo smem sresults] in *. destruct IH as [Z D].
      destruct i as [|[|i]]; [| |rewrite Z in T by lia; discriminate T];
        (split; [intros j J; rewrite upd_other by lia; now apply Z|]); rewrite !upd_same, !upd_other by lia.
      + destruct D as [(A & B & R0 & R1 & M)|[(A & _)|[(A & B & R0 & R1 & M)|(A & _)]]]; rewrite A in T; try discriminate T; injection T as <- <-; rewrite M, R0, R1; cbn [app].
        * right. left. repeat split. exact B.
        * right. right. right. split; [reflexivity|]. split; [exact B|]. right. split; reflexivity.
      + destruct D as [(A & B & R0 & R1 & M)|[(A & B & R0 & R1 & M)|[(_ & B & _)|(_ & B & _)]]]; rewrite B in T; try discriminate T; injection T as <- <-; rewrite M, R0, R1; cbn [app].
        * right. right. left. repeat split. exact A.
        * right. right. right. split; [exact A|]. split; [reflexivity|]. left. split; reflexivity. }
  destruct I as (_ & [(A & _)|[(_ & A & _)|[(A & _)|(_ & _ & A)]]]); try (rewrite F in A; discriminate A). exact A.
Qed.
Lemma steps_cons {S L} (a b c : config S L) : step a b -> steps b c -> steps a c.
Proof. intros H K. induction K as [b|b d c K IH ST]; [eapply steps_step; [apply steps_refl|exact H]|]. eapply steps_step; [now apply IH|exact ST]. Qed.
Lemma step_micro_to S L m o t i c f b l rest rs m' l' : t i = Build_thread rest (Some (c, f :: b, l)) rs -> f (m, l) = (m', l') ->
  step (Build_config m o t) (Build_config m' o (upd t i (Build_thread rest (Some (c, b, l')) rs) : nat -> thread S L)).
Proof. intros E F. pose proof (step_micro S L m o t i c f b l rest rs E) as H. rewrite F in H. exact H. Qed.
Ltac go i := eapply steps_cons; [first [eapply (step_begin _ _ _ _ _ i); [reflexivity|intros [|] Hr; first [reflexivity|discriminate Hr]]
                                       |eapply (step_micro_to _ _ _ _ _ i); [reflexivity|vm_compute; reflexivity]|eapply (step_end _ _ _ _ _ i); reflexivity]|].
(* the state property between the two writes of a fill: a pair of words that is the state before no
   draw and after no draw *)
Theorem C41_torn_state_refuted : exists (m : v2) c, steps (init m (two (draw_call false) get_call)) c /\ finished c
  /\ forall s, serial_steps (sinit m (two (draw_call false) get_call)) s -> (forall i, stodo s i = []) -> ~ matches c s.
Proof.
  exists (V2 1 2). eexists. split; [|split].
  - go 0. go 0. go 0. go 0. go 1. go 1. go 1. go 1. go 0. go 0. apply steps_refl.
  - intros [|[|i]]; split; reflexivity.
  - intros s SS F [_ M]. destruct (M 1) as [_ R]. destruct (serial_two _ _ _ _ SS F) as [[_ E]|[E _]]; rewrite E in R; vm_compute in R; discriminate R.
Qed.
(* complex_normal of one value in one thread, a fill in the other: both are given the same raw value *)
Theorem C41_unlocked_draws_refuted : exists (m : v2) c, steps (init m (two (draw_call false) (complex_call false))) c /\ finished c
  /\ (exists v w x y, results (thr c 0) = [(x, [v])] /\ results (thr c 1) = [(y, [v; w])])
  /\ forall s, serial_steps (sinit m (two (draw_call false) (complex_call false))) s -> (forall i, stodo s i = []) -> ~ matches c s.
Proof.
  exists (V2 1 2). eexists. split; [|split; [|split]].
  - go 0. go 0. go 0. go 1. go 1. go 1. go 0. go 0. go 0. go 1. go 1. go 1. go 1. go 1. go 1. go 1. apply steps_refl.
  - intros [|[|i]]; split; reflexivity.
  - do 4 eexists. split; reflexivity.
  - intros s SS F [_ M]. destruct (M 0) as [_ R0]. destruct (M 1) as [_ R1].
    destruct (serial_two _ _ _ _ SS F) as [[_ E]|[_ E]]; [rewrite E in R1; vm_compute in R1; discriminate R1|rewrite E in R0; vm_compute in R0; discriminate R0].
Qed.
(* three fills in three threads: some interleaving, and the hypotheses of the theorems *)
Example C41_case : all_hold LOCK (two (draw_call true) (draw_call true)) /\ exists c, steps (init (V2 1 2) (two (draw_call true) (draw_call true))) c
  /\ finished c /\ owner c LOCK = None.
Proof.
  split; [intros [|[|i]] k K; cbn in K; destruct K; subst; try reflexivity; contradiction|].
  eexists. split; [|split].
  - go 1. go 1. go 1. go 1. go 1. go 1. go 0. go 0. go 0. go 0. go 0. go 0. apply steps_refl.
  - intros [|[|i]]; split; reflexivity.
  - reflexivity.
Qed.

Print Assumptions C41_calls_holding_one_lock_serialise.
Print Assumptions C41_idle_states_are_serial.
Print Assumptions C41_no_deadlock.
Print Assumptions C41_draw_is_the_step.
Print Assumptions C41_fills_serialise.
Print Assumptions C41_raw_and_state_serialise.
Print Assumptions C41_torn_state_refuted.
Print Assumptions C41_unlocked_draws_refuted.
