(* Threads that share one bit generator. A call holds some of two resources from start to end:
   the lock of the bit generator (with self.lock) and the interpreter lock (everything that is
   not nogil). Its effect on the shared memory is a list of steps, which interleave with the
   steps of the calls of other threads.
   Simplification: a call takes its resources at once; threading.Lock gives up the interpreter
   lock while it waits, so that holding one while waiting for the other does not happen. *)
From Coq Require Import Arith List Lia Bool.
Import ListNotations.

Inductive res := LOCK | GIL.
Definition res_eqb (a b : res) : bool := match a, b with LOCK, LOCK | GIL, GIL => true | _, _ => false end.

Section Conc.
Variables (S L : Type).                          (* shared memory, memory of a call *)
Definition micro := S * L -> S * L.
Record call := { holds : res -> bool; body : list micro; start : L }.
(* todo: calls to come; cur: the running call, what is left of it, its memory; results: newest last *)
Record thread := { todo : list call; cur : option (call * list micro * L); results : list L }.
Record config := { mem : S; owner : res -> option nat; thr : nat -> thread }.

Definition upd {A} (f : nat -> A) (i : nat) (x : A) (j : nat) : A := if j =? i then x else f j.
Definition acquire (c : call) (i : nat) (o : res -> option nat) (r : res) : option nat := if holds c r then Some i else o r.
Definition release (c : call) (o : res -> option nat) (r : res) : option nat := if holds c r then None else o r.
Definition run_body (b : list micro) (x : S * L) : S * L := fold_left (fun x f => f x) b x.

Inductive step : config -> config -> Prop :=
| step_begin m o t i c rest rs : t i = {| todo := c :: rest; cur := None; results := rs |} -> (forall r, holds c r = true -> o r = None) ->
    step {| mem := m; owner := o; thr := t |}
         {| mem := m; owner := acquire c i o; thr := upd t i {| todo := rest; cur := Some (c, body c, start c); results := rs |} |}
| step_micro m o t i c f b l rest rs : t i = {| todo := rest; cur := Some (c, f :: b, l); results := rs |} ->
    step {| mem := m; owner := o; thr := t |}
         {| mem := fst (f (m, l)); owner := o; thr := upd t i {| todo := rest; cur := Some (c, b, snd (f (m, l))); results := rs |} |}
| step_end m o t i c l rest rs : t i = {| todo := rest; cur := Some (c, [], l); results := rs |} ->
    step {| mem := m; owner := o; thr := t |}
         {| mem := m; owner := release c o; thr := upd t i {| todo := rest; cur := None; results := rs ++ [l] |} |}.
Inductive steps : config -> config -> Prop :=
| steps_refl c : steps c c
| steps_step a b c : steps a b -> step b c -> steps a c.

(* one call after another *)
Record serial := { smem : S; stodo : nat -> list call; sresults : nat -> list L }.
Inductive serial_step : serial -> serial -> Prop :=
| serial_call m td rs i c rest : td i = c :: rest ->
    serial_step {| smem := m; stodo := td; sresults := rs |}
                {| smem := fst (run_body (body c) (m, start c)); stodo := upd td i rest;
                   sresults := upd rs i (rs i ++ [snd (run_body (body c) (m, start c))]) |}.
Inductive serial_steps : serial -> serial -> Prop :=
| serial_refl s : serial_steps s s
| serial_more a b c : serial_steps a b -> serial_step b c -> serial_steps a c.

Definition init (m : S) (progs : nat -> list call) : config :=
  {| mem := m; owner := fun _ => None; thr := fun i => {| todo := progs i; cur := None; results := [] |} |}.
Definition sinit (m : S) (progs : nat -> list call) : serial := {| smem := m; stodo := progs; sresults := fun _ => [] |}.
Definition idle (c : config) : Prop := forall i, cur (thr c i) = None.
Definition finished (c : config) : Prop := forall i, todo (thr c i) = [] /\ cur (thr c i) = None.
(* the same memory, the same calls made, the same results in every thread *)
Definition matches (c : config) (s : serial) : Prop :=
  mem c = smem s /\ forall i, todo (thr c i) = stodo s i /\ results (thr c i) = sresults s i.

Lemma upd_same {A} f i (x : A) : upd f i x i = x.
Proof. unfold upd. now rewrite Nat.eqb_refl. Qed.
Lemma upd_other {A} f i (x : A) j : j <> i -> upd f i x j = f j.
Proof. intros H. unfold upd. destruct (j =? i) eqn:E; [apply Nat.eqb_eq in E; contradiction|reflexivity]. Qed.
Lemma run_body_snoc b f x : run_body (b ++ [f]) x = f (run_body b x).
Proof. unfold run_body. now rewrite fold_left_app. Qed.

(* every call ever made holds r *)
Definition all_hold (r : res) (progs : nat -> list call) : Prop := forall i c, In c (progs i) -> holds c r = true.
(* either nobody is inside a call, or one thread is, and it owns r *)
Definition running (r : res) (c : config) (s : serial) (i : nat) : Prop :=
  exists k pre rest l, owner c r = Some i /\ cur (thr c i) = Some (k, rest, l) /\ body k = pre ++ rest
  /\ run_body pre (smem s, start k) = (mem c, l) /\ stodo s i = k :: todo (thr c i) /\ results (thr c i) = sresults s i
  /\ forall j, j <> i -> cur (thr c j) = None /\ todo (thr c j) = stodo s j /\ results (thr c j) = sresults s j.
Definition inv (r : res) (m : S) (progs : nat -> list call) (c : config) : Prop :=
  (forall i k, In k (todo (thr c i)) -> holds k r = true) /\ (forall i k b l, cur (thr c i) = Some (k, b, l) -> holds k r = true) /\
  exists s, serial_steps (sinit m progs) s /\ ((owner c r = None /\ idle c /\ matches c s) \/ exists i, running r c s i).

Lemma inv_init r m progs : all_hold r progs -> inv r m progs (init m progs).
Proof.
  intros H. split; [|split]; cbn; [exact H|discriminate|]. exists (sinit m progs). split; [constructor|]. left. split; [reflexivity|]. split; [intros i; reflexivity|].
  split; [reflexivity|]. intros i. split; reflexivity.
Qed.
Lemma inv_step r m progs a b : inv r m progs a -> step a b -> inv r m progs b.
Proof.
  intros (T & C & s & SS & D) ST. destruct ST as [m0 o t i c rest rs E O|m0 o t i c f bd l rest rs E|m0 o t i c l rest rs E]; cbn [mem owner thr] in *.
  - assert (Hc : holds c r = true) by (apply (T i); rewrite E; left; reflexivity).
    destruct D as [(Ow & Id & Mt)|(j & k & pre & rst & l & Ow & _)]; [|cbn [owner] in Ow; rewrite (O r Hc) in Ow; discriminate Ow].
    split; [|split]; cbn [mem owner thr].
    + intros j k. destruct (Nat.eq_dec j i) as [->|N]; [rewrite upd_same; cbn; intros K; apply (T i); rewrite E; right; exact K|rewrite upd_other by exact N; apply T].
    + intros j k b l. destruct (Nat.eq_dec j i) as [->|N]; [rewrite upd_same; cbn; intros K; injection K as <- _ _; exact Hc|rewrite upd_other by exact N; apply C].
    + exists s. split; [exact SS|]. right. exists i. destruct Mt as [M1 M2]. exists c, [], (body c), (start c). cbn [mem owner thr]. rewrite upd_same. cbn [cur todo results].
      cbn [mem thr] in M1, M2. destruct (M2 i) as [A B]. rewrite E in A, B. cbn in A, B, M1. repeat split; try assumption.
      * unfold acquire. now rewrite Hc.
      * cbn. now rewrite M1.
      * symmetry. exact A.
      * rewrite upd_other by assumption. apply Id.
      * rewrite upd_other by assumption. apply M2.
      * rewrite upd_other by assumption. apply M2.
  - split; [|split]; cbn [mem owner thr].
    + intros j k. destruct (Nat.eq_dec j i) as [->|N]; [rewrite upd_same; cbn; intros K; apply (T i); rewrite E; exact K|rewrite upd_other by exact N; apply T].
    + intros j k b l0. destruct (Nat.eq_dec j i) as [->|N]; [rewrite upd_same; cbn; intros K; injection K as <- _ _; apply (C i c (f :: bd) l); now rewrite E|rewrite upd_other by exact N; apply C].
    + exists s. split; [exact SS|]. right. destruct D as [(Ow & Id & _)|(j & k & pre & rst & l0 & Ow & Cu & B & R & A & Rs & Oth)]; [specialize (Id i); cbn in Id; rewrite E in Id; discriminate Id|].
      cbn [mem owner thr] in *. assert (j = i). { destruct (Nat.eq_dec j i) as [->|N]; [reflexivity|]. destruct (Oth i ltac:(congruence)) as [X _]. rewrite E in X. discriminate X. }
      subst j. rewrite E in *. cbn [cur todo results] in *. injection Cu as <- <- <-. exists i, c, (pre ++ [f]), bd, (snd (f (m0, l))). cbn [mem owner thr]. rewrite upd_same. cbn [cur todo results].
      repeat split; try assumption.
      * rewrite B, <- app_assoc. reflexivity.
      * rewrite run_body_snoc, R. destruct (f (m0, l)); reflexivity.
      * rewrite upd_other by assumption. now apply Oth.
      * rewrite upd_other by assumption. now apply Oth.
      * rewrite upd_other by assumption. now apply Oth.
  - assert (Hc : holds c r = true) by (apply (C i c [] l); now rewrite E). split; [|split]; cbn [mem owner thr].
    + intros j k. destruct (Nat.eq_dec j i) as [->|N]; [rewrite upd_same; cbn; intros K; apply (T i); rewrite E; exact K|rewrite upd_other by exact N; apply T].
    + intros j k b l0. destruct (Nat.eq_dec j i) as [->|N]; [rewrite upd_same; discriminate|rewrite upd_other by exact N; apply C].
    + destruct D as [(Ow & Id & _)|(j & k & pre & rst & l0 & Ow & Cu & B & R & A & Rs & Oth)]; [specialize (Id i); cbn in Id; rewrite E in Id; discriminate Id|].
      cbn [mem owner thr] in *. assert (j = i). { destruct (Nat.eq_dec j i) as [->|N]; [reflexivity|]. destruct (Oth i ltac:(congruence)) as [X _]. rewrite E in X. discriminate X. }
      subst j. rewrite E in *. cbn [cur todo results] in *. injection Cu as <- <- <-. rewrite app_nil_r in B.
      destruct s as [sm st sr]. cbn [smem stodo sresults] in *.
      exists {| smem := fst (run_body (body c) (sm, start c)); stodo := upd st i rest; sresults := upd sr i (sr i ++ [snd (run_body (body c) (sm, start c))]) |}.
      split; [eapply serial_more; [exact SS|]; constructor; exact A|]. left. rewrite B, R. cbn [fst snd]. split; [|split].
      * cbn. unfold release. now rewrite Hc.
      * intros j. cbn. destruct (Nat.eq_dec j i) as [->|N]; [now rewrite upd_same|rewrite upd_other by exact N; now apply Oth].
      * split; [reflexivity|]. intros j. cbn. destruct (Nat.eq_dec j i) as [->|N].
        -- rewrite !upd_same. cbn. split; [reflexivity|now rewrite Rs].
        -- rewrite !upd_other by exact N. split; now apply Oth.
Qed.
Lemma inv_steps r m progs a b : steps a b -> inv r m progs a -> inv r m progs b.
Proof. induction 1 as [c|a b c H IH ST]; intros I; [exact I|]. eapply inv_step; [now apply IH|exact ST]. Qed.

(* a resource owned by i is held by the call i is in, and the resources of a call in progress are owned by its thread *)
Definition owns (c : config) : Prop := (forall r i, owner c r = Some i -> exists k b l, cur (thr c i) = Some (k, b, l) /\ holds k r = true)
  /\ (forall r i k b l, cur (thr c i) = Some (k, b, l) -> holds k r = true -> owner c r = Some i).
Lemma owns_init m progs : owns (init m progs).
Proof. split; [intros r i H; discriminate H|intros r i k b l H; discriminate H]. Qed.
Lemma owns_step a b : owns a -> step a b -> owns b.
Proof.
  intros [O1 O2] ST. destruct ST as [m0 o t i c rest rs E O|m0 o t i c f bd l rest rs E|m0 o t i c l rest rs E]; split; cbn [mem owner thr] in *.
  - intros r j H. unfold acquire in H. destruct (holds c r) eqn:Hr.
    + injection H as <-. rewrite upd_same. cbn. exists c, (body c), (start c). split; [reflexivity|exact Hr].
    + destruct (O1 r j H) as (k & b & l & X & Y). assert (j <> i) by (intros ->; rewrite E in X; discriminate X). rewrite upd_other by assumption. eauto.
  - intros r j k b l X Y. unfold acquire. destruct (Nat.eq_dec j i) as [->|N].
    + rewrite upd_same in X. injection X as <- _ _. now rewrite Y.
    + rewrite upd_other in X by exact N. pose proof (O2 r j k b l X Y) as Q. destruct (holds c r) eqn:Hr; [rewrite (O r Hr) in Q; discriminate Q|exact Q].
  - intros r j H. destruct (O1 r j H) as (k & b & l0 & X & Y). destruct (Nat.eq_dec j i) as [->|N]; [|rewrite upd_other by exact N; eauto].
    rewrite E in X. injection X as <- _ _. rewrite upd_same. cbn. eauto.
  - intros r j k b l0 X Y. destruct (Nat.eq_dec j i) as [->|N]; [|rewrite upd_other in X by exact N; eauto].
    rewrite upd_same in X. injection X as <- _ _. apply (O2 r i c (f :: bd) l); [now rewrite E|exact Y].
  - intros r j H. unfold release in H. destruct (holds c r) eqn:Hr; [discriminate H|]. destruct (O1 r j H) as (k & b & l0 & X & Y).
    assert (j <> i) by (intros ->; rewrite E in X; injection X as <- _ _; congruence). rewrite upd_other by assumption. eauto.
  - intros r j k b l0 X Y. destruct (Nat.eq_dec j i) as [->|N]; [rewrite upd_same in X; discriminate X|]. rewrite upd_other in X by exact N.
    pose proof (O2 r j k b l0 X Y) as Q. unfold release. destruct (holds c r) eqn:Hr; [|exact Q].
    pose proof (O2 r i c [] l ltac:(now rewrite E) Hr). congruence.
Qed.
Lemma owns_steps a b : steps a b -> owns a -> owns b.
Proof. induction 1 as [c|a b c H IH ST]; intros I; [exact I|]. eapply owns_step; [now apply IH|exact ST]. Qed.
End Conc.
Arguments holds {S L}. Arguments body {S L}. Arguments start {S L}. Arguments mem {S L}. Arguments owner {S L}. Arguments thr {S L}.
Arguments todo {S L}. Arguments cur {S L}. Arguments results {S L}. Arguments smem {S L}. Arguments stodo {S L}. Arguments sresults {S L}.
Arguments step {S L}. Arguments steps {S L}. Arguments serial_step {S L}. Arguments serial_steps {S L}. Arguments init {S L}. Arguments sinit {S L}.
Arguments idle {S L}. Arguments finished {S L}. Arguments matches {S L}. Arguments all_hold {S L}. Arguments run_body {S L}.
Arguments Build_call {S L}. Arguments Build_thread {S L}. Arguments Build_config {S L}.
