(* RDRAND: src/rdrand/rdrand.h and randomgen/rdrand.pyx.

   The hardware is a stream: hw i is the result of the i-th execution of the
   RDRAND step since the object was made (None: the carry flag is clear). The
   state has a ghost field, the number of executions so far. The 32-bit build
   executes two 32-bit steps per attempt; hw then stands for the pair. Not
   modelled: CPU detection, _mm_pause, the weyl_seq field (never read). *)
From Verif Require Import Word Arr Py.
From Coq Require Import String ZifyBool ZifyNat ZifyN.
Open Scope N_scope.
Ltac Zify.zify_post_hook ::= idtac.

Definition PHI_M_1 : N := 11400714819323198485.  (* rdrand.h:10 *)
(* rdrand.h:12-18 *)
Record rdrand := RD { rd_buf : list N; rd_loc : Z; rd_stat : bool; rd_retries : Z; rd_pos : N }.
(* rdrand.pyx:246-271: a new object; retries is a C int, not negative *)
Definition rd_new (retries : Z) : rdrand := RD (repeat (2 ^ 64 - 1) 256) 256 true retries 0.
(* rdrand.pyx:294-305 _reset *)
Definition rd_reset (s : rdrand) : rdrand :=
  if rd_stat s then s else RD (rd_buf s) 256 true (rd_retries s) (rd_pos s).

Section Hw.
  Variable hw : N -> option N.

  (* rdrand.h:39-63 and 93-114: k attempts at most *)
  Fixpoint attempt (k : nat) (p : N) : N * option N :=
    match k with
    | O => (p, None)
    | S k => match hw p with Some v => (p + 1, Some v) | None => attempt k (p + 1) end
    end.
  (* while (status == 0 && retries_cnt++ <= retries): retries + 1 attempts. With
     retries = INT_MAX the counter overflows after 2^31 failures: None, undefined
     behaviour *)
  Definition read1 (retries : Z) (p : N) : option (N * option N) :=
    match attempt (Z.to_nat (retries + 1)) p with
    | (p, None) => if (retries =? 2 ^ 31 - 1)%Z then None else Some (p, None)
    | r => Some r
    end.

  (* rdrand.h:30-85 rdrand_fill_buffer, iterations i .. i+k-1 of the outer loop *)
  Fixpoint fill_from (k i : nat) (s : rdrand) : option rdrand :=
    match k with
    | O => Some s
    | S k =>
        match read1 (rd_retries s) (rd_pos s) with
        | None => None
        | Some (p, Some v) => fill_from k (S i) (RD (upd (rd_buf s) i v) (rd_loc s) (rd_stat s) (rd_retries s) p)
        | Some (p, None) =>
            let v := match i with O => PHI_M_1 | S j => wadd 64 (nth j (rd_buf s) 0) PHI_M_1 end in
            fill_from k (S i) (RD (upd (rd_buf s) i v) (rd_loc s) false (rd_retries s) p)
        end
    end.
  Definition fill_n (n : nat) (s : rdrand) : option rdrand :=
    option_map (fun s => RD (rd_buf s) 0 (rd_stat s) (rd_retries s) (rd_pos s)) (fill_from n 0 s).

  (* rdrand.pyx:26-51 rdrand_uint64. The third component: PyErr_SetString was
     called. None: undefined behaviour (buffer read out of bounds, or read1). *)
  Definition rd_take (s : rdrand) (err : bool) : option (rdrand * N * bool) :=
    match rd (rd_buf s) (rd_loc s) with
    | Some v => Some (RD (rd_buf s) (rd_loc s + 1) (rd_stat s) (rd_retries s) (rd_pos s), v, err)
    | None => None
    end.
  Definition rd_next (s : rdrand) : option (rdrand * N * bool) :=
    if rd_stat s && (rd_loc s <? 256)%Z then rd_take s false
    else if rd_stat s then match fill_n 256 s with Some s => rd_take s (negb (rd_stat s)) | None => None end
    else rd_take s false.
  (* rdrand.pyx:54-56 rdrand_uint32: the cast keeps the low half *)
  Definition rd_next32 (s : rdrand) : option (rdrand * N * bool) :=
    match rd_next s with Some (s, v, e) => Some (s, trunc 32 v, e) | None => None end.
  (* n draws in one Generator call that holds the lock: RaisingLock.acquire
     clears the error indicator, release raises what was set while the lock was
     held (rdrand.pyx:62-99) *)
  Fixpoint rd_draws (n : nat) (s : rdrand) : option (rdrand * list N * bool) :=
    match n with
    | O => Some (s, [], false)
    | S n => match rd_next s with
             | Some (s, v, e) => match rd_draws n s with Some (s, vs, e') => Some (s, v :: vs, e || e') | None => None end
             | None => None end
    end.
  Definition rd_call (n : nat) (s : rdrand) : option (rdrand * outcome (list N)) :=
    match rd_draws n s with
    | Some (s, vs, e) => Some (s, if e then Raise RuntimeErr else Ok vs)
    | None => None
    end.

  (* rdrand.h:87-117 rdrand_next64; the value of a failed read is not used *)
  Definition rd_next64 (s : rdrand) : option (rdrand * N * bool) :=
    match read1 (rd_retries s) (rd_pos s) with
    | None => None
    | Some (p, r) =>
        let st := rd_stat s && match r with Some _ => true | None => false end in
        Some (RD (rd_buf s) (rd_loc s) st (rd_retries s) p, match r with Some v => v | None => 0 end, st)
    end.
  (* the loops of rdrand.pyx:366-397 random_raw *)
  Fixpoint rr_loop (n : nat) (status : bool) (s : rdrand) : option (rdrand * list N * bool) :=
    match n with
    | O => Some (s, [], status)
    | S n => match rd_next64 s with
             | Some (s, v, st) => match rr_loop n (status && st) s with Some (s, vs, st) => Some (s, v :: vs, st) | None => None end
             | None => None end
    end.
  Definition set_stat (s : rdrand) (b : bool) : rdrand := RD (rd_buf s) (rd_loc s) b (rd_retries s) (rd_pos s).
  (* size an array shape with n elements, rdrand.pyx:385-397 *)
  Definition rd_random_raw (n : nat) (s : rdrand) : option (rdrand * outcome (list N)) :=
    match rr_loop n true s with
    | Some (s, vs, st) => Some (set_stat s (rd_stat s && st), if st then Ok vs else Raise RuntimeErr)
    | None => None
    end.
  (* size=None, rdrand.pyx:377-383 *)
  Definition rd_random_raw1 (s : rdrand) : option (rdrand * outcome N) :=
    match rd_next64 s with
    | Some (s, v, st) => Some (if st then s else set_stat s false, if st then Ok v else Raise RuntimeErr)
    | None => None
    end.
  (* output=False, rdrand.pyx:366-375 *)
  Definition rd_random_raw_none (n : nat) (s : rdrand) : option (rdrand * outcome unit) :=
    match rr_loop n (rd_stat s) s with
    | Some (s, _, st) => Some (set_stat s (rd_stat s && st), if st then Ok tt else Raise RuntimeErr)
    | None => None
    end.

  (* specification: the values of the successful hardware reads number p .. p+k-1 *)
  Fixpoint hreads (k : nat) (p : N) : list N :=
    match k with
    | O => []
    | S k => match hw p with Some v => v :: hreads k (p + 1) | None => hreads k (p + 1) end
    end.
  Definition reads (p q : N) : list N := hreads (N.to_nat (q - p)) p.
End Hw.

(* state: rdrand.pyx:428-466. Only retries is restored. *)
Definition rd_get (s : rdrand) : pyval :=
  PDict [("bit_generator", PStr "randomgen.rdrand.RDRAND"); ("status", bool_int (rd_stat s)); ("retries", PInt (rd_retries s));
         ("buffer_loc", PInt (rd_loc s)); ("buffer", PArr 64 (rd_buf s))]%string.
Definition rd_set (v : pyval) : M rdrand unit := (
  lift (preamble "RDRAND" "randomgen.rdrand.RDRAND" v);;
  r <- lift (obind (getitem v "retries") to_cint);;
  modify (fun s => RD (rd_buf s) (rd_loc s) (rd_stat s) r (rd_pos s)))%py.
(* rdrand.pyx:399-426 jumped: self.__class__(), with the default retries *)
Definition rd_jumped (s : rdrand) : rdrand := rd_new 10.

(* ------------------------------------------------------------------ facts *)
Lemma skipn_nth_cons {A} (l : list A) i d : (i < List.length l)%nat -> skipn i l = nth i l d :: skipn (S i) l.
Proof.
  revert i; induction l as [|x l IH]; intros [|i] H; cbn [List.length] in H; try lia; [reflexivity|]. cbn [skipn nth]. apply IH. lia.
Qed.
Section Facts.
  Variable hw : N -> option N.
  Notation attempt := (attempt hw). Notation read1 := (read1 hw). Notation hreads := (hreads hw). Notation reads := (reads hw).

  Lemma hreads_app j : forall k p, hreads (j + k) p = (hreads j p ++ hreads k (p + N.of_nat j))%list.
  Proof.
    induction j as [|j IH]; intros k p; cbn [Nat.add Rdrand.hreads app]; [f_equal; lia|].
    rewrite IH. replace (p + 1 + N.of_nat j) with (p + N.of_nat (S j)) by lia. destruct (hw p); reflexivity.
  Qed.
  Lemma reads_app p q r : p <= q -> q <= r -> reads p r = (reads p q ++ reads q r)%list.
  Proof.
    intros H1 H2. unfold Rdrand.reads. replace (N.to_nat (r - p)) with (N.to_nat (q - p) + N.to_nat (r - q))%nat by lia.
    rewrite hreads_app. do 2 f_equal. lia.
  Qed.
  Lemma reads_nil p : reads p p = [].
  Proof. unfold Rdrand.reads. now rewrite N.sub_diag. Qed.

  Lemma attempt_spec k : forall p p' r, attempt k p = (p', r) ->
    p <= p' <= p + N.of_nat k /\ reads p p' = match r with Some v => [v] | None => [] end.
  Proof.
    induction k as [|k IH]; intros p p' r; cbn [Rdrand.attempt].
    - intros [= <- <-]. rewrite reads_nil. split; [lia|reflexivity].
    - destruct (hw p) as [v|] eqn:E.
      + intros [= <- <-]. split; [lia|]. unfold Rdrand.reads. replace (N.to_nat (p + 1 - p)) with 1%nat by lia. cbn [Rdrand.hreads]. now rewrite E.
      + intros H. apply IH in H. destruct H as [H1 H2]. split; [lia|].
        rewrite (reads_app p (p + 1)) by lia. rewrite H2.
        unfold Rdrand.reads. replace (N.to_nat (p + 1 - p)) with 1%nat by lia. cbn [Rdrand.hreads]. now rewrite E.
  Qed.
  Lemma attempt_fails k : forall p p', attempt k p = (p', None) -> p' = p + N.of_nat k /\ forall i, p <= i < p' -> hw i = None.
  Proof.
    induction k as [|k IH]; intros p p'; cbn [Rdrand.attempt].
    - intros [= <-]. split; [lia|]. intros i Hi. lia.
    - destruct (hw p) as [v|] eqn:E; [discriminate|]. intros H. apply IH in H. destruct H as [-> H]. split; [lia|].
      intros i Hi. destruct (N.eq_dec i p) as [->|]; [exact E|]. apply H. lia.
  Qed.
  Lemma read1_spec retries p p' r : read1 retries p = Some (p', r) ->
    p <= p' <= p + N.of_nat (Z.to_nat (retries + 1)) /\ reads p p' = match r with Some v => [v] | None => [] end.
  Proof.
    unfold Rdrand.read1. destruct (attempt (Z.to_nat (retries + 1)) p) as [q o] eqn:E. intros H. apply (attempt_spec _ _ _ _).
    destruct o as [v|]; [now injection H as <- <-|]. destruct (retries =? _)%Z; [discriminate|]. now injection H as <- <-.
  Qed.
  Lemma read1_total retries p : (retries < 2 ^ 31 - 1)%Z -> exists p' r, read1 retries p = Some (p', r).
  Proof.
    intros H. unfold Rdrand.read1. destruct (attempt _ p) as [q [v|]]; [eauto|].
    destruct (retries =? _)%Z eqn:E; [lia|eauto].
  Qed.

  Ltac cj := repeat match goal with |- _ /\ _ => split end.
  (* the outer loop *)
  Lemma fill_from_spec k : forall i s s', fill_from hw k i s = Some s' -> (i + k <= List.length (rd_buf s))%nat ->
    rd_loc s' = rd_loc s /\ rd_retries s' = rd_retries s /\ List.length (rd_buf s') = List.length (rd_buf s)
    /\ rd_pos s <= rd_pos s' <= rd_pos s + N.of_nat (k * Z.to_nat (rd_retries s + 1))
    /\ (forall j, (j < i)%nat \/ (i + k <= j)%nat -> nth j (rd_buf s') 0 = nth j (rd_buf s) 0)
    /\ (rd_stat s' = true -> rd_stat s = true /\ firstn k (skipn i (rd_buf s')) = reads (rd_pos s) (rd_pos s'))
    /\ (rd_stat s = true -> rd_stat s' = false -> exists p, rd_pos s <= p /\ p + N.of_nat (Z.to_nat (rd_retries s + 1)) <= rd_pos s'
          /\ forall q, p <= q < p + N.of_nat (Z.to_nat (rd_retries s + 1)) -> hw q = None).
  Proof.
    induction k as [|k IH]; intros i s s'; cbn [fill_from].
    - intros [= <-] L. rewrite reads_nil. cj; try lia; [intros H; split; [exact H|reflexivity]|intros H1 H2; congruence].
    - destruct (read1 (rd_retries s) (rd_pos s)) as [[p r]|] eqn:E; [|discriminate]. intros H L.
      pose proof (read1_spec _ _ _ _ E) as [P R].
      assert (G : forall v st, fill_from hw k (S i) (RD (upd (rd_buf s) i v) (rd_loc s) st (rd_retries s) p) = Some s' ->
        rd_loc s' = rd_loc s /\ rd_retries s' = rd_retries s /\ List.length (rd_buf s') = List.length (rd_buf s)
        /\ p <= rd_pos s' <= p + N.of_nat (k * Z.to_nat (rd_retries s + 1))
        /\ (forall j, (j < i)%nat \/ (i + S k <= j)%nat -> nth j (rd_buf s') 0 = nth j (rd_buf s) 0)
        /\ nth i (rd_buf s') 0 = v
        /\ (rd_stat s' = true -> st = true /\ firstn k (skipn (S i) (rd_buf s')) = reads p (rd_pos s'))
        /\ (st = true -> rd_stat s' = false -> exists q, p <= q /\ q + N.of_nat (Z.to_nat (rd_retries s + 1)) <= rd_pos s'
              /\ forall x, q <= x < q + N.of_nat (Z.to_nat (rd_retries s + 1)) -> hw x = None)).
      { intros v st F. apply IH in F; [|cbn [rd_buf]; rewrite upd_length; lia]. cbn [rd_buf rd_loc rd_stat rd_retries rd_pos] in F. rewrite upd_length in F.
        destruct F as (F1 & F2 & F3 & F4 & F5 & F6 & F7). cj; try assumption; try lia.
        - intros j Hj. rewrite F5 by lia. apply upd_nth_other. lia.
        - rewrite F5 by lia. apply upd_nth_same. lia.
 }
      destruct r as [v|].
      + destruct (G v (rd_stat s) H) as (G1 & G2 & G3 & G4 & G5 & G6 & G7 & G8). cj; try assumption; try lia.
        * intros H0. destruct (G7 H0) as [G10 G9]. split; [exact G10|]. rewrite (reads_app _ p) by lia. rewrite R, <- G9, <- G6.
          rewrite (skipn_nth_cons _ i 0) by lia. reflexivity.
        * intros H1 H2. destruct (G8 H1 H2) as (q & Q1 & Q2 & Q3). exists q. cj; [lia|exact Q2|exact Q3].
      + destruct (G _ false H) as (G1 & G2 & G3 & G4 & G5 & G6 & G7 & G8). cj; try assumption; try lia.
        * intros _ _. exists (rd_pos s). split; [lia|].
          unfold Rdrand.read1 in E. destruct (attempt _ (rd_pos s)) as [q [w|]] eqn:A; [discriminate|].
          destruct (rd_retries s =? _)%Z; [discriminate|]. injection E as ->. apply attempt_fails in A. destruct A as [-> A]. split; [lia|exact A].
  Qed.
  Lemma fill_from_total k : forall i s, (rd_retries s < 2 ^ 31 - 1)%Z -> exists s', fill_from hw k i s = Some s'.
  Proof.
    induction k as [|k IH]; intros i s H; cbn [fill_from]; [eauto|].
    destruct (read1_total (rd_retries s) (rd_pos s) H) as (p & [v|] & ->); now apply IH.
  Qed.

  Definition rd_ok (s : rdrand) : Prop := List.length (rd_buf s) = 256%nat /\ (0 <= rd_loc s <= 256)%Z.
  Definition unread (s : rdrand) : list N := skipn (Z.to_nat (rd_loc s)) (rd_buf s).

  Lemma fill_n_spec n s s' : List.length (rd_buf s) = n -> fill_n hw n s = Some s' ->
    List.length (rd_buf s') = n /\ rd_loc s' = 0%Z /\ rd_retries s' = rd_retries s /\ rd_pos s <= rd_pos s' <= rd_pos s + N.of_nat n * N.of_nat (Z.to_nat (rd_retries s + 1))
    /\ (rd_stat s' = true -> rd_buf s' = reads (rd_pos s) (rd_pos s'))
    /\ (rd_stat s = true -> rd_stat s' = false -> exists p, rd_pos s <= p /\ p + N.of_nat (Z.to_nat (rd_retries s + 1)) <= rd_pos s'
          /\ forall q, p <= q < p + N.of_nat (Z.to_nat (rd_retries s + 1)) -> hw q = None).
  Proof.
    intros L. unfold fill_n. destruct (fill_from hw n 0 s) as [t|] eqn:E; [|discriminate].
    apply fill_from_spec in E; [|rewrite L; lia].
    destruct E as (E1 & E2 & E3 & E4 & E5 & E6 & E7). cbn [option_map]. intros [= <-].
    cbn [rd_buf rd_loc rd_stat rd_retries rd_pos]. cj; try congruence; try lia.
    - intros H. destruct (E6 H) as [_ E8]. rewrite <- E8. cbn [skipn]. rewrite firstn_all2; [reflexivity|lia].
    - exact E7.
  Qed.
  Lemma rd_fill_spec s s' : rd_ok s -> fill_n hw 256 s = Some s' ->
    List.length (rd_buf s') = 256%nat /\ rd_loc s' = 0%Z /\ rd_retries s' = rd_retries s /\ rd_pos s <= rd_pos s' <= rd_pos s + N.of_nat 256 * N.of_nat (Z.to_nat (rd_retries s + 1))
    /\ (rd_stat s' = true -> rd_buf s' = reads (rd_pos s) (rd_pos s'))
    /\ (rd_stat s = true -> rd_stat s' = false -> exists p, rd_pos s <= p /\ p + N.of_nat (Z.to_nat (rd_retries s + 1)) <= rd_pos s'
          /\ forall q, p <= q < p + N.of_nat (Z.to_nat (rd_retries s + 1)) -> hw q = None).
  Proof. intros [L _]. exact (fill_n_spec 256 s s' L). Qed.
  Lemma rd_take_spec s e s' v e' : (0 <= rd_loc s)%Z -> rd_take s e = Some (s', v, e') ->
    e' = e /\ rd_buf s' = rd_buf s /\ rd_loc s' = (rd_loc s + 1)%Z /\ rd_stat s' = rd_stat s /\ rd_retries s' = rd_retries s /\ rd_pos s' = rd_pos s
    /\ v :: unread s' = unread s /\ (rd_loc s < Z.of_nat (List.length (rd_buf s)))%Z.
  Proof.
    intros P. unfold rd_take. destruct (Z.ltb_spec (rd_loc s) (Z.of_nat (List.length (rd_buf s)))) as [H|H].
    - rewrite (rd_nth _ _ 0) by lia. intros [= <- <- <-]. cbn [rd_buf rd_loc rd_stat rd_retries rd_pos]. cj; try reflexivity; [|exact H].
      unfold unread. cbn [rd_buf rd_loc]. rewrite (skipn_nth_cons (rd_buf s) (Z.to_nat (rd_loc s)) 0) by lia.
      do 2 f_equal. lia.
    - rewrite rd_none by lia. discriminate.
  Qed.
  Lemma rd_next_spec s s' v e : rd_ok s -> rd_next hw s = Some (s', v, e) ->
    rd_ok s' /\ rd_retries s' = rd_retries s /\ rd_pos s <= rd_pos s'
    /\ (e = false -> rd_stat s' = rd_stat s /\ (v :: unread s' = unread s ++ reads (rd_pos s) (rd_pos s'))%list)
    /\ (e = true -> rd_stat s = true /\ rd_stat s' = false /\ exists p, rd_pos s <= p /\ p + N.of_nat (Z.to_nat (rd_retries s + 1)) <= rd_pos s'
          /\ forall q, p <= q < p + N.of_nat (Z.to_nat (rd_retries s + 1)) -> hw q = None).
  Proof.
    intros O. pose proof O as [L B]. unfold rd_next.
    assert (G : forall s', rd_take s false = Some (s', v, e) -> rd_ok s' /\ rd_retries s' = rd_retries s /\ rd_pos s <= rd_pos s'
      /\ (e = false -> rd_stat s' = rd_stat s /\ (v :: unread s' = unread s ++ reads (rd_pos s) (rd_pos s'))%list) /\ e = false).
    { intros t T. apply rd_take_spec in T; [|lia]. destruct T as (-> & T1 & T2 & T3 & T4 & T5 & T6 & T7). rewrite L in T7.
      cj; try assumption; try reflexivity; try lia; [split; [now rewrite T1|rewrite T2; lia]|]. intros _. rewrite T5, reads_nil, app_nil_r. split; assumption. }
    destruct (rd_stat s) eqn:S1; cbn [andb].
    - destruct (rd_loc s <? 256)%Z eqn:B1.
      + intros T. destruct (G _ T) as (G1 & G2 & G3 & G4 & G5). cj; try assumption. intros ->. discriminate.
      + destruct (fill_n hw 256 s) as [t|] eqn:F; [|discriminate]. intros T. apply (rd_fill_spec _ _ O) in F.
        destruct F as (F1 & F2 & F3 & F4 & F5 & F6). apply rd_take_spec in T; [|lia]. destruct T as (T0 & T1 & T2 & T3 & T4 & T5 & T6 & T7).
        cj; try congruence; try lia; [split; [congruence|lia]|intros E|intros E].
        * subst e. apply (f_equal negb) in E. rewrite negb_involutive in E. cbn in E. split; [congruence|].
          replace (unread s) with (@nil N) by (unfold unread; rewrite skipn_all2; [reflexivity|rewrite L; lia]).
          rewrite T6, T5. unfold unread. rewrite F2. cbn [Z.to_nat skipn app]. now apply F5.
        * subst e. apply (f_equal negb) in E. rewrite negb_involutive in E. cbn in E. split; [reflexivity|]. split; [congruence|]. rewrite T5. now apply F6.
    - intros T. destruct (G _ T) as (G1 & G2 & G3 & G4 & G5). cj; try assumption. intros ->. discriminate.
  Qed.
  (* a failed generator: no refill, no error, the rest of the buffer *)
  Lemma rd_next_failed s : rd_ok s -> rd_stat s = false ->
    rd_next hw s = if (rd_loc s <? 256)%Z
                   then Some (RD (rd_buf s) (rd_loc s + 1) false (rd_retries s) (rd_pos s), nth (Z.to_nat (rd_loc s)) (rd_buf s) 0, false)
                   else None.
  Proof.
    intros [L B] H. unfold rd_next, rd_take. rewrite H. cbn [andb]. destruct (rd_loc s <? 256)%Z eqn:E.
    - rewrite (rd_nth _ _ 0) by lia. reflexivity.
    - rewrite rd_none by lia. reflexivity.
  Qed.
  Lemma rd_draws_failed n : forall s, rd_ok s -> rd_stat s = false ->
    rd_draws hw n s = if (rd_loc s + Z.of_nat n <=? 256)%Z
                   then Some (RD (rd_buf s) (rd_loc s + Z.of_nat n) false (rd_retries s) (rd_pos s), firstn n (unread s), false)
                   else None.
  Proof.
    induction n as [|n IH]; intros s O H.
    - cbn [rd_draws firstn]. destruct O as [L B]. destruct (_ <=? 256)%Z eqn:E; [|lia]. destruct s as [b l st r p]. cbn [rd_stat rd_loc] in *. subst st. do 4 f_equal. cbn [rd_loc]. lia.
    - cbn [rd_draws]. rewrite (rd_next_failed s O H). destruct O as [L B].
      destruct (rd_loc s <? 256)%Z eqn:E.
      + rewrite IH; [|split; cbn [rd_buf rd_loc]; [exact L|lia]|reflexivity]. cbn [rd_loc rd_buf rd_retries rd_pos].
        replace (rd_loc s + 1 + Z.of_nat n)%Z with (rd_loc s + Z.of_nat (S n))%Z by lia.
        destruct (rd_loc s + Z.of_nat (S n) <=? 256)%Z; [|reflexivity]. cbn [orb]. do 3 f_equal.
        unfold unread. cbn [rd_loc rd_buf]. rewrite (skipn_nth_cons (rd_buf s) (Z.to_nat (rd_loc s)) 0) by lia. cbn [firstn]. do 3 f_equal. lia.
      + destruct (_ <=? 256)%Z eqn:E2; [lia|reflexivity].
  Qed.
  Lemma rd_draws_spec n : forall s s' vs e, rd_ok s -> rd_draws hw n s = Some (s', vs, e) ->
    rd_ok s' /\ rd_retries s' = rd_retries s /\ rd_pos s <= rd_pos s' /\ List.length vs = n
    /\ (e = false -> rd_stat s' = rd_stat s /\ (vs ++ unread s' = unread s ++ reads (rd_pos s) (rd_pos s'))%list)
    /\ (e = true -> rd_stat s = true /\ rd_stat s' = false /\ exists p, rd_pos s <= p /\ p + N.of_nat (Z.to_nat (rd_retries s + 1)) <= rd_pos s'
          /\ forall q, p <= q < p + N.of_nat (Z.to_nat (rd_retries s + 1)) -> hw q = None).
  Proof.
    induction n as [|n IH]; intros s s' vs e O; cbn [rd_draws].
    - intros [= <- <- <-]. cj; try reflexivity; try lia; try assumption; try apply O; try discriminate.
      intros _. rewrite reads_nil, app_nil_r. split; reflexivity.
    - destruct (rd_next hw s) as [[[t v] e1]|] eqn:E; [|discriminate].
      destruct (rd_draws hw n t) as [[[t' ws] e2]|] eqn:F; [|discriminate]. intros [= <- <- <-].
      apply (rd_next_spec _ _ _ _ O) in E. destruct E as (E1 & E2 & E3 & E4 & E5).
      apply (IH _ _ _ _ E1) in F. destruct F as (F1 & F2 & F3 & F4 & F5 & F6).
      cj; try congruence; try lia; try apply F1.
      + cbn [List.length]. lia.
      + intros H. apply orb_false_iff in H. destruct H as [-> ->]. destruct (E4 eq_refl) as [E6 E7], (F5 eq_refl) as [F7 F8]. split; [congruence|].
        cbn [app]. rewrite F8, (reads_app (rd_pos s) (rd_pos t) (rd_pos t')) by lia. rewrite app_assoc, <- E7. reflexivity.
      + intros H. destruct e1.
        * destruct (E5 eq_refl) as (G1 & G2 & p & P1 & P2 & P3). split; [exact G1|]. split.
          -- destruct e2; [now destruct (F6 eq_refl) as (_ & ? & _)|]. destruct (F5 eq_refl) as [K _]. congruence.
          -- exists p. split; [exact P1|]. split; [lia|exact P3].
        * destruct e2; [|discriminate]. destruct (F6 eq_refl) as (G1 & G2 & p & P1 & P2 & P3). destruct (E4 eq_refl) as [E6 _].
          split; [congruence|]. split; [exact G2|]. exists p. rewrite E2 in P2, P3. split; [lia|]. split; [exact P2|exact P3].
  Qed.
  Lemma fill_n_total n s : (rd_retries s < 2 ^ 31 - 1)%Z -> fill_n hw n s = None -> False.
  Proof. intros R. unfold fill_n. destruct (fill_from_total n 0 s R) as [t ->]. discriminate. Qed.
  (* no undefined behaviour while the status is good, nor in the 255 draws after the failing one *)
  Lemma rd_next_total s : rd_ok s -> (rd_retries s < 2 ^ 31 - 1)%Z -> rd_stat s = true ->
    exists s' v e, rd_next hw s = Some (s', v, e) /\ (e = true -> rd_loc s' = 1%Z).
  Proof.
    intros O R H. pose proof O as [L B]. unfold rd_next. rewrite H. cbn [andb]. destruct (rd_loc s <? 256)%Z eqn:E.
    - unfold rd_take. rewrite (rd_nth _ _ 0) by lia. do 3 eexists. split; [reflexivity|discriminate].
    - destruct (fill_n hw 256 s) as [t|] eqn:F.
      + apply (rd_fill_spec _ _ O) in F. destruct F as (F1 & F2 & _). unfold rd_take. rewrite (rd_nth _ _ 0) by lia.
        do 3 eexists. split; [reflexivity|]. intros _. cbn [rd_loc]. now rewrite F2.
      + exfalso. exact (fill_n_total 256 s R F).
  Qed.
  Lemma rd_draws_total n : forall s, rd_ok s -> (rd_retries s < 2 ^ 31 - 1)%Z -> rd_stat s = true -> (n <= 256)%nat ->
    exists r, rd_draws hw n s = Some r.
  Proof.
    induction n as [|n IH]; intros s O R H Hn; cbn [rd_draws]; [eauto|].
    destruct (rd_next_total s O R H) as (t & v & e & E & K). rewrite E.
    pose proof (rd_next_spec _ _ _ _ O E) as (E1 & E2 & _ & E4 & E5).
    destruct e.
    - destruct (E5 eq_refl) as (_ & S2 & _). rewrite (rd_draws_failed n t E1 S2), (K eq_refl).
      destruct (1 + Z.of_nat n <=? 256)%Z eqn:Q; [eauto|lia].
    - destruct (E4 eq_refl) as [S2 _]. destruct (IH t E1) as [[[t' ws] e2] ->]; [lia|congruence|lia|]. eauto.
  Qed.

  (* random_raw *)
  Lemma rr_loop_spec n : forall st s s' vs st', rr_loop hw n st s = Some (s', vs, st') ->
    rd_buf s' = rd_buf s /\ rd_loc s' = rd_loc s /\ rd_retries s' = rd_retries s
    /\ rd_pos s <= rd_pos s' <= rd_pos s + N.of_nat (n * Z.to_nat (rd_retries s + 1)) /\ List.length vs = n
    /\ (st' = true -> st = true /\ vs = reads (rd_pos s) (rd_pos s') /\ rd_stat s' = rd_stat s /\ (n <> 0%nat -> rd_stat s = true))
    /\ (st' = false -> st = false \/ rd_stat s' = false)
    /\ (rd_stat s = false -> rd_stat s' = false).
  Proof.
    induction n as [|n IH]; intros st s s' vs st'; cbn [rr_loop].
    - intros [= <- <- <-]. rewrite reads_nil. cj; try reflexivity; try lia; try tauto. 
    - unfold rd_next64. destruct (read1 (rd_retries s) (rd_pos s)) as [[p r]|] eqn:E; [|discriminate].
      apply read1_spec in E. destruct E as [P Q].
      destruct (rr_loop hw n _ _) as [[[t ws] st2]|] eqn:F; [|discriminate]. intros [= <- <- <-].
      apply IH in F. cbn [rd_buf rd_loc rd_retries rd_pos rd_stat] in F. destruct F as (F1 & F2 & F3 & F4 & F5 & F6 & F7 & F8).
      cj; try assumption; try lia.
      + cbn [List.length]. lia.
      + intros H. destruct (F6 H) as (G1 & G2 & G3 & G4). apply andb_true_iff in G1. destruct G1 as [G1 G5]. rewrite G5 in G3. apply andb_true_iff in G5. destruct G5 as [G5 G6].
        split; [exact G1|]. rewrite G5. split; [|split; [exact G3|reflexivity]]. rewrite (reads_app _ p) by lia. rewrite Q.
        destruct r as [v|]; [|discriminate]. cbn [app]. now rewrite G2.
      + intros H. destruct (F7 H) as [G|G]; [|now right]. apply andb_false_iff in G. destruct G as [G|G]; [now left|right]. now apply F8.
      + intros H. rewrite H in F8. now apply F8.
  Qed.
  Lemma rr_loop_total n : forall st s, (rd_retries s < 2 ^ 31 - 1)%Z -> exists r, rr_loop hw n st s = Some r.
  Proof.
    induction n as [|n IH]; intros st s R; cbn [rr_loop]; [eauto|]. unfold rd_next64.
    destruct (read1_total (rd_retries s) (rd_pos s) R) as (p & r & ->). cbv zeta.
    match goal with |- context [rr_loop hw n ?a ?b] => destruct (IH a b R) as [[[t ws] st2] ->] end. eauto.
  Qed.
End Facts.
