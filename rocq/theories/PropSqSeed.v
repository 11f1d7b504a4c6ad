(* C76, C19 and C21 for seed() of Squares *)
From Verif Require Import Word Buffer32 Py Squares SquaresFacts SqSeed Half.
From Coq Require Import ZifyBool ZifyNat ZifyN.
Open Scope N_scope.
Ltac Zify.zify_post_hook ::= idtac.

(* ------------------------------------------------------------------- C76 *)
Definition in64 (z : Z) : Prop := (0 <= z < 2 ^ 64)%Z.
Lemma check_in z : in64 z -> check_value (AInt z) false = Ok (Z.to_N z).
Proof. intros H. unfold in64 in H. cbn [check_value andb]. now replace ((0 <=? z) && (z <? 2 ^ 64))%Z with true by lia. Qed.
Lemma check_out z odd : ~ in64 z -> check_value (AInt z) odd = Raise ValueError.
Proof. intros H. unfold in64 in H. cbn [check_value]. now replace ((0 <=? z) && (z <? 2 ^ 64))%Z with false by lia. Qed.
Lemma check_odd z : in64 z -> Z.odd z = true -> check_value (AInt z) true = Ok (Z.to_N z).
Proof. intros H O. unfold in64 in H. cbn [check_value andb]. rewrite O. now replace ((0 <=? z) && (z <? 2 ^ 64))%Z with true by lia. Qed.
Lemma check_even z : Z.odd z = false -> check_value (AInt z) true = Raise ValueError.
Proof. intros O. cbn [check_value andb]. rewrite O. now destruct (_ && _). Qed.
Lemma as_in z : in64 z -> as_uint64 (AInt z) = Ok (Z.to_N z).
Proof. intros H. unfold in64 in H. cbn [as_uint64]. now replace ((0 <=? z) && (z <? 2 ^ 64))%Z with true by lia. Qed.

(* the key of the seed, and the counter (0 if there is none) reach the generator, whatever its state was *)
Theorem C76_squares_seed_with_counter :
  forall gk c b, in64 c ->
  sq_pyseed (Ok gk) (AInt c) ANone b = (sq_seed gk (Z.to_N c) (sq_v64 (core b)) b, Ok tt)
  /\ sq_pyseed (Ok gk) ANone ANone b = (sq_seed gk 0 (sq_v64 (core b)) b, Ok tt).
Proof.
  intros gk c b C. unfold sq_pyseed, sq_from_seq. rewrite (check_in _ C), (as_in _ C). split; reflexivity.
Qed.
(* a key given directly is installed with the counter in the same way; the seed is not looked at *)
Theorem C76_squares_key_with_counter :
  forall seq k c b, in64 k -> Z.odd k = true -> in64 c ->
  sq_pyseed seq (AInt c) (AInt k) b = (sq_seed (Z.to_N k) (Z.to_N c) (sq_v64 (core b)) b, Ok tt)
  /\ sq_pyseed seq ANone (AInt k) b = (sq_seed (Z.to_N k) 0 (sq_v64 (core b)) b, Ok tt).
Proof.
  intros seq k c b K O C. unfold sq_pyseed. rewrite (check_in _ C), (check_odd _ K O). split; reflexivity.
Qed.
(* unlike the other counter-based classes, a seed and a key together raise no error *)
Theorem C76_squares_seed_and_key_refuted :
  ~ (forall gk k b, in64 k -> Z.odd k = true -> snd (sq_pyseed (Ok gk) ANone (AInt k) b) = Raise ValueError).
Proof.
  intros H. specialize (H 3 5%Z (Buf (SQ 1 0 true) false 0) ltac:(unfold in64; lia) eq_refl). vm_compute in H. discriminate H.
Qed.
Theorem C76_squares_out_of_range :
  forall seq key c b, ~ in64 c -> sq_pyseed seq (AInt c) key b = (b, Raise ValueError).
Proof. intros seq key c b C. unfold sq_pyseed. now rewrite (check_out _ _ C). Qed.
Theorem C76_squares_bad_key :
  forall seq c k b, in64 c -> ~ in64 k \/ Z.odd k = false -> snd (sq_pyseed seq (AInt c) (AInt k) b) = Raise ValueError.
Proof.
  intros seq c k b C [K|K]; unfold sq_pyseed; rewrite (check_in _ C); [rewrite (check_out _ _ K)|rewrite (check_even _ K)]; reflexivity.
Qed.
(* a counter given as a float is accepted with a key and turned down with a seed *)
Theorem C76_squares_float_counter_refuted :
  exists gk k z b, in64 k /\ Z.odd k = true /\ in64 z
  /\ snd (sq_pyseed (Ok gk) (AFloat z) (AInt k) b) = Ok tt
  /\ snd (sq_pyseed (Ok gk) (AFloat z) ANone b) = Raise TypeError.
Proof. exists 3, 5%Z, 7%Z, (Buf (SQ 1 0 true) false 0). unfold in64. split; [lia|]. split; [reflexivity|]. split; [lia|]. split; vm_compute; reflexivity. Qed.
(* the constructor installs the same key and counter as seed() of any object of its variant *)
Theorem C76_squares_new :
  forall seq c k v b, c = ANone \/ (exists z, c = AInt z) -> k = ANone \/ (exists z, k = AInt z) -> (v = 64 \/ v = 32)%Z -> sq_v64 (core b) = (v =? 64)%Z ->
  match sq_pyseed seq c k b with
  | (b', Ok _) => sq_pynew seq c k (AInt v) = Ok b'
  | (_, Raise e) => sq_pynew seq c k (AInt v) = Raise e
  end.
Proof.
  intros seq c k v b Hc Hk Hv E. unfold sq_pynew.
  assert (V : ((v =? 64) || (v =? 32))%Z = true) by lia. rewrite V. unfold sq_pyseed.
  destruct Hc as [->|[c' ->]].
  - destruct Hk as [->|[k' ->]].
    + destruct seq as [gk|e]; [|reflexivity]. cbn. rewrite <- E. reflexivity.
    + destruct (check_value (AInt k') true) as [kk|e]; [|reflexivity]. cbn. rewrite <- E. reflexivity.
  - destruct (check_value (AInt c') false) as [cc|e] eqn:Ec; [|reflexivity]. destruct Hk as [->|[k' ->]].
    + destruct seq as [gk|e]; [|reflexivity]. unfold sq_from_seq. destruct (as_uint64 (AInt c')); [|reflexivity]. cbn. rewrite <- E. reflexivity.
    + destruct (check_value (AInt k') true) as [kk|e]; [|reflexivity]. cbn. rewrite <- E. reflexivity.
Qed.
(* what the counter does: the stream from counter c is the stream from 0 without its first c numbers *)
Fixpoint sq_outs (f : squares -> squares * N) (k : nat) (s : squares) : list N :=
  match k with O => [] | Datatypes.S k => snd (f s) :: sq_outs f k (fst (f s)) end.
Lemma sq_outs_skip f (Hf : forall s, fst (f s) = sq_incr s) a : forall k s, skipn a (sq_outs f (a + k) s) = sq_outs f k (N.iter (N.of_nat a) sq_incr s).
Proof.
  induction a as [|a IH]; intros k s; [reflexivity|]. cbn [Nat.add sq_outs skipn]. rewrite IH, Hf. f_equal.
  replace (N.of_nat (Datatypes.S a)) with (N.of_nat a + 1) by lia. rewrite N.add_1_r, N.iter_succ_r. reflexivity.
Qed.
Theorem C76_squares_counter_position :
  forall key c k b, c < 2 ^ 64 ->
  (forall v, sq_outs squares64 k (core (sq_seed key c v b)) = skipn (N.to_nat c) (sq_outs squares64 (N.to_nat c + k) (core (sq_seed key 0 v b))))
  /\ (forall v, sq_outs squares32 k (core (sq_seed key c v b)) = skipn (N.to_nat c) (sq_outs squares32 (N.to_nat c + k) (core (sq_seed key 0 v b)))).
Proof.
  intros key c k b C.
  assert (G : forall v, N.iter (N.of_nat (N.to_nat c)) sq_incr (SQ key 0 v) = SQ key c v).
  { intros v. rewrite N2Nat.id, iter_incr by reflexivity. unfold sq_at. cbn [sq_ctr sq_key sq_v64]. f_equal. unfold wadd. rewrite N.add_0_l. apply N.mod_small, C. }
  split; intros v; rewrite sq_outs_skip by reflexivity; unfold sq_seed; cbn [core reset32]; rewrite G; reflexivity.
Qed.
Example C76_squares_case : in64 5 /\ Z.odd 5 = true /\ ~ in64 (2 ^ 64) /\ in64 0
  /\ sq_outs squares64 2 (core (sq_seed 12345 3 true (Buf (SQ 0 0 true) true 9))) <> sq_outs squares64 2 (core (sq_seed 12345 0 true (Buf (SQ 0 0 true) true 9))).
Proof. unfold in64. split; [lia|]. split; [reflexivity|]. split; [lia|]. split; [lia|]. intros E. vm_compute in E. discriminate E. Qed.

(* ------------------------------------------------------------------- C21 *)
(* A successful seed() gives a state that depends on its arguments and the variant alone; one that
   raises for the key or the seed has already moved the counter of the old stream *)
Theorem C21_squares_pyseed :
  forall seq c k a b, sq_v64 (core a) = sq_v64 (core b) -> snd (sq_pyseed seq c k a) = Ok tt -> sq_pyseed seq c k a = sq_pyseed seq c k b.
Proof.
  intros seq c k a b E. unfold sq_pyseed. 
  destruct (match c with ANone => _ | _ => _ end) as [[cc ca]|e]; [|discriminate].
  destruct k; cbn [check_value].
  - destruct seq as [gk|e]; [|discriminate]. unfold sq_from_seq. destruct (as_uint64 ca); [|discriminate]. intros _. unfold reset32, with_ctr, with_key. cbn. now rewrite E.
  - destruct (_ && _); [|discriminate]. destruct (_ && _); [discriminate|]. intros _. unfold reset32, with_ctr, with_key. cbn. now rewrite E.
  - destruct (_ && _); [|discriminate]. destruct (_ && _); [discriminate|]. intros _. unfold reset32, with_ctr, with_key. cbn. now rewrite E.
  - discriminate.
Qed.
Theorem C21_squares_failed_seed_refuted :
  exists seq c k b, snd (sq_pyseed seq c k b) = Raise ValueError /\ fst (sq_pyseed seq c k b) <> b.
Proof. exists (Ok 3), (AInt 7), (AInt 4), (Buf (SQ 1 0 true) false 0). split; [vm_compute; reflexivity|]. intros E. vm_compute in E. discriminate E. Qed.

Print Assumptions C76_squares_seed_with_counter.
Print Assumptions C76_squares_key_with_counter.
Print Assumptions C76_squares_seed_and_key_refuted.
Print Assumptions C76_squares_out_of_range.
Print Assumptions C76_squares_bad_key.
Print Assumptions C76_squares_float_counter_refuted.
Print Assumptions C76_squares_new.
Print Assumptions C76_squares_counter_position.
Print Assumptions C21_squares_pyseed.
Print Assumptions C21_squares_failed_seed_refuted.
