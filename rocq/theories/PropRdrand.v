(* C40: RDRAND *)
From Verif Require Import Word Arr Py Rdrand.
From Coq Require Import String ZifyBool ZifyNat ZifyN.
Open Scope N_scope.
Ltac Zify.zify_post_hook ::= idtac.

(* ------------------------------------------------------------ random_raw *)
(* random_raw returns exactly the values of the successful hardware reads made
   during the call, in order, and only if every one of the n reads succeeded and
   none had failed before *)
Theorem C40_random_raw_values :
  forall hw n s s' vs, rd_random_raw hw n s = Some (s', Ok vs) ->
  vs = reads hw (rd_pos s) (rd_pos s') /\ List.length vs = n /\ rd_stat s' = rd_stat s /\ (n <> 0%nat -> rd_stat s = true).
Proof.
  intros hw n s s' vs. unfold rd_random_raw. destruct (rr_loop hw n true s) as [[[t ws] st]|] eqn:E; [|discriminate].
  apply rr_loop_spec in E. destruct E as (E1 & E2 & E3 & E4 & E5 & E6 & E7 & E8). destruct st; [|discriminate]. intros [= <- <-].
  destruct (E6 eq_refl) as (_ & G2 & G3 & G4). cbn [rd_pos rd_stat set_stat]. rewrite andb_true_r. repeat split; assumption.
Qed.
Theorem C40_random_raw1_value :
  forall hw s s' v, rd_random_raw1 hw s = Some (s', Ok v) -> [v] = reads hw (rd_pos s) (rd_pos s') /\ rd_stat s = true /\ rd_stat s' = true.
Proof.
  intros hw s s' v. unfold rd_random_raw1, rd_next64. destruct (read1 hw (rd_retries s) (rd_pos s)) as [[p r]|] eqn:E; [|discriminate].
  apply read1_spec in E. destruct E as [_ E]. destruct (rd_stat s), r as [w|]; cbn [andb]; try discriminate. intros [= <- <-].
  cbn [rd_pos rd_stat]. now rewrite E.
Qed.
(* otherwise it raises RuntimeError and the object remembers the failure *)
Theorem C40_random_raw_raises :
  forall hw n s s' e, rd_random_raw hw n s = Some (s', Raise e) -> e = RuntimeErr /\ rd_stat s' = false.
Proof.
  intros hw n s s' e. unfold rd_random_raw. destruct (rr_loop hw n true s) as [[[t ws] st]|] eqn:E; [|discriminate].
  destruct st; [discriminate|]. intros [= <- <-]. split; [reflexivity|]. cbn [set_stat rd_stat]. apply andb_false_r.
Qed.
Theorem C40_random_raw1_raises :
  forall hw s s' e, rd_random_raw1 hw s = Some (s', Raise e) -> e = RuntimeErr /\ rd_stat s' = false.
Proof.
  intros hw s s' e. unfold rd_random_raw1. destruct (rd_next64 hw s) as [[[t v] st]|]; [|discriminate].
  destruct st; [discriminate|]. intros [= <- <-]. split; reflexivity.
Qed.
Theorem C40_random_raw_no_output_raises :
  forall hw n s s' e, rd_random_raw_none hw n s = Some (s', Raise e) -> e = RuntimeErr /\ rd_stat s' = false.
Proof.
  intros hw n s s' e. unfold rd_random_raw_none. destruct (rr_loop hw n (rd_stat s) s) as [[[t ws] st]|] eqn:E; [|discriminate].
  destruct st; [discriminate|]. intros [= <- <-]. split; [reflexivity|]. cbn [set_stat rd_stat]. apply andb_false_r.
Qed.
Theorem C40_random_raw_failure_is_sticky :
  forall hw n s r, rd_stat s = false -> n <> 0%nat -> rd_random_raw hw n s = Some r ->
  snd r = Raise RuntimeErr /\ rd_stat (fst r) = false.
Proof.
  intros hw n s r H Hn. unfold rd_random_raw. destruct (rr_loop hw n true s) as [[[t ws] st]|] eqn:E; [|discriminate].
  apply rr_loop_spec in E. destruct E as (_ & _ & _ & _ & _ & E6 & _ & E8). intros [= <-]. cbn [fst snd set_stat rd_stat].
  destruct st; [destruct (E6 eq_refl) as (_ & _ & _ & K); specialize (K Hn); congruence|]. split; [reflexivity|]. apply andb_false_r.
Qed.
Theorem C40_random_raw_no_output :
  forall hw n s s', rd_random_raw_none hw n s = Some (s', Ok tt) ->
  List.length (reads hw (rd_pos s) (rd_pos s')) = n /\ rd_stat s = true /\ rd_stat s' = true.
Proof.
  intros hw n s s'. unfold rd_random_raw_none. destruct (rr_loop hw n (rd_stat s) s) as [[[t ws] st]|] eqn:E; [|discriminate].
  apply rr_loop_spec in E. destruct E as (_ & _ & _ & _ & E5 & E6 & _). destruct st; [|discriminate]. intros [= <-].
  destruct (E6 eq_refl) as (G1 & G2 & G3 & _). cbn [rd_pos rd_stat set_stat]. rewrite <- G2, G3, G1. repeat split; assumption.
Qed.
(* each value costs at most retries + 1 executions of the instruction, for
   every retry setting below INT_MAX *)
Theorem C40_random_raw_terminates :
  forall hw n s, (rd_retries s < 2 ^ 31 - 1)%Z ->
  exists s' r, rd_random_raw hw n s = Some (s', r) /\ rd_pos s <= rd_pos s' <= rd_pos s + N.of_nat (n * Z.to_nat (rd_retries s + 1)).
Proof.
  intros hw n s R. unfold rd_random_raw. destruct (rr_loop_total hw n true s R) as [[[t ws] st] E]. rewrite E.
  apply rr_loop_spec in E. destruct E as (_ & _ & _ & E4 & _). do 2 eexists. split; [reflexivity|]. exact E4.
Qed.
(* with retries = INT_MAX, which the documentation allows, the retry counter
   overflows when the hardware fails long enough *)
Theorem C40_max_retries_refuted :
  exists hw s, rd_retries s = (2 ^ 31 - 1)%Z /\ rd_random_raw1 hw s = None.
Proof.
  exists (fun _ => None), (rd_new (2 ^ 31 - 1)). split; [reflexivity|]. unfold rd_random_raw1, rd_next64, read1.
  cbn [rd_retries rd_new]. destruct (attempt _ _ _) as [p [v|]] eqn:E; [|reflexivity]. exfalso.
  apply attempt_spec in E. destruct E as [_ E]. unfold reads in E.
  assert (G : forall k q, hreads (fun _ => None) k q = []) by (induction k as [|k IH]; intros q; [reflexivity|apply IH]).
  rewrite G in E. discriminate.
Qed.

(* ----------------------------------------------- through a Generator call *)
(* a call that starts with good status and returns normally delivered hardware
   values only, in order and without loss: what was unread, then what was read *)
Theorem C40_generator_values :
  forall hw n s s' vs, rd_ok s -> rd_stat s = true -> rd_call hw n s = Some (s', Ok vs) ->
  rd_ok s' /\ rd_stat s' = true /\ List.length vs = n /\ (vs ++ unread s' = unread s ++ reads hw (rd_pos s) (rd_pos s'))%list.
Proof.
  intros hw n s s' vs O H. unfold rd_call. destruct (rd_draws hw n s) as [[[t ws] e]|] eqn:E; [|discriminate].
  destruct e; [discriminate|]. intros [= <- <-]. apply (rd_draws_spec hw n _ _ _ _ O) in E.
  destruct E as (E1 & E2 & E3 & E4 & E5 & _). destruct (E5 eq_refl) as [E6 E7]. repeat split; try apply E1; congruence.
Qed.
(* from construction on: the values delivered by any number of such calls are
   the first successful hardware reads *)
Fixpoint rd_calls (hw : N -> option N) (ns : list nat) (s : rdrand) : option (rdrand * list N) :=
  match ns with
  | [] => Some (s, [])
  | n :: ns => match rd_call hw n s with
               | Some (s, Ok vs) => match rd_calls hw ns s with Some (s, ws) => Some (s, vs ++ ws)%list | None => None end
               | _ => None end
  end.
Theorem C40_generator_history :
  forall hw ns retries s' vs, rd_calls hw ns (rd_new retries) = Some (s', vs) ->
  (vs ++ unread s' = reads hw 0 (rd_pos s'))%list.
Proof.
  intros hw ns retries s' vs.
  assert (G : forall ns s s' vs, rd_ok s -> rd_stat s = true -> rd_calls hw ns s = Some (s', vs) ->
     rd_pos s <= rd_pos s' /\ (vs ++ unread s' = unread s ++ reads hw (rd_pos s) (rd_pos s'))%list).
  { clear. induction ns as [|n ns IH]; intros s s' vs O H; cbn [rd_calls].
    - intros [= <- <-]. rewrite reads_nil, app_nil_r. split; [lia|reflexivity].
    - destruct (rd_call hw n s) as [[t [ws|]]|] eqn:E; try discriminate.
      destruct (rd_calls hw ns t) as [[t' us]|] eqn:F; [|discriminate]. intros [= <- <-].
      destruct (C40_generator_values _ _ _ _ _ O H E) as (E1 & E2 & _ & E4). destruct (IH _ _ _ E1 E2 F) as [F1 F2].
      assert (P : rd_pos s <= rd_pos t).
      { unfold rd_call in E. destruct (rd_draws hw n s) as [[[x y] z]|] eqn:D; [|discriminate]. apply (rd_draws_spec hw n _ _ _ _ O) in D. injection E as <- _. apply D. }
      split; [lia|]. rewrite <- app_assoc, F2, app_assoc, E4, <- app_assoc. f_equal. symmetry. apply reads_app; assumption. }
  intros E. destruct (G ns (rd_new retries) s' vs) as [_ K]; [split; [reflexivity|split; [discriminate|apply Z.leb_le; reflexivity]]|reflexivity|exact E|].
  rewrite K. reflexivity.
Qed.
(* RuntimeError is raised only for a real failure: retries + 1 reads in a row
   failed *)
Theorem C40_generator_raises :
  forall hw n s s' e, rd_ok s -> rd_call hw n s = Some (s', Raise e) ->
  e = RuntimeErr /\ rd_stat s' = false /\ exists p, rd_pos s <= p /\ p + N.of_nat (Z.to_nat (rd_retries s + 1)) <= rd_pos s'
    /\ forall q, p <= q < p + N.of_nat (Z.to_nat (rd_retries s + 1)) -> hw q = None.
Proof.
  intros hw n s s' e O. unfold rd_call. destruct (rd_draws hw n s) as [[[t ws] b]|] eqn:E; [|discriminate].
  destruct b; [|discriminate]. intros [= <- <-]. apply (rd_draws_spec hw n _ _ _ _ O) in E.
  destruct E as (_ & _ & _ & _ & _ & E). destruct (E eq_refl) as (_ & E1 & E2). repeat split; assumption.
Qed.
(* no undefined behaviour in calls of up to 256 draws that start with good status *)
Theorem C40_generator_safe_partial :
  forall hw n s, rd_ok s -> rd_stat s = true -> (rd_retries s < 2 ^ 31 - 1)%Z -> (n <= 256)%nat -> rd_call hw n s <> None.
Proof.
  intros hw n s O H R Hn. unfold rd_call. destruct (rd_draws_total hw n s O R H Hn) as [[[t ws] e] ->]. discriminate.
Qed.
(* After a failure: every later call returns without an error what is left in
   the buffer, and the draw after the end of the buffer reads outside it. *)
Theorem C40_after_failure :
  forall hw n s, rd_ok s -> rd_stat s = false ->
  rd_call hw n s = if (rd_loc s + Z.of_nat n <=? 256)%Z
                   then Some (RD (rd_buf s) (rd_loc s + Z.of_nat n) false (rd_retries s) (rd_pos s), Ok (firstn n (unread s)))
                   else None.
Proof. intros hw n s O H. unfold rd_call. rewrite (rd_draws_failed hw n s O H). destruct (_ <=? 256)%Z; reflexivity. Qed.
(* _reset after a failure: the next call delivers values read from the hardware after
   it, none of the fallback values left in the buffer *)
Theorem C40_reset :
  forall hw n s s' vs, rd_ok s -> rd_stat s = false -> rd_call hw n (rd_reset s) = Some (s', Ok vs) ->
  rd_stat s' = true /\ List.length vs = n /\ (vs ++ unread s' = reads hw (rd_pos s) (rd_pos s'))%list.
Proof.
  intros hw n s s' vs [L B] H E. assert (O : rd_ok (rd_reset s)) by (unfold rd_reset; rewrite H; split; [exact L|split; cbn; [discriminate|apply Z.leb_le; reflexivity]]).
  assert (T : rd_stat (rd_reset s) = true) by (unfold rd_reset; now rewrite H).
  destruct (C40_generator_values hw n _ _ _ O T E) as (_ & E1 & E2 & E3). split; [exact E1|]. split; [exact E2|]. rewrite E3.
  unfold rd_reset, unread. rewrite H. cbn [rd_loc rd_buf rd_pos]. change (Z.to_nat 256) with 256%nat. rewrite skipn_all2 by (rewrite L; reflexivity). reflexivity.
Qed.
Theorem C40_reset_good : forall s, rd_stat s = true -> rd_reset s = s.
Proof. intros s H. unfold rd_reset. now rewrite H. Qed.
Example C40_reset_case : forall t,
  let s := RD (repeat 5 256) 3 false 0 9 in rd_ok s /\ rd_stat s = false /\ rd_call (fun _ => Some t) 1 (rd_reset s) <> None.
Proof. intros t s. split; [split; [reflexivity|split; cbn; [discriminate|apply Z.leb_le; reflexivity]]|]. split; [reflexivity|]. vm_compute. discriminate. Qed.
(* the saved state shows every field *)
Theorem C18_rdrand_saved : forall s,
  getitem (rd_get s) "status" = Ok (bool_int (rd_stat s)) /\ getitem (rd_get s) "retries" = Ok (PInt (rd_retries s)) /\
  getitem (rd_get s) "buffer_loc" = Ok (PInt (rd_loc s)) /\ getitem (rd_get s) "buffer" = Ok (PArr 64 (rd_buf s)).
Proof. repeat split. Qed.
(* one call of more than 256 draws, of which a refill fails, reads out of
   bounds before the error can be raised *)
Theorem C40_out_of_bounds_refuted :
  exists hw n s, rd_ok s /\ rd_stat s = true /\ rd_retries s = 10%Z /\ rd_call hw n s = None.
Proof.
  exists (fun _ => None), 257%nat, (rd_new 10). split; [split; [reflexivity|split; [discriminate|apply Z.leb_le; reflexivity]]|].
  split; [reflexivity|]. split; [reflexivity|]. vm_compute. reflexivity.
Qed.
(* values that did not come from the hardware are returned, without an error,
   by the calls after the failing one *)
Theorem C40_fallback_values_refuted :
  exists hw s, rd_ok s /\ rd_stat s = true /\ (forall p, hw p = None) /\
  exists s1 s2 vs, rd_call hw 1 s = Some (s1, Raise RuntimeErr) /\ rd_call hw 2 s1 = Some (s2, Ok vs) /\ vs = [4354685564936845354; 15755400384260043839].
Proof.
  exists (fun _ => None), (rd_new 0). split; [split; [reflexivity|split; [discriminate|apply Z.leb_le; reflexivity]]|].
  split; [reflexivity|]. split; [reflexivity|]. do 3 eexists. split; [vm_compute; reflexivity|]. split; [vm_compute; reflexivity|reflexivity].
Qed.
Example C40_case : rd_ok (rd_new 10) /\ rd_stat (rd_new 10) = true
  /\ rd_random_raw (fun i => if N.even i then None else Some (i * i)) 3 (rd_new 1) = Some (RD (rd_buf (rd_new 1)) 256 true 1 6, Ok [1; 9; 25])
  /\ option_map snd (rd_call (fun i => if N.even i then None else Some (i * i)) 3 (rd_new 1)) = Some (Ok [1; 9; 25])
  /\ option_map snd (rd_call (fun i => if N.even i then None else Some (i * i)) 3 (rd_new 0)) = Some (Raise RuntimeErr).
Proof. split; [split; [reflexivity|split; [discriminate|apply Z.leb_le; reflexivity]]|]. split; [reflexivity|]. split; [vm_compute; reflexivity|]. split; vm_compute; reflexivity. Qed.

(* -------------------------------------------------------------- C18, C19 *)
(* the setter restores the number of retries only, as documented, and is all or
   nothing *)
Theorem C18_rdrand_restore :
  forall s t, (- 2 ^ 31 <= rd_retries s < 2 ^ 31)%Z ->
  rd_set (rd_get s) t = (RD (rd_buf t) (rd_loc t) (rd_stat t) (rd_retries s) (rd_pos t), Ok tt).
Proof.
  intros s t H. unfold rd_set, bind, lift, modify. 
  replace (to_cint (PInt (rd_retries s))) with (Ok (rd_retries s)) by (unfold to_cint; destruct (_ && _)%bool eqn:E; [reflexivity|exfalso; apply andb_false_iff in E; lia]).
  cbn -[to_cint]. unfold to_cint. destruct ((- 2 ^ 31 <=? rd_retries s) && (rd_retries s <? 2 ^ 31))%Z eqn:E; [reflexivity|apply andb_false_iff in E; lia].
Qed.
Theorem C19_rdrand_set_atomic : atomic rd_set.
Proof. intros v. unfold rd_set. atomic_tac. Qed.
(* a constructor argument that jumped does not pass on *)
Theorem C17_rdrand_jumped_retries_refuted : exists s, rd_retries (rd_jumped s) <> rd_retries s.
Proof. exists (rd_new 100). discriminate. Qed.

Print Assumptions C40_random_raw_values.
Print Assumptions C40_random_raw1_value.
Print Assumptions C40_random_raw_raises.
Print Assumptions C40_random_raw1_raises.
Print Assumptions C40_random_raw_no_output_raises.
Print Assumptions C40_random_raw_failure_is_sticky.
Print Assumptions C40_random_raw_no_output.
Print Assumptions C40_random_raw_terminates.
Print Assumptions C40_max_retries_refuted.
Print Assumptions C40_generator_values.
Print Assumptions C40_generator_history.
Print Assumptions C40_generator_raises.
Print Assumptions C40_generator_safe_partial.
Print Assumptions C40_after_failure.
Print Assumptions C40_reset.
Print Assumptions C40_reset_good.
Print Assumptions C18_rdrand_saved.
Print Assumptions C40_out_of_bounds_refuted.
Print Assumptions C40_fallback_values_refuted.
Print Assumptions C18_rdrand_restore.
Print Assumptions C19_rdrand_set_atomic.
Print Assumptions C17_rdrand_jumped_retries_refuted.
