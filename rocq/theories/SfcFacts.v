(* Facts about SFC64 *)
From Verif Require Import Word Arr Buffer32 Py Half Lcg Sfc.
From Coq Require Import String ZifyBool ZifyNat ZifyN.
Open Scope N_scope.
Ltac Zify.zify_post_hook ::= idtac.

Definition sf_ok (s : sfc) : Prop := wf 64 (sf_a s) /\ wf 64 (sf_b s) /\ wf 64 (sf_c s) /\ wf 64 (sf_w s) /\ wf 64 (sf_k s).
Definition sfpy_ok (b : sfcpy) : Prop := sf_ok (core b) /\ wf 32 (u32 b).
Notation sfc_step := (cstep sfc_next).

Lemma sfc_next_ok s : sf_ok s -> sf_ok (fst (sfc_next s)) /\ wf 64 (snd (sfc_next s)).
Proof.
  intros (A & B & C & D & E). unfold sfc_next, sf_ok. cbn.
  refine (conj (conj _ (conj _ (conj _ (conj _ E)))) _); try apply wf_wadd.
  apply wf_lxor; [exact B|now apply wf_shr].
Qed.
Lemma sfc_step_ok s : sf_ok s -> sf_ok (sfc_step s).
Proof. intros H. apply sfc_next_ok, H. Qed.
(* x + (x << 3) = 9 x *)
Lemma shl3_add x : wadd 64 x (wshl 64 x 3) = wmul 64 9 x.
Proof.
  unfold wadd, wshl, wmul. rewrite N.add_mod_idemp_r by apply pow2_nz. f_equal. rewrite N.shiftl_mul_pow2. change (2 ^ 3) with 8. clear. lia.
Qed.
Lemma sfc_step_inj s t : sf_ok s -> sf_ok t -> sfc_step s = sfc_step t -> s = t.
Proof.
  destruct s as [a b c w k], t as [a' b' c' w' k']. intros (A & B & C & D & E) (A' & B' & C' & D' & E'). cbn [sf_a sf_b sf_c sf_w sf_k] in *.
  unfold cstep, sfc_next. cbn [sf_a sf_b sf_c sf_w sf_k fst]. rewrite !shl3_add. intros H. injection H as H1 H2 H3 H4 H5.
  subst k'. apply wadd_inj_r in H4; [|assumption|assumption]. subst w'.
  assert (b = b') by (revert H1; apply xsr_inj; reflexivity). subst b'.
  assert (c = c') by (revert H2; apply odd_mul_inj; [reflexivity|assumption|assumption]). subst c'.
  apply wadd_inj_l in H3; [|apply wf_wadd|apply wf_wadd]. apply wadd_inj_r in H3; [|apply wf_wadd|apply wf_wadd].
  apply wadd_inj_r in H3; [|assumption|assumption]. now subst.
Qed.
Lemma sfc_iter_ok n s : sf_ok s -> sf_ok (N.iter n sfc_step s).
Proof. intros H. apply Niter_inv; [exact sfc_step_ok|exact H]. Qed.
Lemma sfc_iter_inj n s t : sf_ok s -> sf_ok t -> N.iter n sfc_step s = N.iter n sfc_step t -> s = t.
Proof. apply (Niter_inj sf_ok); [exact sfc_step_ok|exact sfc_step_inj]. Qed.

(* the Weyl counter *)
Lemma sfc_iter_k n s : sf_k (N.iter n sfc_step s) = sf_k s.
Proof. apply (Niter_inv (fun x => sf_k x = sf_k s)); [intros x Hx; exact Hx|reflexivity]. Qed.
Lemma sfc_iter_w n s : sf_w (N.iter n sfc_step s) = N.iter n (lcg_step 64 1 (sf_k s)) (sf_w s).
Proof.
  induction n as [|n IH] using N.peano_ind; [reflexivity|]. rewrite !N.iter_succ, <- IH.
  unfold lcg_step. rewrite N.mul_1_r. rewrite <- (sfc_iter_k n s). reflexivity.
Qed.
Lemma sfc_return n s : sf_ok s -> N.odd (sf_k s) = true -> N.iter n sfc_step s = s -> n mod 2 ^ 64 = 0.
Proof.
  intros (_ & _ & _ & W & _) K H. apply (lcg_period 64 1 (sf_k s) (sf_w s) n); [reflexivity|exact K|exact W|].
  now rewrite <- sfc_iter_w, H.
Qed.
Lemma sfc_meet i j s t : sf_ok s -> sf_ok t -> N.odd (sf_k s) = true -> sf_w s = sf_w t ->
  i < 2 ^ 64 -> j < 2 ^ 64 -> N.iter i sfc_step s = N.iter j sfc_step t -> i = j /\ s = t.
Proof.
  intros Hs Ht K W Hi Hj H. assert (E : sf_k s = sf_k t) by now rewrite <- (sfc_iter_k i s), H, sfc_iter_k.
  assert (i = j) as <-.
  { rewrite <- (N.mod_small i (2 ^ 64) Hi), <- (N.mod_small j (2 ^ 64) Hj). apply (lcg_states_distinct 64 1 (sf_k s) (sf_w s)); [reflexivity|exact K|apply Hs|].
    rewrite E at 2. rewrite W at 2. rewrite <- !sfc_iter_w, H. reflexivity. }
  split; [reflexivity|]. now apply (sfc_iter_inj i).
Qed.

(* ------------------------------------------------------------- state dicts *)
Lemma sfc_set_get s t : sfpy_ok s -> sfc_set (sfc_get s) t = (s, Ok tt).
Proof.
  intros [(A & B & C & D & E) U]. destruct s as [[a b c w k] h u]. cbn [core sf_a sf_b sf_c sf_w sf_k u32] in *.
  unfold sfc_set, sfc_get. cbn [core has32 u32 sf_a sf_b sf_c sf_w sf_k]. pyrun.
  rewrite (set_half_run _ h u) by (try reflexivity; exact U). reflexivity.
Qed.
