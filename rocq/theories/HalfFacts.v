(* Facts for PropHalf.v: every generator that keeps a 32-bit half gives outputs below
   2^64 and stays within its well-formed states; the half buffer over a step that can
   go out of bounds. *)
From Verif Require Import Word Arr Buffer32 OptBuffer Lcg Pcg Xoshiro XoshiroLin XoshiroFacts Xorshift1024Facts LaneCtr AesPy Speck MultiWord Ctr Blocks CtrPy CtrFacts CtrDraw.
From Coq Require Import ZifyBool ZifyNat ZifyN.
Open Scope N_scope.
Ltac Zify.zify_post_hook ::= idtac.

(* n draws of the 64-bit step *)
Fixpoint odraws {A} (next : A -> option (A * N)) (n : nat) (a : A) : option (A * list N) :=
  match n with
  | O => Some (a, [])
  | S n => match next a with
           | None => None
           | Some (a1, v) => match odraws next n a1 with None => None | Some (a2, vs) => Some (a2, v :: vs) end
           end
  end.
Lemma orun_spec {A} (next : A -> option (A * N)) (Inv : A -> Prop) :
  (forall a, Inv a -> exists a' v, next a = Some (a', v) /\ Inv a' /\ wf 64 v) ->
  forall rs b, Inv (core b) -> exists n b' vs a ws,
  orun next rs b = Some (b', vs) /\ odraws next n (core b) = Some (a, ws) /\
  spec rs (queue b) ws = Some (queue b', vs, []) /\ core b' = a.
Proof.
  intros G rs b I. destruct (orun_run next Inv G rs b I) as [E _].
  destruct (run_spec (tot next) Inv (tot_ok next Inv G) rs b I) as [n H].
  assert (D : forall n s, Inv s -> odraws next n s = Some (raws (tot next) n s)).
  { clear - G. induction n as [|n IH]; intros s I; [reflexivity|]. cbn [odraws raws]. destruct (G s I) as (s1 & v & E & I1 & _).
    unfold tot at 1. rewrite E, (IH s1 I1). destruct (raws (tot next) n s1). reflexivity. }
  destruct (raws (tot next) n (core b)) as [a ws] eqn:R. destruct (run (tot next) rs b) as [b' vs]. cbn [fst snd] in H.
  exists n, b', vs, a, ws. split; [exact E|]. split; [rewrite D by exact I; now rewrite R|exact H].
Qed.

Lemma xoshiro256_ok a : v4_wf a -> v4_wf (fst (xoshiro256_next a)) /\ wf 64 (snd (xoshiro256_next a)).
Proof. intros H. split; [now apply xoshiro256_step_wf|apply wf_wmul]. Qed.
Lemma xoshiro512_ok a : v8_wf a -> v8_wf (fst (xoshiro512_next a)) /\ wf 64 (snd (xoshiro512_next a)).
Proof. intros H. split; [now apply xoshiro512_step_wf|apply wf_wmul]. Qed.
Lemma xoroc_ok a : v2_wf (xo_s a) -> v2_wf (xo_s (fst (xoroc_next a))) /\ wf 64 (snd (xoroc_next a)).
Proof. intros H. split; [exact (xoroc_step_wf a H)|]. cbn [xoroc_next snd]. unfold xoroshiro_out. destruct (xo_pp a); apply wf_wadd. Qed.
Lemma wf_murmur x : wf 64 (murmur_hash3 x).
Proof. unfold murmur_hash3. apply wf_lxor; [apply wf_wmul|apply wf_shr, wf_wmul]. Qed.
Lemma lxm_ok a : lxmc_wf a -> lxmc_wf (fst (lxm_next a)) /\ wf 64 (snd (lxm_next a)).
Proof. intros H. split; [exact (lxm_step_wf a H)|apply wf_murmur]. Qed.
Lemma xs_ok_step a : xs_ok a -> exists a' v, xorshift1024_next a = Some (a', v) /\ xs_ok a' /\ wf 64 v.
Proof.
  intros H. destruct (xs_next_total a H) as (c' & v & E). exists c', v. split; [exact E|]. split.
  - pose proof (xs_draw_ok a H) as O. unfold xs_draw in O. now rewrite E in O.
  - unfold xorshift1024_next in E. destruct (rd (xs_s a) (xs_p a)); [|discriminate]. destruct (rd (xs_s a) (Z.land (xs_p a + 1) 15)); [|discriminate].
    apply (f_equal (option_map snd)) in E. cbn [option_map snd] in E. injection E as <-. apply wf_wmul.
Qed.

Lemma wf_hi64 x : wf 128 x -> wf 64 (hi64 x).
Proof. unfold wf, hi64. intros H. rewrite N.shiftr_div_pow2. apply N.div_lt_upper_bound; [discriminate|exact H]. Qed.
Lemma wf_lo64 x : wf 64 (lo64 x). Proof. apply wf_trunc. Qed.
Lemma wf_xsl_rr h l : wf 64 h -> wf 64 l -> wf 64 (out_xsl_rr h l).
Proof. intros H L. unfold out_xsl_rr, pcg_rotr_64. apply wf_lor; [apply wf_shr; now apply wf_lxor|apply wf_wshl]. Qed.
Lemma wf_dxsm m h l : wf 64 (out_dxsm m h l). Proof. apply wf_wmul. Qed.
Lemma wf_murmur3 h l : wf 64 (out_murmur3 h l).
Proof. unfold out_murmur3. apply wf_lxor; [apply wf_wmul|apply wf_shr, wf_wmul]. Qed.
Definition p64_ok (c : pcg64c) : Prop := wf 128 (p_state c).
Lemma p64_next_ok a : p64_ok a -> p64_ok (fst (p64_next a)) /\ wf 64 (snd (p64_next a)).
Proof.
  intros H. unfold p64_next. assert (S : wf 128 (p_state (p64_step a))) by apply wf_lcg_step.
  destruct (p_var a); cbn [fst snd]; (split; [exact S|]); unfold on_halves; [apply wf_xsl_rr; [now apply wf_hi64|apply wf_lo64]|apply wf_dxsm|apply wf_dxsm].
Qed.
Definition lcg_ok (c : lcgc) : Prop := wf 128 (l_state c).
Lemma lcg_next_ok cfun a : lcg_ok a -> lcg_ok (fst (lcg_next cfun a)) /\ wf 64 (snd (lcg_next cfun a)).
Proof.
  intros H. unfold lcg_next. assert (S : wf 128 (l_state (lcg_step1 a))) by apply wf_lcg_step. cbn [fst snd]. split; [exact S|].
  assert (O : forall x, wf 128 x -> wf 64 (lcg_output cfun a x)).
  { intros x X. unfold lcg_output.
    assert (L : wf 64 (2 ^ 64 - 1)) by reflexivity. pose proof (wf_xsl_rr _ _ (wf_hi64 x X) (wf_lo64 x)) as O0. pose proof (wf_dxsm (l_dxsm a) (hi64 x) (lo64 x)) as O1.
    pose proof (wf_murmur3 (hi64 x) (lo64 x)) as O2. pose proof (wf_hi64 x X) as O3. pose proof (wf_lo64 x) as O4. pose proof (wf_trunc 64 (cfun (l_func a) (hi64 x) (lo64 x))) as O5.
    unfold out_upper, out_lower. destruct (l_out a) as [|p|p]; [exact O0| |]; repeat (destruct p as [p|p|]; try assumption). }
  apply O. destruct (l_post a); assumption.
Qed.

Lemma lstream_wf {K} (enc : K -> N * N -> N * N) k i : (forall p, pwf p -> pwf (enc k p)) -> wf 64 (lstream enc k i).
Proof.
  intros H. unfold lstream. assert (P : pwf (psplit (i / 2))) by apply psplit_wf. apply H in P. destruct P. destruct (i mod 2 =? 0); assumption.
Qed.
Lemma aes_ok_step a : aes_inv a -> exists a' v, aes_next a = Some (a', v) /\ aes_inv a' /\ wf 64 v.
Proof.
  intros H. destruct (aes_next_spec a H) as (s' & E & I & _). exists s', (aes_stream (l_key a) (aes_pos a)). split; [exact E|]. split; [exact I|].
  apply lstream_wf. intros p. apply aes_enc_wf. apply H.
Qed.
Lemma sp_ok_step a : sp_inv a -> exists a' v, sp_next a = Some (a', v) /\ sp_inv a' /\ wf 64 v.
Proof.
  intros H. destruct (sp_next_spec a H) as (s' & E & I & _). exists s', (sp_stream (l_key a) (sp_pos a)). split; [exact E|]. split; [exact I|].
  apply lstream_wf. intros p. apply sp_enc_wf. apply H.
Qed.

(* two 32-bit words put together with | and <<, taken apart again *)
Lemma xsh_rr_wf x : wf 32 (xsh_rr x).
Proof. unfold xsh_rr, pcg_rotr_32. apply wf_lor; [apply wf_shr, wf_trunc|apply wf_wshl]. Qed.
Lemma pair_pieces hf x y : wf 32 x -> wf 32 y -> forall rs vs,
  all_pieces hf (R64 :: rs) ((if hf then N.lor (N.shiftl x 32) y else N.lor (N.shiftl y 32) x) :: vs) = [x; y] ++ all_pieces hf rs vs.
Proof.
  intros X Y rs vs. cbn [all_pieces]. f_equal.
  assert (P : forall a b, wf 32 a -> wf 32 b -> N.lor (N.shiftl a 32) b = a * 2 ^ 32 + b).
  { intros a b A B. rewrite <- (lor_halves a b A B). unfold wshl. f_equal. symmetry. apply N.mod_small. unfold wf in *. rewrite N.shiftl_mul_pow2. change (2 ^ 64) with (2 ^ 32 * 2 ^ 32). nia. }
  assert (D2 : forall a b, wf 32 b -> (a * 2 ^ 32 + b) / 2 ^ 32 = a /\ (a * 2 ^ 32 + b) mod 2 ^ 32 = b).
  { intros a b B. unfold wf in B. rewrite N.div_add_l by discriminate. rewrite (N.div_small b) by exact B. split; [apply N.add_0_r|].
    rewrite N.add_comm, N.mod_add by discriminate. now apply N.mod_small. }
  rewrite !P by assumption. destruct hf; cbn [pieces]; [destruct (D2 x y Y) as [-> ->]|destruct (D2 y x X) as [-> ->]]; reflexivity.
Qed.
