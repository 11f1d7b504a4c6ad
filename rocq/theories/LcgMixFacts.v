(* LCG128Mix: advance, state save/restore. *)
From Verif Require Import Word Common Buffer32 Lcg Py Pcg PcgFacts.
From Coq Require Import String ZifyBool ZifyNat ZifyN.
Open Scope N_scope.

Definition lcg_wf (s : lcgpy) : Prop :=
  let c := core (lb s) in
  wf 128 (l_state c) /\ wf 128 (l_inc c) /\ wf 128 (l_mult c) /\ wf 64 (l_dxsm c) /\ wf 32 (u32 (lb s)).
(* what the constructor establishes: the Python attribute _cfunc says whether a
   user function is in use *)
Definition lcg_out_ok (s : lcgpy) : Prop :=
  let c := core (lb s) in
  match py_cfunc s with
  | Some f => l_out c = (-1)%Z /\ l_func c = f
  | None => (0 <= l_out c <= 4)%Z
  end.

Section Facts.
  Context (cfun : N -> N -> N -> N).
  Definition lcg_draw (s : lcgpy) : lcgpy :=
    LPy (fst (b_next64 (lcg_next cfun) (lb s))) (py_mult s) (py_cfunc s).

  Lemma lcg_draws n : forall s, N.iter n lcg_draw s =
    let c := core (lb s) in
    LPy (Buf (LC (N.iter n (lcg_step 128 (l_mult c) (l_inc c)) (l_state c)) (l_inc c) (l_mult c)
                 (l_dxsm c) (l_post c) (l_out c) (l_func c)) (has32 (lb s)) (u32 (lb s)))
        (py_mult s) (py_cfunc s).
  Proof.
    induction n as [|n IH] using N.peano_ind; intros [[[st inc mu dm po o f] h u] pm cf]; [reflexivity|].
    cbn zeta in *. rewrite !N.iter_succ, IH. reflexivity.
  Qed.
  Definition lcg_reset (s : lcgpy) : lcgpy := LPy (reset32 (lb s)) (py_mult s) (py_cfunc s).
  Lemma lcg_adv_draws delta s : lcg_wf s ->
    lcg_adv delta s = lcg_reset (N.iter (ndraws 128 delta) lcg_draw s).
  Proof.
    intros (Hs & _). rewrite lcg_draws. unfold lcg_adv, lcg_reset, reset32, lcg_adv_core.
    rewrite <- lor_shift, split128.
    - rewrite wrap_int_mod, lcg_advance_iter by exact Hs. reflexivity.
    - exact (wrap_int_range delta 128).
    - unfold wf. change (2 ^ 64) with (Z.to_N (2 ^ 64)%Z).
      apply Z2N.inj_lt; try lia; apply Z.mod_pos_bound; lia.
  Qed.
  Lemma lcg_wf_draws n s : lcg_wf s -> lcg_wf (N.iter n lcg_draw s).
  Proof. intros (H1 & H2 & H3 & H4 & H5). rewrite lcg_draws. repeat split; cbn; auto. now apply lcg_iter_wf. Qed.
  Lemma lcg_wf_reset s : lcg_wf s -> lcg_wf (lcg_reset s).
  Proof. intros (H1 & H2 & H3 & H4 & H5). repeat split; cbn; auto. Qed.
  Lemma lcg_draws_mod n s : lcg_wf s -> N.odd (l_mult (core (lb s))) = true ->
    N.iter n lcg_draw s = N.iter (n mod 2 ^ 128) lcg_draw s.
  Proof.
    intros (H1 & _) Ho. rewrite !lcg_draws. cbn zeta. rewrite (lcg_iter_mod 128) by assumption. reflexivity.
  Qed.
  Lemma lcg_adv_add a b s : lcg_wf s -> N.odd (l_mult (core (lb s))) = true ->
    lcg_adv b (lcg_adv a s) = lcg_adv (a + b) s.
  Proof.
    intros H Ho. rewrite (lcg_adv_draws a), (lcg_adv_draws (a + b)) by exact H.
    rewrite lcg_adv_draws by now apply lcg_wf_reset, lcg_wf_draws.
    transitivity (lcg_reset (N.iter (ndraws 128 b) lcg_draw (N.iter (ndraws 128 a) lcg_draw s))).
    - now rewrite !lcg_draws.
    - rewrite <- Niter_add, lcg_draws_mod, ndraws_add by assumption. reflexivity.
  Qed.
  Lemma lcg_jump_spec iter s : lcg_wf s ->
    lcg_jump_inplace iter s = lcg_adv (iter * 210306068529402873165736369884012333108) s.
  Proof.
    intros H. unfold lcg_jump_inplace. rewrite !lcg_adv_draws by exact H.
    do 2 f_equal. unfold ndraws. f_equal.
    change (2 ^ Z.of_N 128)%Z with (2 ^ 128)%Z.
    rewrite <- Z.mod_eq, Z.mod_mod by discriminate. f_equal. unfold PCG64_JUMP. ring.
  Qed.

  (* the user-visible outputs ignore l_func unless a user function is active *)
  Definition same_but_func (a b : buffered lcgc) : Prop :=
    has32 a = has32 b /\ u32 a = u32 b /\
    let x := core a in let y := core b in
    l_state x = l_state y /\ l_inc x = l_inc y /\ l_mult x = l_mult y /\ l_dxsm x = l_dxsm y /\
    l_post x = l_post y /\ l_out x = l_out y /\ (l_out x = (-1)%Z -> l_func x = l_func y).
  Lemma same_step a b : same_but_func a b ->
    let '(a', va) := b_next64 (lcg_next cfun) a in
    let '(b', vb) := b_next64 (lcg_next cfun) b in va = vb /\ same_but_func a' b'.
  Proof.
    destruct a as [[st inc mu dm po o f] h u], b as [[st' inc' mu' dm' po' o' f'] h' u'].
    intros (Hh & Hu & H). cbn in Hh, Hu, H. subst h' u'. destruct H as (-> & -> & -> & -> & -> & -> & Hf).
    unfold b_next64, lcg_next, lcg_output, lcg_step1. cbn.
    split; [|repeat split; cbn; auto].
    destruct o' as [|[[?|?|]|[[?|?|]|?|]|]|[?|?|]]; cbn; auto.
    rewrite Hf; auto.
  Qed.
  Lemma same_run rs : forall a b, same_but_func a b ->
    snd (run (lcg_next cfun) rs a) = snd (run (lcg_next cfun) rs b).
  Proof.
    induction rs as [|r rs IH]; intros a b H; [reflexivity|].
    cbn [run]. pose proof (same_step a b H) as Hstep.
    assert (Hd : let '(a', va) := b_next32 (lcg_next cfun) a in
                 let '(b', vb) := b_next32 (lcg_next cfun) b in va = vb /\ same_but_func a' b').
    { unfold b_next32. unfold b_next64 in Hstep. destruct H as (Hh & Hu & H).
      rewrite Hh. destruct (has32 b) eqn:E.
      - split; [exact Hu|]. split; [reflexivity|split; [exact Hu|exact H]].
      - destruct (lcg_next cfun (core a)) as [ca va], (lcg_next cfun (core b)) as [cb vb].
        destruct Hstep as [-> (_ & _ & Hc)]. split; [reflexivity|].
        split; [reflexivity|split; [reflexivity|exact Hc]]. }
    destruct r.
    - destruct (b_next32 _ a) as [a' va], (b_next32 _ b) as [b' vb]. destruct Hd as [-> Hs].
      specialize (IH _ _ Hs).
      destruct (run _ rs a'), (run _ rs b'). cbn in *. congruence.
    - destruct (b_next64 _ a) as [a' va], (b_next64 _ b) as [b' vb]. destruct Hstep as [-> Hs].
      specialize (IH _ _ Hs).
      destruct (run _ rs a'), (run _ rs b'). cbn in *. congruence.
  Qed.
End Facts.

Lemma post_bool (b : bool) : ((if b then 1 else 0) =? 1)%Z = b.
Proof. destruct b; reflexivity. Qed.

(* What assigning the saved state of s to t leaves in t *)
Lemma lcg_set_get s t : lcg_wf s -> lcg_out_ok s ->
  lcg_set (lcg_get s) t =
  (let c := core (lb s) in
   LPy (Buf (LC (l_state c) (l_inc c) (l_mult c) (l_dxsm c) (l_post c) (l_out c)
                (match py_cfunc s with Some f => f | None => l_func (core (lb t)) end))
            (has32 (lb s)) (u32 (lb s)))
       (py_mult t) (match py_cfunc s with Some f => Some f | None => py_cfunc t end), Ok tt).
Proof.
  destruct s as [[[st inc mu dm po o f] h u] pm cf]. intros (H1 & H2 & H3 & H4 & H5) Ho. cbn in *.
  unfold lcg_set. repeat (pyrun; try rewrite np_u128_ok by assumption).
  destruct cf as [g|]; cbn in Ho.
  - destruct Ho as [-> ->]. repeat (pyrun; try rewrite post_bool). reflexivity.
  - assert (o = 0 \/ o = 1 \/ o = 2 \/ o = 3 \/ o = 4)%Z as D by lia.
    destruct D as [->|[->|[->|[->| ->]]]]; repeat (pyrun; try rewrite post_bool); reflexivity.
Qed.

Lemma lcg_restored_stream cfun s t rs : lcg_wf s -> lcg_out_ok s ->
  snd (run (lcg_next cfun) rs (lb (fst (lcg_set (lcg_get s) t)))) = snd (run (lcg_next cfun) rs (lb s)).
Proof.
  intros Hw Ho. rewrite lcg_set_get by assumption. apply same_run.
  unfold lcg_out_ok in Ho. destruct s as [[[st inc mu dm po o f] h u] pm cf]. cbn in *.
  repeat split. cbn. intros ->. destruct cf; cbn in Ho; [now destruct Ho|lia].
Qed.
Lemma lcg_save_again s t : lcg_wf s -> lcg_out_ok s ->
  (py_cfunc s <> None \/ py_cfunc t = None) ->
  lcg_get (fst (lcg_set (lcg_get s) t)) = lcg_get s.
Proof.
  intros Hw Ho Ht. rewrite lcg_set_get by assumption.
  destruct s as [[[st inc mu dm po o f] h u] pm cf]. cbn in *.
  destruct cf; cbn; [reflexivity|]. destruct Ht as [Ht| ->]; [congruence|reflexivity].
Qed.
Lemma lcg_restore_py_mult s t : lcg_wf s -> lcg_out_ok s ->
  py_mult (fst (lcg_set (lcg_get s) t)) = py_mult t.
Proof. intros. now rewrite lcg_set_get. Qed.

(* the object that jumped has before the jump *)
Definition lcg_copy (s : lcgpy) : lcgpy :=
  let c := core (lb s) in
  LPy (Buf (LC (l_state c) (l_inc c) (l_mult c) (l_dxsm c) (l_post c) (l_out c)
               (match py_cfunc s with Some f => f | None => 0 end))
           (has32 (lb s)) (u32 (lb s)))
      PCG_DEFAULT_MULT (py_cfunc s).
Lemma lcg_jumped_eq iter i q s : lcg_wf s -> lcg_out_ok s ->
  lcg_jumped iter i q s = (lcg_jump_inplace iter (lcg_copy s), Ok tt).
Proof.
  intros Hw Ho. unfold lcg_jumped, bind. rewrite lcg_set_get by assumption. unfold modify.
  unfold lcg_copy. destruct (py_cfunc s); reflexivity.
Qed.
Lemma lcg_wf_copy s : lcg_wf s -> lcg_wf (lcg_copy s).
Proof. intros (H1 & H2 & H3 & H4 & H5). repeat split; assumption. Qed.
Lemma lcg_jumped_spec (iter : Z) i q s : lcg_wf s -> lcg_out_ok s ->
  snd (lcg_jumped iter i q s) = Ok tt /\
  lcg_get (fst (lcg_jumped iter i q s)) = lcg_get (lcg_adv (iter * 210306068529402873165736369884012333108) s) /\
  forall cfun rs, snd (run (lcg_next cfun) rs (lb (fst (lcg_jumped iter i q s)))) =
                  snd (run (lcg_next cfun) rs (lb (lcg_adv (iter * 210306068529402873165736369884012333108) s))).
Proof.
  intros Hw Ho. rewrite lcg_jumped_eq by assumption. cbn [fst snd].
  rewrite (lcg_jump_spec (fun _ _ _ => 0)) by (apply lcg_wf_copy; exact Hw).
  set (d := (iter * _)%Z). clearbody d.
  split; [reflexivity|]. unfold lcg_out_ok in Ho. destruct s as [[[st inc mu dm po o f] h u] pm cf]. cbn in Ho.
  split; [reflexivity|]. intros cfun rs. apply same_run.
  repeat split. cbn. intros ->. destruct cf; [symmetry; apply Ho|lia].
Qed.
Lemma lcg_jumped_add a b i q i' q' i'' q'' s : lcg_wf s -> lcg_out_ok s -> N.odd (l_mult (core (lb s))) = true ->
  fst (lcg_jumped b i q (fst (lcg_jumped a i' q' s))) = fst (lcg_jumped (a + b) i'' q'' s).
Proof.
  intros Hw Ho Hodd. rewrite (lcg_jumped_eq a), (lcg_jumped_eq (a + b)) by assumption. cbn [fst].
  set (r := lcg_copy s).
  assert (Wr : lcg_wf r) by (apply lcg_wf_copy; exact Hw).
  assert (Or : lcg_out_ok r).
  { unfold lcg_out_ok in *. subst r. cbn. destruct (py_cfunc s); [split; [apply Ho|reflexivity]|exact Ho]. }
  rewrite (lcg_jump_spec (fun _ _ _ => 0) a), (lcg_jump_spec (fun _ _ _ => 0) (a + b)) by exact Wr.
  rewrite Z.mul_add_distr_r, <- (lcg_adv_add (fun _ _ _ => 0)) by assumption.
  set (d := (a * _)%Z). set (K := 210306068529402873165736369884012333108%Z).
  assert (Wd : lcg_wf (lcg_adv d r)).
  { rewrite (lcg_adv_draws (fun _ _ _ => 0)) by exact Wr. apply lcg_wf_reset, lcg_wf_draws, Wr. }
  assert (Od : lcg_out_ok (lcg_adv d r)) by exact Or.
  rewrite lcg_jumped_eq by assumption. cbn [fst].
  rewrite (lcg_jump_spec (fun _ _ _ => 0) b) by (apply lcg_wf_copy; exact Wd). fold K. f_equal.
Qed.
