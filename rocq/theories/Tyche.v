(* Tyche: model of src/tyche/tyche.h, src/tyche/tyche.c and tyche.pyx *)
From Verif Require Import Word Arr Py.
From Coq Require Import String ZifyBool ZifyNat ZifyN.
Open Scope N_scope.

(* tyche.h:33-38 *)
Record tyche := Ty { ty_a : N; ty_b : N; ty_c : N; ty_d : N }.
(* tyche.h:46-55 *)
Definition ty_mix (s : tyche) : tyche :=
  let '(Ty a b c d) := s in
  let a := wadd 32 a b in
  let d := rotl 32 (N.lxor d a) 16 in
  let c := wadd 32 c d in
  let b := rotl 32 (N.lxor b c) 12 in
  let a := wadd 32 a b in
  let d := rotl 32 (N.lxor d a) 8 in
  let c := wadd 32 c d in
  let b := rotl 32 (N.lxor b c) 7 in
  Ty a b c d.
(* tyche.h:76-85 *)
Definition ty_mix_openrand (s : tyche) : tyche :=
  let '(Ty a b c d) := s in
  let b := N.lxor (rotl 32 b 7) c in
  let c := wsub 32 c d in
  let d := N.lxor (rotl 32 d 8) a in
  let a := wsub 32 a b in
  let b := N.lxor (rotl 32 b 12) c in
  let c := wsub 32 c d in
  let d := N.lxor (rotl 32 d 16) a in
  let a := wsub 32 a b in
  Ty a b c d.
Definition ty_step (orig : bool) : tyche -> tyche := if orig then ty_mix else ty_mix_openrand.
(* tyche.h:57-60, 87-90: tyche_next returns b, tyche_openrand_next returns a *)
Definition ty_out (orig : bool) (s : tyche) : N := if orig then ty_b s else ty_a s.
(* the object: the state struct, the attribute original, and the variant the
   function pointers of _bitgen were last set up for *)
Record tychepy := TP { tp_s : tyche; tp_orig : bool; tp_fn : bool }.
(* next_uint32, tyche.pyx:117-127 *)
Definition ty_next32 (t : tychepy) : tychepy * N :=
  let s := ty_step (tp_fn t) (tp_s t) in (TP s (tp_orig t) (tp_fn t), ty_out (tp_fn t) s).
(* next_uint64 = next_raw, tyche.h:66-68, 96-99: two calls in one expression;
   lr: the left one, which gives the high half, is made first *)
Definition ty_next64 (lr : bool) (t : tychepy) : tychepy * N :=
  let '(t1, u) := ty_next32 t in
  let '(t2, v) := ty_next32 t1 in
  (t2, if lr then N.lor (wshl 64 u 32) v else N.lor (wshl 64 v 32) u).
(* tyche.c:3-17 (original is 0 or 1) *)
Definition ty_start (seed idx : N) : tyche :=
  Ty (trunc 32 (N.shiftr seed 32)) (N.land seed 0xffffffff) 2654435769 (N.lxor 1367130551 idx).
Definition tyche_seed (orig : bool) (seed idx : N) : tyche := N.iter 20 (ty_step orig) (ty_start seed idx).
(* tyche.pyx:129-141; the three 32-bit words of the seed sequence; idx: None or
   an integer. The function pointers are left alone. *)
Definition ty_seed_from (idx : option Z) (w0 w1 w2 : N) (t : tychepy) : outcome tychepy :=
  let seed := w0 + 2 ^ 32 * w1 in
  match idx with
  | None => Ok (TP (tyche_seed (tp_orig t) seed w2) (tp_orig t) (tp_fn t))
  | Some i => if ((0 <=? i) && (i <=? 2 ^ 32 - 1))%Z
              then Ok (TP (tyche_seed (tp_orig t) seed (Z.to_N i)) (tp_orig t) (tp_fn t))
              else Raise ValueError
  end.
(* __init__, tyche.pyx:109-115 *)
Definition ty_new (orig : bool) (idx : option Z) (w0 w1 w2 : N) : outcome tychepy :=
  obind (ty_seed_from idx w0 w1 w2 (TP (Ty 0 0 0 0) orig orig)) (fun t => Ok (TP (tp_s t) (tp_orig t) (tp_orig t))).

(* tyche.pyx:169-186 *)
Definition ty_get (t : tychepy) : pyval :=
  let s := tp_s t in
  PDict [("bit_generator", PStr "randomgen.tyche.Tyche");
         ("state", PDict [("a", PInt (Z.of_N (ty_a s))); ("b", PInt (Z.of_N (ty_b s))); ("c", PInt (Z.of_N (ty_c s))); ("d", PInt (Z.of_N (ty_d s)));
                          ("original", bool_int (tp_orig t))])]%string.
(* tyche.pyx:188-202 *)
Definition ty_put (a b c d : N) (t : tychepy) : tychepy := TP (Ty a b c d) (tp_orig t) (tp_fn t).
Definition ty_set (v : pyval) : M tychepy unit := (
  lift (preamble "Tyche" "randomgen.tyche.Tyche" v);;
  st <- lift (getitem v "state");;
  o <- lift (obind (getitem st "original") to_bint);;
  modify (fun t => TP (tp_s t) o (tp_fn t));;
  n <- lift (obind (getitem st "a") (to_uint 32));;
  modify (fun t => let s := tp_s t in ty_put n (ty_b s) (ty_c s) (ty_d s) t);;
  n <- lift (obind (getitem st "b") (to_uint 32));;
  modify (fun t => let s := tp_s t in ty_put (ty_a s) n (ty_c s) (ty_d s) t);;
  n <- lift (obind (getitem st "c") (to_uint 32));;
  modify (fun t => let s := tp_s t in ty_put (ty_a s) (ty_b s) n (ty_d s) t);;
  n <- lift (obind (getitem st "d") (to_uint 32));;
  modify (fun t => let s := tp_s t in ty_put (ty_a s) (ty_b s) (ty_c s) n t);;
  modify (fun t => TP (tp_s t) (tp_orig t) (tp_orig t)))%py.

(* ------------------------------------------------------------------- facts *)
Ltac Zify.zify_post_hook ::= idtac.
Definition ty_wf (s : tyche) : Prop := wf 32 (ty_a s) /\ wf 32 (ty_b s) /\ wf 32 (ty_c s) /\ wf 32 (ty_d s).
Definition tp_ok (t : tychepy) : Prop := ty_wf (tp_s t) /\ tp_fn t = tp_orig t.
Lemma ty_step_wf o s : ty_wf s -> ty_wf (ty_step o s).
Proof.
  destruct s as [a b c d]. intros (A & B & C & D). cbn [ty_a ty_b ty_c ty_d] in *. destruct o; unfold ty_step, ty_mix, ty_mix_openrand, ty_wf; cbn [ty_a ty_b ty_c ty_d].
  - refine (conj _ (conj _ (conj _ _))); repeat first [apply wf_wadd | apply wf_rotl | apply wf_lxor | assumption].
  - refine (conj _ (conj _ (conj _ _))); repeat first [apply wf_wsub | apply wf_rotl | apply wf_lxor | assumption].
Qed.
(* the elementary operations the rounds consist of *)
Definition op_add (s : tyche) : tyche := let '(Ty a b c d) := s in Ty (wadd 32 a b) b c d.
Definition op_rx (k : N) (s : tyche) : tyche := let '(Ty a b c d) := s in Ty a b c (rotl 32 (N.lxor d a) k).
Definition op_xr (k : N) (s : tyche) : tyche := let '(Ty a b c d) := s in Ty a b c (N.lxor (rotl 32 d k) a).
Definition op_sub (s : tyche) : tyche := let '(Ty a b c d) := s in Ty (wsub 32 a b) b c d.
(* exchange (a, b) with (c, d) in both roles: c += d, b = rotl (b ^ c) *)
Definition op_flip (s : tyche) : tyche := let '(Ty a b c d) := s in Ty c d a b.
Lemma ty_mix_ops s : ty_mix s = op_flip (op_rx 7 (op_add (op_flip (op_rx 8 (op_add (op_flip (op_rx 12 (op_add (op_flip (op_rx 16 (op_add s))))))))))).
Proof. destruct s; reflexivity. Qed.
Lemma ty_openrand_ops s : ty_mix_openrand s = op_sub (op_xr 16 (op_flip (op_sub (op_xr 12 (op_flip (op_sub (op_xr 8 (op_flip (op_sub (op_xr 7 (op_flip s))))))))))).
Proof. destruct s; reflexivity. Qed.
Lemma op_add_inj s t : ty_wf s -> ty_wf t -> op_add s = op_add t -> s = t.
Proof.
  destruct s as [a b c d], t as [a' b' c' d']. intros (A & B & C & D) (A' & B' & C' & D'). cbn [op_add ty_a ty_b ty_c ty_d] in *. intros H. injection H as H1 -> -> ->.
  apply wadd_inj_r in H1; [|assumption|assumption]. now subst.
Qed.
Lemma op_sub_inj s t : ty_wf s -> ty_wf t -> op_sub s = op_sub t -> s = t.
Proof.
  destruct s as [a b c d], t as [a' b' c' d']. intros (A & B & C & D) (A' & B' & C' & D'). cbn [op_sub ty_a ty_b ty_c ty_d] in *. intros H. injection H as H1 -> -> ->.
  apply wsub_inj_l in H1; [|assumption|assumption]. now subst.
Qed.
Lemma op_rx_inj k s t : 0 < k -> k < 32 -> ty_wf s -> ty_wf t -> op_rx k s = op_rx k t -> s = t.
Proof.
  intros K K'. destruct s as [a b c d], t as [a' b' c' d']. intros (A & B & C & D) (A' & B' & C' & D'). cbn [op_rx ty_a ty_b ty_c ty_d] in *. intros H. injection H as -> -> -> H1.
  apply rotl_inj in H1; [|now apply wf_lxor|now apply wf_lxor|exact K|exact K']. apply lxor_inj_r in H1. now subst.
Qed.
Lemma op_xr_inj k s t : 0 < k -> k < 32 -> ty_wf s -> ty_wf t -> op_xr k s = op_xr k t -> s = t.
Proof.
  intros K K'. destruct s as [a b c d], t as [a' b' c' d']. intros (A & B & C & D) (A' & B' & C' & D'). cbn [op_xr ty_a ty_b ty_c ty_d] in *. intros H. injection H as -> -> -> H1.
  apply lxor_inj_r in H1. apply rotl_inj in H1; [|assumption|assumption|exact K|exact K']. now subst.
Qed.
Lemma op_flip_inj s t : op_flip s = op_flip t -> s = t.
Proof. destruct s, t. cbn. now intros [= -> -> -> ->]. Qed.
Lemma op_add_wf s : ty_wf s -> ty_wf (op_add s).
Proof. destruct s. intros (A & B & C & D). refine (conj _ (conj B (conj C D))). apply wf_wadd. Qed.
Lemma op_sub_wf s : ty_wf s -> ty_wf (op_sub s).
Proof. destruct s. intros (A & B & C & D). refine (conj _ (conj B (conj C D))). apply wf_wsub. Qed.
Lemma op_rx_wf k s : ty_wf s -> ty_wf (op_rx k s).
Proof. destruct s. intros (A & B & C & D). refine (conj A (conj B (conj C _))). now apply wf_rotl, wf_lxor. Qed.
Lemma op_xr_wf k s : ty_wf s -> ty_wf (op_xr k s).
Proof. destruct s. intros (A & B & C & D). refine (conj A (conj B (conj C _))). apply wf_lxor; [now apply wf_rotl|exact A]. Qed.
Lemma op_flip_wf s : ty_wf s -> ty_wf (op_flip s).
Proof. destruct s. intros (A & B & C & D). exact (conj C (conj D (conj A B))). Qed.
Ltac ty_w := repeat first [assumption | apply op_add_wf | apply op_sub_wf | apply op_rx_wf | apply op_xr_wf | apply op_flip_wf].
Lemma ty_step_inj o s t : ty_wf s -> ty_wf t -> ty_step o s = ty_step o t -> s = t.
Proof.
  intros Hs Ht. destruct o; unfold ty_step; [rewrite !ty_mix_ops|rewrite !ty_openrand_ops]; intros H.
  - do 4 (apply op_flip_inj in H; apply op_rx_inj in H; [|reflexivity|reflexivity|ty_w|ty_w]; apply op_add_inj in H; [|ty_w|ty_w]). exact H.
  - do 4 (apply op_sub_inj in H; [|ty_w|ty_w]; apply op_xr_inj in H; [|reflexivity|reflexivity|ty_w|ty_w]; apply op_flip_inj in H). exact H.
Qed.
Lemma ty_iter_wf o n s : ty_wf s -> ty_wf (N.iter n (ty_step o) s).
Proof. intros H. apply Niter_inv; [intros x; apply ty_step_wf|exact H]. Qed.
Lemma ty_iter_inj o n s t : ty_wf s -> ty_wf t -> N.iter n (ty_step o) s = N.iter n (ty_step o) t -> s = t.
Proof. apply (Niter_inj ty_wf); [intros x; apply ty_step_wf|intros x y; apply ty_step_inj]. Qed.
Lemma ty_start_wf seed idx : wf 32 idx -> ty_wf (ty_start seed idx).
Proof.
  intros H. unfold ty_start. refine (conj _ (conj _ (conj _ _))); cbn [ty_a ty_b ty_c ty_d].
  - apply wf_trunc.
  - apply wf_land_r. reflexivity.
  - reflexivity.
  - apply wf_lxor; [reflexivity|exact H].
Qed.
Lemma ty_start_inj seed idx seed' idx' : wf 64 seed -> wf 64 seed' ->
  ty_start seed idx = ty_start seed' idx' -> seed = seed' /\ idx = idx'.
Proof.
  intros W W' H. unfold ty_start in H. injection H as H1 H2 H3. apply lxor_inj_l in H3. split; [|exact H3].
  assert (S : forall x, wf 64 x -> trunc 32 (N.shiftr x 32) = x / 2 ^ 32).
  { intros x Hx. rewrite N.shiftr_div_pow2. unfold trunc. apply N.mod_small, N.div_lt_upper_bound; [discriminate|exact Hx]. }
  rewrite !S in H1 by assumption. change 0xffffffff with (N.ones 32) in H2. rewrite !N.land_ones in H2.
  rewrite (N.div_mod seed (2 ^ 32)), (N.div_mod seed' (2 ^ 32)) by discriminate. now rewrite H1, H2.
Qed.
Lemma ty_set_get s t : tp_ok s -> ty_set (ty_get s) t = (s, Ok tt).
Proof.
  intros [(A & B & C & D) F]. destruct s as [[a b c d] o f], t as [[a' b' c' d'] o' f']. cbn [tp_s tp_fn tp_orig ty_a ty_b ty_c ty_d] in *. subst f.
  unfold ty_set, ty_get. cbn [tp_s tp_orig ty_a ty_b ty_c ty_d].
  do 9 (repeat (rewrite bind_lift; cbn; rewrite ?to_bint_bool, ?to_uint_ok by assumption);
    try (rewrite bind_modify; unfold ty_put; cbn [tp_s tp_fn tp_orig ty_a ty_b ty_c ty_d])).
  reflexivity.
Qed.
