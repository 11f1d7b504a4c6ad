(* The array model of Xorshift1024 and its window *)
From Verif Require Import Word Arr Buffer32 Gf2 Lcg Py Xoshiro XoshiroLin Xorshift1024Lin.
From Coq Require Import ZifyBool ZifyNat ZifyN.
Open Scope N_scope.

Definition xs_ok (c : xsc) : Prop :=
  length (xs_s c) = 16%nat /\ Forall (wf 64) (xs_s c) /\ (0 <= xs_p c < 16)%Z.
Definition wl (c : xsc) : list N :=
  map (fun j => nth (Z.to_nat (Z.land (Z.of_nat j + xs_p c) 15)) (xs_s c) 0) (seq 0 16).
Definition win (c : xsc) : N := pack (wl c).
(* one draw, on states where it is defined *)
Definition xs_draw (c : xsc) : xsc := match xorshift1024_next c with Some (c', _) => c' | None => c end.

Lemma list16 (l : list N) : length l = 16%nat -> exists a b c d e f g h i j k m n o p q, l = [a;b;c;d;e;f;g;h;i;j;k;m;n;o;p;q].
Proof.
  intros H. do 16 (destruct l as [|? l]; [discriminate|]). destruct l; [|discriminate].
  repeat eexists.
Qed.
Lemma p16 (p : Z) : (0 <= p < 16)%Z -> In p [0;1;2;3;4;5;6;7;8;9;10;11;12;13;14;15]%Z.
Proof. intros H. cbn. lia. Qed.
Ltac cases16 c H :=
  let s := fresh "s" in let p := fresh "p" in
  destruct c as [s p]; cbn [xs_s xs_p] in *;
  let Hp := fresh "Hp" in
  pose proof (p16 p ltac:(assumption)) as Hp;
  destruct (list16 s H) as (?a&?a&?a&?a&?a&?a&?a&?a&?a&?a&?a&?a&?a&?a&?a&?a&->);
  cbn [In] in Hp;
  repeat (destruct Hp as [Hp|Hp]; [subst p|]); [..|contradiction].

Lemma xs_next_total c : xs_ok c -> exists c' out, xorshift1024_next c = Some (c', out).
Proof.
  intros (Hl & Hf & Hp). cases16 c Hl; (eexists; eexists; reflexivity).
Qed.
Lemma xs_next_window c : xs_ok c -> 
  wl (xs_draw c) = xs_mix (nth 0 (wl c) 0) (nth 1 (wl c) 0) :: skipn 2 (wl c) ++ [nth 0 (wl c) 0]
  /\ xs_p (xs_draw c) = ((xs_p c + 1) mod 16)%Z /\ length (xs_s (xs_draw c)) = 16%nat.
Proof.
  intros (Hl & Hf & Hp). cases16 c Hl; repeat split.
Qed.
Lemma wl_length c : length (wl c) = 16%nat.
Proof. reflexivity. Qed.
Lemma wl_wf c : xs_ok c -> Forall (wf 64) (wl c).
Proof.
  intros (Hl & Hf & Hp). apply Forall_forall. intros x Hx. unfold wl in Hx.
  apply in_map_iff in Hx as (j & <- & Hj). rewrite Forall_forall in Hf. apply Hf, nth_In.
  rewrite Hl. rewrite (Z.land_ones _ 4) by lia. pose proof (Z.mod_pos_bound (Z.of_nat j + xs_p c) (2 ^ 4)). lia.
Qed.
Lemma wf_xs_mix_out (a b : N) : wf 64 a -> wf 64 b -> wf 64 (xs_mix a b).
Proof. apply wf_mix. Qed.
Lemma xs_draw_ok c : xs_ok c -> xs_ok (xs_draw c).
Proof.
  intros H. pose proof (xs_next_window c H) as (_ & Ep & El). destruct H as (Hl & Hf & Hp).
  split; [exact El|]. split.
  - unfold xs_draw, xorshift1024_next. rewrite Forall_forall in Hf.
    destruct (rd (xs_s c) (xs_p c)) as [s0|] eqn:E0; [|now apply Forall_forall].
    destruct (rd (xs_s c) (Z.land (xs_p c + 1) 15)) as [s1|] eqn:E1; [|now apply Forall_forall].
    cbn [xs_s]. apply upd_Forall; [now apply Forall_forall|].
    apply (wf_mix s0 s1); apply Hf; eapply rd_In; eassumption.
  - rewrite Ep. pose proof (Z.mod_pos_bound (xs_p c + 1) 16). lia.
Qed.
Lemma xs_draw_win c : xs_ok c -> win (xs_draw c) = xs_T (win c).
Proof.
  intros H. pose proof (wl_wf c H) as Hw. pose proof (wl_length c) as Hlen.
  destruct (xs_next_window c H) as (E & _ & _). unfold win. rewrite E. clear E.
  set (l := wl c) in *. clearbody l. destruct l as [|w0 [|w1 r]]; try discriminate.
  inversion Hw as [|? ? H0 Hw1]; subst. inversion Hw1; subst.
  rewrite xs_T_pack; [reflexivity|assumption..|]. cbn in Hlen. lia.
Qed.
Lemma xs_draws n c : xs_ok c -> let c' := N.iter n xs_draw c in
  xs_ok c' /\ win c' = N.iter n xs_T (win c) /\ xs_p c' = ((xs_p c + Z.of_N n) mod 16)%Z.
Proof.
  intros H. cbn zeta. induction n as [|n IH] using N.peano_ind.
  - split; [exact H|]. split; [reflexivity|]. cbn. destruct H as (_ & _ & Hp).
    rewrite Z.add_0_r, Z.mod_small by exact Hp. reflexivity.
  - destruct IH as (I1 & I2 & I3). rewrite !N.iter_succ. split; [now apply xs_draw_ok|]. split.
    + now rewrite xs_draw_win, I2.
    + destruct (xs_next_window _ I1) as (_ & -> & _). rewrite I3, N2Z.inj_succ.
      rewrite Zplus_mod_idemp_l. f_equal. lia.
Qed.
(* the window and the index determine the state *)
Lemma xs_win_inj c d : xs_ok c -> xs_ok d -> win c = win d -> xs_p c = xs_p d -> c = d.
Proof.
  intros Hc Hd E Ep. apply pack_inj in E; [|reflexivity|now apply wl_wf..].
  destruct Hc as (Hl & _ & Hp), Hd as (Hl' & _ & _). destruct d as [s' p']. cbn [xs_s xs_p] in *. subst p'.
  destruct (list16 s' Hl') as (?b&?b&?b&?b&?b&?b&?b&?b&?b&?b&?b&?b&?b&?b&?b&?b&->).
  cases16 c Hl; cbn in E; injection E; intros; subst; reflexivity.
Qed.

(* ---- the jump ---- *)
Lemma pack_map_lxor {A} (f g : A -> N) l :
  pack (map (fun j => N.lxor (f j) (g j)) l) = N.lxor (pack (map f l)) (pack (map g l)).
Proof.
  induction l as [|x l IH]; [reflexivity|]. cbn [map pack]. rewrite IH, shiftl_lxor.
  apply lxor_swap.
Qed.
Lemma map_nth_seq (t : list N) : length t = 16%nat -> map (fun j => nth j t 0) (seq 0 16) = t.
Proof. intros H. destruct (list16 t H) as (?b&?b&?b&?b&?b&?b&?b&?b&?b&?b&?b&?b&?b&?b&?b&?b&->). reflexivity. Qed.
Lemma xs_accum_pack t c : length t = 16%nat -> pack (xs_accum t c) = N.lxor (pack t) (win c).
Proof. intros H. unfold xs_accum. rewrite pack_map_lxor, map_nth_seq by exact H. reflexivity. Qed.
Lemma xs_accum_wf t c : Forall (wf 64) t -> xs_ok c -> Forall (wf 64) (xs_accum t c).
Proof.
  intros Ht Hc. pose proof (wl_wf c Hc) as Hw. rewrite Forall_forall in *.
  intros x Hx. apply in_map_iff in Hx as (j & <- & Hj). apply wf_lxor.
  - destruct (nth_in_or_default j t 0) as [I| ->]; [now apply Ht|apply wf_0].
  - apply Hw. unfold wl. apply in_map_iff. exists j. now split.
Qed.
Lemma xs_jump_bits_spec k : forall word t c, length t = 16%nat -> Forall (wf 64) t -> xs_ok c ->
  exists t', xs_jump_bits k word t c = Some (t', N.iter (N.of_nat k) xs_draw c)
  /\ length t' = 16%nat /\ Forall (wf 64) t'
  /\ jump_bits N.lxor xs_T k word (pack t) (win c) = (pack t', win (N.iter (N.of_nat k) xs_draw c)).
Proof.
  induction k as [|k IH]; intros word t c Hl Hf Hc.
  - exists t. repeat split; assumption.
  - cbn [xs_jump_bits jump_bits].
    destruct (xs_next_total c Hc) as (c' & out & En). rewrite En.
    assert (Ec : c' = xs_draw c) by (unfold xs_draw; now rewrite En). subst c'.
    set (t1 := if N.odd word then xs_accum t c else t).
    assert (L1 : length t1 = 16%nat) by (unfold t1; destruct (N.odd word); [reflexivity|exact Hl]).
    assert (F1 : Forall (wf 64) t1) by (unfold t1; destruct (N.odd word); [now apply xs_accum_wf|exact Hf]).
    assert (P1 : (if N.odd word then N.lxor (pack t) (win c) else pack t) = pack t1).
    { unfold t1. destruct (N.odd word); [now rewrite xs_accum_pack|reflexivity]. }
    rewrite P1, <- xs_draw_win by exact Hc.
    destruct (IH (N.div2 word) t1 (xs_draw c) L1 F1 (xs_draw_ok c Hc)) as (t' & E & L' & F' & J).
    exists t'. rewrite Nat2N.inj_succ, N.iter_succ, <- Niter_comm. repeat split; assumption.
Qed.
Lemma xs_jump_words_spec ws : forall t c, length t = 16%nat -> Forall (wf 64) t -> xs_ok c ->
  exists t', xs_jump_words ws t c = Some (t', N.iter (64 * N.of_nat (length ws)) xs_draw c)
  /\ length t' = 16%nat /\ Forall (wf 64) t'
  /\ fst (jump_words N.lxor xs_T 64 ws (pack t) (win c)) = pack t'.
Proof.
  induction ws as [|x ws IH]; intros t c Hl Hf Hc.
  - exists t. repeat split; assumption.
  - cbn [xs_jump_words jump_words].
    destruct (xs_jump_bits_spec 64 x t c Hl Hf Hc) as (t1 & E & L1 & F1 & J).
    rewrite E, J.
    assert (Hc1 : xs_ok (N.iter (N.of_nat 64) xs_draw c)) by apply (xs_draws (N.of_nat 64) c Hc).
    destruct (IH t1 _ L1 F1 Hc1) as (t' & E' & L' & F' & J').
    exists t'. rewrite E', J'. rewrite <- Niter_add.
    replace (N.of_nat 64 + 64 * N.of_nat (length ws)) with (64 * N.of_nat (length (x :: ws))) by (cbn [length]; lia).
    repeat split; assumption.
Qed.
Lemma xs_store_wl t c : length t = 16%nat -> Forall (wf 64) t -> xs_ok c ->
  let d := XS (xs_store (seq 0 16) t (xs_p c) (xs_s c)) (xs_p c) in
  wl d = t /\ xs_ok d.
Proof.
  intros Ht Hf (Hl & _ & Hp).
  destruct (list16 t Ht) as (?b&?b&?b&?b&?b&?b&?b&?b&?b&?b&?b&?b&?b&?b&?b&?b&->).
  assert (G : wl (XS (xs_store (seq 0 16) [b;b0;b1;b2;b3;b4;b5;b6;b7;b8;b9;b10;b11;b12;b13;b14] (xs_p c) (xs_s c)) (xs_p c))
              = [b;b0;b1;b2;b3;b4;b5;b6;b7;b8;b9;b10;b11;b12;b13;b14]
              /\ length (xs_store (seq 0 16) [b;b0;b1;b2;b3;b4;b5;b6;b7;b8;b9;b10;b11;b12;b13;b14] (xs_p c) (xs_s c)) = 16%nat
              /\ Forall (wf 64) (xs_store (seq 0 16) [b;b0;b1;b2;b3;b4;b5;b6;b7;b8;b9;b10;b11;b12;b13;b14] (xs_p c) (xs_s c))).
  { rewrite Forall_forall in Hf.
    cases16 c Hl; (split; [reflexivity|split; [reflexivity|]];
    apply Forall_forall; intros x Hx; apply Hf; vm_compute in Hx;
      repeat (destruct Hx as [Hx|Hx]; [subst x; cbn [In]; auto 20|]); contradiction). }
  destruct G as (G1 & G2 & G3). cbn zeta. split; [exact G1|]. repeat split; cbn; try assumption; lia.
Qed.
Lemma opt_some_eq {A} (x y : A) : x = y -> Some x = Some y.
Proof. now intros ->. Qed.
Lemma xs_jump_gen ws n c : xs_ok c -> (length ws = 16)%nat -> (n mod 16 = 0) ->
  (forall w, wf 1024 w -> jump_loop N.lxor 0 xs_T 64 ws w = N.iter n xs_T w) ->
  match xs_jump_words ws (repeat 0 16) c with
  | None => None
  | Some (t, c) => Some (XS (xs_store (seq 0 16) t (xs_p c) (xs_s c)) (xs_p c))
  end = Some (N.iter n xs_draw c).
Proof.
  intros Hc Hws Hn HJ.
  destruct (xs_jump_words_spec ws (repeat 0 16) c eq_refl ltac:(repeat constructor; apply wf_0) Hc)
    as (t & E & Lt & Ft & J).
  rewrite E. apply opt_some_eq.
  destruct (xs_draws (64 * N.of_nat (length ws)) c Hc) as (O1 & _ & P1). cbn zeta in O1, P1.
  destruct (xs_draws n c Hc) as (O2 & W2 & P2). cbn zeta in O2, W2, P2.
  destruct (xs_store_wl t _ Lt Ft O1) as (W & O3). cbn zeta in W, O3.
  apply xs_win_inj; [exact O3|exact O2| |].
  - unfold win at 1. rewrite W, W2, <- J. rewrite <- HJ.
    + reflexivity.
    + change 1024 with (64 * N.of_nat (length (wl c))). apply pack_wf, wl_wf, Hc.
  - cbn [xs_p]. rewrite P1, P2, Hws. clear - Hn. generalize (xs_p c). intros p.
    change (Z.of_N (64 * N.of_nat 16)) with 1024%Z. lia.
Qed.
Lemma xorshift1024_jump_draws c : xs_ok c -> xorshift1024_jump c = Some (N.iter (2 ^ 512) xs_draw c).
Proof. intros Hc. exact (xs_jump_gen XORSHIFT1024_JUMP (2 ^ 512) c Hc eq_refl eq_refl xs_window_jump). Qed.
