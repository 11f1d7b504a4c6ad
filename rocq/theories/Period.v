(* Exact periods of linear maps over GF(2), from the factorisation of
   2^n - 1 and checked certificates modulo the annihilating polynomial. *)
From Verif Require Import Word Lcg Gf2 Order Limb.
From Coq Require Import ZArith Znumtheory List ZifyBool ZifyNat ZifyN.
Open Scope N_scope.

Section Period.
  Context {S : Type} (add : S -> S -> S) (zero : S) (T : S -> S) (D : S -> Prop).
  Hypothesis L : linear add zero T D.
  Context (n : nat) (phi : N).
  Notation ev := (ev add zero T).
  Hypothesis Hphi : forall s, D s -> ev phi s = zero.

  (* the polynomial p acts as k steps *)
  Definition pw : N -> N -> Prop := powN add zero T D.
  Lemma pw_x : pw 2 1.
  Proof. exact (powN_x add zero T D). Qed.
  Lemma pw_mul p q r a b c : pw p a -> pw q b -> mul_check n phi p q r = true -> a + b = c -> pw r c.
  Proof. apply (mul_check_pow n phi add zero T D L Hphi). Qed.
  Lemma pw_sq k p r a c : pw p a -> sq_check n phi k p r = true -> a * 2 ^ N.of_nat k = c -> pw r c.
  Proof. apply (sq_check_pow n phi add zero T D L Hphi). Qed.
  Lemma pw_pow e p r a c : pw p a -> pow_check n phi e p r = true -> a * Npos e = c -> pw r c.
  Proof. apply (pow_check_pow n phi add zero T D L Hphi). Qed.
  Lemma pw_div z zi a w m k c : pw z m -> pw a k ->
    mul_check n phi zi z 1 = true -> mul_check n phi zi a w = true -> m + c = k -> pw w c.
  Proof.
    intros Hz Ha Hi Hw Hc s Ds. rewrite (mul_check_spec n phi add zero T D L Hphi _ _ _ s Hw Ds).
    assert (Dz : D (ev zi s)) by (apply (l_ev_D add zero T D L); exact Ds).
    rewrite Ha, <- Hc, Niter_add, <- Hz by exact Dz.
    rewrite <- (mul_check_spec n phi add zero T D L Hphi _ _ _ s Hi Ds). reflexivity.
  Qed.

  (* (x^k + 1) u = 1 mod phi: no non-zero vector returns after k steps *)
  Lemma pw_no_cycle p u k v : pw p k -> mul_check n phi (N.lxor p 1) u 1 = true ->
    D v -> N.iter k T v = v -> v = zero.
  Proof.
    intros Hp Hu Dv E. rewrite <- (l_ev_1 add zero T v).
    rewrite (mul_check_spec n phi add zero T D L Hphi _ _ _ v Hu Dv).
    rewrite (l_ev_lxor add zero T D L), Hp, E by exact Dv. cbn.
    rewrite (l_self add zero T D L). apply (l_ev_0 add zero T D L).
  Qed.

  Context (M : N) (qs : list Z).
  Hypothesis Hprime : Forall prime qs.
  Hypothesis Hprod : prodl qs = Z.of_N M.
  Hypothesis HM : 0 < M.
  Hypothesis Hone : pw 1 M.
  Hypothesis Hcert : forall q, In q qs -> exists p u, pw p (M / Z.to_N q) /\ mul_check n phi (N.lxor p 1) u 1 = true.
  Lemma period_exact v k : D v -> v <> zero -> (N.iter k T v = v <-> k mod M = 0).
  Proof.
    intros Dv Nv.
    assert (PM : N.iter M T v = v) by (rewrite <- Hone by exact Dv; reflexivity).
    split.
    - intros E.
      pose (P := fun z : Z => N.iter (Z.to_N z) T v = v).
      assert (H : (Z.of_N M | Z.of_N k)%Z).
      { apply (order_exact P).
        - reflexivity.
        - intros a b Ha Hb Pa Pb. unfold P in *. rewrite Z2N.inj_add, Niter_add by assumption.
          now rewrite Pa.
        - intros a b Ha Hb Pa Pb. unfold P in *. rewrite Z2N.inj_add, Niter_add in Pb by assumption.
          now rewrite Pa in Pb.
        - lia.
        - unfold P. rewrite N2Z.id. exact PM.
        - intros q Hq Hd Pq. rewrite <- Hprod in Hd. apply prime_in_prod in Hd; [|exact Hq|exact Hprime].
          destruct (Hcert q Hd) as (p & u & Hp & Hu). apply Nv.
          apply (pw_no_cycle p u (M / Z.to_N q)); try assumption.
          unfold P in Pq. rewrite Z2N.inj_div in Pq.
          + now rewrite N2Z.id in Pq.
          + apply N2Z.is_nonneg.
          + pose proof (prime_ge_2 q Hq). clear - H. lia.
        - apply N2Z.is_nonneg.
        - unfold P. now rewrite N2Z.id. }
      destruct H as (c & Hc).
      assert (Z.of_N (k mod M) = 0)%Z; [|clear - H; lia].
      rewrite N2Z.inj_mod. rewrite Hc. apply Z.mod_mul. clear - HM. lia.
    - intros E. rewrite (Niter_mod T M v k) by (try exact PM; clear - HM; lia). now rewrite E.
  Qed.
  Lemma period_distinct v i j : N.odd phi = true -> D v -> v <> zero ->
    (N.iter i T v = N.iter j T v <-> i mod M = j mod M).
  Proof.
    intros Ho Dv Nv.
    assert (PM : N.iter M T v = v) by (rewrite <- Hone by exact Dv; reflexivity).
    assert (M0 : M <> 0) by (clear - HM; lia).
    split.
    - assert (W : forall i j, i <= j -> N.iter i T v = N.iter j T v -> i mod M = j mod M).
      { clear i j. intros i j Hij E.
        replace j with (j - i + i) in E by (clear - Hij; lia). rewrite Niter_add in E.
        assert (Inj : forall m a b, D a -> D b -> N.iter m T a = N.iter m T b -> a = b).
        { induction m as [|m IH] using N.peano_ind; [auto|]. intros a b Da Db. rewrite !N.iter_succ.
          intros H. apply IH; auto. apply (l_T_inj add zero T D L phi Hphi Ho) in H; auto;
          apply (l_iter_D add zero T D L); assumption. }
        apply Inj in E; [|exact Dv|now apply (l_iter_D add zero T D L)].
        symmetry in E. apply period_exact in E; [|exact Dv|exact Nv].
        replace j with (i + (j - i)) by (clear - Hij; lia).
        rewrite N.add_mod, E, N.add_0_r, N.mod_mod by exact M0. reflexivity. }
      intros E. destruct (N.le_ge_cases i j) as [H|H]; [now apply W|].
      symmetry. apply W; [exact H|now symmetry].
    - intros E. rewrite (Niter_mod T M v i), (Niter_mod T M v j) by assumption. now rewrite E.
  Qed.
End Period.
