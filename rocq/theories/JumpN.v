(* jump_n: n jumps made up of the polynomials for 65536, 4096, 256, 16 and 1 of them;
   the same code in sfmt.c and dsfmt.c. step: the jump by one polynomial. *)
From Coq Require Import ZArith List Lia ZifyBool ZifyNat ZifyN.
Import ListNotations.

Record polys := Polys { p144 : list bool; p140 : list bool; p136 : list bool; p132 : list bool; p128 : list bool }.
Definition units (ps : polys) : list (list bool * Z) :=
  [(p144 ps, 65536); (p140 ps, 4096); (p136 ps, 256); (p132 ps, 16); (p128 ps, 1)]%Z.

Section JumpN.
  Context {A : Type} (step : list bool -> A -> option A).
  (* sfmt.c:443-464, dsfmt.c:635-656. fuel: iterations of the while loop; None: not
     enough, or step fails *)
  Fixpoint jump_n (ps : polys) (fuel : nat) (remaining : Z) (s : A) : option A :=
    if (remaining <=? 0)%Z then Some s else
    match fuel with
    | O => None
    | S fuel =>
        let '(p, k) := if (65536 <=? remaining)%Z then (p144 ps, 65536%Z)
                       else if (4096 <=? remaining)%Z then (p140 ps, 4096%Z)
                       else if (256 <=? remaining)%Z then (p136 ps, 256%Z)
                       else if (16 <=? remaining)%Z then (p132 ps, 16%Z)
                       else (p128 ps, 1%Z) in
        match step p s with Some s => jump_n ps fuel (remaining - k) s | None => None end
    end.
  Definition ostep (o : option A) (u : list bool * Z) : option A :=
    match o with Some s => step (fst u) s | None => None end.
  Lemma ostep_none us : fold_left ostep us None = None.
  Proof. induction us as [|u us IH]; [reflexivity|exact IH]. Qed.
  Definition weight (us : list (list bool * Z)) : Z := fold_right (fun u a => (snd u + a)%Z) 0%Z us.
  Lemma units_pos ps u : In u (units ps) -> (1 <= snd u)%Z.
  Proof. unfold units. cbn [In]. intros H. destruct H as [H|[H|[H|[H|[H|[]]]]]]; subst u; cbn [snd]; lia. Qed.
  Lemma jump_n_plan ps : forall fuel r s, (r <= Z.of_nat fuel)%Z ->
    exists us, Forall (fun u => In u (units ps)) us /\ weight us = Z.max 0 r /\ jump_n ps fuel r s = fold_left ostep us (Some s).
  Proof.
    induction fuel as [|fuel IH]; intros r s H.
    - exists []. cbn [jump_n]. replace (r <=? 0)%Z with true by lia. split; [constructor|split; [cbn; lia|reflexivity]].
    - cbn [jump_n]. destruct (r <=? 0)%Z eqn:E; [exists []; split; [constructor|split; [cbn; lia|reflexivity]]|].
      match goal with |- context[let '(p, k) := ?e in _] => assert (U : exists p k, e = (p, k) /\ In (p, k) (units ps) /\ (1 <= k <= r)%Z) end.
      { unfold units. destruct (65536 <=? r)%Z eqn:E1; [|destruct (4096 <=? r)%Z eqn:E2; [|destruct (256 <=? r)%Z eqn:E3; [|destruct (16 <=? r)%Z eqn:E4]]];
          do 2 eexists; (split; [reflexivity|split; [cbn [In]; tauto|lia]]). }
      destruct U as (p & k & -> & U & K).
      destruct (step p s) as [s1|] eqn:Ej.
      + destruct (IH (r - k)%Z s1 ltac:(lia)) as (us & F & Wt & Eq). exists ((p, k) :: us).
        split; [constructor; assumption|]. split; [cbn [weight fold_right snd]; unfold weight in Wt; rewrite Wt; lia|].
        cbn [fold_left ostep fst]. rewrite Ej. exact Eq.
      + destruct (IH (r - k)%Z s ltac:(lia)) as (us & F & Wt & _). exists ((p, k) :: us).
        split; [constructor; assumption|]. split; [cbn [weight fold_right snd]; unfold weight in Wt; rewrite Wt; lia|].
        cbn [fold_left ostep fst]. rewrite Ej. symmetry. apply ostep_none.
  Qed.
  (* a relation that every unit carries from J to J + k B is carried by all of them *)
  Lemma plan_shift ps (B : N) (R : A -> N -> Prop) :
    (forall p k s J, In (p, k) (units ps) -> R s J -> exists s', step p s = Some s' /\ R s' (J + Z.to_N k * B)%N) ->
    forall us, Forall (fun u => In u (units ps)) us -> forall s J, R s J ->
    exists s', fold_left ostep us (Some s) = Some s' /\ R s' (J + Z.to_N (weight us) * B)%N.
  Proof.
    intros H us F. assert (W : forall us, Forall (fun u => In u (units ps)) us -> (0 <= weight us)%Z).
    { clear. intros us F. induction F as [|u us U F IH]; [cbn; lia|]. cbn [weight fold_right]. fold (weight us). pose proof (units_pos ps u U). lia. }
    induction F as [|[p k] us U F IH]; intros s J HR.
    - exists s. split; [reflexivity|]. cbn [weight fold_right Z.to_N]. now rewrite N.mul_0_l, N.add_0_r.
    - destruct (H p k s J U HR) as (s1 & E1 & H1). destruct (IH s1 _ H1) as (s2 & E2 & H2). exists s2.
      cbn [fold_left ostep fst]. rewrite E1. split; [exact E2|]. cbn [weight fold_right snd]. fold (weight us).
      pose proof (units_pos ps (p, k) U) as Pk. cbn [snd] in Pk. rewrite Z2N.inj_add by (try apply W; try exact F; lia).
      rewrite N.mul_add_distr_r, N.add_assoc. exact H2.
  Qed.
End JumpN.
