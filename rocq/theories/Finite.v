(* Pigeonhole facts used to pass from injectivity to surjectivity and to pure
   periodicity of the generators' state sequences. *)
From Verif Require Import Word.
From Coq Require Import ZifyBool ZifyNat ZifyN.
Open Scope N_scope.

Definition range (B : N) : list N := map N.of_nat (seq 0 (N.to_nat B)).
Lemma in_range B x : In x (range B) <-> x < B.
Proof.
  unfold range. rewrite in_map_iff. split.
  - intros [n [<- Hn]]. apply in_seq in Hn. lia.
  - intros H. exists (N.to_nat x). split; [lia|]. apply in_seq. lia.
Qed.
Lemma range_length B : length (range B) = N.to_nat B.
Proof. unfold range. now rewrite map_length, seq_length. Qed.
Lemma NoDup_map_inj_in {A C} (f : A -> C) l :
  (forall a b, In a l -> In b l -> f a = f b -> a = b) -> NoDup l -> NoDup (map f l).
Proof.
  intros Hf Hl. induction Hl as [|a l Ha Hl IH]; cbn [map]; constructor.
  - intros Hin. apply in_map_iff in Hin. destruct Hin as [b [Hb Hin]].
    apply Hf in Hb; [subst; contradiction|now right|now left].
  - apply IH. intros x y Hx Hy. apply Hf; now right.
Qed.
Lemma range_NoDup B : NoDup (range B).
Proof. apply NoDup_map_inj_in; [intros; lia|apply seq_NoDup]. Qed.

Lemma inj_surj (B : N) (f : N -> N) :
  (forall i, i < B -> f i < B) ->
  (forall i j, i < B -> j < B -> f i = f j -> i = j) ->
  forall y, y < B -> exists i, i < B /\ f i = y.
Proof.
  intros Hr Hi y Hy.
  assert (Hin : incl (range B) (map f (range B))).
  { apply NoDup_length_incl.
    - apply NoDup_map_inj_in; [|apply range_NoDup].
      intros a b Ha Hb. apply in_range in Ha, Hb. now apply Hi.
    - now rewrite map_length.
    - intros x Hx. apply in_map_iff in Hx. destruct Hx as [a [<- Ha]].
      apply in_range in Ha. apply in_range. now apply Hr. }
  apply in_range in Hy. apply Hin in Hy. apply in_map_iff in Hy.
  destruct Hy as [i [Hfi Hi']]. apply in_range in Hi'. now exists i.
Qed.

Lemma Niter_cancel {A} (P : A -> Prop) (f : A -> A) :
  (forall a, P a -> P (f a)) -> (forall a b, P a -> P b -> f a = f b -> a = b) ->
  forall i j s, P s -> i <= j -> N.iter i f s = N.iter j f s -> N.iter (j - i) f s = s.
Proof.
  intros Hf Hi i j s Hs Hij H.
  replace j with ((j - i) + i) in H by lia. rewrite Niter_add in H.
  apply (Niter_inj P) in H; [now symmetry|assumption..|]. now apply Niter_inv.
Qed.

(* An injective step on a finite set of states is purely periodic: the
   sequence of states starting at s comes back to s itself. *)
Theorem pure_period {A} (P : A -> Prop) (enc : A -> N) (B : N) (f : A -> A) :
  (forall a, P a -> enc a < B) ->
  (forall a b, P a -> P b -> enc a = enc b -> a = b) ->
  (forall a, P a -> P (f a)) ->
  (forall a b, P a -> P b -> f a = f b -> a = b) ->
  forall s, P s -> exists n, 0 < n /\ n <= B /\ N.iter n f s = s.
Proof.
  intros He Hinj Hf Hfi s Hs.
  assert (HP : forall n, P (N.iter n f s)) by (intros; now apply Niter_inv).
  destruct (existsb (fun n => enc (N.iter (n + 1) f s) =? enc s) (range B)) eqn:E.
  - apply existsb_exists in E. destruct E as [n [Hn Heq]].
    apply in_range in Hn. apply N.eqb_eq in Heq. apply Hinj in Heq; [|auto..].
    exists (n + 1). repeat split; [lia|lia|exact Heq].
  - exfalso.
    assert (Hno : forall n, 0 < n -> n <= B -> N.iter n f s <> s).
    { intros n H0 HB Hc.
      assert (Ht : existsb (fun n => enc (N.iter (n + 1) f s) =? enc s) (range B) = true).
      { apply existsb_exists. exists (n - 1). split; [apply in_range; lia|].
        replace (n - 1 + 1) with n by lia. rewrite Hc. apply N.eqb_refl. }
      rewrite Ht in E. discriminate. }
    assert (Hle : (length (map (fun n => enc (N.iter n f s)) (range (B + 1))) <= length (range B))%nat).
    { apply NoDup_incl_length.
      - apply NoDup_map_inj_in; [|apply range_NoDup].
        intros i j Hi Hj Hij. apply in_range in Hi, Hj. apply Hinj in Hij; [|auto..].
        destruct (N.lt_trichotomy i j) as [Hl|[Hl|Hl]]; [|exact Hl|].
        + exfalso. apply (Hno (j - i)); [lia|lia|].
          eapply Niter_cancel with (P := P); eauto. lia.
        + exfalso. apply (Hno (i - j)); [lia|lia|].
          eapply Niter_cancel with (P := P); eauto. lia.
      - intros x Hx. apply in_map_iff in Hx. destruct Hx as [n [<- _]].
        apply in_range, He, HP. }
    rewrite map_length, !range_length in Hle. lia.
Qed.
