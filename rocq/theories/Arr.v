(* C arrays as lists of words *)
From Verif Require Import Word.
From Coq Require Import ZifyBool ZifyNat ZifyN.
Open Scope N_scope.

(* Array access: None is undefined behaviour (index out of bounds) *)
Definition rd (l : list N) (i : Z) : option N :=
  if ((0 <=? i) && (i <? Z.of_nat (List.length l)))%Z then nth_error l (Z.to_nat i) else None.
Fixpoint upd (l : list N) (i : nat) (x : N) : list N :=
  match l, i with
  | [], _ => []
  | _ :: l, O => x :: l
  | y :: l, S i => y :: upd l i x
  end.
Lemma upd_Forall P l i x : Forall P l -> P x -> Forall P (upd l i x).
Proof. intros H Hx. revert i. induction H; intros [|i]; cbn; constructor; auto. Qed.
Lemma rd_In l i x : rd l i = Some x -> In x l.
Proof. unfold rd. destruct (_ && _); [apply nth_error_In|discriminate]. Qed.

Lemma upd_length l i x : List.length (upd l i x) = List.length l.
Proof. revert i. induction l as [|y l IH]; intros [|i]; cbn; auto. Qed.
Lemma upd_nth l i j x d : (i < List.length l)%nat -> nth j (upd l i x) d = if Nat.eqb i j then x else nth j l d.
Proof.
  revert i j. induction l as [|y l IH]; intros i j Hi; [cbn in Hi; lia|].
  destruct i, j; cbn in *; try reflexivity. apply IH. lia.
Qed.
Lemma upd_nth_same l i x d : (i < List.length l)%nat -> nth i (upd l i x) d = x.
Proof. intros H. now rewrite upd_nth, Nat.eqb_refl. Qed.
Lemma upd_nth_other l i j x d : i <> j -> nth j (upd l i x) d = nth j l d.
Proof.
  revert i j. induction l as [|y l IH]; intros i j Hij; [now destruct i|].
  destruct i, j; cbn; try reflexivity; try contradiction. apply IH. lia.
Qed.
Lemma upd_oob l i x : (List.length l <= i)%nat -> upd l i x = l.
Proof. revert i. induction l as [|y l IH]; intros [|i] H; cbn in *; try reflexivity; try lia. f_equal. apply IH. lia. Qed.
Lemma upd_upd l i x y : upd (upd l i x) i y = upd l i y.
Proof. revert i. induction l as [|z l IH]; intros [|i]; cbn; f_equal. apply IH. Qed.
Lemma upd_self l i d : (i < List.length l)%nat -> upd l i (nth i l d) = l.
Proof. revert i. induction l as [|z l IH]; intros [|i] H; cbn in *; try lia; f_equal. apply IH. lia. Qed.
Lemma rd_nth l i d : (0 <= i < Z.of_nat (List.length l))%Z -> rd l i = Some (nth (Z.to_nat i) l d).
Proof.
  intros H. unfold rd. replace ((0 <=? i) && (i <? Z.of_nat (List.length l)))%Z with true by lia.
  apply nth_error_nth'. lia.
Qed.
Lemma rd_none l i : ~ (0 <= i < Z.of_nat (List.length l))%Z -> rd l i = None.
Proof. intros H. unfold rd. replace ((0 <=? i) && (i <? Z.of_nat (List.length l)))%Z with false by lia. reflexivity. Qed.
