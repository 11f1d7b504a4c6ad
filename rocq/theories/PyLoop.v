(* The element loops of the state setters:
     for i in range(n): self.rng_state.field[i] = arr[i]
   Each element is fetched from the Python object, converted to the C element
   type and stored before the next one is looked at. *)
From Verif Require Import Word Arr Py.
From Coq Require Import String ZifyBool ZifyNat ZifyN.
Open Scope N_scope.

(* arr[i], converted to an unsigned C integer of the given width. Arrays and
   lists are PArr; indexing anything else raises. *)
Definition elem (bits : N) (v : pyval) (i : nat) : outcome N :=
  match v with
  | PArr _ l => match nth_error l i with Some x => to_uint bits (PInt (Z.of_N x)) | None => Raise IndexError end
  | PDict _ => Raise KeyError
  | _ => Raise TypeError
  end.
Section Loop.
  Context {St : Type}.
  Variables (bits : N) (get : St -> list N) (set : list N -> St -> St).
  (* the k elements from index i on *)
  Fixpoint wr_loop (v : pyval) (k i : nat) : M St unit :=
    match k with
    | O => ret tt
    | S k => (x <- lift (elem bits v i);; modify (fun s => set (upd (get s) i x) s);; wr_loop v k (S i))%py
    end.
  Hypothesis get_set : forall l s, get (set l s) = l.
  Hypothesis set_set : forall l m s, set l (set m s) = set l s.
  Hypothesis set_get : forall s, set (get s) s = s.
  Lemma nth_firstn_lt (j i : nat) (m : list N) : (j < i)%nat -> nth j (firstn i m) 0 = nth j m 0.
  Proof.
    revert i m. induction j as [|j IH]; intros [|i] [|y m] H; cbn; try reflexivity; try (exfalso; clear - H; lia). apply IH. clear - H; lia.
  Qed.
  Lemma wr_loop_spec w l : Forall (wf bits) l -> forall k i s, (i + k = List.length l)%nat -> List.length (get s) = List.length l ->
    firstn i (get s) = firstn i l -> wr_loop (PArr w l) k i s = (set l s, Ok tt).
  Proof.
    intros W. induction k as [|k IH]; intros i s Hk Hg Hf; cbn [wr_loop].
    - assert (i = List.length l) by (clear - Hk; lia). subst i. rewrite firstn_all in Hf. rewrite firstn_all2 in Hf by (rewrite Hg; apply le_n).
      unfold ret. rewrite <- Hf, set_get. reflexivity.
    - rewrite bind_lift. unfold elem.
      assert (Hi : (i < List.length l)%nat) by (clear - Hk; lia).
      rewrite (nth_error_nth' l 0 Hi). rewrite to_uint_ok by (rewrite Forall_forall in W; now apply W, nth_In).
      rewrite bind_modify, IH.
      + now rewrite set_set.
      + clear - Hk. lia.
      + now rewrite get_set, upd_length.
      + rewrite get_set. apply (nth_ext _ _ 0 0); [rewrite !firstn_length, upd_length, Hg; reflexivity|].
        intros j Hj. rewrite firstn_length, upd_length, Hg in Hj. rewrite !nth_firstn_lt by (clear - Hj Hk; lia).
        rewrite upd_nth by (rewrite Hg; exact Hi). destruct (Nat.eqb_spec i j) as [->|Ne]; [reflexivity|].
        rewrite <- (nth_firstn_lt j i), Hf, nth_firstn_lt by (clear - Hj Hk Ne; lia). reflexivity.
  Qed.
  Lemma wr_loop_all w l s : Forall (wf bits) l -> List.length (get s) = List.length l -> wr_loop (PArr w l) (List.length l) 0 s = (set l s, Ok tt).
  Proof. intros W H. now apply wr_loop_spec. Qed.
End Loop.
