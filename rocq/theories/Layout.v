(* Arrays as views of memory. check_state_array (common.pyx:399-408) asks for one dimension, the type
   and the length, not for contiguity; some setters then read the elements from the data pointer. *)
From Coq Require Import NArith ZArith List Lia String Bool ZifyBool ZifyNat ZifyN.
From Verif Require Import Word Py Speck Hc128 Efiix.
Import ListNotations.
Ltac Zify.zify_post_hook ::= idtac.
Open Scope Z_scope.

(* memory in units of one element (simplification: byte strides that are no multiple of the element
   size are left out); None: not part of any array, reading it is undefined *)
Definition memory := Z -> option N.
(* a 1-d ndarray: the address of element 0, the distance between elements, the length *)
Record view := { base : Z; stride : Z; vlen : nat }.
Fixpoint all_some {A} (l : list (option A)) : option (list A) :=
  match l with
  | [] => Some []
  | Some a :: l => match all_some l with Some l => Some (a :: l) | None => None end
  | None :: _ => None
  end.
(* arr[i] for every i, as Python and NumPy read it *)
Definition elements (m : memory) (v : view) : option (list N) := all_some (map (fun i => m (base v + stride v * Z.of_nat i)) (seq 0 (vlen v))).
(* ((uint64_t * )PyArray_DATA(arr))[i] for every i *)
Definition data (m : memory) (v : view) : option (list N) := all_some (map (fun i => m (base v + Z.of_nat i)) (seq 0 (vlen v))).
(* PyArray_IS_C_CONTIGUOUS in one dimension *)
Definition contiguous (v : view) : Prop := stride v = 1 \/ (vlen v <= 1)%nat.

(* a state dictionary with arrays as views *)
Inductive lpy := LV (v : pyval) | LView (bits : N) (w : view) | LDict (l : list (string * lpy)).
(* the dictionary that a setter sees which reads arrays with rd *)
Fixpoint seen (rd : view -> option (list N)) (d : lpy) : option pyval :=
  match d with
  | LV v => Some v
  | LView bits w => option_map (PArr bits) (rd w)
  | LDict l => option_map PDict ((fix go (l : list (string * lpy)) : option (list (string * pyval)) :=
                 match l with
                 | [] => Some []
                 | (k, d) :: l => match seen rd d, go l with Some v, Some l => Some ((k, v) :: l) | _, _ => None end
                 end) l)
  end.
Fixpoint all_contiguous (d : lpy) : Prop :=
  match d with
  | LV _ => True
  | LView _ w => contiguous w
  | LDict l => (fix go (l : list (string * lpy)) : Prop := match l with [] => True | (_, d) :: l => all_contiguous d /\ go l end) l
  end.
(* state = d for the classes that read the data pointer: speck128.pyx:302-338, hc128.pyx:203-230,
   efiix64.pyx:185-219; None: undefined behaviour *)
Definition assign {S} (set : pyval -> M S unit) (m : memory) (d : lpy) (t : S) : option (S * outcome unit) := option_map (fun v => set v t) (seen (data m) d).
(* and for those that read elements: all others *)
Definition assign_elements {S} (set : pyval -> M S unit) (m : memory) (d : lpy) (t : S) : option (S * outcome unit) := option_map (fun v => set v t) (seen (elements m) d).

Lemma contiguous_data m v : contiguous v -> data m v = elements m v.
Proof.
  intros C. unfold data, elements. f_equal. apply map_ext_in. intros i I. apply in_seq in I. f_equal. destruct C as [->|C]; [lia|]. replace i with 0%nat by lia. lia.
Qed.
Fixpoint seen_contiguous m (d : lpy) {struct d} : all_contiguous d -> seen (data m) d = seen (elements m) d.
Proof.
  destruct d as [v|b w|l]; intros C; [reflexivity|cbn [seen]; now rewrite contiguous_data|]. cbn [seen]. f_equal. cbn [all_contiguous] in C.
  induction l as [|[k d] l IH]; [reflexivity|]. destruct C as [C1 C2]. rewrite (seen_contiguous m d C1), (IH C2). reflexivity.
Qed.
Lemma all_some_length {A} (l : list (option A)) : forall r, all_some l = Some r -> length r = length l.
Proof. induction l as [|[a|] l IH]; intros r H; cbn in H; [now injection H as <-| |discriminate H]. destruct (all_some l) as [x|]; [|discriminate H]. injection H as <-. cbn. now rewrite (IH x). Qed.

(* memory of hi elements from address 0: l at 0, s, 2 s, ..., fill elsewhere *)
Definition spread (l : list N) (s : Z) (fill : N) (hi : Z) : memory :=
  fun a => if (0 <=? a) && (a <? hi) then if (a mod s =? 0) && (a / s <? Z.of_nat (length l)) then nth_error l (Z.to_nat (a / s)) else Some fill else None.
