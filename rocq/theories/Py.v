(* The part of Python that state getters and setters use: values, exceptions,
   dictionary access and conversion of Python integers to C integers. *)
From Verif Require Import Word.
From Coq Require Import String ZifyBool ZifyNat ZifyN.
Open Scope N_scope.

(* Python values that can sit in a state dictionary. Arrays are 1-d numpy
   unsigned integer arrays (element width, elements). POther is every object
   of another type (it supports none of the operations used below). *)
Inductive pyval :=
| PInt (z : Z)
| PStr (s : string)
| PArr (bits : N) (l : list N)
| PDict (l : list (string * pyval))
| PNone
| PFun (id : N)      (* a ctypes function object, identified by a number *)
| POther.

Inductive exn := TypeError | ValueError | KeyError | IndexError | OverflowError | NotImplementedErr | ZeroDivision | RuntimeErr.
Inductive outcome (A : Type) := Ok (a : A) | Raise (e : exn).
Arguments Ok {A}. Arguments Raise {A}.

(* Computations on an object of type St which may raise; writes made before an
   exception is raised remain. *)
Definition M (St A : Type) := St -> St * outcome A.
Definition ret {St A} (a : A) : M St A := fun s => (s, Ok a).
Definition raise {St A} (e : exn) : M St A := fun s => (s, Raise e).
Definition bind {St A B} (m : M St A) (f : A -> M St B) : M St B :=
  fun s => match m s with
           | (s1, Ok a) => f a s1
           | (s1, Raise e) => (s1, Raise e)
           end.
Definition modify {St} (f : St -> St) : M St unit := fun s => (f s, Ok tt).
Definition read {St} : M St St := fun s => (s, Ok s).
(* a computation that cannot write *)
Definition lift {St A} (o : outcome A) : M St A := fun s => (s, o).
Definition obind {A B} (o : outcome A) (f : A -> outcome B) : outcome B :=
  match o with Ok a => f a | Raise e => Raise e end.

Declare Scope py_scope.
Delimit Scope py_scope with py.
Notation "x <- m ;; k" := (bind m (fun x => k)) (at level 61, m at next level, right associativity) : py_scope.
Notation "m ;; k" := (bind m (fun _ => k)) (at level 61, right associativity) : py_scope.

Fixpoint assoc (k : string) (l : list (string * pyval)) : option pyval :=
  match l with
  | [] => None
  | (k', v) :: l => if String.eqb k k' then Some v else assoc k l
  end.
(* d[k]: KeyError if absent, TypeError if d cannot be subscripted by a string
   (a numpy array raises IndexError there; the exception type is not tracked
   that finely). *)
Definition getitem (d : pyval) (k : string) : outcome pyval :=
  match d with
  | PDict l => match assoc k l with Some v => Ok v | None => Raise KeyError end
  | _ => Raise TypeError
  end.
Definition get_default (l : list (string * pyval)) (k : string) (dflt : pyval) : pyval :=
  match assoc k l with Some v => v | None => dflt end.

(* Cython's conversion of a Python object to an unsigned w-bit C integer:
   OverflowError outside [0, 2**w), TypeError if not an integer. *)
Definition to_uint (w : N) (v : pyval) : outcome N :=
  match v with
  | PInt z => if ((0 <=? z) && (z <? 2 ^ Z.of_N w))%Z then Ok (Z.to_N z) else Raise OverflowError
  | _ => Raise TypeError
  end.
(* Conversion to C int (32 bit two's complement) *)
Definition to_cint (v : pyval) : outcome Z :=
  match v with
  | PInt z => if ((- 2 ^ 31 <=? z) && (z <? 2 ^ 31))%Z then Ok z else Raise OverflowError
  | _ => Raise TypeError
  end.
(* Truth value of an object, as in the conversion to a Cython bint. Numpy arrays
   with other than one element raise ValueError. *)
Definition to_bint (v : pyval) : outcome bool :=
  match v with
  | PInt z => Ok (negb (z =? 0)%Z)
  | PStr s => Ok (negb (String.eqb s ""))
  | PArr _ [x] => Ok (negb (x =? 0))
  | PArr _ _ => Raise ValueError
  | PDict l => Ok (match l with [] => false | _ => true end)
  | PNone => Ok false
  | PFun _ | POther => Ok true
  end.
(* Python int(v). Strings of digits and objects with __int__ are treated as
   not convertible. *)
Definition to_int (v : pyval) : outcome Z :=
  match v with PInt z => Ok z | _ => Raise TypeError end.
(* Assignment of a Python int to an element of a numpy uint64 array
   (numpy >= 2: OverflowError when out of range) *)
Definition np_uint (w : N) (z : Z) : outcome N :=
  if ((0 <=? z) && (z <? 2 ^ Z.of_N w))%Z then Ok (Z.to_N z) else Raise OverflowError.

Lemma to_uint_ok w n : wf w n -> to_uint w (PInt (Z.of_N n)) = Ok n.
Proof.
  intros H. unfold to_uint. pose proof (Zwf _ _ H).
  destruct ((0 <=? Z.of_N n)%Z && (Z.of_N n <? 2 ^ Z.of_N w)%Z) eqn:E.
  - now rewrite N2Z.id.
  - apply andb_false_iff in E. lia.
Qed.
Lemma to_uint_wf w v n : to_uint w v = Ok n -> wf w n.
Proof.
  unfold to_uint. destruct v; try discriminate.
  destruct ((0 <=? z)%Z && (z <? 2 ^ Z.of_N w)%Z) eqn:E; [|discriminate].
  intros [= <-]. apply andb_true_iff in E. unfold wf.
  pose proof (Zpow2_pos w). assert (2 ^ w = Z.to_N (2 ^ Z.of_N w))%N by (rewrite <- (N2Z.id (2 ^ w)), N2Z.inj_pow; reflexivity).
  lia.
Qed.
Lemma np_uint_ok w n : wf w n -> np_uint w (Z.of_N n) = Ok n.
Proof. exact (to_uint_ok w n). Qed.

(* The setters' preamble, e.g. pcg64.pyx:333-338:
     if not isinstance(value, dict): raise TypeError
     bitgen = value.get("bit_generator", "")
     if bitgen not in (type(self).__name__, fully_qualified_name(self)): raise ValueError *)
Definition preamble (name fqn : string) (v : pyval) : outcome unit :=
  match v with
  | PDict l =>
      match get_default l "bit_generator" (PStr "") with
      | PStr s => if String.eqb s name || String.eqb s fqn then Ok tt else Raise ValueError
      | _ => Raise ValueError
      end
  | _ => Raise TypeError
  end.

(* common.pyx:399-408 check_state_array(arr, required_len, required_bits).
   Lists are converted by np.array(arr, dtype); they are represented by PArr as
   well, and the range check stands for numpy's OverflowError in that
   conversion (elements of a genuine ndarray are in range by construction). *)
Definition check_arr (len bits : N) (v : pyval) : outcome (list N) :=
  match v with
  | PArr b l => if (b =? bits) && (N.of_nat (List.length l) =? len)
                then if forallb (fun x => x <? 2 ^ bits) l then Ok l else Raise OverflowError
                else Raise ValueError
  | _ => Raise ValueError
  end.
Lemma check_arr_ok len bits l :
  N.of_nat (List.length l) = len -> Forall (wf bits) l -> check_arr len bits (PArr bits l) = Ok l.
Proof.
  intros Hl Hf. unfold check_arr. rewrite N.eqb_refl, Hl, N.eqb_refl. cbn [andb].
  replace (forallb _ l) with true; [reflexivity|]. symmetry. apply forallb_forall.
  intros x Hx. rewrite Forall_forall in Hf. apply N.ltb_lt. now apply Hf.
Qed.
Lemma check_arr_inv len bits v l : check_arr len bits v = Ok l ->
  N.of_nat (List.length l) = len /\ Forall (wf bits) l.
Proof.
  unfold check_arr. destruct v; try discriminate.
  destruct ((bits0 =? bits) && _) eqn:E; [|discriminate].
  destruct (forallb _ l0) eqn:F; [|discriminate]. intros [= <-].
  apply andb_true_iff in E as [_ E]. split; [lia|].
  rewrite forallb_forall in F. apply Forall_forall. intros x Hx. apply N.ltb_lt. now apply F.
Qed.

(* has_uint32 is a C int that is only ever 0 or 1 unless a state dictionary
   says otherwise; any non-zero value means a half is buffered *)
Definition bool_int (b : bool) : pyval := PInt (if b then 1 else 0).
Definition nonzero (z : Z) : bool := negb (z =? 0)%Z.
Lemma to_cint_bool (b : bool) : to_cint (bool_int b) = Ok (if b then 1 else 0)%Z.
Proof. destruct b; reflexivity. Qed.
Lemma nonzero_bool (b : bool) : nonzero (if b then 1 else 0)%Z = b.
Proof. destruct b; reflexivity. Qed.

(* A setter is atomic when a raised exception leaves the object as it was *)
Definition atomic {St} (set : pyval -> M St unit) : Prop :=
  forall v s s' e, set v s = (s', Raise e) -> s' = s.
(* A setter restores: assigning what the getter returned for s to any other
   object t of the class makes it equal to s *)
Definition restores {St} (ok : St -> Prop) (get : St -> pyval) (set : pyval -> M St unit) : Prop :=
  forall s t, ok s -> ok t -> set (get s) t = (s, Ok tt).

Lemma bind_lift {St A B} (o : outcome A) (f : A -> M St B) s :
  bind (lift o) f s = match o with Ok a => f a s | Raise e => (s, Raise e) end.
Proof. unfold bind, lift. destruct o; reflexivity. Qed.
Lemma bind_modify {St B} (g : St -> St) (f : unit -> M St B) s : bind (modify g) f s = f tt (g s).
Proof. reflexivity. Qed.

Lemma lift_atomic {St A} (o : outcome A) (k : A -> M St unit) :
  (forall a s s' e, k a s = (s', Raise e) -> s' = s) ->
  forall s s' e, bind (lift o) k s = (s', Raise e) -> s' = s.
Proof.
  intros Hk s s' e. rewrite bind_lift. destruct o; [apply Hk|]. now intros [= <- _].
Qed.
Lemma modify_atomic {St} (g : St -> St) s s' e : modify g s = (s', Raise e) -> s' = s.
Proof. discriminate. Qed.

Lemma bind_ret {St A B} (a : A) (f : A -> M St B) s : bind (ret a) f s = f a s.
Proof. reflexivity. Qed.
Lemma ret_atomic {St} s s' e : @ret St unit tt s = (s', Raise e) -> s' = s.
Proof. discriminate. Qed.
Ltac atomic_tac :=
  repeat (apply lift_atomic; intros ?); intros; (eapply modify_atomic || eapply ret_atomic); eassumption.

Lemma to_bint_bool b : to_bint (bool_int b) = Ok b.
Proof. destruct b; reflexivity. Qed.
Arguments bind : simpl never. Arguments to_bint : simpl never. Arguments lift : simpl never. Arguments modify : simpl never.
Arguments to_uint : simpl never. Arguments to_cint : simpl never. Arguments np_uint : simpl never.
Arguments check_arr : simpl never. Arguments bool_int : simpl never. Arguments nonzero : simpl never.
(* Execute a setter on a known dictionary *)
Ltac pyrun :=
  repeat first [ rewrite bind_lift | rewrite bind_modify | rewrite bind_ret
               | rewrite to_uint_ok by assumption | rewrite np_uint_ok by assumption
               | rewrite check_arr_ok by assumption
               | rewrite to_cint_bool | rewrite to_bint_bool | rewrite nonzero_bool
               | progress cbn ].
