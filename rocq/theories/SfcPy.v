(* SFC64(seed, w, k, numpy_seed, mode), seed() and the state property on the object *)
From Verif Require Import Word Buffer32 Py Sfc PcgInit.
From Coq Require Import String ZifyBool ZifyNat ZifyN.
Open Scope N_scope.
Ltac Zify.zify_post_hook ::= idtac.
Notation length := List.length.

(* The objects passed as w and k: None, integers (booleans and NumPy's too), the finite float n/d,
   other objects that are not arrays *)
Inductive wk_arg := WNone | WInt (z : Z) | WFloat (n : Z) (d : positive) | WOther.
(* the conversion to uint64_t; cyf: whether Cython's conversion takes floats (it did before Cython 3) *)
Definition wk_uint (cyf : bool) (a : wk_arg) : outcome N :=
  match a with
  | WInt z => to_uint 64 (PInt z)
  | WFloat n d => if cyf then to_uint 64 (PInt (Z.quot n (Zpos d))) else Raise TypeError
  | WNone | WOther => Raise TypeError
  end.
Definition wk_is_none (a : wk_arg) : bool := match a with WNone => true | _ => false end.
(* a != 1 in Python *)
Definition wk_not_one (a : wk_arg) : bool :=
  match a with WInt z => negb (z =? 1)%Z | WFloat n d => negb (n =? Zpos d)%Z | WNone | WOther => true end.

Section Objects.
  Context (Sq : Type) (seq_words : Sq -> N -> list N) (cyf : bool).
  (* self._seed_seq, self.mode == "numpy", self.w, self.k and rng_state *)
  Record sfco := SO { so_seq : Sq; so_numpy : bool; so_w : wk_arg; so_k : wk_arg; so_st : sfcpy }.
  (* sfc.pyx:144-156 _seed_from_seq *)
  Definition so_from_seq (o : sfco) : outcome sfcpy :=
    let cnt := 3 + (if wk_is_none (so_k o) then 1 else 0) + (if wk_is_none (so_w o) then 1 else 0) in
    let state := seq_words (so_seq o) cnt in
    obind (if wk_is_none (so_w o) then Ok (nth 3 state 0) else wk_uint cyf (so_w o)) (fun w =>
    let loc := if wk_is_none (so_w o) then 4%nat else 3%nat in
    obind (if wk_is_none (so_k o) then Ok (N.lor (nth loc state 0) 1) else wk_uint cyf (so_k o)) (fun k =>
    Ok (Buf (sfc_seed (nth 0 state 0) (nth 1 state 0) (nth 2 state 0) w k) false 0))).
  (* sfc.pyx:158-161 *)
  Definition so_from_seq_numpy (o : sfco) : outcome sfcpy :=
    if wk_not_one (so_w o) || wk_not_one (so_k o) then Raise ValueError else so_from_seq o.
  (* sfc.pyx:310-331 seed(seed), common.pyx:79-87; q: the SeedSequence made from seed. self._seed_seq
     is assigned before the rest can raise *)
  Definition so_seed (q : Sq) : M sfco unit := (
    modify (fun o => SO q (so_numpy o) (so_w o) (so_k o) (so_st o));;
    o <- read;;
    s <- lift (if so_numpy o then so_from_seq_numpy o else so_from_seq o);;
    modify (fun o => SO (so_seq o) (so_numpy o) (so_w o) (so_k o) s))%py.
  (* sfc.pyx:124-128 __init__; any state will do before seeding *)
  Definition so_new (numpy_seed : bool) (mode : mode_arg) (q : Sq) (w k : wk_arg) : outcome sfco :=
    obind (init_mode modes_two numpy_seed mode) (fun numpy =>
    match so_seed q (SO q numpy w k (Buf (Sfc 0 0 0 0 0) false 0)) with
    | (o, Ok _) => Ok o
    | (_, Raise e) => Raise e
    end).
  (* sfc.pyx:354-368 state setter, on the object *)
  Definition so_set (v : pyval) (o : sfco) : sfco * outcome unit :=
    let '(s, r) := sfc_set v (so_st o) in (SO (so_seq o) (so_numpy o) (so_w o) (so_k o) s, r).
End Objects.
Arguments so_seq {Sq}. Arguments so_numpy {Sq}. Arguments so_w {Sq}. Arguments so_k {Sq}. Arguments so_st {Sq}. Arguments SO {Sq}.
